(** * CutSpec: documents that arrive incomplete *)

From Verif Require Import Py Xml Client.

(** The text s is a beginning of the text t that lacks something. *)
Definition cut_off (t s : str) : Prop := exists r, r <> [] /\ t = s ++ r.

(** The text ends with the end of an element: its last character is a greater than
    sign that does not end a comment or a processing instruction. *)
Definition ends_in_tag (t : str) : Prop := exists y c, t = y ++ [c; ">"%char] /\ c <> "-"%char /\ c <> "?"%char.

(** The same documents, except that any of them may have been cut off, anywhere. *)
Definition cut_documents (fetch fetch' : str -> res str) : Prop :=
  forall u, fetch' u = fetch u \/ exists t s, fetch u = Ok t /\ fetch' u = Ok s /\ cut_off t s.

(** The same, except for documents: everything else on the net, on disk and the clock. *)
Definition with_fetch (fetch : str -> res str) (E : env) : env :=
  MkEnv (e_cwd E) fetch (e_get E) (e_now E) (e_digests E) (e_floats E).
