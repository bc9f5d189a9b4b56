(** * Specification for the text of a resource in messages *)

From Verif Require Import Py Resource.

Definition no_space (s : str) : Prop := ~ In " "%char s.
(** URIs and digests have no spaces, and a digest is not the word None. *)
Definition spaceless (r : resource) : Prop :=
  no_space (r_uri r) /\ forall d, In (Some d) [r_md5 r; r_sha1 r; r_sha256 r] -> no_space d /\ d <> $"None".
(** One digest is shown: MD5 if there is one, otherwise SHA-1 if there is one, otherwise SHA-256. *)
Definition digest_shown (r : resource) : option str :=
  match r_md5 r, r_sha1 r with
  | Some (c :: s), _ => Some (c :: s)
  | _, Some (c :: s) => Some (c :: s)
  | _, _ => r_sha256 r
  end.
