(** * UrlSpec: hierarchical URLs, written out of their parts *)

From Verif Require Import Py.

Record url : Type := MkUrl { q_scheme : str; q_host : str; q_path : str; q_tail : str }.

(** scheme://host/path?query#fragment *)
Definition url_text (u : url) : str :=
  q_scheme u ++ $"://" ++ q_host u ++ q_path u ++ q_tail u.

Definition avoids (bad : str) (s : str) : Prop := forall c, In c s -> ~ In c bad.
Definition no_breaks (s : str) : Prop := avoids [tab; cr; nl] s.

Definition wf_url (u : url) : Prop :=
  (exists c s, q_scheme u = c :: s /\ is_alpha_az c = true) /\
  (forall c, In c (q_scheme u) -> is_alpha_az c = true \/ is_digit c = true \/ In c $"+-.") /\
  avoids $"/?#[]" (q_host u) /\ no_breaks (q_host u) /\
  (q_path u = [] \/ exists p, q_path u = "/"%char :: p) /\
  avoids $"?#" (q_path u) /\ no_breaks (q_path u) /\
  (q_tail u = [] \/ exists t, q_tail u = "?"%char :: t \/ q_tail u = "#"%char :: t) /\
  no_breaks (q_tail u).

(** Scheme names are compared without regard to case. *)
Definition same_scheme (a b : url) : Prop := lower (q_scheme a) = lower (q_scheme b).
(** [u]'s host is [m]'s, or a name within [m]'s. *)
Definition host_within (m u : url) : Prop :=
  q_host u = q_host m \/ exists sub, q_host u = sub ++ $"." ++ q_host m.

(** [dir] is the directory part of the path of [m], without the final slash. *)
Definition in_directory (dir : str) (m : url) : Prop :=
  exists name, q_path m = dir ++ $"/" ++ name /\ ~ In "/"%char name.
(** The path of [u] is in or below the directory [dir]. *)
Definition below_directory (dir : str) (u : url) : Prop :=
  exists rest, q_path u = dir ++ $"/" ++ rest.
