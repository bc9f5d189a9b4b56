(** * ChangeAdd: adding resources to a change list with a type of change *)

From Verif Require Import Py Float64 W3C Resource ResourceSpec ResourceFacts Container ContainerSpec ContainerFacts.

Lemma wrong_change c : ~ valid_change (Some c) -> in_strs c CHANGE_TYPES = false.
Proof.
  intros N. destruct (in_strs c CHANGE_TYPES) eqn:I; [|reflexivity]. elim N. apply in_change_types, I.
Qed.
Lemma cl_add_changed_spec rs l :
  (forall c, valid_change (Some c) -> cl_add_changed rs (Some c) l = (l ++ map (store_change (Some c)) rs, None))
  /\ (forall c, ~ valid_change (Some c) -> rs <> [] -> cl_add_changed rs (Some c) l = (l, Some ChangeTypeError))
  /\ cl_add_changed rs None l = cl_add_all rs l.
Proof.
  split; [intros c V; apply cl_add_changed_ok, V|]. split.
  - intros c N NE. destruct rs as [|r rs]; [congruence|]. cbn [cl_add_changed]. unfold make_resource, change_args.
    cbn [a_uri a_timestamp a_length a_md5 a_sha1 a_sha256 a_mime_type a_change override override_res].
    unfold set_change. rewrite (wrong_change c N). reflexivity.
  - revert l. induction rs as [|r rs IH]; intros l; [reflexivity|]. cbn [cl_add_changed cl_add_all].
    change (make_resource (Some r) (change_args None)) with (@Ok resource r). cbn [bind].
    destruct (cl_add r l) as [l'|e]; [apply IH|reflexivity].
Qed.
