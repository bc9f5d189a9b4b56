(** * C132: the text of a resource in messages *)

From Verif Require Import Py Float64 W3C Resource Build TextSpec TextFacts.

(** Resources with the same text have the same URI, last modification time, length and digest. *)
Theorem C132_same_version : forall r r' s, spaceless r -> spaceless r' -> resource_str r = Ok s -> resource_str r' = Ok s ->
  r_uri r = r_uri r' /\ get_dt (r_timestamp r) = get_dt (r_timestamp r') /\ r_length r = r_length r' /\ digest_shown r = digest_shown r'.
Proof. exact same_version. Qed.
Print Assumptions C132_same_version.
(** Without paths, also the same change and the same time of it. *)
Theorem C132_same_change : forall r r' s, spaceless r -> spaceless r' -> resource_str r = Ok s -> resource_str r' = Ok s ->
  r_path r = None -> r_path r' = None ->
  (forall ch, r_change r = Some ch -> no_space ch) -> (forall ch, r_change r' = Some ch -> no_space ch) ->
  r_change r = r_change r' /\ (r_change r <> None -> get_dt (r_ts_datetime r) = get_dt (r_ts_datetime r')).
Proof. exact same_change. Qed.
Print Assumptions C132_same_change.

(** Two resources that differ only in what is not shown. *)
Definition shown_one : resource :=
  MkR $"http://h/a|b" (Some (1000000000 * SEC)) (Some 25) (Some $"text/plain") (Some $"d1") (Some $"d2") None (Some $"updated")
    (Some (1000000001 * SEC)) None None None None None None None.
Definition shown_two : resource := set_mime_type None (set_sha1 None (set_sha256 (Some $"d3") shown_one)).
Example C132_case : spaceless shown_one /\ spaceless shown_two /\ shown_one <> shown_two
  /\ resource_str shown_one = Ok $"[ http://h/a|b | 2001-09-09T01:46:40Z | 25 | d1 | updated @ 2001-09-09T01:46:41Z ]"
  /\ resource_str shown_two = Ok $"[ http://h/a|b | 2001-09-09T01:46:40Z | 25 | d1 | updated @ 2001-09-09T01:46:41Z ]"
  /\ r_path shown_one = None /\ r_path shown_two = None /\ no_space $"updated".
Proof.
  split; [|split; [|split; [intro E; apply (f_equal r_mime_type) in E; discriminate E|split; [vm_compute; reflexivity|split; [vm_compute; reflexivity|]]]]].
  - split; [vm_compute; intuition discriminate|]. intros d [[= <-]|[[= <-]|[[=]|[]]]]; (split; [vm_compute; intuition discriminate|discriminate]).
  - split; [vm_compute; intuition discriminate|]. intros d [[= <-]|[[=]|[[= <-]|[]]]]; (split; [vm_compute; intuition discriminate|discriminate]).
  - repeat split. vm_compute. intuition discriminate.
Qed.
