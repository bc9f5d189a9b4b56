(** * VerboseFacts: what is written does not depend on what is shown *)

From Verif Require Import Py PyFacts Resource Container Xml Sitemap Opener ListIndex Hashes Disk Builder Dump Client ClientUtils Build BuildFacts VerboseSpec.

(** What the first action does to files and returns, the second does and returns. *)
Definition follows {A} (m m' : wact A) : Prop := forall w1 w2 w1' a, same_files w1 w2 -> m w1 = (w1', Ok a) ->
  exists w2', m' w2 = (w2', Ok a) /\ same_files w1' w2'.

Lemma follows_ret {A} (a : A) : follows (wret a) (wret a).
Proof. intros w1 w2 w1' x S [= <- <-]. exists w2. split; [reflexivity|exact S]. Qed.
Lemma follows_lift {A} (r : res A) : follows (wlift r) (wlift r).
Proof. intros w1 w2 w1' x S [= <- E]. exists w2. unfold wlift. rewrite E. split; [reflexivity|exact S]. Qed.
Lemma follows_print l : follows (print l) (print l).
Proof. intros w1 w2 w1' x S [= <- <-]. exists (printed l w2). split; [reflexivity|exact S]. Qed.
Lemma follows_bind {A B} (m m' : wact A) (f f' : A -> wact B) : follows m m' -> (forall a, follows (f a) (f' a)) ->
  follows (wbind m f) (wbind m' f').
Proof.
  intros M F w1 w2 w1' x S H. unfold wbind in *. destruct (m w1) as [v1 [a|y]] eqn:E; [|discriminate].
  destruct (M w1 w2 v1 a S E) as (v2 & -> & S'). apply (F a v1 v2 w1' x S' H).
Qed.
Lemma follows_print_res r : follows (print_res r) (print_res r).
Proof. apply follows_bind; [apply follows_lift|intro; apply follows_print]. Qed.

Definition quiet_client (c : bclient) : bclient :=
  MkBClient (bc_mapper c) (bc_hashes c) (bc_exclude c) (bc_multifile c) (bc_max c) (bc_pretty c) (bc_format c) false.

Lemma follows_show c prefix rs : follows (show_verbose c prefix rs) (show_verbose (quiet_client c) prefix rs).
Proof.
  intros w1 w2 w1' [] S H. exists w2. split; [reflexivity|].
  pose proof (prints_verbose c prefix rs) as P. destruct (P w1 w1' (Ok tt) H) as [P1 P2].
  destruct S as [S1 S2]. split; congruence.
Qed.
Lemma follows_reference e c uri : follows (read_reference e c uri) (read_reference e (quiet_client c) uri).
Proof.
  intros w1 w2 w1' x S H. unfold read_reference in *. destruct S as [S1 S2]. rewrite S1 in H.
  eapply (follows_bind (wlift _) (wlift _) _ _ (follows_lift _)); [|split; eassumption|exact H].
  intro l. apply follows_bind; [apply follows_show|intro; apply follows_ret].
Qed.
Lemma follows_put_list {C} (k : kind C) e l outfile : follows (put_list k e l outfile) (put_list k e l outfile).
Proof.
  unfold put_list. destruct outfile as [f|]; [|apply follows_print_res].
  intros w1 w2 w1' x [S1 S2] H. rewrite <- S1. destruct (list_write _ _ _ _ _ _) as [fs r].
  injection H as <- E. exists (with_fs fs w2). rewrite E. split; [reflexivity|]. split; [reflexivity|exact S2].
Qed.
Lemma follows_put_dump e c rs f : follows (put_dump e c rs f) (put_dump e (quiet_client c) rs f).
Proof.
  intros w1 w2 w1' x [S1 S2] H. unfold put_dump in *. cbn [bc_format quiet_client]. rewrite <- S1.
  destruct (dump_write _ _ _ _ _ _ _ _ _ _) as [s r]. injection H as <- E. eexists. rewrite E. split; [reflexivity|].
  split; cbn; congruence.
Qed.
Lemma follows_resource_list e c paths outfile links dump :
  follows (write_resource_list e c paths outfile links dump) (write_resource_list e (quiet_client c) paths outfile links dump).
Proof.
  unfold write_resource_list. apply follows_bind; [apply follows_lift|]. intro l.
  destruct dump; [apply follows_put_dump|]. destruct outfile; [apply follows_put_list|apply follows_print_res].
Qed.
Lemma follows_changes e c paths ref newref dump :
  follows (compute_changes e c paths ref newref dump) (compute_changes e (quiet_client c) paths ref newref dump).
Proof.
  unfold compute_changes. apply follows_bind; [apply follows_reference|]. intro o.
  apply follows_bind; [destruct newref; [apply follows_reference|apply follows_lift]|]. intro n. apply follows_lift.
Qed.
Lemma follows_change_list e c paths outfile ref newref empty links dump :
  follows (write_change_list e c paths outfile ref newref empty links dump) (write_change_list e (quiet_client c) paths outfile ref newref empty links dump).
Proof.
  unfold write_change_list. apply follows_bind.
  - destruct empty; [apply follows_ret|]. destruct ref; [apply follows_changes|apply follows_lift].
  - intro l. apply follows_bind; [apply follows_put_list|]. intros _. unfold write_dump_if_requested.
    destruct dump; [apply follows_print|apply follows_ret].
Qed.
Lemma follows_capability_list e c caps outfile links :
  follows (write_capability_list e c caps outfile links) (write_capability_list e (quiet_client c) caps outfile links).
Proof.
  unfold write_capability_list. apply follows_bind; [apply follows_lift|]. intro d. destruct outfile as [f|]; [|apply follows_print_res].
  intros w1 w2 w1' x [S1 S2] H. rewrite <- S1. change (doc_settings (quiet_client c)) with (doc_settings c).
  destruct (write_doc _ _ _ _ _ _) as [fs r]. injection H as <- E. exists (with_fs fs w2). rewrite E. split; [reflexivity|].
  split; [reflexivity|exact S2].
Qed.
Lemma follows_description e c l outfile links :
  follows (write_source_description e c l outfile links) (write_source_description e (quiet_client c) l outfile links).
Proof. unfold write_source_description. apply follows_bind; [apply follows_lift|]. intro d. apply follows_put_list. Qed.

Lemma follows_body e a hash : follows (build_body e a hash) (build_body e (without_verbose a) hash).
Proof.
  unfold build_body. apply follows_bind; [apply follows_lift|]. intro ms.
  change (build_client (without_verbose a) hash ms) with (quiet_client (build_client a hash ms)).
  change (build_links (without_verbose a)) with (build_links a).
  apply follows_bind; [apply follows_lift|]. intro links.
  assert (forall b, follows (build_changes e (build_client a hash ms) a links b)
    (build_changes e (quiet_client (build_client a hash ms)) (without_verbose a) links b)) as K.
  { intro b. unfold build_changes. cbn [without_verbose a_reference a_empty a_paths a_outfile a_newreference].
    destruct (given (a_reference a)), (a_empty a); try apply follows_ret;
      (apply follows_bind; [apply follows_change_list|intro; apply follows_ret]). }
  cbn [without_verbose a_mode a_paths a_outfile].
  destruct (a_mode a) as [| |[|x s]|[|x s]| |]; try apply follows_ret; try apply K;
    try (apply follows_bind; [apply follows_resource_list|intro; apply follows_ret]).
  - apply follows_bind; [apply follows_lift|]. intro caps. apply follows_bind; [apply follows_capability_list|intro; apply follows_ret].
  - apply follows_bind; [apply follows_description|intro; apply follows_ret].
Qed.

Lemma same_without e a w w' : resync_build e a w = (w', Done) ->
  exists w'', resync_build e (without_verbose a) w = (w'', Done) /\ same_files w' w''.
Proof.
  unfold resync_build. cbn [without_verbose a_hash a_checksum].
  destruct (snd (process_options _ _ _)) as [hash|]; [|discriminate].
  destruct (build_body e a hash w) as [v [[u|]|x]] eqn:B; [| |destruct x; discriminate]; [|discriminate].
  intros [= <-]. destruct (follows_body e a hash w w v (Some u)) as (v' & -> & S); [split; reflexivity|exact B|].
  exists v'. split; [reflexivity|exact S].
Qed.
