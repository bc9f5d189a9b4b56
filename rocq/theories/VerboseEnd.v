(** * VerboseEnd: how runs with and without --verbose end *)

From Verif Require Import Py PyFacts Float64 W3C Mapper Resource Container Xml Sitemap Opener ListIndex Hashes Disk Builder Dump Client ClientUtils Build BuildFacts
  VerboseSpec VerboseFacts.

(** Both end alike, with the same files. *)
Definition alike {A} (m m' : wact A) : Prop := forall w1 w2, same_files w1 w2 ->
  same_files (fst (m w1)) (fst (m' w2)) /\ snd (m w1) = snd (m' w2).
(** Or the first stops while showing something, with nothing written. *)
Definition nearly {A} (m m' : wact A) : Prop := forall w1 w2, same_files w1 w2 ->
  (same_files (fst (m w1)) (fst (m' w2)) /\ snd (m w1) = snd (m' w2))
  \/ (snd (m w1) = Err ValueError /\ same_files (fst (m w1)) w1).

Lemma alike_nearly {A} (m m' : wact A) : alike m m' -> nearly m m'.
Proof. intros H w1 w2 S. left. exact (H w1 w2 S). Qed.
Lemma alike_ret {A} (a : A) : alike (wret a) (wret a).
Proof. intros w1 w2 S. split; [exact S|reflexivity]. Qed.
Lemma alike_lift {A} (r : res A) : alike (wlift r) (wlift r).
Proof. intros w1 w2 S. split; [exact S|reflexivity]. Qed.
Lemma alike_print l : alike (print l) (print l).
Proof. intros w1 w2 S. split; [exact S|reflexivity]. Qed.
Lemma alike_bind {A B} (m m' : wact A) (f f' : A -> wact B) : alike m m' -> (forall a, alike (f a) (f' a)) ->
  alike (wbind m f) (wbind m' f').
Proof.
  intros M F w1 w2 S. specialize (M w1 w2 S). unfold wbind.
  destruct (m w1) as [v1 r1], (m' w2) as [v2 r2]. cbn [fst snd] in M. destruct M as [M <-].
  destruct r1 as [a|x]; [exact (F a v1 v2 M)|]. split; [exact M|reflexivity].
Qed.
Lemma nearly_bind {A B} (m m' : wact A) (f f' : A -> wact B) : only_prints m -> nearly m m' -> (forall a, nearly (f a) (f' a)) ->
  nearly (wbind m f) (wbind m' f').
Proof.
  intros P M F w1 w2 S. specialize (M w1 w2 S). unfold wbind. destruct (m w1) as [v1 r1] eqn:E.
  destruct (P w1 v1 r1 E) as [P1 P2]. destruct (m' w2) as [v2 r2]. cbn [fst snd] in M. destruct M as [[M <-]|[-> M]].
  - destruct r1 as [a|x]; [|left; split; [exact M|reflexivity]].
    destruct (F a v1 v2 M) as [L|[X [Y Z]]]; [left; exact L|]. right. split; [exact X|]. split; congruence.
  - right. split; [reflexivity|exact M].
Qed.
Lemma alike_print_res r : alike (print_res r) (print_res r).
Proof. apply alike_bind; [apply alike_lift|intro; apply alike_print]. Qed.

(** Showing fails only of a time that cannot be written. *)
Lemma date_error t x : datetime_to_str false t = Err x -> x = ValueError.
Proof.
  unfold datetime_to_str. destruct (split_timestamp _) as [secs us]. destruct (isoformat secs us) as [s|].
  - intros H. inversion H.
  - intros H. now inversion H.
Qed.
Lemma time_error t x : get_dt t = Err x -> x = ValueError.
Proof.
  destruct t as [t|]; unfold get_dt; [|intros H; inversion H].
  pose proof (date_error t) as D. destruct (datetime_to_str false t) as [s|y]; intros H; inversion H; subst. apply D. reflexivity.
Qed.
Lemma text_error r x : resource_str r = Err x -> x = ValueError.
Proof.
  unfold resource_str. pose proof (time_error (r_timestamp r)) as D. destruct (get_dt (r_timestamp r)) as [lm|y];
    [|intros H; inversion H; subst; apply D; reflexivity]. clear D. cbn [bind].
  destruct (r_change r) as [ch|].
  - pose proof (time_error (r_ts_datetime r)) as D. destruct (get_dt (r_ts_datetime r)) as [dt|y]; cbn [bind]; intros H; inversion H.
    subst. apply D. reflexivity.
  - intros H. inversion H.
Qed.
Definition fails_so {A} (m : wact A) : Prop := forall w x, snd (m w) = Err x -> x = ValueError.
Lemma fails_entries prefix to_show : forall rs n, fails_so (show_entries prefix to_show n rs).
Proof.
  induction rs as [|r rs IH]; intros n w x; [intros H; inversion H|]. cbn [show_entries]. unfold wbind, wlift.
  pose proof (text_error r) as T. destruct (resource_str r) as [s|y]; [|intros H; inversion H; subst; apply T; reflexivity].
  unfold print. destruct (to_show <=? n + 1); [intros H; inversion H|apply IH].
Qed.
Lemma fails_show c prefix rs : fails_so (show_verbose c prefix rs).
Proof.
  unfold show_verbose. destruct (bc_verbose c); [|intros w x H; inversion H].
  destruct (match bc_max c with Some _ => _ | None => _ end) as [to_show override]. intros w x. unfold wbind.
  destruct (to_show <? zlen rs); [unfold print|unfold wret]; apply fails_entries.
Qed.

Lemma nearly_show c prefix rs : nearly (show_verbose c prefix rs) (show_verbose (quiet_client c) prefix rs).
Proof.
  intros w1 w2 S. pose proof (prints_verbose c prefix rs w1) as P. pose proof (fails_show c prefix rs w1) as F.
  destruct (show_verbose c prefix rs w1) as [v r]. destruct (P v r eq_refl) as [P1 P2]. cbn [fst snd] in *.
  change (show_verbose (quiet_client c) prefix rs w2) with (w2, Ok tt). cbn [fst snd]. destruct S as [S1 S2].
  destruct r as [[]|x].
  - left. split; [split; congruence|reflexivity].
  - right. rewrite (F x eq_refl). split; [reflexivity|split; assumption].
Qed.
Lemma nearly_reference e c uri : nearly (read_reference e c uri) (read_reference e (quiet_client c) uri).
Proof.
  intros w1 w2 S. unfold read_reference. destruct S as [S1 S2]. rewrite S1.
  apply (nearly_bind (wlift _) (wlift _)); [apply prints_lift|apply alike_nearly, alike_lift| |split; assumption].
  intro l. apply nearly_bind; [apply prints_verbose|apply nearly_show|intro; apply alike_nearly, alike_ret].
Qed.
Lemma alike_put_list {C} (k : kind C) e l outfile : alike (put_list k e l outfile) (put_list k e l outfile).
Proof.
  unfold put_list. destruct outfile as [f|]; [|apply alike_print_res].
  intros w1 w2 [S1 S2]. rewrite <- S1. destruct (list_write _ _ _ _ _ _) as [fs r]. split; [|reflexivity]. split; [reflexivity|exact S2].
Qed.
Lemma alike_put_dump e c rs f : alike (put_dump e c rs f) (put_dump e (quiet_client c) rs f).
Proof.
  intros w1 w2 [S1 S2]. unfold put_dump. cbn [bc_format quiet_client]. rewrite <- S1.
  destruct (dump_write _ _ _ _ _ _ _ _ _ _) as [s r]. split; [|reflexivity]. split; cbn; congruence.
Qed.
Lemma alike_resource_list e c paths outfile links dump :
  alike (write_resource_list e c paths outfile links dump) (write_resource_list e (quiet_client c) paths outfile links dump).
Proof.
  unfold write_resource_list. apply alike_bind; [apply alike_lift|]. intro l.
  destruct dump; [apply alike_put_dump|]. destruct outfile; [apply alike_put_list|apply alike_print_res].
Qed.
Lemma nearly_changes e c paths ref newref dump :
  nearly (compute_changes e c paths ref newref dump) (compute_changes e (quiet_client c) paths ref newref dump).
Proof.
  unfold compute_changes. apply nearly_bind; [apply prints_reference|apply nearly_reference|]. intro o.
  apply nearly_bind; [destruct newref; [apply prints_reference|apply prints_lift]
    |destruct newref; [apply nearly_reference|apply alike_nearly, alike_lift]|]. intro n. apply alike_nearly, alike_lift.
Qed.
Lemma nearly_change_list e c paths outfile ref newref empty links dump :
  nearly (write_change_list e c paths outfile ref newref empty links dump) (write_change_list e (quiet_client c) paths outfile ref newref empty links dump).
Proof.
  unfold write_change_list. apply nearly_bind.
  - destruct empty; [apply prints_ret|]. destruct ref; [apply prints_changes|apply prints_lift].
  - destruct empty; [apply alike_nearly, alike_ret|]. destruct ref; [apply nearly_changes|apply alike_nearly, alike_lift].
  - intro l. apply alike_nearly, alike_bind; [apply alike_put_list|]. intros _. unfold write_dump_if_requested.
    destruct dump; [apply alike_print|apply alike_ret].
Qed.
Lemma alike_capability_list e c caps outfile links :
  alike (write_capability_list e c caps outfile links) (write_capability_list e (quiet_client c) caps outfile links).
Proof.
  unfold write_capability_list. apply alike_bind; [apply alike_lift|]. intro d. destruct outfile as [f|]; [|apply alike_print_res].
  intros w1 w2 [S1 S2]. rewrite <- S1. change (doc_settings (quiet_client c)) with (doc_settings c).
  destruct (write_doc _ _ _ _ _ _) as [fs r]. split; [|reflexivity]. split; [reflexivity|exact S2].
Qed.
Lemma alike_description e c l outfile links :
  alike (write_source_description e c l outfile links) (write_source_description e (quiet_client c) l outfile links).
Proof. unfold write_source_description. apply alike_bind; [apply alike_lift|]. intro d. apply alike_put_list. Qed.

(** Going on with a value. *)
Lemma nearly_then {A B} (m m' : wact A) (b : B) : nearly m m' -> nearly (wbind m (fun _ => wret b)) (wbind m' (fun _ => wret b)).
Proof.
  intros M w1 w2 S. specialize (M w1 w2 S). unfold wbind, wret. destruct (m w1) as [v1 r1], (m' w2) as [v2 r2].
  cbn [fst snd] in M. destruct M as [[M <-]|[-> M]].
  - left. destruct r1; (split; [exact M|reflexivity]).
  - right. split; [reflexivity|exact M].
Qed.

Lemma nearly_body e a hash : nearly (build_body e a hash) (build_body e (without_verbose a) hash).
Proof.
  unfold build_body. apply nearly_bind; [apply prints_lift|apply alike_nearly, alike_lift|]. intro ms.
  change (build_client (without_verbose a) hash ms) with (quiet_client (build_client a hash ms)).
  change (build_links (without_verbose a)) with (build_links a).
  apply nearly_bind; [apply prints_lift|apply alike_nearly, alike_lift|]. intro links.
  assert (forall b, nearly (build_changes e (build_client a hash ms) a links b)
    (build_changes e (quiet_client (build_client a hash ms)) (without_verbose a) links b)) as K.
  { intro b. unfold build_changes. cbn [without_verbose a_reference a_empty a_paths a_outfile a_newreference].
    destruct (given (a_reference a)), (a_empty a); try (apply nearly_then, nearly_change_list).
    apply alike_nearly, alike_ret. }
  cbn [without_verbose a_mode a_paths a_outfile].
  destruct (a_mode a) as [| |[|x s]|[|x s]| |]; try apply K; apply alike_nearly; try apply alike_ret;
    try (apply alike_bind; [apply alike_resource_list|intro; apply alike_ret]).
  - apply alike_bind; [apply alike_lift|]. intro caps. apply alike_bind; [apply alike_capability_list|intro; apply alike_ret].
  - apply alike_bind; [apply alike_description|intro; apply alike_ret].
Qed.

Lemma same_or_died e a w w1 r1 w2 r2 : resync_build e a w = (w1, r1) -> resync_build e (without_verbose a) w = (w2, r2) ->
  (r1 = r2 /\ same_files w1 w2) \/ (r1 = Died ValueError /\ same_files w1 w).
Proof.
  unfold resync_build. cbn [without_verbose a_hash a_checksum].
  destruct (snd (process_options _ _ _)) as [hash|x].
  - pose proof (nearly_body e a hash w w (conj eq_refl eq_refl)) as N.
    destruct (build_body e a hash w) as [v1 q1], (build_body e (without_verbose a) hash w) as [v2 q2]. cbn [fst snd] in N.
    destruct N as [[N <-]|[-> N]].
    + intros H1 H2. left. destruct q1 as [[u|]|y]; [| |destruct y]; injection H1 as <- <-; injection H2 as <- <-; (split; [reflexivity|exact N]).
    + intros [= <- <-] _. right. split; [reflexivity|exact N].
  - intros [= <- <-] [= <- <-]. left. split; [reflexivity|split; reflexivity].
Qed.
