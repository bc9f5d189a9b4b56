(** * KillBase: what baseline runs leave when they fail or are killed *)

From Verif Require Import Py PyFacts Float64 Float64Facts W3C PathSpec OsPath OsPathFacts Regex RegexFacts Mapper MapperSpec MapperFacts MapperFacts2
  Resource ResourceSpec Container ContainerSpec ContainerFacts Capability Xml Sitemap Hashes ListIndex Disk DiskSpec DiskFacts DiskChange
  Builder BuilderSpec BuilderFacts ClientState ClientStateSpec ClientStateFacts
  Client ClientSpec ClientLists ClientFacts ClientRuns ClientInc ClientCompare ClientPlaces ClientProps
  ClientDownload ClientChanges ClientThms ClientSync ClientReport ClientStatus ClientDirs ConvergeSpec ClientConverge FollowSpec Follow Kill KillSpec KillFacts.

(** ** Runs that end are among the moments *)

Lemma apply_one E c allow r p w w1 n : src_to_dst (c_mapper c) (r_uri r) = Ok p ->
  (if is_update r then update_resource E c r p w = (w1, Ok n) else is_delete r = true /\ delete_resource E c allow r p w = (w1, Ok n)) ->
  exists m, apply_changes E c allow [r] w = (w1, Ok m).
Proof.
  intros S O. cbn [apply_changes]. unfold andthen at 1, lift. rewrite S. unfold is_delete, is_update in O.
  destruct (change_is $"updated" r); cbn [orb] in O; [|destruct (change_is $"created" r)].
  - unfold andthen. rewrite O. eexists. reflexivity.
  - unfold andthen. rewrite O. eexists. reflexivity.
  - destruct O as [D O]. cbn [orb negb andb] in D. rewrite D. unfold andthen. rewrite O. eexists. reflexivity.
Qed.
Lemma applying_end E c allow rs : forall w w' x, tree_ok (w_root w) -> Forall file_name (e_cwd E) ->
  apply_changes E c allow rs w = (w', x) -> while_applying E c allow rs w w'.
Proof.
  induction rs as [|r rs IH]; intros w w' x T F H.
  - injection H as <- _. apply ap_start.
  - apply apply_changes_cons in H. destruct H as [(e & _ & -> & _)|(p & S & [(_ & _ & -> & _)|(w1 & y & O & H)])]; try apply ap_start.
    assert (tree_ok (w_root w1)) as T1 by (pose proof (one_change _ _ _ _ _ _ _ _ T F O) as (O1 & _); apply (oa_tree _ _ _ _ O1 T F)).
    destruct H as [(e & -> & -> & _)|(n & z & -> & A & _)].
    + destruct (is_update r) eqn:U.
      * apply (ap_update E c allow r rs p); [exact U|exact S|apply (up_end _ _ _ _ _ _ _ O)].
      * destruct O as [_ O]. apply delete_effect in O; [|exact T]. destruct O as (_ & _ & _ & _ & (n & X & _) & _). discriminate X.
    + destruct (apply_one _ _ _ _ _ _ _ _ S O) as (m & AO). apply (ap_next E c allow r rs w w1 m _ AO (IH _ _ _ T1 F A)).
Qed.

Lemma read_list_inv E uri l : read_change_list E uri = Ok l ->
  list_read change_list_kind (e_fetch E) false (new_list change_list_kind $"changelist" true None) uri = Ok l.
Proof. unfold read_change_list, wrapped. destruct (list_read _ _ _ _ _) as [k|[]]; auto; discriminate. Qed.
Lemma incremental_end E c allow clu from_dt w w' x : world_ok E w -> incremental E c allow clu from_dt w = (w', x) ->
  w_root w' = w_root w \/ exists wk, while_incremental E c allow clu from_dt w wk /\ w_root w' = w_root wk.
Proof.
  intros (T & _ & F) H. apply incremental_inv in H.
  destruct H as [(e & _ & (N & _) & _)|(from & uri & l & last & M & U & ST & S & R & HW & L & CC & H)]; [auto|].
  apply apply_change_list_inv in H. destruct H as [(e & _ & ->)|(kept & n & todo & PB & PD & K & H)]; [left; reflexivity|].
  destruct (nothing_to_do todo || only_deletions todo && negb allow); [destruct H as [-> _]; left; reflexivity|].
  destruct H as (w1 & y & A & H). right. exists w1. split.
  - exists from, uri, l, kept, n, (logged (first_status todo) (with_last last w)). split; [exact ST|]. split; [exact S|].
    split; [apply read_list_inv, R|]. split; [exact PB|]. split; [split; reflexivity|]. split; [reflexivity|]. rewrite <- PD.
    apply (applying_end E c allow todo (logged (first_status todo) (with_last last w)) w1 y T F A).
  - destruct H as [(e & _ & -> & _)|(nc & nu & nd & _ & St)]; [reflexivity|]. apply store_if_any_effect in St. apply St.
Qed.

Lemma for_each_one c f r p w w1 n : src_to_dst (c_mapper c) (r_uri r) = Ok p -> f r p w = (w1, Ok n) ->
  for_each c f [r] w = (w1, Ok (n + 0)).
Proof. intros S O. cbn [for_each]. unfold andthen at 1, lift. rewrite S. unfold andthen. rewrite O. reflexivity. Qed.
Lemma transferring_end E c rs : forall w w' x, for_each c (update_resource E c) rs w = (w', x) -> while_transferring E c rs w w'.
Proof.
  induction rs as [|r rs IH]; cbn [for_each]; intros w w' x H; [injection H as <- _; apply tr_start|].
  apply andthen_inv in H. destruct H as [(w1 & p & S & H)|(e & S & ->)]; unfold lift in S; injection S as <- S; [|apply tr_start].
  apply andthen_inv in H. destruct H as [(w2 & n & U & H)|(e & U & ->)].
  - apply (tr_next E c r rs w w2 (n + 0)); [apply (for_each_one _ _ _ _ _ _ _ S U)|].
    apply andthen_inv in H. destruct H as [(w3 & m & L & H)|(e & L & ->)]; [injection H as <- <-|]; apply (IH _ _ _ L).
  - apply (tr_update E c r rs p); [exact S|apply (up_end _ _ _ _ _ _ _ U)].
Qed.
Lemma deleting_end E c allow rs : forall w w' x, tree_ok (w_root w) -> Forall file_name (e_cwd E) ->
  for_each c (delete_resource E c allow) rs w = (w', x) -> while_deleting E c allow rs w w'.
Proof.
  induction rs as [|r rs IH]; cbn [for_each]; intros w w' x T F H; [injection H as <- _; apply de_start|].
  apply andthen_inv in H. destruct H as [(w1 & p & S & H)|(e & S & ->)]; unfold lift in S; injection S as <- S; [|apply de_start].
  apply andthen_inv in H. destruct H as [(w2 & n & U & H)|(e & U & ->)].
  - apply (de_next E c allow r rs w w2 (n + 0)); [apply (for_each_one _ _ _ _ _ _ _ S U)|].
    apply delete_effect in U; [|exact T]. destruct U as (U & _).
    assert (tree_ok (w_root w2)) as T2 by (apply (oa_tree _ _ _ _ U); auto).
    apply andthen_inv in H. destruct H as [(w3 & m & L & H)|(e & L & ->)]; [injection H as <- <-|]; apply (IH _ _ _ T2 F L).
  - apply delete_effect in U; [|exact T]. destruct U as (_ & _ & _ & _ & (n & X & _) & _). discriminate X.
Qed.
Lemma for_each_app c f a : forall b w w' x, for_each c f (a ++ b) w = (w', x) <->
  (exists w1 n y, for_each c f a w = (w1, Ok n) /\ for_each c f b w1 = (w', y) /\ x = match y with Ok m => Ok (n + m) | Err e => Err e end)
  \/ exists e, for_each c f a w = (w', Err e) /\ x = Err e.
Proof.
  induction a as [|r a IH]; intros b w w' x.
  - cbn [app for_each]. split.
    + intros H. left. exists w, 0, x. split; [reflexivity|]. split; [exact H|]. destruct x; reflexivity.
    + intros [(w1 & n & y & [= <- <-] & H & ->)|(e & [=] & _)]. rewrite H. destruct y; reflexivity.
  - cbn [app for_each]. unfold andthen, lift. destruct (src_to_dst (c_mapper c) (r_uri r)) as [p|e].
    2:{ split; [intros [= <- <-]; right; eauto|]. intros [(w1 & n & y & [=] & _)|(e' & [= <- <-] & ->)]. reflexivity. }
    destruct (f r p w) as [w2 [k|e]].
    2:{ split; [intros [= <- <-]; right; eauto|]. intros [(w1 & n & y & [=] & _)|(e' & [= <- <-] & ->)]. reflexivity. }
    destruct (for_each c f (a ++ b) w2) as [w3 z] eqn:Q. apply IH in Q.
    destruct Q as [(w1 & n & y & A & B & ->)|(e & A & ->)]; rewrite A; cbn [ret].
    + split.
      * intros H. left. exists w1, (k + n), y. split; [reflexivity|]. destruct y as [m|e]; cbn in H |- *; injection H as <- <-; (split; [exact B|]); [|reflexivity]. f_equal. ring.
      * intros [(w4 & n' & y' & [= <- <-] & H & ->)|(e & [=] & _)]. rewrite B in H. injection H as <- <-. destruct y as [m|e]; cbn; [|reflexivity]. unfold ret. rewrite Z.add_assoc. reflexivity.
    + split; [intros [= <- <-]; right; eauto|]. intros [(w1 & n & y & [=] & _)|(e' & [= <- <-] & ->)]. reflexivity.
Qed.
Lemma transfers_end E c allow cmp w w' x : tree_ok (w_root w) -> Forall file_name (e_cwd E) -> transfers E c allow cmp w = (w', x) ->
  while_transferring E c (rl_iter (created cmp) ++ rl_iter (updated cmp)) w w'
  \/ exists w1 n, for_each c (update_resource E c) (rl_iter (created cmp) ++ rl_iter (updated cmp)) w = (w1, Ok n)
     /\ while_deleting E c allow (rl_iter (deleted cmp)) w1 w'.
Proof.
  intros T F H. unfold transfers in H.
  apply andthen_inv in H. destruct H as [(w1 & nc & C & H)|(e & C & ->)].
  2:{ left. apply (transferring_end E c _ _ _ (Err e)). apply for_each_app. right. eauto. }
  apply andthen_inv in H. destruct H as [(w2 & nu & U & H)|(e & U & ->)].
  2:{ left. apply (transferring_end E c _ _ _ (Err e)). apply for_each_app. left. exists w1, nc, (Err e). auto. }
  right. exists w2, (nc + nu). split; [apply for_each_app; left; exists w1, nc, (Ok nu); auto|].
  pose proof (for_each_update _ _ _ _ _ _ C) as (O1 & _). pose proof (oa_tree _ _ _ _ O1 T F) as T1.
  pose proof (for_each_update _ _ _ _ _ _ U) as (O2 & _). pose proof (oa_tree _ _ _ _ O2 T1 F) as T2.
  apply andthen_inv in H. destruct H as [(w3 & nd & D & H)|(e & D & ->)]; [injection H as <- _|]; apply (deleting_end _ _ _ _ _ _ _ T2 F D).
Qed.
Lemma discard_none hs : [] = discard_all hs [].
Proof. induction hs; cbn; auto. Qed.
Lemma baseline_end E c allow w w' x : world_ok E w -> baseline_or_audit E c allow false w = (w', x) ->
  w_root w' = w_root w \/ exists wk, while_baseline E c allow w wk /\ w_root w' = w_root wk.
Proof.
  intros (T & _ & F) H. apply baseline_inv in H.
  destruct H as [(e & _ & (N & _) & _)|(src & dst & cmp & _ & _ & FR & _ & S & C & H)]; [auto|].
  pose proof (after_report_same src cmp w) as [(N0 & NS & G0) _].
  destruct (false || (differences cmp =? 0)); [destruct H as [-> _]; left; exact N0|].
  assert (exists w1 y, (w' = after_report src cmp w \/ transfers E c allow cmp (with_last 0 (after_report src cmp w)) = (w1, y) /\ w_root w' = w_root w1))
    as (w1 & y & [->|(Tr & R1)]); [|left; exact N0|].
  { apply synchronize_inv in H. destruct H as [(e & _ & -> & _)|(_ & [(e & Tr & _)|(w1 & nc & nu & nd & Tr & [(e & St & _)|(w2 & St & Lg)])])].
    - exists w, (Err e). auto.
    - exists w', (Err e). auto.
    - apply store_if_any_effect in St. destruct St as (St & _). exists w1, (Ok (nc, nu, nd)). auto.
    - apply store_if_any_effect in St. destruct St as (St & _). rewrite log_status_is in Lg. injection Lg as <- _.
      exists w1, (Ok (nc, nu, nd)). auto. }
  right. exists w1. split; [|exact R1]. exists src, dst, cmp, (with_last 0 (after_report src cmp w)). split; [exact FR|].
  split; [split; [exact N0|exact NS]|]. split; [exact G0|].
  assert (scan E c (with_last 0 (after_report src cmp w)) = Ok dst) as S'.
  { rewrite <- S. unfold scan, after_report, pruned_world. destruct (w_hashes w); reflexivity. }
  split; [unfold after_report, pruned_world; destruct (w_hashes w) eqn:HH; cbn; [rewrite HH|]; auto using discard_none|].
  split; [exact S'|]. split; [exact C|]. apply (transfers_end E c allow cmp _ _ _) in Tr; [exact Tr| |exact F].
  change (tree_ok (w_root (after_report src cmp w))). rewrite N0. exact T.
Qed.
