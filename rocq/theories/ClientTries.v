(** * ClientTries: how often a resource is requested in a run *)

From Verif Require Import Py PyFacts Float64 W3C PathSpec OsPath OsPathFacts Mapper MapperSpec Resource Container ContainerSpec ContainerFacts
  Hashes ListIndex Disk DiskSpec DiskFacts DiskChange Builder BuilderSpec BuilderFacts ClientState
  Client ClientSpec ClientLists ClientFacts ClientRuns ClientInc ClientCompare ClientProps ClientDownload ClientChanges.

(** How often [u] is in [l]. *)
Definition times (u : str) (l : list str) : nat := List.length (filter (str_eqb u) l).
Lemma times_app u a b : times u (a ++ b) = (times u a + times u b)%nat.
Proof. unfold times. now rewrite filter_app, app_length. Qed.
Lemma times_repeat u v k : times u (repeat v k) = if str_eqb u v then k else O.
Proof.
  unfold times. induction k as [|k IH]; cbn [repeat filter]; [destruct (str_eqb u v); reflexivity|].
  destruct (str_eqb u v); cbn [List.length]; congruence.
Qed.
Lemma times_none u l : ~ In u l -> times u l = O.
Proof.
  unfold times. induction l as [|v l IH]; [reflexivity|]. intros N. cbn [filter]. destruct (str_eqb_spec u v) as [->|_].
  - elim N. left. reflexivity.
  - apply IH. intros I. apply N. right. exact I.
Qed.

(** A run asks for each of [us] at most [k] times, and for nothing else. *)
Definition asks (k : nat) (us : list str) (w w' : world) : Prop :=
  exists l, w_gets w' = w_gets w ++ l /\ (forall u, In u l -> In u us) /\ forall u, (times u l <= k)%nat.
Lemma asks_none k us w w' : w_gets w' = w_gets w -> asks k us w w'.
Proof. intros G. exists []. rewrite app_nil_r. split; [exact G|]. split; [intros u []|intros u; cbn; lia]. Qed.
Lemma asks_then k us vs w w1 w' : (forall u, In u us -> In u vs -> False) -> asks k us w w1 -> asks k vs w1 w' -> asks k (us ++ vs) w w'.
Proof.
  intros DJ (l & G & I & T) (l' & G' & I' & T'). exists (l ++ l'). split; [now rewrite G', G, app_assoc|]. split.
  - intros u J. apply in_app_iff. apply in_app_iff in J. destruct J; auto.
  - intros u. rewrite times_app. destruct (in_dec (list_eq_dec ascii_dec) u l) as [J|J].
    + rewrite (times_none u l'); [specialize (T u); lia|]. intros J'. apply (DJ u); auto.
    + rewrite (times_none u l J). apply T'.
Qed.
Lemma asks_same k us w0 w w' w1 : w_gets w = w_gets w0 -> w_gets w1 = w_gets w' -> asks k us w w' -> asks k us w0 w1.
Proof. intros A B (l & G & P). exists l. rewrite B, <- A. auto. Qed.

Definition allowed_tries (c : client) : nat := if c_dryrun c then 0%nat else c_tries c.
Lemma update_asks E c r p w w' x : update_resource E c r p w = (w', x) -> asks (allowed_tries c) [r_uri r] w w'.
Proof.
  intros H. apply update_tries in H. destruct H as (k & K & G & _). exists (repeat (r_uri r) k). split; [exact G|]. split.
  - intros u I. apply repeat_spec in I. left. auto.
  - intros u. rewrite times_repeat. unfold allowed_tries. destruct (str_eqb u (r_uri r)); lia.
Qed.
Lemma asks_weaken k us vs w w' : incl us vs -> asks k us w w' -> asks k vs w w'.
Proof. intros S (l & G & I & T). exists l. auto. Qed.

Lemma for_each_asks E c rs : forall w w' x, NoDup (map r_uri rs) -> for_each c (update_resource E c) rs w = (w', x) ->
  asks (allowed_tries c) (map r_uri rs) w w'.
Proof.
  induction rs as [|r rs IH]; intros w w' x N H; cbn [for_each] in H.
  - injection H as <- <-. now apply asks_none.
  - inversion N as [|? ? NI N']; subst. apply andthen_inv in H. destruct H as [(w1 & p & S & H)|(e & S & _)]; unfold lift in S; injection S as <- S; [|now apply asks_none].
    apply andthen_inv in H. destruct H as [(w2 & m & U & H)|(e & U & ->)]; apply update_asks in U.
    2:{ apply (asks_weaken _ [r_uri r]); [|exact U]. intros u [<-|[]]. left. reflexivity. }
    assert (exists y, for_each c (update_resource E c) rs w2 = (w', y)) as (y & F).
    { apply andthen_inv in H. destruct H as [(w3 & m' & F & H)|(e & F & _)]; [injection H as <- _|]; eauto. }
    apply IH in F; [|exact N']. apply (asks_then _ [r_uri r] _ _ w2); auto. intros u [<-|[]] I. exact (NI I).
Qed.

Lemma transfers_asks E c allow cmp w w' x : tree_ok (w_root w) -> Forall file_name (e_cwd E) ->
  NoDup (map r_uri (rl_iter (created cmp) ++ rl_iter (updated cmp))) -> transfers E c allow cmp w = (w', x) ->
  asks (allowed_tries c) (map r_uri (rl_iter (created cmp) ++ rl_iter (updated cmp))) w w'.
Proof.
  intros T F N H. rewrite map_app in N. unfold transfers in H. apply andthen_inv in H. rewrite map_app.
  assert (forall u, In u (map r_uri (rl_iter (created cmp))) -> In u (map r_uri (rl_iter (updated cmp))) -> False) as DJ
    by (intros u; apply NoDup_app_not with (1 := N)).
  destruct H as [(w1 & nc & C & H)|(e & C & ->)]; pose proof C as C'; apply for_each_asks in C; try (eapply NoDup_app_l; exact N).
  2:{ apply (asks_weaken _ (map r_uri (rl_iter (created cmp)))); [|exact C]. intros u I. apply in_app_iff. auto. }
  apply for_each_update in C'. destruct C' as (C1 & _).
  apply andthen_inv in H. destruct H as [(w2 & nu & U & H)|(e & U & ->)]; pose proof U as U'; apply for_each_asks in U; try (eapply NoDup_app_r; exact N).
  2:{ apply (asks_then _ _ _ _ w1); auto. }
  apply for_each_update in U'. destruct U' as (U1 & _).
  assert (tree_ok (w_root w2)) as T2 by (apply (oa_tree _ _ _ _ U1); auto; apply (oa_tree _ _ _ _ C1); auto).
  assert (w_gets w' = w_gets w2) as G.
  { apply andthen_inv in H. destruct H as [(w3 & nd & D & H)|(e & D & _)]; [injection H as <- _|];
      apply for_each_delete in D; auto; destruct D as (_ & _ & D & _); exact D. }
  apply (asks_same _ _ w w w2); auto. apply (asks_then _ _ _ _ w1); auto.
Qed.

(** Requests are for resources of the list, and for each no more than allowed. *)
Definition modest (k : nat) (P : str -> Prop) (w w' : world) : Prop :=
  exists l, w_gets w' = w_gets w ++ l /\ (forall u, In u l -> P u) /\ forall u, (times u l <= k)%nat.

Lemma baseline_asks E c allow audit w w' x : world_ok E w -> baseline_or_audit E c allow audit w = (w', x) ->
  modest (allowed_tries c) (listed E c) w w'.
Proof.
  intros OK H. assert (forall a b, w_gets b = w_gets a -> modest (allowed_tries c) (listed E c) a b) as Z.
  { intros a b G. exists []. rewrite app_nil_r. split; [exact G|]. split; [intros u []|intros u; cbn; lia]. }
  apply baseline_inv in H. destruct H as [(e & _ & N & _)|(src & dst & cmp & M & U & F & NE & S & C & H)]; [apply Z, N|].
  pose proof (after_report_same src cmp w) as [N0 L0].
  destruct (audit || (differences cmp =? 0)); [destruct H as [-> _]; apply Z, N0|].
  assert (list_ok src) as [WS _] by (apply (find_resource_list_ok _ _ _ F)).
  assert (w_root (pruned_world src w) = w_root w) as PR by (unfold pruned_world; destruct (w_hashes w); reflexivity).
  assert (tree_ok (w_root (pruned_world src w))) as TP by (rewrite PR; apply OK).
  destruct (scan_is _ _ _ _ TP S) as [WD _].
  destruct (compare_parts _ _ _ WD WS C) as (W1 & W2 & W3 & W4 & IC & IU & ID & ND & _).
  set (w0 := after_report src cmp w) in *. clearbody w0. destruct N0 as (R0 & S0 & G0).
  assert (NoDup (map r_uri (rl_iter (created cmp) ++ rl_iter (updated cmp)))) as ND'.
  { rewrite app_assoc, map_app in ND. eapply NoDup_app_l. exact ND. }
  assert (forall w1 y, transfers E c allow cmp (with_last 0 w0) = (w1, y) -> modest (allowed_tries c) (listed E c) w w1) as TR.
  { intros w1 y H1. apply transfers_asks in H1; [|cbn; rewrite R0; apply OK|apply OK|exact ND'].
    destruct H1 as (l & G & I & T). exists l. cbn in G. rewrite G, G0. split; [reflexivity|]. split; [|exact T].
    intros u J. apply I, in_map_iff in J. destruct J as (r & <- & J). apply in_app_iff in J. rewrite (find_listed E c src _ F).
    destruct J as [J|J]; [apply IC in J|apply IU in J]; destruct J; congruence. }
  apply synchronize_inv in H. destruct H as [(e & _ & -> & _)|(_ & [(e & H & _)|(w1 & nc & nu & nd & H & K)])].
  - apply Z, G0.
  - apply (TR _ _ H).
  - destruct (TR _ _ H) as (l & G & P). exists l. split; [|exact P]. rewrite <- G.
    destruct K as [(e & St & _)|(w2 & St & Lg)]; apply store_if_any_effect in St; destruct St as (_ & St & _); [exact St|].
    rewrite log_status_is in Lg. injection Lg as <- _. exact St.
Qed.

Lemma apply_changes_asks E c allow rs : forall w w' x, tree_ok (w_root w) -> Forall file_name (e_cwd E) -> NoDup (map r_uri rs) ->
  apply_changes E c allow rs w = (w', x) -> asks (allowed_tries c) (map r_uri rs) w w'.
Proof.
  induction rs as [|r rs IH]; intros w w' x T F N H.
  - injection H as <- <-. now apply asks_none.
  - inversion N as [|? ? NI N']; subst.
    apply apply_changes_cons in H. destruct H as [(e & S & -> & ->)|(p & S & [(_ & _ & -> & ->)|(w1 & y & O & H)])]; try now apply asks_none.
    assert (tree_ok (w_root w1)) as T1 by (pose proof (one_change _ _ _ _ _ _ _ _ T F O) as (O1 & _); apply (oa_tree _ _ _ _ O1 T F)).
    assert (asks (allowed_tries c) [r_uri r] w w1) as A1.
    { destruct (is_update r); [apply (update_asks _ _ _ _ _ _ _ O)|]. destruct O as [_ O]. apply delete_effect in O; [|exact T].
      destruct O as (_ & _ & G & _). now apply asks_none. }
    apply (asks_then _ [r_uri r] _ _ w1); [intros u [<-|[]] I; exact (NI I)|exact A1|].
    destruct H as [(e & -> & -> & ->)|(n & z & -> & A & H)]; [now apply asks_none|apply (IH _ _ _ T1 F N' A)].
Qed.

Lemma incremental_asks E c allow clu from_dt w w' x : world_ok E w -> incremental E c allow clu from_dt w = (w', x) ->
  modest (allowed_tries c) (fun u => exists uri changes r, changes_read E c clu uri changes /\ In r changes /\ r_uri r = u) w w'.
Proof.
  intros OK H. assert (forall P a b, w_gets b = w_gets a -> modest (allowed_tries c) P a b) as Z.
  { intros P a b G. exists []. rewrite app_nil_r. split; [exact G|]. split; [intros u []|intros u; cbn; lia]. }
  apply incremental_stages in H. destruct H as [e X N L|from uri changes todo last M U HW SF CR LT CT CC TD ND SS KN H]; [apply Z, N|].
  destruct (nothing_to_do todo || only_deletions todo && negb allow); [destruct H as [-> _]; now apply Z|].
  destruct H as (w1 & y & A & H). apply apply_changes_asks in A; [|apply OK|apply OK|exact ND].
  destruct A as (l & G & I & T). exists l. split; [|split; [|exact T]].
  - change (w_gets w1 = w_gets w ++ l) in G. rewrite <- G. destruct H as [(e & _ & -> & _)|(nc & nu & nd & _ & St)]; [reflexivity|].
    apply store_if_any_effect in St. destruct St as (_ & St & _). exact St.
  - intros u J. apply I, in_map_iff in J. destruct J as (r & <- & J). exists uri, changes, r. split; [exact CR|]. split; [|reflexivity].
    clear - J SS. induction SS; cbn in *; intuition.
Qed.
