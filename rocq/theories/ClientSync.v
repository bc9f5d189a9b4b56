(** * ClientSync: what incremental synchronization applies and what it records *)

From Verif Require Import Py PyFacts Float64 Float64Facts W3C Url UrlAuthority PathSpec OsPath OsPathFacts Regex RegexFacts
  Mapper MapperSpec MapperFacts MapperFacts2 Resource ResourceSpec Container ContainerSpec ContainerFacts Capability Xml Sitemap Hashes ListIndex
  Disk DiskSpec DiskFacts DiskChange Builder BuilderSpec BuilderFacts ClientState ClientStateSpec ClientStateFacts
  Client ClientSpec ClientLists ClientFacts ClientRuns ClientInc ClientCompare ClientPlaces ClientProps ClientDownload ClientChanges
  ClientExamples ClientThms.

(** ** What is applied *)

Lemma no_changes rs : count_changes $"updated" rs + count_changes $"created" rs = 0 -> forall r, In r rs -> is_update r = false.
Proof.
  intros H r I. unfold is_update. unfold count_changes, zlen in H.
  destruct (change_is $"updated" r) eqn:U.
  - assert (In r (filter (change_is $"updated") rs)) as J by (apply filter_In; auto). destruct (filter (change_is $"updated") rs); [contradiction|cbn [List.length] in H; lia].
  - destruct (change_is $"created" r) eqn:C; [|reflexivity].
    assert (In r (filter (change_is $"created") rs)) as J by (apply filter_In; auto). destruct (filter (change_is $"created") rs); [contradiction|cbn [List.length] in H; lia].
Qed.
Lemma count_nonneg n rs : 0 <= count_changes n rs. Proof. unfold count_changes, zlen. lia. Qed.
Lemma nothing_none todo : nothing_to_do todo = true -> (forall r, In r todo -> known_change r = true) -> todo = [].
Proof.
  unfold nothing_to_do. rewrite Z.eqb_eq. intros H K. pose proof (count_nonneg $"updated" todo). pose proof (count_nonneg $"created" todo).
  pose proof (count_nonneg $"deleted" todo). destruct todo as [|r t]; [reflexivity|]. exfalso.
  specialize (K r (or_introl eq_refl)). apply known_change_iff in K. unfold count_changes, zlen in *. cbn [filter] in *.
  assert (forall s, r_change r = Some s -> change_is s r = true) as CI by (intros s Q; apply change_is_iff; exact Q).
  destruct K as [K|[K|K]]; rewrite (CI _ K) in *; cbn [List.length] in *; lia.
Qed.

Record inc_effects (E : env) (c : client) (allow : bool) (clu from_dt : option str) (from : Z) (uri : str) (changes : list resource) (w w' : world) (x : res unit) : Prop := {
  ie_only : forall q, changed_at w w' q -> exists r, due c from changes r /\ place_of E c (r_uri r) q;
  ie_turns : exists asked, subseq (map fst asked) changes
      /\ Forall (fun a => due c from changes (fst a) /\ (r_change (fst a) = Some $"created" \/ r_change (fst a) = Some $"updated")) asked
      /\ w_gets w' = w_gets w ++ in_turn asked;
  ie_applied : x = Ok tt \/ w_state w' <> w_state w -> c_dryrun c = false -> c_ignore_failures c = false -> (0 < c_tries c)%nat ->
    applied E c allow from changes w w';
  ie_idle : allow = false -> (forall r, due c from changes r -> r_change r = Some $"deleted") -> w_state w' = w_state w
}.

Lemma update_change r : is_update r = true -> r_change r = Some $"created" \/ r_change r = Some $"updated".
Proof. rewrite is_update_iff. tauto. Qed.

Lemma incremental_effects E c allow clu from_dt w w' x : world_ok E w -> incremental E c allow clu from_dt w = (w', x) ->
  (exists e, x = Err e /\ no_effect w w') \/
  exists from uri changes, started_from E c from_dt w from /\ changes_read E c clu uri changes
    /\ inc_effects E c allow clu from_dt from uri changes w w' x.
Proof.
  intros OK H. apply incremental_stages in H. destruct H as [e X N L|from uri changes todo last M U HW SF CR LT CT CC TD ND SS KN H]; [left; eauto|].
  right. exists from, uri, changes. split; [exact SF|]. split; [exact CR|].
  destruct (nothing_to_do todo || only_deletions todo && negb allow) eqn:Z.
  - destruct H as [-> ->]. split.
    + intros q C. elim C. reflexivity.
    + exists []. split; [apply subseq_none|]. split; [constructor|]. cbn. now rewrite app_nil_r.
    + intros _ _ _ _ r D. apply TD in D. apply orb_true_iff in Z. destruct Z as [Z|Z].
      * apply nothing_none in Z; auto. subst. destruct D.
      * apply andb_true_iff in Z. destruct Z as [Z A]. unfold only_deletions in Z. apply Z.eqb_eq in Z.
        pose proof (no_changes _ Z r D) as NU. split; [|intros _ AT; rewrite AT in A; discriminate].
        intros K. exfalso. assert (is_update r = true) by (apply is_update_iff; tauto). congruence.
    + reflexivity.
  - destruct H as (w1 & y & A & H).
    set (w0 := logged (first_status todo) (with_last last w)) in *.
    assert (w_gets w0 = w_gets w /\ w_root w0 = w_root w /\ w_state w0 = w_state w) as (G0 & R0 & S0) by (repeat split). clearbody w0.
    assert (tree_ok (w_root w0)) as T0 by (rewrite R0; apply OK).
    pose proof (apply_changes_turns _ _ _ _ _ _ _ T0 (proj2 (proj2 OK)) A) as (asked & AS & AU & AG).
    apply apply_changes_effect in A; [|exact T0|apply OK].
    destruct A as (O & L1 & _ & RM & DR & _ & _ & _ & AP).
    assert (w_root w' = w_root w1 /\ w_gets w' = w_gets w1) as [RW GW].
    { destruct H as [(e & -> & -> & ->)|(nc & nu & nd & -> & St)]; [auto|]. apply store_if_any_effect in St. destruct St as (A & B & _). auto. }
    split.
    + intros q C. assert (changed_at w0 w1 q) as C1 by (unfold changed_at in *; rewrite <- RW, R0; exact C).
      apply (only_at_changed _ _ _ _ _ _ O) in C1. destruct C1 as (r & I & T). exists r. split; [apply TD, I|exact T].
    + exists asked. split; [apply (subseq_trans _ _ _ AS SS)|]. split.
      * apply Forall_forall. intros a I. split.
        -- apply TD. assert (In (fst a) (map fst asked)) as J by (apply in_map, I). revert J AS. clear. generalize (map fst asked), (fst a). clear.
           intros l r I S. induction S; cbn in *; intuition.
        -- apply update_change. rewrite Forall_forall in AU. apply AU, I.
      * rewrite GW, AG, G0. reflexivity.
    + intros X D I T r DU. apply TD in DU.
      assert (exists n, y = Ok n) as (n & Y).
      { destruct H as [(e & -> & -> & ->)|(nc & nu & nd & -> & St)]; [|eauto].
        exfalso. destruct X as [X|X]; [discriminate|]. apply X. rewrite (oa_state _ _ _ _ O). exact S0. }
      destruct (AP n Y D I T ND r DU) as (p & S & Q).
      assert (alone E c from changes r (denotes (e_cwd E) p) ->
        forall r', In r' todo -> target E c r' (resolve (e_cwd E) p) -> r_uri r' = r_uri r) as AL.
      { intros AL r' I' T'. rewrite resolve_denotes in T'. apply AL; [apply TD, I'|exact T']. }
      split.
      * intros K. exists p. split; [exact S|]. intros A. destruct (Q (AL A)) as [Q1 _].
        assert (is_update r = true) as UR by (apply is_update_iff; tauto). destruct (Q1 UR) as (_ & f & LF & DL).
        exists f. rewrite RW, <- resolve_denotes. split; [exact LF|]. apply (downloaded_same _ w w0 w1 w'); auto.
      * intros K AT. exists p. split; [exact S|]. intros A FP. destruct (Q (AL A)) as [_ Q2].
        rewrite RW, <- resolve_denotes. apply Q2; [apply is_delete_iff, K|rewrite R0; apply OK|exact AT|exact FP].
    + intros AF DU. exfalso. subst allow. apply orb_false_iff in Z. destruct Z as [_ Z]. rewrite andb_true_r in Z.
      unfold only_deletions in Z. apply Z.eqb_neq in Z. apply Z. clear Z.
      assert (forall n, n <> $"deleted" -> count_changes n todo = 0) as CZ.
      { intros n NE. unfold count_changes, zlen. replace (filter (change_is n) todo) with (@nil resource); [reflexivity|].
        symmetry. destruct (filter (change_is n) todo) as [|r t] eqn:FE; [reflexivity|].
        assert (In r (filter (change_is n) todo)) as J by (rewrite FE; left; reflexivity). apply filter_In in J. destruct J as [J K].
        apply change_is_iff in K. rewrite (DU r) in K by (apply TD, J). congruence. }
      rewrite !CZ by discriminate. reflexivity.
Qed.

Lemma incremental_only E c allow clu from_dt w w' x : world_ok E w -> incremental E c allow clu from_dt w = (w', x) ->
  forall q, changed_at w w' q -> exists from uri changes r, started_from E c from_dt w from /\ changes_read E c clu uri changes
    /\ due c from changes r /\ place_of E c (r_uri r) q.
Proof.
  intros OK H q C. destruct (incremental_effects _ _ _ _ _ _ _ _ OK H) as [(e & _ & N & _)|(from & uri & ch & S & R & I)].
  - elim C. unfold changed_at. now rewrite N.
  - destruct (ie_only _ _ _ _ _ _ _ _ _ _ _ I q C) as (r & D & P). exists from, uri, ch, r. auto.
Qed.
Lemma incremental_applied E c allow clu from_dt w w' : world_ok E w -> c_dryrun c = false -> c_ignore_failures c = false -> (0 < c_tries c)%nat ->
  incremental E c allow clu from_dt w = (w', Ok tt) ->
  exists from uri changes, started_from E c from_dt w from /\ changes_read E c clu uri changes /\ applied E c allow from changes w w'.
Proof.
  intros OK D I T H. destruct (incremental_effects _ _ _ _ _ _ _ _ OK H) as [(e & X & _)|(from & uri & ch & S & R & IE)]; [discriminate|].
  exists from, uri, ch. split; [exact S|]. split; [exact R|]. apply (ie_applied _ _ _ _ _ _ _ _ _ _ _ IE); auto.
Qed.
Lemma incremental_order E c allow clu from_dt w w' x : world_ok E w -> incremental E c allow clu from_dt w = (w', x) ->
  w_gets w' = w_gets w \/
  exists from uri changes asked, started_from E c from_dt w from /\ changes_read E c clu uri changes /\ subseq (map fst asked) changes
    /\ Forall (fun a => due c from changes (fst a) /\ (r_change (fst a) = Some $"created" \/ r_change (fst a) = Some $"updated")) asked
    /\ w_gets w' = w_gets w ++ in_turn asked.
Proof.
  intros OK H. destruct (incremental_effects _ _ _ _ _ _ _ _ OK H) as [(e & X & N)|(from & uri & ch & S & R & IE)]; [left; apply N|].
  right. destruct (ie_turns _ _ _ _ _ _ _ _ _ _ _ IE) as (asked & A & B & C). exists from, uri, ch, asked. auto.
Qed.
Lemma applied_or_kept E c clu from_dt w w' x : world_ok E w -> c_dryrun c = false -> c_ignore_failures c = false -> (0 < c_tries c)%nat ->
  incremental E c true clu from_dt w = (w', x) ->
  w_state w' = w_state w \/
  exists from uri changes, started_from E c from_dt w from /\ changes_read E c clu uri changes /\ applied E c true from changes w w'.
Proof.
  intros OK D I T H. destruct (incremental_effects _ _ _ _ _ _ _ _ OK H) as [(e & X & N)|(from & uri & ch & S & R & IE)]; [left; apply N|].
  assert ({w_state w' = w_state w} + {w_state w' <> w_state w}) as [Q|Q] by (repeat decide equality); [left; exact Q|].
  right. exists from, uri, ch. split; [exact S|]. split; [exact R|]. apply (ie_applied _ _ _ _ _ _ _ _ _ _ _ IE); auto.
Qed.
Lemma withheld_kept E c clu from_dt w w' x : world_ok E w ->
  (forall from uri changes r, started_from E c from_dt w from -> changes_read E c clu uri changes -> due c from changes r -> r_change r = Some $"deleted") ->
  incremental E c false clu from_dt w = (w', x) -> w_state w' = w_state w.
Proof.
  intros OK DU H. destruct (incremental_effects _ _ _ _ _ _ _ _ OK H) as [(e & X & N)|(from & uri & ch & S & R & IE)]; [apply N|].
  apply (ie_idle _ _ _ _ _ _ _ _ _ _ _ IE); [reflexivity|]. intros r D. apply (DU from uri ch r S R D).
Qed.

(** ** What is recorded *)

Lemma last_time_max rs : forall last m, last_time rs last = Ok m ->
  last <= m /\ (forall r t, In r rs -> effective_time r = Some t -> t <= m)
  /\ (m = last \/ exists r, In r rs /\ effective_time r = Some m).
Proof.
  induction rs as [|r rs IH]; cbn [last_time]; intros last m H.
  - injection H as <-. split; [lia|]. split; [intros r t []|auto].
  - destruct (effective_time r) as [t|] eqn:ET; [|discriminate]. apply IH in H. destruct H as (A & B & C).
    split; [destruct (Z.ltb_spec last t); lia|]. split.
    + intros r' t' [<-|I] Q; [|eauto]. rewrite ET in Q. injection Q as <-. destruct (Z.ltb_spec last t); lia.
    + destruct C as [->|(r' & I & Q)]; [|right; exists r'; split; [right; exact I|exact Q]].
      destruct (Z.ltb_spec last t); [|auto]. right. exists r. split; [left; reflexivity|exact ET].
Qed.
Lemma changes_read_ok E c clu uri changes : changes_read E c clu uri changes -> changes_ok changes.
Proof. intros (_ & l & R & ->). apply (change_list_ok _ _ _ _ _ _ R). Qed.
Lemma effective_double r t : entry_ok r -> effective_time r = Some t -> is_double t.
Proof.
  intros (A & B & _) H. unfold effective_time in H. destruct (r_ts_datetime r) as [d|]; [injection H as <-; exact B|].
  rewrite H in A. exact A.
Qed.
Lemma double_0 : is_double 0.
Proof. reflexivity. Qed.
Lemma last_entry_in u rs r : last_entry u rs = Some r -> In r rs /\ r_uri r = u.
Proof.
  induction rs as [|r' rs IH]; [discriminate|]. rewrite last_entry_cons. destruct (last_entry u rs) as [l|].
  - intros [= ->]. destruct (IH eq_refl). split; [right|]; assumption.
  - destruct (str_eqb_spec (r_uri r') u); [|discriminate]. intros [= <-]. split; [left; reflexivity|assumption].
Qed.

(** The state file is what calls of set_state made it. *)
Lemma store_done E c w w' x : store_if_any E c w = (w', x) ->
  w_last w' = w_last w /\
  (w_state w' = w_state w \/ exists sm, sitemap c = Ok sm /\ w_state w' = fst (set_state (e_floats E) (w_state w) sm (Some (w_last w)))).
Proof.
  unfold store_if_any. destruct (0 <? w_last w); [|intros [= <- <-]; auto].
  intros H. apply store_last_effect in H. destruct H as (_ & _ & _ & LE & _ & [(e & _ & H)|(sm & Q & H)]); (split; [exact LE|]); [auto|].
  right. exists sm. split; [exact Q|]. destruct H as [H|(e & H & _)]; rewrite H; reflexivity.
Qed.
Lemma call_again F calls sm t : Forall call_ok calls -> sm <> [] -> is_double t ->
  Forall call_ok (calls ++ [Store sm t]) /\ fst (set_state F (file_after F calls) sm (Some t)) = file_after F (calls ++ [Store sm t]).
Proof.
  intros OK SM D. split.
  - apply Forall_app. split; [exact OK|]. constructor; [|constructor]. split; [exact SM|exact D].
  - unfold file_after. now rewrite fold_left_app.
Qed.
Lemma same_name_refl s : same_name s s.
Proof. apply site_name_eq. reflexivity. Qed.
Lemma stored_again F calls sm t : python_floats F -> Forall call_ok (calls ++ [Store sm t]) ->
  get_state F (file_after F (calls ++ [Store sm t])) sm = Ok (Some t).
Proof. intros PF OK. apply (state_history _ _ _ PF OK). apply rem_store, same_name_refl. Qed.

Lemma incremental_saves E c allow clu from_dt w w' x : world_ok E w ->
  incremental E c allow clu from_dt w = (w', x) ->
  w_state w' = w_state w \/
  exists sm from uri changes t, sitemap c = Ok sm /\ started_from E c from_dt w from /\ changes_read E c clu uri changes
    /\ is_double t /\ w_state w' = fst (set_state (e_floats E) (w_state w) sm (Some t)) /\ t = w_last w'
    /\ (c_spec_1_0 c = false \/ c_dryrun c = false /\ c_ignore_failures c = false -> from <= t)
    /\ (forall r u, In r changes -> effective_time r = Some u -> u <= t)
    /\ (exists r, In r changes /\ (effective_time r = Some t \/ r_timestamp r = Some t)).
Proof.
  intros OK H. apply incremental_stages in H. destruct H as [e X N L|from uri changes todo last M U HW SF CR LT CT CC TD ND SS KN H]; [left; apply N|].
  destruct (nothing_to_do todo || only_deletions todo && negb allow) eqn:Z; [destruct H as [-> _]; auto|].
  destruct H as (w1 & y & A & H).
  set (w0 := logged (first_status todo) (with_last last w)) in *.
  assert (w_last w0 = last /\ w_root w0 = w_root w /\ w_state w0 = w_state w) as (L0 & R0 & S0) by (repeat split). clearbody w0.
  assert (tree_ok (w_root w0)) as T0 by (rewrite R0; apply OK).
  apply apply_changes_effect in A; [|exact T0|apply OK].
  destruct A as (O & L1 & _ & _ & _ & A6 & A7 & _).
  pose proof (oa_state _ _ _ _ O) as S1.
  destruct H as [(e & -> & -> & ->)|(nc & nu & nd & -> & St)]; [left; congruence|].
  pose proof (changes_read_ok _ _ _ _ _ CR) as CH. unfold changes_ok in CH. rewrite Forall_forall in CH.
  assert (forall r, In r todo -> In r changes) as IN.
  { intros r I. revert I SS. clear. intros I S. induction S; cbn in *; intuition. }
  destruct (last_time_max _ _ _ LT) as (P1 & P2 & P3).
  assert (is_double (w_last w1)) as DB.
  { destruct A6 as [->|(r & I & Q)].
    - rewrite L0. destruct P3 as [->|(r & I & Q)]; [apply double_0|]. apply (effective_double r); [apply CH, I|exact Q].
    - destruct (CH r (IN r I)) as [(D & _) _]. rewrite Q in D. exact D. }
  assert (w_last w1 = 0 \/ exists r, In r changes /\ (effective_time r = Some (w_last w1) \/ r_timestamp r = Some (w_last w1))) as WH.
  { destruct A6 as [->|(r & I & Q)]; [rewrite L0; destruct P3 as [->|(r & I & Q)]; eauto|right; exists r; auto]. }
  assert (w_state w' = w_state w \/ 0 < w_last w1) as ST0.
  { destruct (Z.ltb_spec 0 (w_last w1)) as [LT1|GE]; [auto|left].
    unfold store_if_any in St. change (w_last (logged _ w1)) with (w_last w1) in St. destruct (Z.ltb_spec 0 (w_last w1)); [lia|].
    injection St as <- <-. cbn. congruence. }
  destruct ST0 as [ST0|ST0]; [left; exact ST0|].
  apply store_done in St. cbn in St.
  destruct St as [KL [St|(sm & QS & St)]]; [left; congruence|]. right. rewrite S1, S0 in St. symmetry in KL.
  exists sm, from, uri, changes, (w_last w1). repeat (split; [assumption|]). split.
  - intros SP. destruct todo as [|r rest]; [discriminate|].
    assert (due c from changes r) as D by (apply TD; left; reflexivity). destruct D as [D _].
    assert (In r (since c from changes)) as I by (apply last_entry_in in D; apply D).
    unfold since in I. apply filter_In in I. destruct I as [I D']. destruct (change_time (c_spec_1_0 c) r) as [t|] eqn:CTE; [|discriminate].
    apply Z.leb_le in D'. unfold change_time in CTE. destruct (c_spec_1_0 c).
    + destruct SP as [SP|[D1 D2]]; [discriminate|]. assert (t <= w_last w1); [|lia].
      apply (A7 (nc, nu, nd) eq_refl r t (or_introl eq_refl) CTE). auto.
    + assert (t <= last); [|lia]. apply (P2 r t I). unfold effective_time. now rewrite CTE.
  - split; [intros r u I EQ; specialize (P2 r u I EQ); lia|]. destruct WH as [WH|WH]; [lia|exact WH].
Qed.

Lemma incremental_state E c allow clu from_dt calls w w' x : world_ok E w -> python_floats (e_floats E) -> Forall call_ok calls ->
  w_state w = file_after (e_floats E) calls -> (forall sm, sitemap c = Ok sm -> sm <> []) ->
  incremental E c allow clu from_dt w = (w', x) ->
  w_state w' = w_state w \/
  exists sm from uri changes t, sitemap c = Ok sm /\ started_from E c from_dt w from /\ changes_read E c clu uri changes
    /\ Forall call_ok (calls ++ [Store sm t]) /\ w_state w' = file_after (e_floats E) (calls ++ [Store sm t])
    /\ (c_spec_1_0 c = false \/ c_dryrun c = false /\ c_ignore_failures c = false -> from <= t)
    /\ (forall r u, In r changes -> effective_time r = Some u -> u <= t)
    /\ (exists r, In r changes /\ (effective_time r = Some t \/ r_timestamp r = Some t)).
Proof.
  intros OK PF CO S SM H. destruct (incremental_saves E c allow clu from_dt w w' x OK H) as [Q|(sm & from & uri & ch & t & Q & SF & CR & D & S' & _ & R)]; [auto|].
  right. destruct (call_again (e_floats E) calls sm t CO (SM sm Q) D) as [CO' E']. exists sm, from, uri, ch, t. rewrite S', S, E'. auto 10.
Qed.

Lemma incrementals_forward F f f' : after_incrementals F f f' -> python_floats F ->
  forall calls, Forall call_ok calls -> f = file_after F calls ->
  forall site t, get_state F f site = Ok (Some t) -> exists t', get_state F f' site = Ok (Some t') /\ t <= t'.
Proof.
  intros H PF. induction H as [f|E c allow clu w w' x f EF OK SM SP R H IH]; intros calls CO S site t G; [exists t; split; [exact G|lia]|].
  subst F. destruct (incremental_state _ _ _ _ _ calls _ _ _ OK PF CO S SM R) as [Q|(sm & from & uri & ch & t1 & Q & SF & _ & CO' & S' & LE & _)].
  - rewrite <- Q in G. apply (IH calls CO (eq_trans Q S) site t G).
  - assert (exists t2, get_state (e_floats E) (w_state w') site = Ok (Some t2) /\ t <= t2) as (t2 & G2 & LE2).
    { destruct (list_eq_dec ascii_dec (site_name sm) (site_name site)) as [SN|SN].
      - exists t1. split.
        + rewrite S'. apply (state_history _ _ _ PF CO'). apply rem_store, site_name_eq, SN.
        + destruct SF as (sm' & Q' & G'). rewrite Q in Q'. injection Q' as <-.
          assert (get_state (e_floats E) (w_state w) sm = get_state (e_floats E) (w_state w) site) as EQ.
          { rewrite S. destruct (history_holds _ calls PF CO) as (o & HO & _). rewrite !(get_state_holds _ _ o _ HO), SN. reflexivity. }
          rewrite EQ, G in G'. injection G' as ->. apply LE, SP.
      - exists t. split; [|lia]. rewrite S'. apply (state_history _ _ _ PF CO'). apply rem_other; [rewrite <- site_name_eq; exact SN|].
        apply (state_history _ _ _ PF CO). rewrite <- S. exact G. }
    destruct (IH _ CO' S' site t2 G2) as (t' & G' & LE'). exists t'. split; [exact G'|lia].
Qed.
