(** * ClientProps: properties of whole runs *)

From Verif Require Import Py PyFacts Float64 Float64Facts W3C Url UrlAuthority PathSpec OsPath OsPathFacts Regex RegexFacts
  Mapper MapperSpec MapperFacts MapperFacts2 Resource Container ContainerSpec ContainerFacts Capability Xml Sitemap Hashes ListIndex
  Disk DiskSpec DiskFacts DiskChange Builder BuilderSpec BuilderFacts ClientState ClientStateSpec ClientStateFacts
  Client ClientSpec ClientLists ClientFacts ClientRuns ClientInc ClientCompare.

Lemma places_dec E c rs q : places E c rs q \/ ~ places E c rs q.
Proof.
  induction rs as [|r rs IH]; [right; intros (? & [] & _)|].
  destruct IH as [(r' & I & T)|N]; [left; exists r'; split; [right; exact I|exact T]|].
  destruct (src_to_dst (c_mapper c) (r_uri r)) as [p|e] eqn:S.
  - destruct (path_eq_dec q (resolve (e_cwd E) p)) as [->|NE].
    + left. exists r. split; [left; reflexivity|]. apply target_resolve. eauto.
    + right. intros (r' & [<-|I] & T); [|apply N; exists r'; auto]. apply (proj1 (target_resolve _ _ _ _)) in T. destruct T as (p' & S' & ->). congruence.
  - right. intros (r' & [<-|I] & T); [|apply N; exists r'; auto]. apply (proj1 (target_resolve _ _ _ _)) in T. destruct T as (p' & S' & ->). congruence.
Qed.
Lemma only_at_changed E c rs w w' q : only_at (e_cwd E) (places E c rs) w w' -> changed_at w w' q -> places E c rs q.
Proof. intros O C. destruct (places_dec E c rs q) as [P|N]; [exact P|]. elim C. apply (oa_leaf _ _ _ _ O), N. Qed.

Lemma find_listed E c src u : find_resource_list (e_fetch E) c = Ok src -> (listed E c u <-> map_of src u <> None).
Proof.
  intros F. unfold listed, map_of. split.
  - intros (s & F' & I) N. rewrite F in F'. injection F' as <-. apply sget_none in N. contradiction.
  - intros N. exists src. split; [exact F|]. destruct (in_dec (list_eq_dec ascii_dec) u (map fst src)) as [|N']; [assumption|].
    elim N. now apply sget_none.
Qed.
Lemma local_root E c w w' file u : w_root w' = w_root w -> local_file E c w' file u <-> local_file E c w file u.
Proof. intros R. unfold local_file. rewrite R. reflexivity. Qed.

Lemma store_last_effect E c w w' x : store_last E c w = (w', x) ->
  w_root w' = w_root w /\ w_gets w' = w_gets w /\ w_log w' = w_log w /\ w_last w' = w_last w /\ w_hashes w' = w_hashes w
  /\ ((exists e, x = Err e /\ w_state w' = w_state w) \/
      exists sm, sitemap c = Ok sm /\
        (set_state (e_floats E) (w_state w) sm (Some (w_last w)) = (w_state w', None)
         \/ exists e, set_state (e_floats E) (w_state w) sm (Some (w_last w)) = (w_state w', Some e) /\ x = Err e)).
Proof.
  unfold store_last. intros H. apply andthen_inv in H. destruct H as [(w1 & sm & S & H)|(e & S & ->)]; unfold lift in S; injection S as <- S.
  2:{ repeat (split; [reflexivity|]). left. eauto. }
  apply andthen_inv in H. destruct H as [(w1 & [] & St & H)|(e & St & ->)];
    destruct (set_state (e_floats E) (w_state w) sm (Some (w_last w))) as [f [e'|]] eqn:SS; try discriminate.
  - injection St as <-. assert (w' = with_state f w) as ->.
    { destruct (datetime_to_str false (w_last (with_state f w))); injection H as <- _; reflexivity. }
    repeat (split; [reflexivity|]). right. exists sm. split; [exact S|]. left. exact SS.
  - injection St as <- <-. repeat (split; [reflexivity|]). right. exists sm. split; [exact S|]. right. exists e'. split; [exact SS|reflexivity].
Qed.
Lemma store_if_any_effect E c w w' x : store_if_any E c w = (w', x) ->
  w_root w' = w_root w /\ w_gets w' = w_gets w /\ w_log w' = w_log w /\ w_last w' = w_last w /\ w_hashes w' = w_hashes w
  /\ (w_last w <= 0 -> w_state w' = w_state w).
Proof.
  unfold store_if_any. destruct (Z.ltb_spec 0 (w_last w)).
  - intros S. apply store_last_effect in S. destruct S as (A & B & C & D & F & _). repeat (split; [assumption|]). lia.
  - intros [= <- <-]. repeat (split; [reflexivity|]). reflexivity.
Qed.

Record run_effect (E : env) (c : client) (allow : bool) (w w' : world) (changing deleting requested : str -> Prop) : Prop := {
  re_changed : forall q, changed_at w w' q -> exists u, changing u /\ place_of E c u q;
  re_dirs : forall q, dir_at (w_root w) q -> dir_at (w_root w') q;
  re_removed : forall q, removed w w' q -> allow = true /\ c_dryrun c = false /\ exists u, deleting u /\ place_of E c u q;
  re_gets : exists l, w_gets w' = w_gets w ++ l /\ forall u, In u l -> requested u;
  re_dry : c_dryrun c = true -> w_gets w' = w_gets w /\ forall q, leaf_at (w_root w') q = leaf_at (w_root w) q;
  re_tree : world_ok E w -> tree_ok (w_root w')
}.
Lemma no_run_effect E c allow w w' P Q R : no_effect w w' -> run_effect E c allow w w' P Q R.
Proof.
  intros (A & B & C). split; rewrite ?A; auto.
  - intros q Ch. elim Ch. rewrite A. reflexivity.
  - intros q [X Y]. rewrite A in Y. contradiction.
  - exists []. rewrite app_nil_r. split; [exact C|intros u []].
  - intros (T & _). exact T.
Qed.
Lemma run_effect_same E c allow w w1 w2 w3 P Q R : w_root w1 = w_root w -> w_gets w1 = w_gets w ->
  w_root w3 = w_root w2 -> w_gets w3 = w_gets w2 -> run_effect E c allow w1 w2 P Q R -> run_effect E c allow w w3 P Q R.
Proof.
  intros A B C D [R1 R2 R3 R4 R5 R6]. unfold changed_at, removed, world_ok in *. rewrite A, B in *.
  split; unfold changed_at, removed; rewrite ?C, ?D; auto.
Qed.

Lemma transfers_run E c allow dst src cmp w w1 y : world_ok E w -> wf_rl dst -> wf_rl src -> compare 0 1 dst src = Ok cmp ->
  transfers E c allow cmp w = (w1, y) ->
  run_effect E c allow w w1 (fun u => map_of src u <> None \/ map_of dst u <> None)
    (fun u => map_of dst u <> None /\ map_of src u = None) (fun u => map_of src u <> None)
  /\ w_state w1 = w_state w /\ w_hashes w1 = w_hashes w
  /\ (c_dryrun c = true -> (forall u, map_of dst u <> None -> map_of src u <> None) -> w_last w1 = w_last w).
Proof.
  intros (T & R & F) WD WS C H. apply transfers_effect in H; auto.
  destruct (compare_parts _ _ _ WD WS C) as (W1 & W2 & W3 & W4 & IC & IU & ID & ND & _).
  destruct H as (O & L & (l & G1 & G2) & RM & DR & _ & _).
  split; [|split; [apply (oa_state _ _ _ _ O)|split; [apply (oa_hashes _ _ _ _ O)|]]].
  - split.
    + intros q Ch. apply (only_at_changed _ _ _ _ _ _ O) in Ch. destruct Ch as (r & I & Tg). exists (r_uri r). split; [|exact Tg].
      apply in_app_iff in I. destruct I as [I|I]; [|apply in_app_iff in I; destruct I as [I|I]].
      * apply IC in I. left. destruct I. congruence.
      * apply IU in I. left. destruct I. congruence.
      * apply ID in I. right. destruct I. congruence.
    + apply (oa_dir _ _ _ _ O).
    + intros q Rq. apply RM in Rq. destruct Rq as (A & B & r & I & Tg). split; [exact A|]. split; [exact B|].
      exists (r_uri r). split; [|exact Tg]. apply ID in I. destruct I. split; congruence.
    + exists l. split; [exact G1|]. intros u I. apply G2 in I. apply in_map_iff in I. destruct I as (r & <- & I).
      apply in_app_iff in I. destruct I as [I|I]; [apply IC in I|apply IU in I]; destruct I; congruence.
    + intros D. destruct (DR D) as (A & _ & _ & B). auto.
    + intros _. apply (oa_tree _ _ _ _ O); auto.
  - intros D N. destruct (DR D) as (_ & _ & A & _). apply A.
    destruct (rl_iter (deleted cmp)) as [|r rs] eqn:Z; [reflexivity|]. exfalso.
    destruct (proj1 (ID r) (or_introl eq_refl)) as [X Y]. apply (N (r_uri r)); congruence.
Qed.

Lemma baseline_effect E c allow audit w w' x : world_ok E w -> baseline_or_audit E c allow audit w = (w', x) ->
  run_effect E c allow w w' (fun u => listed E c u \/ exists file, local_file E c w file u)
    (fun u => ~ listed E c u /\ exists file, local_file E c w file u) (listed E c)
  /\ (audit = true -> no_effect w w')
  /\ (c_dryrun c = true -> (forall file u, local_file E c w file u -> listed E c u) -> w_state w' = w_state w).
Proof.
  intros OK H. apply baseline_inv in H. destruct H as [(e & _ & N & _)|(src & dst & cmp & M & U & F & NE & S & C & H)].
  { split; [apply no_run_effect, N|]. split; [auto|]. intros _ _. apply N. }
  pose proof (after_report_same src cmp w) as [N0 L0].
  destruct (audit || (differences cmp =? 0)) eqn:AD.
  { destruct H as [-> _]. split; [apply no_run_effect, N0|]. split; [auto|]. intros _ _. apply N0. }
  apply orb_false_iff in AD. destruct AD as [-> DZ].
  assert (list_ok src) as [WS _] by (apply (find_resource_list_ok _ _ _ F)).
  assert (w_root (pruned_world src w) = w_root w) as PR by (unfold pruned_world; destruct (w_hashes w); reflexivity).
  assert (tree_ok (w_root (pruned_world src w))) as TP by (rewrite PR; apply OK).
  destruct (scan_is _ _ _ _ TP S) as [WD _].
  assert (forall u, map_of dst u <> None <-> exists file, local_file E c w file u) as LOC.
  { intros u. rewrite (scan_local _ _ _ _ u TP S). split; intros (f & L); exists f; apply (local_root E c _ _ f u PR); exact L. }
  set (w0 := after_report src cmp w) in *. clearbody w0. destruct N0 as (R0 & S0 & G0).
  assert (world_ok E (with_last 0 w0)) as OK0 by (unfold world_ok; cbn; rewrite R0; exact OK).
  assert (forall w1 y, transfers E c allow cmp (with_last 0 w0) = (w1, y) ->
    run_effect E c allow w w1 (fun u => listed E c u \/ exists file, local_file E c w file u)
      (fun u => ~ listed E c u /\ exists file, local_file E c w file u) (listed E c)
    /\ w_state w1 = w_state w
    /\ (c_dryrun c = true -> (forall file u, local_file E c w file u -> listed E c u) -> w_last w1 = 0)) as TR.
  { intros w1 y H1. apply (transfers_run _ _ _ _ _ _ _ _ _ OK0 WD WS C) in H1. destruct H1 as (E1 & E2 & _ & E3). cbn in E2, E3.
    split; [|split; [congruence|]].
    - apply (run_effect_same _ _ _ w (with_last 0 w0) w1 w1); [exact R0|exact G0|reflexivity|reflexivity|].
      destruct E1 as [Q1 Q2 Q3 Q4 Q5 Q6]. split; auto.
      + intros q Ch. destruct (Q1 q Ch) as (u & P & Pl). exists u. split; [|exact Pl].
        rewrite (find_listed E c src u F), <- LOC. exact P.
      + intros q Rm. destruct (Q3 q Rm) as (A & B & u & P & Pl). split; [exact A|]. split; [exact B|]. exists u. split; [|exact Pl].
        rewrite (find_listed E c src u F), <- LOC. destruct P as [P1 P2]. split; [congruence|exact P1].
      + destruct Q4 as (l & A & B). exists l. split; [exact A|]. intros u I. apply (find_listed E c src u F), B, I.
    - intros D L. apply E3; [exact D|]. intros u Du. apply LOC in Du. destruct Du as (f & Lf). apply (find_listed E c src u F). eauto. }
  apply synchronize_inv in H. destruct H as [(e & _ & -> & _)|(_ & [(e & H & _)|(w1 & nc & nu & nd & H & [(e & St & _)|(w2 & St & Lg)])])].
  - split; [apply no_run_effect; repeat split; auto|]. split; [discriminate|]. intros _ _. exact S0.
  - destruct (TR _ _ H) as (A & B & _). split; [exact A|]. split; [discriminate|]. intros _ _. exact B.
  - destruct (TR _ _ H) as (A & B & L1). apply store_if_any_effect in St. destruct St as (S1 & S2 & _ & _ & _ & S3).
    split; [apply (run_effect_same _ _ _ w w w1 w'); auto|]. split; [discriminate|].
    intros D L. rewrite S3; [exact B|]. rewrite (L1 D L). lia.
  - destruct (TR _ _ H) as (A & B & L1). apply store_if_any_effect in St. destruct St as (S1 & S2 & _ & _ & _ & S3).
    rewrite log_status_is in Lg. injection Lg as <- <-.
    split; [apply (run_effect_same _ _ _ w w w1 _); auto|]. split; [discriminate|].
    intros D L. cbn. rewrite S3; [exact B|]. rewrite (L1 D L). lia.
Qed.

(** ** Incremental *)

Definition changed_uri (changes : list resource) (u : str) : Prop := In u (map r_uri changes).
Definition deleted_uri (changes : list resource) (u : str) : Prop := exists r, In r changes /\ r_uri r = u /\ r_change r = Some $"deleted".

Lemma read_changes E c clu uri l : sitemap_uri c (change_list_name c clu) = Ok uri -> read_change_list E uri = Ok l ->
  changes_read E c clu uri (d_items (l_doc l)).
Proof.
  intros S R. split; [exact S|]. exists l. split; [|reflexivity]. unfold read_change_list, wrapped in R.
  destruct (list_read _ _ _ _ _) as [x|e]; [congruence|destruct e; discriminate].
Qed.

Lemma prune_dupes_in rs r : In r (fst (prune_dupes rs)) -> In r rs.
Proof.
  destruct (prune_dupes rs) as [rs' n] eqn:P. apply prune_dupes_spec in P. destruct P as (_ & Sb & _). cbn.
  induction Sb; cbn; intuition.
Qed.
Lemma prune_before_in ut t rs kept n : prune_updates_before ut t rs = (kept, Ok n) ->
  kept = filter (fun r => match change_time ut r with Some x => t <=? x | None => false end) rs
  /\ forall r, In r rs -> change_time ut r <> None.
Proof.
  intros P. assert (forall r, In r rs -> change_time ut r <> None) as A.
  { intros r I N. rewrite prune_updates_before_err in P; [discriminate|eauto]. }
  split; [|exact A]. destruct (prune_updates_before_ok ut t rs A) as (kept' & P' & _ & K). rewrite P in P'. injection P' as <- _. exact K.
Qed.

Lemma incremental_effect E c allow clu from_dt w w' x : world_ok E w -> incremental E c allow clu from_dt w = (w', x) ->
  no_effect w w' \/ exists uri changes, changes_read E c clu uri changes /\
  run_effect E c allow w w' (changed_uri changes) (deleted_uri changes) (changed_uri changes).
Proof.
  intros OK H. apply incremental_inv in H. destruct H as [(e & _ & N & _)|(from & uri & l & last & M & U & F & S & R & HW & L & CC & H)]; [left; exact N|].
  apply apply_change_list_inv in H. destruct H as [(e & _ & ->)|(kept & n & todo & PB & PD & K & H)]; [left; repeat split|].
  set (changes := d_items (l_doc l)) in *.
  assert (forall r, In r todo -> In r changes) as IN.
  { intros r I. rewrite PD in I. apply prune_dupes_in in I. apply prune_before_in in PB. destruct PB as [-> _]. apply filter_In in I. apply I. }
  destruct (nothing_to_do todo || only_deletions todo && negb allow).
  { destruct H as [-> _]. left. repeat split. }
  right. exists uri, changes. split; [apply (read_changes _ _ _ _ _ S R)|].
  destruct H as (w1 & y & A & H). apply apply_changes_effect in A; [|apply OK|apply OK].
  destruct A as (O & _ & (gl & G1 & G2) & RM & DR & _).
  assert (run_effect E c allow w w1 (changed_uri changes) (deleted_uri changes) (changed_uri changes)) as RE.
  { split.
    - intros q Ch. apply (only_at_changed _ _ _ (logged (first_status todo) (with_last last w)) _ _ O) in Ch.
      destruct Ch as (r & I & Tg). exists (r_uri r). split; [apply in_map; auto|exact Tg].
    - apply (oa_dir _ _ _ _ O).
    - intros q Rq. apply RM in Rq. destruct Rq as (Q1 & Q2 & r & I & D & Tg). split; [exact Q1|]. split; [exact Q2|].
      exists (r_uri r). split; [exists r; auto|exact Tg].
    - exists gl. split; [exact G1|]. intros u I. apply G2 in I. destruct I as (r & I & _ & ->). apply in_map; auto.
    - intros D. destruct (DR D) as (Q1 & _ & Q2). auto.
    - intros _. apply (oa_tree _ _ _ _ O); apply OK. }
  destruct H as [(e & _ & -> & _)|(nc & nu & nd & _ & St)]; [exact RE|].
  apply store_if_any_effect in St. destruct St as (S1 & S2 & _). cbn in S1, S2.
  apply (run_effect_same _ _ _ w w w1 _); auto.
Qed.

(** ** Authority *)

Lemma check_authority_all over rs : check_authority over rs = Ok tt -> forall r, In r rs -> over (r_uri r) = Ok true.
Proof.
  induction rs as [|r rs IH]; cbn [check_authority]; [intros _ ? []|]. destruct (over (r_uri r)) as [[]|] eqn:O; cbn [bind]; try discriminate.
  intros H x [<-|I]; auto.
Qed.

Lemma baseline_authority E c allow audit w w' x sm u : c_noauth c = false -> sitemap c = Ok sm -> listed E c u ->
  authority_over (c_strictauth c) sm u <> Ok true -> baseline_or_audit E c allow audit w = (w', x) ->
  no_effect w w' /\ (audit = false -> x = Ok tt -> exists s, w_log w' = w_log w ++ [Logged s] /\ st_word s = $"IN SYNC").
Proof.
  intros NA SM (src0 & F0 & I0) AU H. apply baseline_inv in H.
  destruct H as [(e & -> & N & _)|(src & dst & cmp & M & U & F & NE & S & C & H)]; [split; [exact N|discriminate]|].
  assert (src0 = src) as -> by congruence. pose proof (after_report_same src cmp w) as [N0 L0].
  destruct (audit || (differences cmp =? 0)) eqn:AD.
  - destruct H as [-> ->]. split; [exact N0|]. intros -> _. cbn [orb] in AD. unfold after_report.
    eexists. split; [cbn; unfold pruned_world; destruct (w_hashes w); reflexivity|]. cbn.
    unfold status_of. rewrite AD. reflexivity.
  - apply synchronize_inv in H. destruct H as [(e & _ & -> & ->)|(A & _)]; [split; [exact N0|discriminate]|]. exfalso.
    unfold authority_ok in A. rewrite NA, SM in A. cbn [bind] in A. unfold authority_over in AU.
    destruct (make_authority (Some sm) (c_strictauth c)) as [a|e]; cbn [bind] in A; [|discriminate].
    assert (list_ok src) as [WS _] by (apply (find_resource_list_ok _ _ _ F)).
    apply in_map_iff in I0. destruct I0 as ([u' r] & <- & I). cbn [fst] in *.
    destruct WS as [ND K]. pose proof (K _ _ I) as <-. apply AU. cbn [bind].
    apply (check_authority_all _ _ A r). apply iter_in; [split; assumption|]. apply in_sget; assumption.
Qed.

Lemma incremental_authority E c allow clu from_dt w w' x uri changes sm r : c_noauth c = false -> ~ explicit_uri clu ->
  changes_read E c clu uri changes -> sitemap c = Ok sm -> In r changes ->
  authority_over (c_strictauth c) uri (r_uri r) <> Ok true -> authority_over false sm (r_uri r) <> Ok true ->
  incremental E c allow clu from_dt w = (w', x) -> no_effect w w' /\ exists e, x = Err e.
Proof.
  intros NA NX (S0 & l0 & R0 & ->) SM I A1 A2 H. apply incremental_inv in H.
  destruct H as [(e & -> & N & _)|(from & uri' & l & last & M & U & F & S & R & HW & L & CC & H)]; [split; [exact N|eauto]|]. exfalso.
  fold (change_list_name c clu) in S0. assert (uri' = uri) as -> by congruence.
  unfold read_change_list in R. rewrite R0 in R. cbn [wrapped] in R. injection R as <-.
  assert (is_explicit clu = false) as X by (destruct clu as [[|]|]; try reflexivity; elim NX; constructor).
  unfold check_changes in CC. rewrite NA, X, SM in CC. cbn [bind] in CC.
  unfold authority_over in A1, A2. destruct (make_authority (Some uri) (c_strictauth c)) as [a|e]; cbn [bind] in *; [|discriminate].
  destruct (make_authority (Some sm) false) as [b|e]; cbn [bind] in *; [|discriminate].
  apply (check_authority_all _ _ CC) in I. destruct (has_authority_over a (r_uri r)) as [[]|]; cbn [bind] in *; try discriminate; congruence.
Qed.
