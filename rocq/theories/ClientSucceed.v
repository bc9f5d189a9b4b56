(** * ClientSucceed: baseline synchronizations that succeed *)

From Verif Require Import Py PyFacts Float64 Float64Facts W3C W3CSpec W3CFacts W3CRound FileTime PathSpec OsPath OsPathFacts UrlFacts Regex RegexFacts UrlAuthority Mapper MapperSpec MapperFacts MapperFacts2
  Resource ResourceSpec Container ContainerSpec ContainerFacts Capability Xml Sitemap Hashes ListIndex ClientState Disk DiskSpec DiskFacts DiskChange
  Builder BuilderSpec BuilderFacts Client ClientSpec ClientLists ClientFacts ClientRuns ClientInc ClientCompare ClientPlaces ClientProps
  ClientDownload ClientChanges ClientThms ClientSync ClientReport ClientStatus ClientDirs ConvergeSpec ClientConverge SucceedSpec.

(** ** Times that can be shown *)

Lemma shown t : 0 < t -> before_10000 t -> exists s, datetime_to_str false t = Ok s.
Proof.
  intros P B. unfold before_10000 in B. pose proof SEC_pos as SP. pose proof nudge_bound as NB. pose proof U_pos as UP. pose proof SEC_U as SU.
  unfold datetime_to_str. set (g := rounding_nudge) in *.
  assert (0 < fadd t g /\ fadd t g <= 253402300798 * SEC + SEC / 2) as [X1 X2].
  { unfold fadd. change (2 ^ 31) with 2147483648 in NB. change (2 ^ 54) with 18014398509481984 in SU.
    assert (0 <= g) as G0 by (subst g; vm_compute; discriminate).
    pose proof (rnd_ge_pow2 (t + g) 0 ltac:(lia)) as L. change (2 ^ 0) with 1 in L.
    assert (2 * Z.abs (rnd (t + g) 1 - (t + g)) <= 2 ^ (1020 + 39)) as X.
    { apply rnd_err; [lia|]. replace (1020 + 39 + 53) with (1020 + 92) by lia. rewrite pow_U by lia.
      change (2 ^ 92) with (274877906944 * 18014398509481984). rewrite Z.abs_eq by lia. lia. }
    rewrite pow_U in X by lia. change (2 ^ 39) with 549755813888 in X.
    split; [lia|]. assert (SEC / 2 = 9007199254740992 * U) as -> by (rewrite SU, Z.mul_comm; symmetry; apply Z.div_unique_exact; lia). lia. }
  destruct (split_timestamp (fadd t g)) as [s us] eqn:E. destruct (split_range (fadd t g) ltac:(lia) s us E) as [_ R].
  assert (0 <= Z.quot (fadd t g) SEC <= 253402300798) as Q.
  { rewrite Z.quot_div_nonneg by lia. split; [apply Z.div_pos; lia|]. apply Z.lt_succ_r. apply Z.div_lt_upper_bound; [lia|].
    assert (SEC / 2 < SEC) by (apply Z.div_lt; lia). lia. }
  unfold isoformat. assert ((1 <=? s / 86400 + EPOCH_ORD) && (s / 86400 + EPOCH_ORD <=? 3652059) = true) as ->.
  { apply andb_true_intro. assert (-1 <= s / 86400 <= 2932896) as D.
    { split; [apply Z.div_le_lower_bound; lia|]. apply Z.lt_succ_r. apply Z.div_lt_upper_bound; lia. }
    unfold EPOCH_ORD. split; apply Z.leb_le; lia. }
  destruct (ord2ymd _) as [[y m] d]. eexists. reflexivity.
Qed.

(** ** Directories of files *)

Definition below_dir (d : str) (l : list str) : str := match l with [] => d | _ => d ++ $"/" ++ rel_path l end.
Lemma not_slash_end s : no_end_slash s -> s <> [] -> exists t c, s = t ++ [c] /\ c <> "/"%char.
Proof.
  intros N M. destruct (exists_last M) as (t & c & ->). exists t, c. split; [reflexivity|]. intros ->. apply (N t). reflexivity.
Qed.
Lemma below_dir_end d l : no_end_slash d -> d <> [] -> Forall file_name l -> exists t c, below_dir d l = t ++ [c] /\ c <> "/"%char.
Proof.
  intros N M F. destruct l as [|x l]; [apply not_slash_end; auto|]. unfold below_dir.
  destruct (names_last (x :: l) F ltac:(discriminate)) as (s & c & -> & C). exists (d ++ $"/" ++ s), c. split; [now rewrite <- !app_assoc|exact C].
Qed.
Lemma dirname_below d l x : no_end_slash d -> d <> [] -> Forall file_name (l ++ [x]) ->
  os_dirname (d ++ $"/" ++ rel_path (l ++ [x])) = below_dir d l.
Proof.
  intros N M F. apply Forall_app in F. destruct F as [F G]. inversion G as [|? ? (_ & _ & _ & S) _]; subst.
  destruct (below_dir_end d l N M F) as (t & c & B & C).
  assert (d ++ $"/" ++ rel_path (l ++ [x]) = below_dir d l ++ "/"%char :: x) as ->.
  { unfold below_dir. destruct l as [|y l]; [reflexivity|]. rewrite rel_path_app by discriminate. rewrite <- !app_assoc. reflexivity. }
  rewrite (dirname_split _ (below_dir d l) x eq_refl S). rewrite B. replace ((t ++ [c]) ++ $"/") with (t ++ [c; "/"%char]) at 1 by (rewrite <- app_assoc; reflexivity).
  rewrite (not_all_slash t c C). apply (rstrip_slash t c 1 C).
Qed.
Lemma denotes_below_dir cwd d l : d <> [] -> Forall file_name l -> denotes cwd (below_dir d l) = denotes cwd d ++ l.
Proof. intros N F. destruct l as [|x l]; [now rewrite app_nil_r|]. unfold below_dir. apply denotes_below; auto. Qed.

(** ** Files that can be written *)

Lemma put_total m x : forall dir n, dir_at n dir -> exists n', put (dir ++ [x]) m n = Some n'.
Proof.
  induction dir as [|y dir IH]; intros n [es H]; cbn in H.
  - injection H as ->. cbn. eauto.
  - destruct n as [|es'| |]; try discriminate. destruct (sget y es') as [k|] eqn:G; [|discriminate].
    destruct (IH k (ex_intro _ es H)) as (k' & K). cbn [app put]. destruct (dir ++ [x]) as [|z l] eqn:A; [destruct dir; discriminate|].
    rewrite G, K. eauto.
Qed.
Lemma writable cwd root d l x : no_end_slash d -> d <> [] -> Forall file_name (l ++ [x]) -> dir_at root [] ->
  (forall p y rest, denotes cwd d ++ l ++ [x] = p ++ y :: rest -> leaf_at root p = None) ->
  ~ dir_at root (denotes cwd d ++ l ++ [x]) -> (forall n, leaf_at root (denotes cwd d ++ l ++ [x]) = Some n -> exists b t, n = File b t) ->
  exists root1 root2, mkpath cwd root (os_dirname (d ++ $"/" ++ rel_path (l ++ [x]))) = Ok root1
    /\ write_file cwd root1 (d ++ $"/" ++ rel_path (l ++ [x])) [] 0 = Ok root2.
Proof.
  intros N M F RD LP ND LF. rewrite dirname_below by auto. pose proof F as F'. apply Forall_app in F'. destruct F' as [Fl _].
  assert (below_dir d l <> []) as BN by (unfold below_dir; destruct l; [exact M|destruct d; discriminate]).
  assert (resolve cwd (below_dir d l) = denotes cwd d ++ l) as RB by (rewrite resolve_denotes; apply denotes_below_dir; auto).
  destruct (make_dirs_total (denotes cwd d ++ l) root RD) as (root1 & MD).
  { intros q r H. apply (LP q (hd x (r ++ [x])) (tl (r ++ [x]))). rewrite app_assoc, H, <- app_assoc. f_equal. destruct r; reflexivity. }
  assert (mkpath cwd root (below_dir d l) = Ok root1) as MK.
  { unfold mkpath. destruct (below_dir d l) as [|a b] eqn:B; [congruence|]. rewrite RB, MD. reflexivity. }
  exists root1. apply mkpath_ok in MK as MO. destruct MO as (M1 & M2 & M3 & _).
  assert (resolve cwd (d ++ $"/" ++ rel_path (l ++ [x])) = denotes cwd d ++ l ++ [x]) as RP.
  { rewrite resolve_denotes. apply denotes_below; auto. }
  assert (dir_at root1 (denotes cwd d ++ l)) as D1 by (apply (M3 BN); right; exists []; now rewrite app_nil_r).
  destruct (put_total (File [] 0) x (denotes cwd d ++ l) root1 D1) as (root2 & P). rewrite <- app_assoc in P.
  exists root2. split; [exact MK|]. unfold write_file. rewrite means_dir_below by (auto; destruct l; discriminate). rewrite RP, P.
  assert (~ dir_at root1 (denotes cwd d ++ l ++ [x])) as ND1.
  { intros D. apply (M3 BN) in D. destruct D as [D|(r & D)]; [auto|]. rewrite RB, <- !app_assoc in D.
    apply (f_equal (@List.length str)) in D. rewrite !app_length in D. cbn in D. lia. }
  specialize (M1 (denotes cwd d ++ l ++ [x])). unfold leaf_at in M1, LF.
  destruct (lookup (denotes cwd d ++ l ++ [x]) root1) as [[b t|es|to|t]|] eqn:K; try reflexivity.
  - destruct ND1. exists es. exact K.
  - destruct (LF (Link to)) as (b & t & X); [|discriminate]. destruct (lookup _ root) as [[]|]; try discriminate; symmetry; exact M1.
  - destruct (LF (Special t)) as (b & t' & X); [|discriminate]. destruct (lookup _ root) as [[]|]; try discriminate; symmetry; exact M1.
Qed.

(** ** A run *)

Section Succeed.
Variables (E : env) (c : client) (w0 : world).
Hypothesis FV : favourable E c w0.
Hypothesis DR : c_dryrun c = false.

Definition roomy (w : world) : Prop :=
  dir_at (w_root w) [] /\ forall u q, listed E c u -> place_of E c u q ->
    ~ dir_at (w_root w) q
    /\ (forall n, leaf_at (w_root w) q = Some n -> exists d t, n = File d t)
    /\ (forall p x rest, q = p ++ x :: rest -> leaf_at (w_root w) p = None).

Lemma update_goes w r : roomy w -> listed E c (r_uri r) ->
  exists p w', src_to_dst (c_mapper c) (r_uri r) = Ok p /\ update_resource E c r p w = (w', Ok 1) /\ roomy w'.
Proof.
  intros [RD RM] L. destruct (fv_sync _ _ _ FV) as [SW SN SA SF SL].
  destruct (base_place E c w0 (fv_sync _ _ _ FV) _ (SL _ L)) as (m & rel & Im & N & F & _ & U & SD & _ & DN).
  exists (dst_path m ++ $"/" ++ rel_path rel). destruct (exists_last N) as (l & x & ->).
  destruct (SF m Im) as [NE _]. destruct (proj1 (proj1 SA) m Im) as (_ & _ & _ & _ & NS).
  set (fn := dst_path m ++ $"/" ++ rel_path (l ++ [x])) in *. set (q0 := denotes (e_cwd E) (dst_path m) ++ l ++ [x]) in *.
  assert (place_of E c (r_uri r) q0) as P0 by (exists fn; auto).
  assert (can_write E w fn) as CW.
  { destruct (RM _ _ L P0) as (A & B & C). destruct (writable (e_cwd E) (w_root w) (dst_path m) l x NS NE F RD C A B) as (r1 & r2 & X). exists r1, r2. exact X. }
  destruct (update_resource E c r fn w) as [w' y] eqn:UR. exists w'.
  assert (0 < c_tries c)%nat as TR by (destruct (fv_get _ _ _ FV _ L O) as (j & d & J & _); lia).
  destruct (update_exact E c r fn w w' y DR TR CW UR) as (k & o & K & G & TO & O & LT & R).
  assert (y = Ok 1) as ->.
  { destruct (fv_get _ _ _ FV _ L (List.length (w_gets w))) as (j & d & J & GD & JT).
    assert (k - 1 = j)%nat as KJ.
    { destruct (Nat.lt_trichotomy (k - 1) j) as [Lt|[Eq|Gt]]; [|exact Eq|].
      - rewrite O in LT. specialize (LT (JT (k - 1)%nat Lt)). lia.
      - specialize (TO j ltac:(lia)). rewrite GD in TO. destruct TO as [TO|(? & TO)]; discriminate. }
    rewrite KJ, GD in O. subst o. exact R. }
  split; [exact SD|]. split; [reflexivity|].
  pose proof (update_effect _ _ _ _ _ _ _ UR) as (OA & _). pose proof (update_dirs _ _ _ _ _ _ _ UR) as UD. pose proof (update_content _ _ _ _ _ _ _ UR) as UC. cbv zeta in UC.
  assert (resolve (e_cwd E) fn = q0) as RF by (rewrite resolve_denotes; exact DN).
  assert (forall q, q <> q0 -> leaf_at (w_root w') q = leaf_at (w_root w) q) as LS.
  { intros q NQ. apply (oa_leaf _ _ _ _ OA). unfold is_at. rewrite RF. exact NQ. }
  split; [apply (oa_dir _ _ _ _ OA), RD|]. intros u q Lu Pu. destruct (RM u q Lu Pu) as (A & B & C). split; [|split].
  - intros D. apply UD in D. destruct D as [D|[_ (rest & D)]]; [auto|]. unfold fn in D. rewrite dirname_below, denotes_below_dir in D by (auto; apply Forall_app in F; apply F).
    destruct (fv_room _ _ _ FV u q Lu Pu) as (_ & _ & _ & X). apply (X (r_uri r) (hd x (rest ++ [x])) (tl (rest ++ [x])) L).
    replace (hd x (rest ++ [x]) :: tl (rest ++ [x])) with (rest ++ [x]) by (destruct rest; reflexivity).
    rewrite app_assoc, <- D, <- app_assoc. exact P0.
  - intros n Ln. destruct (path_eq_dec q q0) as [->|NQ]; [|rewrite (LS q NQ) in Ln; auto].
    rewrite DN in UC.
    destruct UC as [UC|(d & t & UC & _)]; [rewrite UC in Ln; auto|]. rewrite UC in Ln. injection Ln as <-. eauto.
  - intros p y rest Q. destruct (path_eq_dec p q0) as [->|NP]; [|rewrite (LS p NP); eauto].
    destruct (fv_room _ _ _ FV (r_uri r) q0 L P0) as (_ & _ & _ & X). destruct (X u y rest Lu). rewrite <- Q. exact Pu.
Qed.
Lemma updates_go rs : forall w, roomy w -> (forall r, In r rs -> listed E c (r_uri r)) ->
  exists w' n, for_each c (update_resource E c) rs w = (w', Ok n) /\ roomy w'.
Proof.
  induction rs as [|r rs IH]; intros w RM L; cbn [for_each]; [exists w, 0; split; [reflexivity|exact RM]|].
  destruct (update_goes w r RM (L r (or_introl eq_refl))) as (p & w1 & SD & UR & RM1).
  destruct (IH w1 RM1 (fun r' I => L r' (or_intror I))) as (w2 & n & FE & RM2).
  exists w2, (1 + n). split; [|exact RM2]. unfold andthen, lift. rewrite SD, UR, FE. reflexivity.
Qed.
Lemma deletes_go allow rs : forall w, (forall r, In r rs -> exists p, src_to_dst (c_mapper c) (r_uri r) = Ok p) ->
  exists w' n, for_each c (delete_resource E c allow) rs w = (w', Ok n).
Proof.
  induction rs as [|r rs IH]; intros w L; cbn [for_each]; [exists w, 0; reflexivity|].
  destruct (L r (or_introl eq_refl)) as (p & SD).
  assert (exists w1 k, delete_resource E c allow r p w = (w1, Ok k)) as (w1 & k & DL).
  { unfold delete_resource, andthen, modify. destruct (allow && negb (c_dryrun c)); [|do 2 eexists; reflexivity].
    destruct (unlink _ _ _); do 2 eexists; reflexivity. }
  destruct (IH w1 (fun r' I => L r' (or_intror I))) as (w2 & n & FE).
  exists w2, (k + n). unfold andthen, lift. rewrite SD, DL, FE. reflexivity.
Qed.

Lemma some_mapping : c_mapper c <> [].
Proof. destruct (fv_listed _ _ _ FV) as (u & L). apply (sy_listed _ _ _ (fv_sync _ _ _ FV)) in L. destruct L as (m & rel & I & _). intros X. rewrite X in I. destruct I. Qed.
Lemma sitemap_total : exists sm, sitemap c = Ok sm.
Proof.
  pose proof some_mapping as M. unfold sitemap, sitemap_uri. destruct (c_sitemap_name c) as [s|]; [eauto|].
  destruct (re_match _ _); [eauto|]. destruct (startswith _ _); [eauto|]. destruct (c_mapper c); [congruence|]. cbn. eauto.
Qed.
Lemma authority_passes src : find_resource_list (e_fetch E) c = Ok src -> authority_ok c src = Ok tt.
Proof.
  intros F. assert (list_ok src) as [WS _] by (apply (find_resource_list_ok _ _ _ F)).
  unfold authority_ok. destruct (fv_auth _ _ _ FV) as [->|(sm & -> & A)]; [reflexivity|]. destruct (c_noauth c); [reflexivity|]. cbn [bind].
  assert (forall u, listed E c u -> authority_over (c_strictauth c) sm u = Ok true) as A' by exact A. unfold authority_over in A'.
  destruct (fv_listed _ _ _ FV) as (u0 & L0). destruct (make_authority (Some sm) (c_strictauth c)) as [a|e]; [|discriminate (A' u0 L0)].
  cbn [bind] in *. assert (forall r, In r (rl_iter src) -> has_authority_over a (r_uri r) = Ok true) as H.
  { intros r I. apply A'. exists src. split; [exact F|]. apply (iter_in _ _ WS) in I. apply sget_in in I. apply (in_map fst) in I. exact I. }
  clear -H. induction (rl_iter src) as [|r rs IH]; [reflexivity|]. cbn [check_authority]. rewrite (H r (or_introl eq_refl)). cbn. apply IH. intros r' I. apply H. right. exact I.
Qed.

Theorem baseline_succeeds allow : exists w', baseline_or_audit E c allow false w0 = (w', Ok tt).
Proof.
  pose proof (fv_sync _ _ _ FV) as SY. destruct (fv_hashes _ _ _ FV) as [HK HS]. pose proof some_mapping as M.
  destruct (fv_listed _ _ _ FV) as (u0 & src & F & I0).
  assert (src <> []) as NE by (intros ->; destruct I0).
  assert (w_root (pruned_world src w0) = w_root w0) as PR by (unfold pruned_world; destruct (w_hashes w0); reflexivity).
  assert (exists dst, scan E c (pruned_world src w0) = Ok dst) as (dst & S).
  { unfold scan. rewrite PR. destruct (scan_succeeds (e_digests E) (c_mapper c) (w_hashes (pruned_world src w0)) true false [] _ (client_scanner _ _ _ _)) with (cwd := e_cwd E) (root := w_root w0) as (dst & S & _).
    - intros h I. apply HK. apply pruned_hashes in I. apply I.
    - apply SY.
    - apply SY.
    - apply SY.
    - destruct HS as [Z|Z]; [left|right; exact Z]. unfold pruned_world. rewrite Z. exact Z.
    - intros m I. destruct (sy_free _ _ _ SY m I) as [N L]. unfold lstat, leaf_at in *. rewrite resolve_denotes.
      destruct (dst_path m); [congruence|]. destruct (lookup _ (w_root w0)) as [[]|]; try discriminate; [left; eauto|right; reflexivity].
    - exists dst. exact S. }
  assert (list_ok src) as [WS _] by (apply (find_resource_list_ok _ _ _ F)).
  assert (tree_ok (w_root w0)) as T by apply SY. assert (Forall file_name (e_cwd E)) as FN by apply SY.
  assert (tree_ok (w_root (pruned_world src w0))) as TP by (rewrite PR; exact T).
  destruct (scan_is _ _ _ _ TP S) as [WD SI].
  destruct (compare_spec 0 1 dst src ltac:(lia) WD WS) as (cmp & C & _).
  pose proof (compare_work E c w0 src dst cmp T F S C) as WK.
  destruct (compare_parts _ _ _ WD WS C) as (_ & _ & _ & _ & IC & IU & ID & _).
  assert (forall u r, map_of src u = Some r -> source_entry E c u r /\ listed E c u) as SE.
  { intros u r X. apply sget_in in X. split; exists src; auto. split; [exact F|]. apply (in_map fst) in X. exact X. }
  assert (forall r, In r (rl_iter (created cmp)) \/ In r (rl_iter (updated cmp)) -> source_entry E c (r_uri r) r /\ listed E c (r_uri r)) as LT.
  { intros r [I|I]; apply SE; [apply IC in I|apply IU in I]; apply I. }
  assert (forall r, In r (rl_iter (deleted cmp)) -> exists n, local_node E c w0 (r_uri r) n /\ r_timestamp r = mtime_of n) as LD.
  { intros r I. apply ID in I. destruct I as [I _]. apply sget_in in I. apply SI in I. destruct I as (s & rel & file & n & Is & FA & DS & R).
    rewrite PR in FA. apply in_map_iff in Is. destruct Is as (m & <- & Im). exists n. split; [exists m, rel, file; auto|]. rewrite R. reflexivity. }
  pose proof (after_report_same src cmp w0) as [(N0 & N1 & _) _].
  set (wr := with_last 0 (after_report src cmp w0)).
  assert (roomy wr) as RM.
  { change (w_root (after_report src cmp w0) = w_root w0) in N0. split.
    - change (dir_at (w_root (after_report src cmp w0)) []). rewrite N0. apply SY.
    - intros u q L P. change (w_root wr) with (w_root (after_report src cmp w0)). rewrite N0. destruct (fv_room _ _ _ FV u q L P) as (A & B & D & _). auto. }
  destruct (updates_go (rl_iter (created cmp)) wr RM) as (w1 & nc & U1 & RM1); [intros r I; apply LT; auto|].
  destruct (updates_go (rl_iter (updated cmp)) w1 RM1) as (w2 & nu & U2 & RM2); [intros r I; apply LT; auto|].
  destruct (deletes_go allow (rl_iter (deleted cmp)) w2) as (w3 & nd & U3).
  { intros r I. destruct (LD r I) as (n & LN & _). destruct (node_base E c w0 SY w0 _ n (sy_world _ _ _ SY) (proj1 (sy_names _ _ _ SY)) (sy_free _ _ _ SY) LN) as (_ & _ & q & (p & SD & _) & _). eauto. }
  assert (transfers E c allow cmp wr = (w3, Ok (nc, nu, nd))) as TR by (unfold transfers, andthen; rewrite U1, U2, U3; reflexivity).
  assert (exists w4, store_if_any E c w3 = (w4, Ok tt)) as (w4 & ST).
  { unfold store_if_any. destruct (0 <? w_last w3) eqn:L; [|eauto]. apply Z.ltb_lt in L.
    assert (tree_ok (w_root wr)) as TW by (change (tree_ok (w_root (after_report src cmp w0))); rewrite N0; exact T).
    destruct (transfers_effect E c allow cmp wr w3 _ TW FN TR) as (OA & _ & _ & _ & _ & LL & _).
    assert (before_10000 (w_last w3)) as B.
    { destruct (fv_dates _ _ _ FV) as [D1 D2]. destruct LL as [LL|(r & I & LL)]; [exfalso; rewrite LL in L; revert L; change (w_last wr) with 0; lia|].
      rewrite !in_app_iff in I. destruct I as [I|[I|I]].
      - apply (D1 (r_uri r) r); [apply LT; auto|exact LL].
      - apply (D1 (r_uri r) r); [apply LT; auto|exact LL].
      - destruct (LD r I) as (n & LN & RT). apply (D2 (r_uri r) n); [exact LN|congruence]. }
    destruct (shown (w_last w3) L B) as (s & SH). destruct sitemap_total as (sm & SM).
    assert (w_state w3 = w_state w0) as WS3 by (rewrite (oa_state _ _ _ _ OA); exact N1).
    destruct (fv_memory _ _ _ FV) as (i & MI).
    unfold store_last, andthen, lift. rewrite SM. unfold set_state, state_text. rewrite WS3, MI. cbn [bind]. cbn [w_last with_state]. rewrite SH. eauto. }
  assert (exists w', synchronize E c allow src cmp (after_report src cmp w0) = (w', Ok tt)) as (w' & SYN).
  { unfold synchronize. unfold andthen at 1. unfold lift at 1. fold (authority_ok c src). rewrite (authority_passes src F).
    unfold andthen at 1. unfold modify. fold wr. unfold andthen at 1. rewrite U1. unfold andthen at 1. rewrite U2. unfold andthen at 1. rewrite U3.
    unfold andthen. unfold store_if_any in ST. rewrite ST. rewrite log_status_is. eauto. }
  destruct (baseline_or_audit E c allow false w0) as [w5 y] eqn:RUN. exists w5. f_equal.
  revert RUN. unfold baseline_or_audit. destruct (c_mapper c) as [|m ms] eqn:CM; [congruence|]. unfold andthen at 1. unfold lift at 1.
  rewrite <- CM. rewrite (fv_safe _ _ _ FV). unfold andthen at 1. unfold lift at 1. rewrite F. destruct src as [|x src]; [congruence|].
  unfold andthen at 1. fold (pruned_world (x :: src) w0).
  replace (match w_hashes w0 with [] => (w0, Ok tt) | _ :: _ => prune_hashes (rl_hashes (x :: src)) w0 end) with (pruned_world (x :: src) w0, Ok tt)
    by (unfold pruned_world, prune_hashes, modify; destruct (w_hashes w0); reflexivity).
  unfold andthen at 1. rewrite S. unfold andthen at 1. unfold lift at 1. rewrite C.
  unfold andthen at 1. unfold after_report in SYN. fold (pruned_world (x :: src) w0) in SYN. unfold differences in SYN.
  destruct (log_status _ _ _ _ _ _ _ _ (pruned_world (x :: src) w0)) as [w6 z] eqn:LG.
  assert (z = Ok tt) as -> by (injection LG as _ <-; reflexivity). cbn [fst] in SYN.
  destruct (false || _); [intros [= _ <-]; reflexivity|]. rewrite SYN. intros [= _ <-]. reflexivity.
Qed.
End Succeed.
