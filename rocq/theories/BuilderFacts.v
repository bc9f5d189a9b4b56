(** * BuilderFacts: proofs about disk scans *)

From Verif Require Import Py PyFacts Regex PathSpec OsPath MapperSpec MapperFacts MapperFacts2 Mapper Resource Container ContainerFacts
  Hashes HashesFacts Disk DiskSpec DiskFacts Builder BuilderSpec.
From Coq Require Import Permutation.

Lemma mapM_in {A B} (f : A -> res B) l l' : mapM f l = Ok l' ->
  forall y, In y l' <-> exists x, In x l /\ f x = Ok y.
Proof.
  revert l'. induction l as [|a l IH]; cbn; intros l' H y.
  - injection H as <-. cbn. split; [tauto|intros (? & [] & _)].
  - destruct (f a) as [b|] eqn:F; [|discriminate]. destruct (mapM f l) as [bs|] eqn:M; [|discriminate].
    injection H as <-. cbn. rewrite (IH bs eq_refl). split.
    + intros [->|(x & I & E)]; [exists a|exists x]; auto.
    + intros (x & [->|I] & E); [left; congruence|right; exists x; auto].
Qed.

Lemma compile_exclude_ok pat r : compile_exclude pat = Ok r <-> compile pat = Ok r.
Proof. unfold compile_exclude. destruct (compile pat) as [x|[]]; split; congruence. Qed.

Lemma Forall2_in_l {A B} (R : A -> B -> Prop) l l' x : Forall2 R l l' -> In x l -> exists y, In y l' /\ R x y.
Proof.
  induction 1 as [|a c l l' H F IH]; cbn; [tauto|]. intros [->|I]; [eauto|]. destruct (IH I) as (y & I' & R'). eauto.
Qed.
Lemma Forall2_in_r {A B} (R : A -> B -> Prop) l l' y : Forall2 R l l' -> In y l' -> exists x, In x l /\ R x y.
Proof.
  induction 1 as [|a c l l' H F IH]; cbn; [tauto|]. intros [->|I]; [eauto|]. destruct (IH I) as (x & I' & R'). eauto.
Qed.

Section Scan.
Variables (D : digests) (ms : mapper) (hashes : list str) (len path : bool) (pats : list str) (b : builder).
Hypothesis B : scanner ms hashes len path pats = Ok b.

Lemma builder_is : exists rs, mapM compile_exclude pats = Ok rs
  /\ b = MkBuilder (Some ms) hashes len path rs false.
Proof.
  unfold scanner, add_exclude_patterns in B. destruct (mapM compile_exclude pats) as [rs|]; [|discriminate].
  injection B as <-. exists rs. auto.
Qed.

Lemma excluded_is name : excluded b name = true <-> excluded_by pats name.
Proof.
  destruct builder_is as (rs & M & E). unfold excluded, excluded_by. rewrite existsb_exists.
  rewrite E. cbn [b_exclude]. split.
  - intros (r & I & H). apply (mapM_in _ _ _ M) in I. destruct I as (pat & I & C).
    destruct (re_match r name) as [g|] eqn:G; [|discriminate]. exists pat, r, g.
    rewrite <- compile_exclude_ok. auto.
  - intros (pat & r & g & I & C & G). exists r. split; [|rewrite G; reflexivity].
    apply (mapM_in _ _ _ M). exists pat. rewrite compile_exclude_ok. auto.
Qed.
Lemma not_excluded_is name : excluded b name = false <-> ~ excluded_by pats name.
Proof. rewrite <- excluded_is. destruct (excluded b name); split; congruence. Qed.

Lemma add_file_ok name file entry rl rl' : add_file D b ms name file entry rl = Ok rl' ->
  (rl' = rl /\ forall n, entry = Some n -> is_file n -> excluded_by pats name)
  \/ (exists n u, entry = Some n /\ is_file n /\ ~ excluded_by pats name /\ dst_to_src ms file = Ok u
      /\ ~ In u (map fst rl) /\ rl' = rl ++ [(u, described D hashes len path u file n)]).
Proof.
  unfold add_file. destruct (excluded b name) eqn:X.
  { intros H. injection H as <-. left. split; [reflexivity|]. intros. apply excluded_is. exact X. }
  apply not_excluded_is in X. destruct builder_is as (rs & _ & E).
  intros H. destruct entry as [n|].
  2:{ left. destruct (dst_to_src ms file); [|discriminate]. injection H as <-. split; [reflexivity|congruence]. }
  destruct n as [d m|es|t|m].
  - right. destruct (dst_to_src ms file) as [u|] eqn:U; [|discriminate].
    exists (File d m), u. split; [reflexivity|]. split; [left; eauto|]. split; [exact X|]. split; [reflexivity|].
    cbn [bind] in H. rewrite E in H. cbn [b_path b_hashes b_length] in H.
    match goal with H : (let* r := ?a in _) = _ |- _ => destruct a as [r|] eqn:R; [|discriminate] end.
    cbn [bind] in H. unfold rl_add in H.
    assert (RE : (if len then set_length (Some (Z.of_nat (List.length d))) r else r)
                 = described D hashes len path u file (File d m)).
    { destruct hashes as [|h0 hs] eqn:Hh.
      - injection R as <-. destruct len, path; reflexivity.
      - destruct (new_hashes (h0 :: hs)) as [h|] eqn:N; [|discriminate]. injection R as <-.
        rewrite (hash_set_resource D _ h HASH_BLOCK d _ N); [|discriminate].
        unfold described. cbn [data_of mtime_of]. destruct len, path; reflexivity. }
    rewrite RE in H. cbn [r_uri described] in H.
    change (r_uri (described D hashes len path u file (File d m))) with u in H.
    rewrite andb_true_r in H. destruct (smem u rl) eqn:Mm; [discriminate|]. injection H as <-.
    assert (~ In u (map fst rl)).
    { intros I. apply smem_In in I. congruence. }
    split; [auto|]. apply sset_fresh. assumption.
  - exfalso. destruct (dst_to_src ms file); discriminate.
  - left. destruct (b_links b); [discriminate|]. injection H as <-. split; [reflexivity|].
    intros n E' [(d & m & ->)|(m & ->)]; discriminate.
  - right. destruct (dst_to_src ms file) as [u|] eqn:U; [|discriminate].
    exists (Special m), u. split; [reflexivity|]. split; [right; eauto|]. split; [exact X|]. split; [reflexivity|].
    cbn [bind] in H. rewrite E in H. cbn [b_path b_hashes b_length] in H.
    match goal with H : (let* r := ?a in _) = _ |- _ => destruct a as [r|] eqn:R; [|discriminate] end.
    cbn [bind] in H. unfold rl_add in H.
    assert (RE : (if len then set_length (Some 0) r else r)
                 = described D hashes len path u file (Special m)).
    { destruct hashes as [|h0 hs] eqn:Hh.
      - injection R as <-. destruct len, path; reflexivity.
      - destruct (new_hashes (h0 :: hs)) as [h|] eqn:N; discriminate. }
    rewrite RE in H.
    change (r_uri (described D hashes len path u file (Special m))) with u in H.
    rewrite andb_true_r in H. destruct (smem u rl) eqn:Mm; [discriminate|]. injection H as <-.
    assert (~ In u (map fst rl)).
    { intros I. apply smem_In in I. congruence. }
    split; [auto|]. apply sset_fresh. assumption.
Qed.

(** The files to be described, in order. *)
Definition wanted (f : str * str * node) : bool :=
  match f with (_, name, n) => negb (excluded b name) && match n with File _ _ | Special _ => true | _ => false end end.
Lemma is_file_iff n : match n with File _ _ | Special _ => true | _ => false end = true <-> is_file n.
Proof.
  split.
  - destruct n; try discriminate; intros _; [left|right]; eauto.
  - intros [(d & m & ->)|(m & ->)]; reflexivity.
Qed.
Lemma wanted_iff d x n : wanted (d, x, n) = true <-> ~ excluded_by pats x /\ is_file n.
Proof. cbn. rewrite andb_true_iff, negb_true_iff, not_excluded_is, is_file_iff. reflexivity. Qed.

Definition entry_of (f : str * node) (e : str * resource) : Prop :=
  dst_to_src ms (fst f) = Ok (fst e) /\ snd e = described D hashes len path (fst e) (fst f) (snd f).
Definition path_node (f : str * str * node) : str * node :=
  match f with (d, x, n) => (os_join d x, n) end.

Lemma add_files_ok fs : forall rl rl', add_files D b ms fs rl = Ok rl' -> NoDup (map fst rl) ->
  NoDup (map fst rl') /\ exists new, rl' = rl ++ new /\ Forall2 entry_of (map path_node (filter wanted fs)) new.
Proof.
  induction fs as [|[[d x] n] fs IH]; intros rl rl' H N.
  - cbn in H. injection H as <-. split; [auto|]. exists []. rewrite app_nil_r. split; [auto|constructor].
  - cbn [add_files] in H. destruct (add_file D b ms x (os_join d x) (Some n) rl) as [rl1|] eqn:A; [|discriminate].
    cbn [bind] in H. apply add_file_ok in A. cbn [filter].
    destruct A as [[-> A]|(n' & u & E & Fn & X & U & Nu & ->)].
    + destruct (wanted (d, x, n)) eqn:W; [|apply IH; auto].
      apply wanted_iff in W. destruct W as [X F]. elim X. apply (A n); auto.
    + injection E as <-. assert (W : wanted (d, x, n) = true) by (apply wanted_iff; auto). rewrite W.
      destruct (IH _ _ H) as (N' & new & -> & F2).
      * rewrite map_app. cbn. eapply Permutation_NoDup; [apply Permutation_cons_append|]. constructor; auto.
      * split; [auto|]. exists ((u, described D hashes len path u (os_join d x) n) :: new).
        rewrite <- app_assoc. split; [reflexivity|]. cbn. constructor; [|auto]. split; [exact U|reflexivity].
Qed.

Definition items (cwd : list str) (root : node) (start : str) : list (str * node) :=
  match lstat cwd root start with
  | Ok (Dir es) => map path_node (filter wanted (os_walk (excluded b) start (Dir es)))
  | Ok n => if wanted ([], start, n) then [(start, n)] else []
  | Err _ => []
  end.

Lemma add_path_ok cwd root start rl rl' : from_disk_add_path D b cwd root start rl = Ok rl' -> NoDup (map fst rl) ->
  NoDup (map fst rl') /\ exists new, rl' = rl ++ new /\ Forall2 entry_of (items cwd root start) new.
Proof.
  intros H N. destruct (builder_is) as (rs & _ & E). unfold from_disk_add_path in H.
  replace (b_mapper b) with (Some ms) in H by (rewrite E; reflexivity). unfold items.
  assert (Single : forall n, add_file D b ms start start (Some n) rl = Ok rl' ->
    NoDup (map fst rl') /\ exists new, rl' = rl ++ new
      /\ Forall2 entry_of (if wanted ([], start, n) then [(start, n)] else []) new).
  { intros n A. apply add_file_ok in A. destruct A as [[-> A]|(n' & u & E' & Fn & X & U & Nu & ->)].
    - split; [auto|]. exists []. rewrite app_nil_r. split; [auto|].
      destruct (wanted ([], start, n)) eqn:W; [|constructor].
      apply wanted_iff in W. destruct W as [X F]. elim X. apply (A n); auto.
    - injection E' as <-. assert (W : wanted ([], start, n) = true) by (apply wanted_iff; auto). rewrite W.
      split.
      + rewrite map_app. cbn. eapply Permutation_NoDup; [apply Permutation_cons_append|]. constructor; auto.
      + exists [(u, described D hashes len path u start n)]. split; [reflexivity|].
        constructor; [|constructor]. split; [exact U|reflexivity]. }
  destruct (lstat cwd root start) as [[d m|es|t|m]|e].
  - apply Single. exact H.
  - apply add_files_ok; auto.
  - destruct t; [discriminate|]. apply Single. exact H.
  - apply Single. exact H.
  - apply add_file_ok in H. destruct H as [[-> _]|(n' & u & E' & _)]; [|discriminate].
    split; [auto|]. exists []. rewrite app_nil_r. split; [auto|constructor].
Qed.

Lemma add_paths_ok cwd root starts : forall rl rl', from_disk_paths D b cwd root starts rl = Ok rl' -> NoDup (map fst rl) ->
  NoDup (map fst rl') /\ exists new, rl' = rl ++ new /\ Forall2 entry_of (flat_map (items cwd root) starts) new.
Proof.
  induction starts as [|p ps IH]; cbn; intros rl rl' H N.
  - injection H as <-. split; [auto|]. exists []. rewrite app_nil_r. split; [auto|constructor].
  - destruct (from_disk_add_path D b cwd root p rl) as [rl1|] eqn:A; [|discriminate]. cbn in H.
    destruct (add_path_ok _ _ _ _ _ A N) as (N1 & new1 & -> & F1).
    destruct (IH _ _ H N1) as (N2 & new2 & -> & F2). split; [auto|].
    exists (new1 ++ new2). rewrite app_assoc. split; [reflexivity|]. apply Forall2_app; auto.
Qed.

Lemma from_disk_ok cwd root paths rl : from_disk D b cwd root paths [] = Ok rl ->
  NoDup (map fst rl) /\ Forall2 entry_of (flat_map (items cwd root) (start_points ms paths)) rl.
Proof.
  intros H. destruct (builder_is) as (rs & _ & E). unfold from_disk in H.
  replace (b_mapper b) with (Some ms) in H by (rewrite E; reflexivity).
  assert (K : from_disk_paths D b cwd root (start_points ms paths) [] = Ok rl) by (destruct paths; exact H).
  apply add_paths_ok in K; [|constructor]. destruct K as (N & new & -> & F). auto.
Qed.

Lemma items_in cwd root start file n : tree_ok root ->
  (In (file, n) (items cwd root start) <-> exists rel, found_at pats cwd root start rel file n).
Proof.
  intros T. unfold items, found_at.
  assert (Single : forall k, (forall es, k <> Dir es) -> lstat cwd root start = Ok k ->
    (In (file, n) (if wanted ([], start, k) then [(start, k)] else []) <->
     exists rel, is_file n /\ match rel with
       | [] => Ok k = Ok n /\ file = start /\ ~ excluded_by pats start
       | _ :: _ => exists es, Ok k = Ok (Dir es) /\ lookup rel (Dir es) = Some n
           /\ file = below start rel /\ Forall (fun c => ~ excluded_by pats c) rel end)).
  { intros k K L. split.
    - destruct (wanted ([], start, k)) eqn:W; [|intros []]. intros [E|[]]. injection E as <- <-.
      apply wanted_iff in W. destruct W. exists []. auto.
    - intros ([|x rel] & F & H).
      + destruct H as (E & -> & X). injection E as ->.
        assert (W : wanted ([], start, n) = true) by (apply wanted_iff; auto). rewrite W. left. reflexivity.
      + destruct H as (es & E & _). injection E as ->. congruence. }
  destruct (lstat cwd root start) as [[d m|es|t|m]|e] eqn:L.
  1,3,4: apply Single; [discriminate|reflexivity].
  2:{ split; [intros []|]. intros ([|x rel] & _ & H); [destruct H; discriminate|]. destruct H as (es & ? & _). discriminate. }
  assert (Ne : start <> []) by (intros ->; discriminate).
  assert (Te : tree_ok (Dir es)).
  { unfold lstat in L. destruct start as [|c s]; [congruence|].
    destruct (lookup (resolve cwd (c :: s)) root) as [k|] eqn:Lk; [|discriminate].
    apply (tree_lookup _ _ _ T) in Lk.
    destruct k; try (injection L as <-; exact Lk); destruct (means_dir (c :: s)); discriminate. }
  split.
  - rewrite in_map_iff. intros ([[d x] k] & E & I). cbn in E. injection E as <- <-.
    apply filter_In in I. destruct I as [I W]. apply wanted_iff in W. destruct W as [X F].
    apply os_walk_in in I; auto. destruct I as (rel & es' & Lr & G & _ & Sk & ->).
    exists (rel ++ [x]). split; [auto|].
    assert (Lx : lookup (rel ++ [x]) (Dir es) = Some k).
    { rewrite lookup_app, Lr. cbn. rewrite G. reflexivity. }
    pose proof (lookup_names _ _ _ Te Lx) as Fn. apply Forall_app in Fn. destruct Fn as [Fr Fx].
    inversion Fx as [|? ? Fx' _]; subst.
    destruct (rel ++ [x]) eqn:E; [destruct rel; discriminate|]. rewrite <- E.
    exists es. rewrite walk_file_path; auto. repeat split; auto; [rewrite E; exact Lx|].
    apply Forall_app. split; [|constructor; auto].
    eapply Forall_impl; [|exact Sk]. intros c Hc. apply not_excluded_is. exact Hc.
  - intros (rel & F & H). destruct rel as [|y r0]; [destruct H as (E & _); injection E as <-; destruct F as [(? & ? & F)|(? & F)]; discriminate|].
    destruct (exists_last (l := y :: r0)) as (rel & x & E); [discriminate|]. rewrite E in H.
    destruct H as (es' & E' & Lx & -> & X). injection E' as <-.
    pose proof (lookup_names _ _ _ Te Lx) as Fn. apply Forall_app in Fn. destruct Fn as [Fr Fx].
    inversion Fx as [|? ? Fx' _]; subst. apply Forall_app in X. destruct X as [Xr Xx]. inversion Xx as [|? ? Xx' _]; subst.
    apply in_map_iff. exists (fold_left os_join rel start, x, n). split.
    + cbn. rewrite walk_file_path; auto.
    + apply filter_In. split; [|apply wanted_iff; auto]. apply os_walk_in; auto.
      rewrite lookup_app in Lx. destruct (lookup rel (Dir es)) as [k|] eqn:Lr; [|discriminate]. cbn in Lx.
      destruct k as [| es' | |]; try discriminate. destruct (sget x es') as [k|] eqn:G; [|discriminate].
      injection Lx as ->. exists rel, es'. repeat split; auto.
      * destruct F as [(? & ? & ->)|(? & ->)]; reflexivity.
      * eapply Forall_impl; [|exact Xr]. intros c Hc. apply not_excluded_is. exact Hc.
Qed.

Lemma scan_lists cwd root paths rl : tree_ok root -> from_disk D b cwd root paths [] = Ok rl ->
  NoDup (map fst rl) /\
  forall u r, In (u, r) rl <-> exists start rel file n, In start (start_points ms paths)
    /\ found_at pats cwd root start rel file n /\ dst_to_src ms file = Ok u
    /\ r = described D hashes len path u file n.
Proof.
  intros T H. apply from_disk_ok in H. destruct H as [N F]. split; [auto|]. intros u r. split.
  - intros I. destruct (Forall2_in_r _ _ _ _ F I) as ([file n] & I' & U & E). cbn in *.
    apply in_flat_map in I'. destruct I' as (start & Is & In_). apply items_in in In_; auto.
    destruct In_ as (rel & Fo). exists start, rel, file, n. auto.
  - intros (start & rel & file & n & Is & Fo & U & ->).
    assert (I : In (file, n) (flat_map (items cwd root) (start_points ms paths))).
    { apply in_flat_map. exists start. split; [auto|]. apply items_in; auto. exists rel. auto. }
    destruct (Forall2_in_l _ _ _ _ F I) as ([u' r'] & I' & U' & E). cbn in *.
    assert (u' = u) by congruence. subst u'. rewrite <- E. exact I'.
Qed.

Lemma scan_apart A1 A2 rl f1 f2 u : Forall2 entry_of (A1 ++ A2) rl -> NoDup (map fst rl) ->
  In f1 A1 -> In f2 A2 -> dst_to_src ms (fst f1) = Ok u -> dst_to_src ms (fst f2) = Ok u -> False.
Proof.
  intros F N I1 I2 U1 U2. apply Forall2_app_inv_l in F. destruct F as (l1 & l2 & F1 & F2 & ->).
  destruct (Forall2_in_l _ _ _ _ F1 I1) as ([u1 r1] & J1 & V1 & _).
  destruct (Forall2_in_l _ _ _ _ F2 I2) as ([u2 r2] & J2 & V2 & _). cbn in *.
  assert (u1 = u) by congruence. assert (u2 = u) by congruence. subst u1 u2.
  rewrite map_app in N. revert N J1 J2. clear. induction l1 as [|[a k] l1 IH]; cbn; [tauto|].
  intros N [E|J1] J2; inversion N as [|? ? X N']; subst.
  - injection E as -> ->. apply X. apply in_or_app. right. apply in_map_iff. exists (u, r2). auto.
  - apply IH; auto.
Qed.

Lemma scan_once cwd root paths rl : tree_ok root -> from_disk D b cwd root paths [] = Ok rl ->
  forall i j s t rel1 rel2 f1 f2 n1 n2 u,
  nth_error (start_points ms paths) i = Some s -> nth_error (start_points ms paths) j = Some t ->
  found_at pats cwd root s rel1 f1 n1 -> found_at pats cwd root t rel2 f2 n2 ->
  dst_to_src ms f1 = Ok u -> dst_to_src ms f2 = Ok u -> i = j /\ rel1 = rel2.
Proof.
  intros T H i j s t rel1 rel2 f1 f2 n1 n2 u. apply from_disk_ok in H. destruct H as [N F].
  assert (Wlog : forall i j s t rel1 rel2 f1 f2 n1 n2, (i < j)%nat ->
    nth_error (start_points ms paths) i = Some s -> nth_error (start_points ms paths) j = Some t ->
    found_at pats cwd root s rel1 f1 n1 -> found_at pats cwd root t rel2 f2 n2 ->
    dst_to_src ms f1 = Ok u -> dst_to_src ms f2 = Ok u -> False).
  { clear i j s t rel1 rel2 f1 f2 n1 n2. intros i j s t rel1 rel2 f1 f2 n1 n2 Lt Ni Nj Fo1 Fo2 U1 U2.
    destruct (nth_error_split _ _ Ni) as (a & c & E & La).
    rewrite E in F, Nj. rewrite nth_error_app2 in Nj by lia.
    rewrite flat_map_app in F. cbn [flat_map] in F. rewrite app_assoc in F.
    apply (scan_apart _ _ _ (f1, n1) (f2, n2) u F N); auto.
    - apply in_or_app. right. apply items_in; eauto.
    - apply in_flat_map. exists t. split; [|apply items_in; eauto].
      destruct (j - List.length a)%nat as [|k] eqn:Ek; [lia|]. cbn in Nj. eapply nth_error_In; eauto. }
  intros Ni Nj Fo1 Fo2 U1 U2.
  assert (i = j) as <-.
  { destruct (Nat.lt_trichotomy i j) as [Lt|[E|Lt]]; [|exact E|].
    - exfalso. apply (Wlog i j s t rel1 rel2 f1 f2 n1 n2); auto.
    - exfalso. apply (Wlog j i t s rel2 rel1 f2 f1 n2 n1); auto. }
  split; [reflexivity|]. assert (t = s) by congruence. subst t.
  assert (I1 : In (f1, n1) (items cwd root s)) by (apply items_in; eauto).
  assert (I2 : In (f2, n2) (items cwd root s)) by (apply items_in; eauto).
  assert (Same : f1 = f2).
  { destruct (list_eq_dec Ascii.ascii_dec f1 f2) as [E|ne]; [exact E|exfalso].
    assert (J1 : In (f1, n1) (flat_map (items cwd root) (start_points ms paths))).
    { apply in_flat_map. exists s. split; [eapply nth_error_In; eauto|auto]. }
    assert (J2 : In (f2, n2) (flat_map (items cwd root) (start_points ms paths))).
    { apply in_flat_map. exists s. split; [eapply nth_error_In; eauto|auto]. }
    apply in_split in J1. destruct J1 as (a & c & E). rewrite E in J2, F. apply in_app_or in J2.
    destruct J2 as [J2|[J2|J2]]; [| congruence |].
    - apply (scan_apart _ _ _ (f2, n2) (f1, n1) u F N); auto. left. reflexivity.
    - change (a ++ (f1, n1) :: c) with (a ++ [(f1, n1)] ++ c) in F. rewrite app_assoc in F.
      apply (scan_apart _ _ _ (f1, n1) (f2, n2) u F N); auto. apply in_or_app. right. left. reflexivity. }
  subst f2. unfold found_at in Fo1, Fo2. destruct Fo1 as [_ Fo1], Fo2 as [_ Fo2].
  destruct rel1 as [|x1 r1], rel2 as [|x2 r2]; [reflexivity| | |].
  - destruct Fo1 as (L1 & _). destruct Fo2 as (es & L2 & K & _). rewrite L1 in L2. injection L2 as ->. exfalso.
    unfold items in I1. rewrite L1 in I1.
    apply in_map_iff in I1; destruct I1 as ([[? ?] ?] & E & I1); apply filter_In in I1; destruct I1 as [_ W];
      cbn in E; injection E as _ ->; apply wanted_iff in W; destruct W as [_ [(? & ? & W)|(? & W)]]; discriminate.
  - destruct Fo2 as (L1 & _). destruct Fo1 as (es & L2 & K & _). rewrite L1 in L2. injection L2 as ->. exfalso.
    unfold items in I2. rewrite L1 in I2.
    apply in_map_iff in I2; destruct I2 as ([[? ?] ?] & E & I2); apply filter_In in I2; destruct I2 as [_ W];
      cbn in E; injection E as _ ->; apply wanted_iff in W; destruct W as [_ [(? & ? & W)|(? & W)]]; discriminate.
  - destruct Fo1 as (es & L1 & K1 & -> & _). destruct Fo2 as (es' & L2 & K2 & E & _).
    assert (Te : tree_ok (Dir es)).
    { unfold lstat in L1. destruct s as [|c s]; [discriminate|].
      destruct (lookup (resolve cwd (c :: s)) root) as [k|] eqn:Lk; [|discriminate].
      apply (tree_lookup _ _ _ T) in Lk.
      destruct k; try (injection L1 as <-; exact Lk); destruct (means_dir (c :: s)); discriminate. }
    assert (es' = es) by congruence. subst es'.
    apply (below_inj s); auto; try discriminate; eapply lookup_names; eauto.
Qed.
End Scan.

(** ** A scan that cannot fail *)

Lemma walk_path_form skip n top f : tree_ok n -> top <> [] -> In f (os_walk skip top n) ->
  exists rel, rel <> [] /\ Forall file_name rel /\ lookup rel n = Some (snd f) /\ fst (path_node f) = below top rel
    /\ entry_is_dir (snd f) = false.
Proof.
  intros T Ne I. destruct f as [[d x] k]. apply os_walk_in in I; auto.
  destruct I as (rel & es & L & G & E & _ & ->). exists (rel ++ [x]).
  assert (Lx : lookup (rel ++ [x]) n = Some k) by (rewrite lookup_app, L; cbn; rewrite G; reflexivity).
  pose proof (lookup_names _ _ _ T Lx) as F. split; [destruct rel; discriminate|]. split; [auto|].
  split; [exact Lx|]. split; [|exact E]. apply Forall_app in F. destruct F as [Fr Fx]. inversion Fx; subst.
  cbn. apply walk_file_path; auto.
Qed.

Lemma NoDup_app_disj {A} (l l' : list A) : NoDup l -> NoDup l' -> (forall x, In x l -> In x l' -> False) -> NoDup (l ++ l').
Proof.
  intros N N' H. induction l as [|a l IH]; [exact N'|]. inversion N as [|? ? X N1]; subst. cbn. constructor.
  - rewrite in_app_iff. intros [I|I]; [auto|]. apply (H a); [left; reflexivity|exact I].
  - apply IH; auto. intros x I I'. apply (H x); [right; exact I|exact I'].
Qed.

Lemma walk_paths_nodup skip n : forall top, tree_ok n -> top <> [] ->
  NoDup (map (fun f => fst (path_node f)) (os_walk skip top n)).
Proof.
  induction n as [fd fm|fb|fm|es IH] using node_ind2; intros top T Ne; try constructor.
  rewrite os_walk_dir, map_app, map_map. cbn [path_node fst].
  destruct (T [] es eq_refl) as [N Fn]. rewrite Forall_forall in Fn.
  assert (Fx : forall x m, In (x, m) es -> file_name x).
  { intros x m I. apply Fn. apply in_map_iff. exists (x, m). auto. }
  assert (Sub : forall x m, In (x, m) es -> tree_ok m).
  { intros x m I. apply (tree_sub (Dir es) x es); auto. apply sget_iff; auto. }
  apply NoDup_app_disj.
  - clear T IH Sub Fn. induction es as [|[x m] es IHe]; [constructor|]. cbn in N. inversion N as [|? ? X N']; subst.
    assert (R : NoDup (map (fun e => os_join top (fst e)) (filter (fun e => negb (entry_is_dir (snd e))) es))).
    { apply IHe; auto. intros y k I. apply (Fx y k). right. exact I. }
    cbn [filter snd]. destruct (negb (entry_is_dir m)); [|exact R]. cbn [map fst]. constructor; [|exact R].
    intros I. apply in_map_iff in I. destruct I as ([y k] & E & I). apply filter_In in I. destruct I as [I _].
    cbn in E. rewrite !join_below in E; auto.
    + apply below_inj in E; try discriminate.
      * injection E as ->. apply X. apply in_map_iff. exists (x, k). auto.
      * constructor; [|constructor]. apply (Fx y k). right. exact I.
      * constructor; [|constructor]. apply (Fx x m). left. reflexivity.
    + apply (Fx x m). left. reflexivity.
    + apply (Fx y k). right. exact I.
  - clear T Fn. induction es as [|[x m] es IHe]; [constructor|]. cbn [walk_rest]. rewrite map_app.
    cbn in N. inversion N as [|? ? X N']; subst. inversion IH as [|? ? IHx IH']; subst.
    assert (Fxx : file_name x) by (apply (Fx x m); left; reflexivity).
    apply NoDup_app_disj.
    + destruct (skip x); [constructor|]. apply IHx; [apply (Sub x m); left; reflexivity|].
      rewrite join_below; auto. apply below_nonempty.
    + apply IHe; auto.
      * intros y k I. apply (Fx y k). right. exact I.
      * intros y k I. apply (Sub y k). right. exact I.
    + intros p I1 I2. apply in_map_iff in I1, I2. destruct I1 as (f & <- & I1), I2 as (g & E & I2).
      destruct (skip x) eqn:Sx; [destruct I1|].
      apply walk_path_form in I1; [|apply (Sub x m); left; reflexivity|rewrite join_below; auto; apply below_nonempty].
      destruct I1 as (r1 & N1 & F1 & _ & E1 & _).
      apply in_walk_rest in I2. destruct I2 as (y & k & Iy & _ & I2).
      assert (Fy : file_name y) by (apply (Fx y k); right; exact Iy).
      apply walk_path_form in I2; [|apply (Sub y k); right; exact Iy|rewrite join_below; auto; apply below_nonempty].
      destruct I2 as (r2 & N2 & F2 & _ & E2 & _).
      rewrite E1, E2, !join_below, !below_below in E; auto.
      apply below_inj in E; try discriminate; try (constructor; auto).
      injection E as -> _. apply X. apply in_map_iff. exists (x, k). auto.
  - intros p I1 I2. apply in_map_iff in I1, I2. destruct I1 as ([x m] & <- & I1), I2 as (g & E & I2).
    apply filter_In in I1. destruct I1 as [I1 _]. cbn in E.
    apply in_walk_rest in I2. destruct I2 as (y & k & Iy & _ & I2).
    assert (Fy : file_name y) by (apply (Fx y k); exact Iy).
    assert (Fxx : file_name x) by (apply (Fx x m); exact I1).
    apply walk_path_form in I2; [|apply (Sub y k); exact Iy|rewrite join_below; auto; apply below_nonempty].
    destruct I2 as (r2 & N2 & F2 & _ & E2 & _).
    rewrite E2, !join_below, below_below in E; auto.
    apply below_inj in E; try discriminate; try (constructor; auto).
    injection E as _ E. congruence.
Qed.

Lemma dst_to_src_total ms p : (forall k, In k ms -> plain (dst_path k)) -> one_line p ->
  (exists k, In k ms /\ applies (dst_path k) p) -> exists u, dst_to_src ms p = Ok u.
Proof.
  intros P N. induction ms as [|m ms IH]; intros (k & I & A); [destruct I|]. cbn.
  assert (Pm : plain (dst_path m)) by (apply P; left; reflexivity).
  destruct (map_dst_to_src m p) as [[u|]|e] eqn:M; cbn.
  - eauto.
  - apply IH; [intros k' I'; apply P; right; exact I'|]. destruct I as [->|I]; [|eauto]. exfalso.
    destruct A as (w & rest & E & L & R). unfold map_dst_to_src in M.
    rewrite (map_base_applies _ _ _ w rest) in M; auto. discriminate.
  - exfalso. unfold map_dst_to_src, map_base in M. rewrite compile_base in M; auto. cbn in M.
    destruct (re_match _ p); discriminate.
Qed.

Lemma below_no_slash top rel : no_end_slash top -> below top rel = top ++ $"/" ++ rel_path rel.
Proof.
  intros N. unfold below. destruct (endswith $"/" top) eqn:E.
  - apply endswith_slash in E. destruct E as [t E]. elim (N t E).
  - rewrite <- app_assoc. reflexivity.
Qed.
Lemma rel_path_one_line rel : Forall one_line rel -> one_line (rel_path rel).
Proof.
  unfold rel_path. induction 1 as [|x rel H F IH]; [intros []|]. destruct rel as [|y rel]; [exact H|].
  change (join $"/" (x :: y :: rel)) with (x ++ $"/" ++ join $"/" (y :: rel)).
  rewrite !one_line_app. repeat split; auto. unfold one_line. vm_compute. intuition discriminate.
Qed.

Section Total.
Variables (D : digests) (ms : mapper) (hashes : list str) (len path : bool) (pats : list str) (b : builder).
Hypothesis B : scanner ms hashes len path pats = Ok b.
Hypothesis Hh : forall h, In h hashes -> In h [$"md5"; $"sha-1"; $"sha-256"].

Lemma add_file_total name file n rl : (forall es, n <> Dir es) ->
  (is_file n -> exists u, dst_to_src ms file = Ok u /\ ~ In u (map fst rl)) ->
  hashes = [] \/ (forall m, n <> Special m) ->
  exists rl', add_file D b ms name file (Some n) rl = Ok rl'.
Proof.
  intros Nd U Sp. unfold add_file. destruct (excluded b name); [eauto|].
  destruct (builder_is _ _ _ _ _ _ B) as (rs & _ & E).
  destruct n as [d m|es|t|m]; [|elim (Nd es eq_refl)| |].
  - destruct U as (u & U & Nu); [left; eauto|]. rewrite U. cbn [bind]. rewrite E. cbn [b_path b_hashes b_length].
    assert (R : exists r, (match hashes with [] => Ok (if path then set_path (Some file) (set_timestamp (Some m) (new_resource u)) else set_timestamp (Some m) (new_resource u))
       | names => let* h := new_hashes names in Ok (hash_set D (compute_for_file HASH_BLOCK d h) (if path then set_path (Some file) (set_timestamp (Some m) (new_resource u)) else set_timestamp (Some m) (new_resource u))) end) = Ok r /\ r_uri r = u).
    { destruct hashes as [|h0 hs] eqn:Eh.
      - eexists. split; [reflexivity|]. destruct path; reflexivity.
      - destruct (proj2 (new_hashes_iff (h0 :: hs)) Hh) as [h Hn]. rewrite Hn. eexists. split; [reflexivity|].
        rewrite (hash_set_resource D _ h HASH_BLOCK d _ Hn); [|discriminate]. destruct path; reflexivity. }
    destruct R as (r & R & Ru).
    match goal with |- exists _, (let* r := ?a in _) = _ => replace a with (Ok r) by (symmetry; rewrite <- R; destruct hashes; reflexivity) end.
    cbn [bind]. unfold rl_add.
    replace (r_uri (if len then set_length (Some (Z.of_nat (List.length d))) r else r)) with u
      by (destruct len; symmetry; exact Ru).
    destruct (smem u rl) eqn:Sm; [|cbn [andb]; eauto]. apply smem_In in Sm. elim (Nu Sm).
  - replace (b_links b) with false by (rewrite E; reflexivity). eauto.
  - destruct U as (u & U & Nu); [right; eauto|]. rewrite U. cbn [bind]. rewrite E. cbn [b_path b_hashes b_length].
    destruct Sp as [->|Sp]; [|elim (Sp m eq_refl)]. cbn [bind]. unfold rl_add.
    replace (r_uri _) with u by (destruct len, path; reflexivity).
    destruct (smem u rl) eqn:Sm; [|cbn [andb]; eauto]. apply smem_In in Sm. elim (Nu Sm).
Qed.

Definition uri_is (f : str * node) (u : str) : Prop := dst_to_src ms (fst f) = Ok u.
Lemma entries_uris L new : Forall2 (entry_of D ms hashes len path) L new -> forall us, Forall2 uri_is L us -> map fst new = us.
Proof.
  induction 1 as [|f e L new H F IH]; intros us U; inversion U as [|? u ? us' Hu U']; subst; [reflexivity|].
  cbn. f_equal; [|apply IH; auto]. destruct H as [H _]. unfold uri_is in Hu. congruence.
Qed.

Lemma add_files_total fs : forall rl us,
  Forall (fun f : str * str * node => entry_is_dir (snd f) = false /\ (hashes = [] \/ forall m, snd f <> Special m)) fs ->
  Forall2 uri_is (map path_node (filter (wanted b) fs)) us -> NoDup (map fst rl ++ us) ->
  exists rl', add_files D b ms fs rl = Ok rl'.
Proof.
  induction fs as [|[[d x] n] fs IH]; intros rl us F U N; [cbn; eauto|].
  inversion F as [|? ? [Fn Fs] F']; subst. cbn [snd] in *. cbn [add_files]. cbn [filter] in U.
  destruct (wanted b (d, x, n)) eqn:W.
  - cbn [map] in U. inversion U as [|? u ? us' Hu U']; subst. unfold uri_is in Hu. cbn in Hu.
    destruct (add_file_total x (os_join d x) n rl) as [rl1 A]; auto.
    + intros es ->. discriminate.
    + intros _. exists u. split; [exact Hu|]. intros I. apply NoDup_remove_2 in N. apply N.
      apply in_or_app. left. exact I.
    + rewrite A. cbn [bind]. apply (add_file_ok D _ _ _ _ _ _ B) in A.
      destruct A as [[-> A]|(n' & u' & E & Fi & X & U1 & Nu & ->)].
      * exfalso. apply (wanted_iff _ _ _ _ _ _ B) in W. destruct W as [X Fi]. apply X. apply (A n); auto.
      * assert (u' = u) by congruence. subst u'. apply (IH _ us'); auto.
        rewrite map_app. cbn [map fst]. rewrite <- app_assoc. exact N.
  - destruct (excluded b x) eqn:X.
    + unfold add_file. rewrite X. cbn [bind]. apply (IH rl us); auto.
    + destruct n as [fd fm|es|t|fm]; try (cbn in W; rewrite X in W; discriminate).

      * unfold add_file. rewrite X. destruct (builder_is _ _ _ _ _ _ B) as (rs & _ & E).
        replace (b_links b) with false by (rewrite E; reflexivity). cbn [bind]. apply (IH rl us); auto.
Qed.

Variables (cwd : list str) (root : node).
Hypothesis T : tree_ok root.
Hypothesis M : mappings_apart ms.
Hypothesis One : one_line_names root.
Hypothesis Sp : hashes = [] \/ no_specials root.
Hypothesis Start : forall k, In k ms -> (exists es, lstat cwd root (dst_path k) = Ok (Dir es)) \/ lstat cwd root (dst_path k) = Err IOError.

Lemma lstat_dir p es : lstat cwd root p = Ok (Dir es) -> p <> [] /\ lookup (resolve cwd p) root = Some (Dir es).
Proof.
  unfold lstat. destruct p as [|c p]; [discriminate|]. intros L. split; [discriminate|].
  destruct (lookup (resolve cwd (c :: p)) root) as [[]|]; try discriminate; try exact L; try (injection L as <-; reflexivity);
    destruct (means_dir (c :: p)); discriminate.
Qed.

Lemma mapped_uri k x : In k ms -> one_line x -> dst_to_src ms (dst_path k ++ $"/" ++ x) = Ok (src_uri k ++ $"/" ++ x).
Proof.
  intros I O. destruct M as [M1 M2]. apply multi_round_trip_plain; auto.
  intros k' I'. destruct (M1 k' I') as (? & ? & ? & ? & _). auto.
Qed.

Lemma item_form k f : In k ms -> In f (items b cwd root (dst_path k)) ->
  exists rel, rel <> [] /\ Forall file_name rel /\ Forall one_line rel /\ fst f = dst_path k ++ $"/" ++ rel_path rel
    /\ dst_to_src ms (fst f) = Ok (src_uri k ++ $"/" ++ rel_path rel).
Proof.
  intros I F. destruct f as [p n]. apply (items_in _ _ _ _ _ _ B) in F; auto. destruct F as (rel & Fi & F).
  destruct (Start k I) as [[es L]|L].
  2:{ rewrite L in F. destruct rel; [destruct F; discriminate|destruct F as (? & ? & _); discriminate]. }
  destruct rel as [|x r].
  - exfalso. destruct F as (L' & _). rewrite L in L'. injection L' as <-.
    destruct Fi as [(? & ? & Fi)|(? & Fi)]; discriminate.
  - destruct F as (es' & L' & Lr & -> & _). assert (es' = es) by congruence. subst es'.
    apply lstat_dir in L. destruct L as [Ne L]. exists (x :: r). split; [discriminate|].
    assert (Te : tree_ok (Dir es)) by (eapply tree_lookup; eauto).
    assert (O1 : Forall one_line (x :: r)).
    { assert (K : lookup (resolve cwd (dst_path k) ++ x :: r) root = Some n) by (rewrite lookup_app, L; exact Lr).
      apply One in K. apply Forall_app in K. tauto. }
    split; [eapply lookup_names; eauto|]. split; [auto|]. cbn [fst].
    destruct M as [M1 _]. destruct (M1 k I) as (_ & _ & _ & _ & Ns). rewrite below_no_slash; auto.
    split; [reflexivity|]. apply mapped_uri; auto. apply rel_path_one_line. auto.
Qed.

Lemma add_path_total k rl us : In k ms -> Forall2 uri_is (items b cwd root (dst_path k)) us -> NoDup (map fst rl ++ us) ->
  exists rl', from_disk_add_path D b cwd root (dst_path k) rl = Ok rl'.
Proof.
  intros I U N. unfold from_disk_add_path. destruct (builder_is _ _ _ _ _ _ B) as (rs & _ & E).
  replace (b_mapper b) with (Some ms) by (rewrite E; reflexivity). unfold items in U.
  destruct (Start k I) as [[es L]|L]; rewrite L in *.
  - apply lstat_dir in L. destruct L as [Ne L]. assert (Te : tree_ok (Dir es)) by (eapply tree_lookup; eauto).
    apply (add_files_total _ _ us); auto.
    apply Forall_forall. intros f F. apply walk_path_form in F; auto. destruct F as (rel & _ & _ & Lr & _ & Ed).
    split; [exact Ed|]. destruct Sp as [->|Sp']; [auto|right]. intros m Em.
    apply (Sp' (resolve cwd (dst_path k) ++ rel) m). rewrite lookup_app, L, Lr, Em. reflexivity.
  - unfold add_file. destruct (excluded b (dst_path k)); [eauto|].
    destruct (dst_to_src_total ms (dst_path k)) as [u Hu].
    + intros k' I'. apply (proj1 M k' I').
    + apply (proj1 M k I).
    + exists k. split; [auto|]. exists (dst_path k), []. rewrite app_nil_r. repeat split; auto. apply like_self. apply (proj1 M k I).
    + rewrite Hu. cbn [bind]. eauto.
Qed.

Lemma add_paths_total ks : forall rl us, incl ks ms -> Forall2 uri_is (flat_map (items b cwd root) (map dst_path ks)) us ->
  NoDup (map fst rl ++ us) -> NoDup (map fst rl) -> exists rl', from_disk_paths D b cwd root (map dst_path ks) rl = Ok rl'.
Proof.
  induction ks as [|k ks IH]; intros rl us I U N Nr; [cbn; eauto|]. cbn [map flat_map from_disk_paths] in *.
  apply Forall2_app_inv_l in U. destruct U as (us1 & us2 & U1 & U2 & ->).
  destruct (add_path_total k rl us1) as [rl1 A]; auto.
  - apply I. left. reflexivity.
  - rewrite app_assoc in N. revert N. generalize (map fst rl ++ us1). intros l N.
    clear -N. induction l as [|a l IH]; [constructor|]. cbn in N. inversion N as [|? ? X N']; subst. constructor; [|auto].
    intros Ia. apply X. apply in_or_app. auto.
  - rewrite A. cbn [bind]. apply (add_path_ok D _ _ _ _ _ _ B) in A; auto. destruct A as (N1 & new & -> & F).
    rewrite (map_app fst) in *. rewrite (entries_uris _ _ F us1 U1) in *.
    apply (IH _ us2); auto.
    + intros x Ix. apply I. right. exact Ix.
    + rewrite map_app, (entries_uris _ _ F us1 U1), <- app_assoc. exact N.
    + rewrite map_app, (entries_uris _ _ F us1 U1). exact N1.
Qed.

Lemma items_uris k : In k ms -> exists us, Forall2 uri_is (items b cwd root (dst_path k)) us /\ NoDup us
  /\ forall u, In u us -> exists x, one_line x /\ u = src_uri k ++ $"/" ++ x.
Proof.
  intros I.
  assert (Nf : NoDup (map fst (items b cwd root (dst_path k)))).
  { unfold items. destruct (Start k I) as [[es L]|L]; rewrite L; [|constructor].
    apply lstat_dir in L. destruct L as [Ne L]. assert (Te : tree_ok (Dir es)) by (eapply tree_lookup; eauto).
    pose proof (walk_paths_nodup (excluded b) (Dir es) (dst_path k) Te Ne) as Nw.
    rewrite map_map. revert Nw. generalize (os_walk (excluded b) (dst_path k) (Dir es)). intros l Nw.
    induction l as [|f l IH]; [constructor|]. cbn [map] in Nw. inversion Nw as [|? ? X N']; subst. cbn [filter].
    destruct (wanted b f); [|auto]. cbn [map]. constructor; [|auto].
    intros If. apply X. apply in_map_iff in If. destruct If as (g & E & If). apply filter_In in If.
    apply in_map_iff. exists g. tauto. }
  assert (Form : forall f, In f (items b cwd root (dst_path k)) -> exists rel, rel <> [] /\ Forall file_name rel /\ Forall one_line rel
    /\ fst f = dst_path k ++ $"/" ++ rel_path rel /\ dst_to_src ms (fst f) = Ok (src_uri k ++ $"/" ++ rel_path rel)).
  { intros f F. apply item_form; auto. }
  revert Nf Form. generalize (items b cwd root (dst_path k)). intros L Nf Form.
  induction L as [|f L IH].
  - exists []. split; [constructor|]. split; [constructor|]. intros u [].
  - cbn in Nf. inversion Nf as [|? ? X Nf']; subst. destruct IH as (us & U & Nu & Fu); auto.
    { intros g G. apply Form. right. exact G. }
    destruct (Form f (or_introl eq_refl)) as (rel & Nr & Fr & Or & Ef & Uf).
    exists ((src_uri k ++ $"/" ++ rel_path rel) :: us). split; [constructor; auto|]. split.
    + constructor; [|auto]. intros Iu. destruct (Forall2_in_r _ _ _ _ U Iu) as (g & Ig & Ug).
      destruct (Form g (or_intror Ig)) as (rel' & Nr' & Fr' & _ & Eg & Ug'). unfold uri_is in Ug.
      rewrite Ug in Ug'. injection Ug' as E. apply app_inv_head in E. injection E as E.
      apply X. apply in_map_iff. exists g. rewrite Ef, Eg. split; [|auto]. rewrite E. reflexivity.
    + intros u [<-|Iu]; [|auto]. exists (rel_path rel). split; [apply rel_path_one_line; auto|reflexivity].
Qed.

Lemma all_uris : exists us, Forall2 uri_is (flat_map (items b cwd root) (map dst_path ms)) us /\ NoDup us.
Proof.
  assert (G : forall ks pre, ms = pre ++ ks -> exists us, Forall2 uri_is (flat_map (items b cwd root) (map dst_path ks)) us /\ NoDup us
    /\ forall u, In u us -> exists i k x, (List.length pre <= i)%nat /\ nth_error ms i = Some k /\ u = src_uri k ++ $"/" ++ x).
  { induction ks as [|k ks IH]; intros pre E.
    - exists []. split; [constructor|]. split; [constructor|]. intros u [].
    - destruct (IH (pre ++ [k])) as (us2 & U2 & N2 & F2); [rewrite <- app_assoc; exact E|].
      assert (Ik : In k ms) by (rewrite E; apply in_or_app; right; left; reflexivity).
      assert (Ek : nth_error ms (List.length pre) = Some k) by (rewrite E, nth_error_app2, Nat.sub_diag by lia; reflexivity).
      destruct (items_uris k Ik) as (us1 & U1 & N1 & F1).
      exists (us1 ++ us2). split; [cbn; apply Forall2_app; auto|]. split.
      + apply NoDup_app_disj; auto. intros u I1 I2. destruct (F1 u I1) as (x1 & _ & E1).
        destruct (F2 u I2) as (i & k2 & x2 & Li & E2 & Eu). rewrite app_length in Li. cbn in Li.
        destruct M as [M1 M2]. destruct (M2 (List.length pre) i k k2 u) as [Na _]; auto; [lia|]. apply Na. split.
        * rewrite E1. apply applies_below. apply (M1 k Ik).
        * rewrite Eu. apply applies_below. apply (M1 k2). eapply nth_error_In; eauto.
      + intros u Iu. apply in_app_or in Iu. destruct Iu as [Iu|Iu].
        * destruct (F1 u Iu) as (x & _ & Eu). exists (List.length pre), k, x. auto.
        * destruct (F2 u Iu) as (i & k2 & x & Li & Ei & Eu). exists i, k2, x. rewrite app_length in Li. split; [lia|auto]. }
  destruct (G ms [] eq_refl) as (us & U & N & _). eauto.
Qed.

Lemma scan_succeeds : exists rl, from_disk D b cwd root None [] = Ok rl /\
  forall u r, In (u, r) rl <-> exists m rel n, In m ms /\ found_at pats cwd root (dst_path m) rel (dst_path m ++ $"/" ++ rel_path rel) n
     /\ u = src_uri m ++ $"/" ++ rel_path rel
     /\ r = described D hashes len path u (dst_path m ++ $"/" ++ rel_path rel) n.
Proof.
  destruct all_uris as (us & U & N).
  destruct (add_paths_total ms [] us) as [rl A]; auto; [apply incl_refl|constructor|].
  destruct (builder_is _ _ _ _ _ _ B) as (rs & _ & E). exists rl.
  assert (Fd : from_disk D b cwd root None [] = Ok rl).
  { unfold from_disk. replace (b_mapper b) with (Some ms) by (rewrite E; reflexivity). exact A. }
  split; [exact Fd|]. intros u r. destruct (scan_lists D _ _ _ _ _ _ B _ _ _ _ T Fd) as [_ S]. rewrite S. clear S.
  assert (Form : forall m rel file n, In m ms -> found_at pats cwd root (dst_path m) rel file n ->
    file = dst_path m ++ $"/" ++ rel_path rel /\ dst_to_src ms file = Ok (src_uri m ++ $"/" ++ rel_path rel)).
  { intros m rel file n I F. pose proof (item_form m (file, n) I) as Ifo.
    destruct Ifo as (rel' & Nr & Fr & _ & Ef & Uf); [apply (items_in _ _ _ _ _ _ B); eauto|]. cbn [fst] in *.
    destruct F as [Fi F]. destruct rel as [|x r0].
    - exfalso. destruct F as (L & _). destruct (Start m I) as [[es L']|L']; rewrite L' in L; [|discriminate].
      injection L as <-. destruct Fi as [(? & ? & Fi)|(? & Fi)]; discriminate.
    - destruct F as (es & L & Lr & Ef' & _).
      apply lstat_dir in L. destruct L as [Ne L]. assert (Te : tree_ok (Dir es)) by (eapply tree_lookup; eauto).
      assert (E2 : rel_path (x :: r0) = rel_path rel').
      { rewrite below_no_slash in Ef'; [|apply (proj1 M m I)]. rewrite Ef in Ef'. apply app_inv_head in Ef'.
        injection Ef' as Ef'. symmetry. exact Ef'. }
      rewrite E2. auto. }
  split.
  - intros (start & rel & file & n & Is & Fo & Us & Er). cbn [start_points] in Is. apply in_map_iff in Is.
    destruct Is as (m & <- & Im). destruct (Form m rel file n Im Fo) as [-> Eu]. exists m, rel, n.
    assert (u = src_uri m ++ $"/" ++ rel_path rel) by congruence. auto.
  - intros (m & rel & n & Im & Fo & -> & Er). exists (dst_path m), rel, (dst_path m ++ $"/" ++ rel_path rel), n.
    split; [apply in_map; auto|]. split; [auto|]. split; [apply (Form m rel _ n Im Fo)|auto].
Qed.
End Total.

Lemma bad_pattern ms hashes len path pats pat : In pat pats -> compile pat = Err ReError ->
  (forall q e, In q pats -> compile q = Err e -> e = ReError) -> scanner ms hashes len path pats = Err ValueError.
Proof.
  intros I C O. unfold scanner, add_exclude_patterns.
  assert (M : mapM compile_exclude pats = Err ValueError).
  { revert I O. induction pats as [|q pats IH]; [intros []|]. intros I O. cbn.
    destruct (compile_exclude q) as [r|e] eqn:Q.
    - destruct I as [->|I]; [unfold compile_exclude in Q; rewrite C in Q; discriminate|]. cbn.
      rewrite IH; auto. intros q' e' I'. apply O. right. exact I'.
    - unfold compile_exclude in Q. destruct (compile q) as [r|e'] eqn:Cq; [discriminate|].
      rewrite (O q e' (or_introl eq_refl) Cq) in Q. injection Q as <-. reflexivity. }
  rewrite M. reflexivity.
Qed.

Definition fifo_tree : node := Dir [($"d", Dir [($"pipe", Special 5)])].
Definition small_tree : node :=
  Dir [($"d", Dir [($"a.txt", File $"hello" 7);
                   ($"skip", Dir [($"x", File $"no" 1)]);
                   ($"sub", Dir [($"b", File $"" 9); ($"b.tmp", File $"no" 3); ($"l", Link false)]);
                   ($"up", Link true)]);
       ($"e", File $"outside" 2)].

Fixpoint names_okb (n : node) : bool :=
  match n with
  | Dir es => nodupb (map fst es)
      && forallb (fun x => negb (str_eqb x [] || str_eqb x $"." || str_eqb x $".." || has_char "/" x || has_char nl x)) (map fst es)
      && (fix all (es : list (str * node)) : bool :=
            match es with [] => true | (_, m) :: es' => names_okb m && all es' end) es
  | _ => true
  end.
Lemma names_okb_sub es x m : names_okb (Dir es) = true -> sget x es = Some m -> names_okb m = true.
Proof.
  cbn [names_okb]. rewrite !andb_true_iff. intros (_ & A) G. revert A G. induction es as [|[y k] es IH]; cbn; [discriminate|].
  rewrite andb_true_iff. intros [K A]. destruct (str_eqb x y); [|apply IH; auto]. intros G. injection G as <-. exact K.
Qed.
Lemma names_okb_dir es : names_okb (Dir es) = true -> NoDup (map fst es) /\ Forall file_name (map fst es) /\ Forall one_line (map fst es).
Proof.
  cbn [names_okb]. rewrite !andb_true_iff. intros ((N & A) & _). split; [apply nodupb_ok; exact N|].
  rewrite forallb_forall in A. split; apply Forall_forall; intros x I; apply A in I;
    rewrite negb_true_iff, !orb_false_iff, !has_char_false in I; destruct I as ((((I1 & I2) & I3) & I4) & I5); [|exact I5].
  repeat split; try (intros ->; discriminate). exact I4.
Qed.
Lemma names_okb_ok n : names_okb n = true -> tree_ok n /\ one_line_names n.
Proof.
  intros H. split.
  - intros names. revert n H. induction names as [|x names IH]; cbn; intros n H es L.
    + injection L as ->. apply names_okb_dir in H. tauto.
    + destruct n as [|es'| |]; try discriminate. destruct (sget x es') as [k|] eqn:G; [|discriminate].
      apply (IH k); auto. apply (names_okb_sub es' x); auto.
  - intros names. revert n H. induction names as [|x names IH]; cbn; intros n H m L; constructor;
      destruct n as [|es'| |]; try discriminate; destruct (sget x es') as [k|] eqn:G; try discriminate.
    + apply names_okb_dir in H. destruct H as (_ & _ & H). rewrite Forall_forall in H. apply H.
      apply sget_in in G. apply in_map_iff. exists (x, k). auto.
    + apply (IH k) with m; auto. apply (names_okb_sub es' x); auto.
Qed.

Definition one_map : mapper := [make_map $"http://example.org/d" $"/d"].
Lemma one_map_apart : mappings_apart one_map.
Proof.
  split.
  - intros k [<-|[]]. vm_compute src_uri. vm_compute dst_path.
    repeat split.
    + apply plainb_ok. reflexivity.
    + apply plainb_ok. reflexivity.
    + apply has_char_false. reflexivity.
    + apply has_char_false. reflexivity.
    + apply no_end_slash_ok. reflexivity.
  - intros [|[|i]] [|[|j]] a b s ne; cbn; congruence.
Qed.

Lemma special_listed : exists b rl u r, scanner one_map [] true false [] = Ok b
  /\ from_disk (MkDigests (fun s => s) (fun s => s) (fun s => s)) b [] fifo_tree None [] = Ok rl /\ In (u, r) rl
  /\ forall names d m, lookup names fifo_tree <> Some (File d m).
Proof.
  do 4 eexists. split; [reflexivity|]. split; [vm_compute; reflexivity|]. split; [left; reflexivity|].
  intros names d m. destruct names as [|x names]; [discriminate|]. unfold fifo_tree. cbn [lookup sget].
  destruct (str_eqb x $"d"); [|discriminate]. destruct names as [|y names]; [discriminate|]. cbn [lookup sget].
  destruct (str_eqb y $"pipe"); [|discriminate]. destruct names; discriminate.
Qed.

Lemma small_scan : exists b rl, scanner one_map [$"md5"] true true [$"skip"; $".*\.tmp$"] = Ok b
  /\ names_okb small_tree = true
  /\ from_disk (MkDigests (fun s => $"m" ++ s) (fun s => s) (fun s => s)) b [] small_tree None [] = Ok rl
  /\ map (fun e => (fst e, (r_timestamp (snd e), r_length (snd e)), (r_md5 (snd e), r_path (snd e)))) rl
     = [($"http://example.org/d/a.txt", (Some 7, Some 5), (Some $"mhello", Some $"/d/a.txt"));
        ($"http://example.org/d/sub/b", (Some 9, Some 0), (Some $"m", Some $"/d/sub/b"))].
Proof. do 2 eexists. split; [reflexivity|]. split; [reflexivity|]. split; vm_compute; reflexivity. Qed.
