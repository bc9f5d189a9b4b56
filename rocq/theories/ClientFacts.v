(** * ClientFacts: what the steps of a synchronization do *)

From Verif Require Import Py PyFacts Float64 Float64Facts W3C PathSpec OsPath OsPathFacts Mapper MapperSpec Resource
  Container Hashes Disk DiskSpec DiskFacts DiskChange ClientState Client ClientSpec.

Lemma resolve_denotes cwd p : resolve cwd p = denotes cwd p.
Proof.
  unfold resolve, denotes. generalize (if startswith $"/" p then [] else cwd) as dir. generalize (split_on "/" p) as comps.
  induction comps as [|x comps IH]; intros dir; cbn [follow walk]; [reflexivity|].
  destruct (str_eqb x [] || str_eqb x $"."); [auto|]. destruct (str_eqb x $".."); auto.
Qed.

(** ** Steps that change leaves only at some places *)

Record only_at (cwd : list str) (P : list str -> Prop) (w w' : world) : Prop := {
  oa_leaf : forall q, ~ P q -> leaf_at (w_root w') q = leaf_at (w_root w) q;
  oa_dir : forall q, dir_at (w_root w) q -> dir_at (w_root w') q;
  oa_state : w_state w' = w_state w;
  oa_hashes : w_hashes w' = w_hashes w;
  oa_tree : tree_ok (w_root w) -> Forall file_name cwd -> tree_ok (w_root w');
  oa_gets : exists l, w_gets w' = w_gets w ++ l
}.
Definition keeps (w w' : world) : Prop := forall q, leaf_at (w_root w) q <> None -> leaf_at (w_root w') q <> None.

Lemma only_at_refl cwd P w : only_at cwd P w w.
Proof. split; auto. exists []. now rewrite app_nil_r. Qed.
Lemma only_at_same cwd P w w' : w_root w' = w_root w -> w_state w' = w_state w -> w_hashes w' = w_hashes w ->
  w_gets w' = w_gets w -> only_at cwd P w w'.
Proof. intros A B C D. split; auto; rewrite ?A; auto. exists []. now rewrite app_nil_r. Qed.
Lemma only_at_trans cwd P a b c : only_at cwd P a b -> only_at cwd P b c -> only_at cwd P a c.
Proof.
  intros [A1 A2 A3 A4 A5 [l A6]] [B1 B2 B3 B4 B5 [m B6]]. split; auto.
  - intros q N. rewrite B1, A1; auto.
  - congruence.
  - congruence.
  - exists (l ++ m). rewrite B6, A6. apply eq_sym, app_assoc.
Qed.
Lemma only_at_mono cwd (P Q : list str -> Prop) a b : (forall q, P q -> Q q) -> only_at cwd P a b -> only_at cwd Q a b.
Proof. intros H [A1 A2 A3 A4 A5 A6]. split; auto. Qed.
Lemma keeps_refl w : keeps w w. Proof. intros q H. exact H. Qed.
Lemma keeps_trans a b c : keeps a b -> keeps b c -> keeps a c.
Proof. intros A B q H. auto. Qed.
Lemma keeps_same w w' : w_root w' = w_root w -> keeps w w'.
Proof. intros E q. now rewrite E. Qed.

Definition is_at (q : list str) : list str -> Prop := fun q' => q' = q.

(** ** Requests *)

Lemma attempt_effect E uri fn w w' r : attempt E uri fn w = (w', r) ->
  only_at (e_cwd E) (is_at (resolve (e_cwd E) fn)) w w' /\ keeps w w' /\ w_last w' = w_last w /\ w_log w' = w_log w
  /\ w_gets w' = w_gets w ++ [uri]
  /\ (r = Ok tt -> exists d, e_get E (List.length (w_gets w)) uri = Data d /\ means_dir fn = false
        /\ leaf_at (w_root w') (resolve (e_cwd E) fn) = Some (File d (e_now E)))
  /\ (forall e, e_get E (List.length (w_gets w)) uri = Refused e -> r = Err e /\ w_root w' = w_root w).
Proof.
  unfold attempt. change (w_root (with_gets (w_gets w ++ [uri]) w)) with (w_root w).
  assert (only_at (e_cwd E) (is_at (resolve (e_cwd E) fn)) w (with_gets (w_gets w ++ [uri]) w)) as O.
  { split; auto. exists [uri]. reflexivity. }
  assert (forall d root', write_file (e_cwd E) (w_root w) fn d (e_now E) = Ok root' ->
    only_at (e_cwd E) (is_at (resolve (e_cwd E) fn)) w (with_root root' (with_gets (w_gets w ++ [uri]) w)) /\
    keeps w (with_root root' (with_gets (w_gets w ++ [uri]) w)) /\ means_dir fn = false /\
    leaf_at root' (resolve (e_cwd E) fn) = Some (File d (e_now E))) as W.
  { intros d root' H. apply write_file_ok in H. destruct H as (M & L & D & T). split; [|split; [|split]].
    - split; cbn; auto.
      + intros q N. rewrite L. destruct (path_eq_dec _ _) as [->|]; [destruct (N eq_refl)|reflexivity].
      + intros q. apply D.
      + exists [uri]. reflexivity.
    - intros q N. cbn. rewrite L. destruct (path_eq_dec _ _); [discriminate|exact N].
    - exact M.
    - rewrite L. pdec; reflexivity. }
  destruct (e_get E _ uri) as [e|d|d e] eqn:G.
  - intros [= <- <-]. split; [exact O|]. split; [apply keeps_same; reflexivity|]. repeat split; try reflexivity; try discriminate; congruence.
  - destruct (write_file _ _ _ d _) as [root'|e] eqn:WF.
    + intros [= <- <-]. destruct (W _ _ WF) as (W1 & W2 & W3 & W4). split; [exact W1|]. split; [exact W2|].
      split; [reflexivity|]. split; [reflexivity|]. split; [reflexivity|]. split; [|congruence].
      intros _. exists d. auto.
    + intros [= <- <-]. split; [exact O|]. split; [apply keeps_same; reflexivity|]. repeat split; try reflexivity; try discriminate; congruence.
  - destruct (write_file _ _ _ d _) as [root'|e'] eqn:WF.
    + intros [= <- <-]. destruct (W _ _ WF) as (W1 & W2 & W3 & W4). split; [exact W1|]. split; [exact W2|].
      split; [reflexivity|]. split; [reflexivity|]. split; [reflexivity|]. split; [discriminate|congruence].
    + intros [= <- <-]. split; [exact O|]. split; [apply keeps_same; reflexivity|]. repeat split; try reflexivity; try discriminate; congruence.
Qed.

Lemma repeat_snoc {A} (x : A) n : repeat x n ++ [x] = repeat x (S n).
Proof. induction n; cbn; [reflexivity|]. now rewrite IHn. Qed.

(** After a timeout there is another request while tries are left; nothing else
    leads to another one. *)
Lemma download_effect E c uri fn : forall left w w' r, download E c left uri fn w = (w', r) ->
  only_at (e_cwd E) (is_at (resolve (e_cwd E) fn)) w w' /\ keeps w w' /\ w_last w' = w_last w /\ w_log w' = w_log w
  /\ (exists k, (k <= left)%nat /\ w_gets w' = w_gets w ++ repeat uri k)
  /\ (r = Ok (Some true) -> exists k d, (List.length (w_gets w) <= k < List.length (w_gets w'))%nat
        /\ e_get E k uri = Data d /\ means_dir fn = false
        /\ leaf_at (w_root w') (resolve (e_cwd E) fn) = Some (File d (e_now E)))
  /\ (r = Ok (Some false) -> left = O)
  /\ (r = Ok None -> c_ignore_failures c = true).
Proof.
  induction left as [|left IH]; intros w w' r; cbn [download].
  - intros [= <- <-]. split; [apply only_at_refl|]. split; [apply keeps_refl|]. repeat split; try discriminate; auto.
    exists O. rewrite app_nil_r. auto.
  - destruct (attempt E uri fn w) as [w1 a] eqn:A. apply attempt_effect in A.
    destruct A as (A1 & A2 & A3 & A4 & A5 & A6 & _).
    assert (forall x : res (option bool), (x = Ok (Some true) -> False) -> (x = Ok (Some false) -> False) ->
      (x = Ok None -> c_ignore_failures c = true) -> (w1, x) = (w', r) ->
      only_at (e_cwd E) (is_at (resolve (e_cwd E) fn)) w w' /\ keeps w w' /\ w_last w' = w_last w /\ w_log w' = w_log w
      /\ (exists k, (k <= S left)%nat /\ w_gets w' = w_gets w ++ repeat uri k)
      /\ (r = Ok (Some true) -> exists k d, (List.length (w_gets w) <= k < List.length (w_gets w'))%nat
            /\ e_get E k uri = Data d /\ means_dir fn = false
            /\ leaf_at (w_root w') (resolve (e_cwd E) fn) = Some (File d (e_now E)))
      /\ (r = Ok (Some false) -> S left = O)
      /\ (r = Ok None -> c_ignore_failures c = true)) as Stop.
    { intros x N1 N2 N3 [= <- <-]. split; [exact A1|]. split; [exact A2|]. split; [exact A3|]. split; [exact A4|].
      split; [exists 1%nat; split; [lia|exact A5]|]. split; [intros H; destruct (N1 H)|]. split; [intros H; destruct (N2 H)|exact N3]. }
    assert (forall e, (if c_ignore_failures c then Ok None else Err e : res (option bool)) = Ok (Some true) -> False) as F1
      by (intros e; destruct (c_ignore_failures c); discriminate).
    assert (forall e, (if c_ignore_failures c then Ok None else Err e : res (option bool)) = Ok (Some false) -> False) as F2
      by (intros e; destruct (c_ignore_failures c); discriminate).
    assert (forall e, (if c_ignore_failures c then Ok None else Err e : res (option bool)) = Ok None -> c_ignore_failures c = true) as F3
      by (intros e; destruct (c_ignore_failures c); [auto|discriminate]).
    destruct a as [[]|e].
    + intros [= <- <-]. split; [exact A1|]. split; [exact A2|]. split; [exact A3|]. split; [exact A4|].
      split; [exists 1%nat; split; [lia|exact A5]|]. split; [|split; discriminate]. intros _.
      destruct (A6 eq_refl) as (d & D1 & D2 & D3). exists (List.length (w_gets w)), d.
      rewrite A5, app_length. cbn. repeat split; auto; lia.
    + destruct e; try (apply Stop; try discriminate; eauto; fail).
      destruct left as [|left']; [apply Stop; eauto|]. intros H. apply IH in H.
      destruct H as (B1 & B2 & B3 & B4 & (k & B5 & B6) & B7 & B8 & B9).
      split; [apply (only_at_trans _ _ _ _ _ A1 B1)|]. split; [apply (keeps_trans _ _ _ A2 B2)|].
      split; [congruence|]. split; [congruence|].
      split; [exists (S k); split; [lia|]; rewrite B6, A5, <- app_assoc; reflexivity|].
      split; [|split; [intros H; specialize (B8 H); discriminate|exact B9]].
      intros H. destruct (B7 H) as (j & d & J & R). exists j, d. split; [|exact R]. rewrite A5, app_length in J. lia.
Qed.

(** ** Transfers *)

Lemma check_hashes_effect E data r w w' x : check_hashes E data r w = (w', x) ->
  w_root w' = w_root w /\ w_state w' = w_state w /\ w_gets w' = w_gets w /\ w_last w' = w_last w /\ w_hashes w' = w_hashes w /\ x = Ok tt.
Proof. unfold check_hashes. intros [= <- <-]. repeat split. Qed.

Lemma update_effect E c r fn w w' x : update_resource E c r fn w = (w', x) ->
  only_at (e_cwd E) (is_at (resolve (e_cwd E) fn)) w w' /\ keeps w w' /\ w_last w <= w_last w'
  /\ (exists k, (k <= c_tries c)%nat /\ w_gets w' = w_gets w ++ repeat (r_uri r) k)
  /\ (c_dryrun c = true -> w_gets w' = w_gets w /\ w_last w' = w_last w /\ w_log w' = w_log w
       /\ forall q, leaf_at (w_root w') q = leaf_at (w_root w) q)
  /\ (forall n, x = Ok n -> c_dryrun c = false -> c_ignore_failures c = false -> (0 < c_tries c)%nat -> n = 1 /\
       exists k d, (List.length (w_gets w) <= k < List.length (w_gets w'))%nat /\ e_get E k (r_uri r) = Data d /\ means_dir fn = false
       /\ leaf_at (w_root w') (resolve (e_cwd E) fn)
          = Some (File d (match r_timestamp r with Some t => whole_seconds t | None => e_now E end)))
  /\ (w_last w' = w_last w \/ r_timestamp r = Some (w_last w'))
  /\ (forall t, r_timestamp r = Some t -> forall n, x = Ok n -> c_dryrun c = false -> c_ignore_failures c = false -> t <= w_last w').
Proof.
  unfold update_resource. unfold andthen at 1.
  destruct (mkpath (e_cwd E) (w_root w) (os_dirname fn)) as [root'|e] eqn:MK.
  2:{ intros [= <- <-]. split; [apply only_at_refl|]. split; [apply keeps_refl|]. split; [lia|].
      split; [exists O; split; [lia|now rewrite app_nil_r]|]. repeat split; try discriminate; auto. }
  apply mkpath_ok in MK. destruct MK as (M1 & M2 & _ & M4).
  assert (only_at (e_cwd E) (is_at (resolve (e_cwd E) fn)) w (with_root root' w)) as O1.
  { split; cbn; auto. exists []. now rewrite app_nil_r. }
  assert (keeps w (with_root root' w)) as K1 by (intros q; cbn; rewrite M1; auto).
  destruct (c_dryrun c) eqn:DR.
  { intros [= <- <-]. split; [exact O1|]. split; [exact K1|]. split; [cbn; lia|].
    split; [exists O; split; [lia|now rewrite app_nil_r]|]. repeat split; try discriminate; auto. }
  unfold andthen at 1. destruct (download E c (c_tries c) (r_uri r) fn (with_root root' w)) as [w1 g] eqn:DL.
  apply download_effect in DL. destruct DL as (D1 & D2 & D3 & D4 & D5 & D6 & D7 & D8). cbn [w_last w_gets with_root] in *.
  assert (only_at (e_cwd E) (is_at (resolve (e_cwd E) fn)) w w1) as O2 by (apply (only_at_trans _ _ _ _ _ O1 D1)).
  assert (keeps w w1) as K2 by (apply (keeps_trans _ _ _ K1 D2)).
  destruct g as [[b|]|e].
  2:{ intros [= <- <-]. split; [exact O2|]. split; [exact K2|]. split; [lia|]. split; [exact D5|].
      split; [discriminate|]. split; [intros n _ _ I; rewrite (D8 eq_refl) in I; discriminate|]. split; [auto|].
      intros t _ n _ _ I. rewrite (D8 eq_refl) in I; discriminate. }
  2:{ intros [= <- <-]. split; [exact O2|]. split; [exact K2|]. split; [lia|]. split; [exact D5|].
      repeat split; try discriminate; auto. }
  (* after the download *)
  match goal with |- (?st ;;; _) w1 = _ -> _ => set (stamp := st) end.
  unfold andthen at 1. destruct (stamp w1) as [w2 y] eqn:ST.
  assert (only_at (e_cwd E) (is_at (resolve (e_cwd E) fn)) w1 w2 /\ keeps w1 w2 /\ w_last w1 <= w_last w2
    /\ w_gets w2 = w_gets w1
    /\ (w_last w2 = w_last w1 \/ r_timestamp r = Some (w_last w2))
    /\ (y = Ok tt -> forall t, r_timestamp r = Some t -> t <= w_last w2)
    /\ (y = Ok tt -> forall d, leaf_at (w_root w1) (resolve (e_cwd E) fn) = Some (File d (e_now E)) ->
         leaf_at (w_root w2) (resolve (e_cwd E) fn) = Some (File d (match r_timestamp r with Some t => whole_seconds t | None => e_now E end))))
    as (S1 & S2 & S3 & S4 & S5 & S6 & S7).
  { subst stamp. destruct (r_timestamp r) as [t|].
    2:{ injection ST as <- <-. split; [apply only_at_refl|]. split; [apply keeps_refl|]. repeat split; auto; try discriminate; lia. }
    unfold andthen, modify in ST. destruct (utime (e_cwd E) (w_root w1) fn (whole_seconds t)) as [root2|e] eqn:UT.
    2:{ injection ST as <- <-. split; [apply only_at_refl|]. split; [apply keeps_refl|]. repeat split; auto; try discriminate; lia. }
    apply utime_ok in UT. destruct UT as (d & m & U1 & U2 & U3 & U4 & U5). cbn in ST.
    assert (exists z, w_last w1 <= z /\ t <= z /\ (z = w_last w1 \/ z = t) /\ w2 = with_last z (with_root root2 w1)) as (z & Z1 & Z2 & Z3 & ->).
    { injection ST as <- <-. destruct (w_last w1 <? t) eqn:L; [exists t|exists (w_last w1)]; (split; [lia|]); (split; [lia|]); split; auto. }
    split; [|split; [|split; [|split; [|split; [|split]]]]].
    - split; cbn; auto.
      + intros q N. rewrite U3. destruct (path_eq_dec _ _) as [->|]; [destruct (N eq_refl)|reflexivity].
      + intros q. apply U4.
      + exists []. now rewrite app_nil_r.
    - intros q N. cbn. rewrite U3. destruct (path_eq_dec _ _); [discriminate|exact N].
    - cbn. lia.
    - reflexivity.
    - cbn. destruct Z3 as [-> | ->]; auto.
    - intros _ t' [= <-]. exact Z2.
    - intros _ d' H. cbn. rewrite U3. rewrite U2 in H. injection H as <- _. pdec; reflexivity. }
  assert (only_at (e_cwd E) (is_at (resolve (e_cwd E) fn)) w w2) as O3 by (apply (only_at_trans _ _ _ _ _ O2 S1)).
  assert (keeps w w2) as K3 by (apply (keeps_trans _ _ _ K2 S2)).
  assert (w_last w2 = w_last w \/ r_timestamp r = Some (w_last w2)) as L3 by (destruct S5; [left; congruence|auto]).
  assert (exists k, (k <= c_tries c)%nat /\ w_gets w2 = w_gets w ++ repeat (r_uri r) k) as G3 by (rewrite S4; exact D5).
  destruct y as [[]|e].
  2:{ intros [= <- <-]. split; [exact O3|]. split; [exact K3|]. split; [lia|]. split; [exact G3|].
      repeat split; try discriminate; auto. }
  unfold andthen at 1. destruct (file_data E w2 fn) as [data|e] eqn:FD.
  2:{ intros [= <- <-]. split; [exact O3|]. split; [exact K3|]. split; [lia|]. split; [exact G3|].
      repeat split; try discriminate; auto. }
  match goal with |- (?st ;;; _) w2 = _ -> _ => set (size := st) end.
  unfold andthen at 1. destruct (size w2) as [w3 y] eqn:SZ.
  assert (w_root w3 = w_root w2 /\ w_state w3 = w_state w2 /\ w_gets w3 = w_gets w2 /\ w_last w3 = w_last w2 /\ w_hashes w3 = w_hashes w2 /\ y = Ok tt)
    as (Z1 & Z2 & Z3 & Z4 & Z5 & ->).
  { subst size. destruct (r_length r) as [n|]; [destruct (n =? _)|]; injection SZ as <- <-; repeat split. }
  unfold andthen at 1. destruct (check_hashes E data r w3) as [w4 y] eqn:CH.
  apply check_hashes_effect in CH. destruct CH as (C1 & C2 & C3 & C4 & C5 & ->).
  intros [= <- <-].
  assert (only_at (e_cwd E) (is_at (resolve (e_cwd E) fn)) w2 w4) as O4 by (apply only_at_same; congruence).
  split; [apply (only_at_trans _ _ _ _ _ O3 O4)|].
  split; [apply (keeps_trans _ _ _ K3); apply keeps_same; congruence|].
  split; [rewrite C4, Z4; lia|]. split; [rewrite C3, Z3; exact G3|]. split; [discriminate|].
  split; [|split; [rewrite C4, Z4; exact L3|]].
  - intros n [= <-] _ _ T. destruct b; [|specialize (D7 eq_refl); lia]. split; [reflexivity|].
    destruct (D6 eq_refl) as (k & d & K & G & M & L). exists k, d. rewrite C3, Z3, S4, C1, Z1. auto.
  - intros t Ht n _ _ _. rewrite C4, Z4. apply S6; auto.
Qed.

Lemma delete_effect E c allow r fn w w' x : tree_ok (w_root w) -> delete_resource E c allow r fn w = (w', x) ->
  only_at (e_cwd E) (is_at (resolve (e_cwd E) fn)) w w' /\ w_last w <= w_last w' /\ w_gets w' = w_gets w /\ w_log w' = w_log w
  /\ (exists n, x = Ok n /\ (n = 0 \/ n = 1) /\ (n = 0 -> w_root w' = w_root w)
       /\ (n = 1 -> allow = true /\ c_dryrun c = false
             /\ leaf_at (w_root w) (resolve (e_cwd E) fn) <> None /\ leaf_at (w_root w') (resolve (e_cwd E) fn) = None))
  /\ (dir_at (w_root w) [] -> allow = true -> c_dryrun c = false -> fn <> [] -> means_dir fn = false -> leaf_at (w_root w) (resolve (e_cwd E) fn) <> None -> x = Ok 1)
  /\ (w_last w' = w_last w \/ r_timestamp r = Some (w_last w'))
  /\ (forall t, r_timestamp r = Some t -> t <= w_last w').
Proof.
  intros T. unfold delete_resource. unfold andthen, modify.
  set (w1 := match r_timestamp r with Some t => if w_last w <? t then with_last t w else w | None => w end).
  assert (w_root w1 = w_root w /\ w_state w1 = w_state w /\ w_gets w1 = w_gets w /\ w_log w1 = w_log w /\ w_hashes w1 = w_hashes w
    /\ w_last w <= w_last w1 /\ (w_last w1 = w_last w \/ r_timestamp r = Some (w_last w1))
    /\ (forall t, r_timestamp r = Some t -> t <= w_last w1)) as (A1 & A2 & A3 & A4 & A5 & A6 & A7 & A8).
  { subst w1. destruct (r_timestamp r) as [t|]; [destruct (Z.ltb_spec (w_last w) t)|]; cbn; repeat split; auto; try lia; try discriminate; intros t' [= <-]; lia. }
  clearbody w1.
  assert (only_at (e_cwd E) (is_at (resolve (e_cwd E) fn)) w w1) as O1 by (apply only_at_same; auto).
  destruct (allow && negb (c_dryrun c)) eqn:AD.
  - apply andb_true_iff in AD. destruct AD as [AL ND]. apply negb_true_iff in ND. rewrite A1.
    destruct (unlink (e_cwd E) (w_root w) fn) as [root'|e] eqn:UL.
    + pose proof (unlink_ok _ _ _ _ T UL) as (n & U1 & U2 & U3 & U4 & U5). intros [= <- <-].
      split; [|split; [cbn; lia|split; [cbn; congruence|split; [cbn; congruence|split; [|split; [auto|cbn; auto]]]]]].
      * split; cbn; auto.
        -- intros q N. rewrite U3. destruct (path_eq_dec _ _) as [->|]; [destruct (N eq_refl)|reflexivity].
        -- intros q. apply U4.
        -- exists []. now rewrite app_nil_r.
      * exists 1. split; [reflexivity|]. split; [auto|]. split; [discriminate|]. intros _. split; [exact AL|]. split; [exact ND|].
        split; [congruence|]. cbn. rewrite U3. pdec; reflexivity.
    + intros [= <- <-]. split; [exact O1|]. split; [lia|]. split; [auto|]. split; [auto|].
      split; [exists 0; repeat split; auto; discriminate|]. split; [|auto].
      intros RD _ _ N M L. exfalso. unfold unlink in UL.
      destruct (leaf_at (w_root w) (resolve (e_cwd E) fn)) as [n|] eqn:LF; [|congruence].
      assert (is_leaf n) as IL by (unfold leaf_at in LF; destruct (lookup _ _) as [[]|]; cbn in *; try discriminate; injection LF as <-; exact I).
      pose proof (proj2 (lstat_leaf_iff (e_cwd E) (w_root w) fn n N M IL) LF) as LS. rewrite LS in UL. cbn in UL.
      assert (forall names k, lookup names k = Some n -> names <> [] -> exists k', remove names k = Some k') as R.
      { clear -IL. induction names as [|x names IH]; intros k LK NN; [congruence|]. cbn in LK |- *.
        destruct k as [|es| |]; try discriminate. destruct names as [|z names].
        - unfold smem, dmem. destruct (sget x es); [eauto|discriminate].
        - destruct (sget x es) as [k|]; [|discriminate]. destruct (IH k LK) as [k' ->]; [discriminate|]. eauto. }
      assert (lookup (resolve (e_cwd E) fn) (w_root w) = Some n) as LK.
      { unfold leaf_at in LF. destruct (lookup _ _) as [[]|]; cbn in *; congruence. }
      destruct (resolve (e_cwd E) fn) as [|x0 names0] eqn:RS.
      * destruct RD as [es RD]. rewrite LK in RD. injection RD as ->. contradiction.
      * destruct (R _ _ LK) as [k' RK]; [discriminate|]. rewrite RK in UL. destruct n; try discriminate. contradiction.
  - intros [= <- <-]. split; [exact O1|]. split; [lia|]. split; [auto|]. split; [auto|].
    split; [exists 0; repeat split; auto; discriminate|]. split; [|auto].
    intros _ -> D. rewrite D in AD. discriminate.
Qed.
