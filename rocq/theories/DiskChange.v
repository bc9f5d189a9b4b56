(** * DiskChange: what the changes to a directory tree do *)

From Verif Require Import Py PyFacts PathSpec OsPath OsPathFacts Disk DiskSpec DiskFacts.

Lemma path_eq_dec (a b : list str) : {a = b} + {a <> b}.
Proof. apply (list_eq_dec str_eq_dec). Qed.

Ltac pdec := repeat match goal with |- context [path_eq_dec ?a ?b] =>
  destruct (path_eq_dec a b); try congruence end.

(** ** put *)

Lemma put_leaf m names : forall n n', put names m n = Some n' -> is_leaf m -> leaf_at n names <> None \/ lookup names n = None ->
  forall q, leaf_at n' q = if path_eq_dec q names then Some m else leaf_at n q.
Proof.
  induction names as [|x names IH]; cbn [put]; intros n n' P M L q.
  - injection P as <-. destruct q as [|y q]; cbn.
    + pdec. destruct m; try contradiction; reflexivity.
    + pdec. unfold leaf_at. cbn. assert (lookup (y :: q) m = None) as E by (destruct m; try contradiction; reflexivity).
      cbn in E. rewrite E. unfold leaf_at in L. cbn in L. destruct n; try reflexivity. destruct L; congruence.
  - destruct n as [|es| |]; try discriminate.
    assert (exists k', n' = Dir (sset x k' es) /\
      forall q', leaf_at k' q' = if path_eq_dec q' names then Some m
                 else match sget x es with Some k => leaf_at k q' | None => None end) as (k' & -> & K).
    { destruct names as [|z names'].
      - injection P as <-. exists m. split; [reflexivity|]. intros q'. unfold leaf_at in L |- *. cbn in L.
        destruct q' as [|y q']; cbn.
        + pdec. destruct m; try contradiction; reflexivity.
        + pdec. assert (lookup (y :: q') m = None) as E by (destruct m; try contradiction; reflexivity).
          cbn in E. rewrite E. destruct (sget x es) as [k|]; [|reflexivity].
          destruct k; try reflexivity. destruct L; congruence.
      - destruct (sget x es) as [k|] eqn:G; [|discriminate].
        destruct (put (z :: names') m k) as [k'|] eqn:P'; [|discriminate]. injection P as <-.
        exists k'. split; [reflexivity|]. intros q'. apply (IH k); auto.
        unfold leaf_at in L |- *. cbn [lookup] in L. rewrite G in L. exact L. }
    destruct q as [|y q].
    + destruct (path_eq_dec [] (x :: names)); [discriminate|]. reflexivity.
    + unfold leaf_at at 1. cbn [lookup]. rewrite sget_sset. destruct (str_eqb_spec y x) as [->|NE].
      * fold (leaf_at k' q). rewrite K. unfold leaf_at at 2. cbn [lookup].
        pdec. destruct (sget x es); reflexivity.
      * destruct (path_eq_dec (y :: q) (x :: names)); [congruence|]. unfold leaf_at. cbn [lookup]. reflexivity.
Qed.

Lemma put_dir m names : forall n n', put names m n = Some n' -> is_leaf m -> leaf_at n names <> None \/ lookup names n = None ->
  forall q, dir_at n' q <-> dir_at n q.
Proof.
  induction names as [|x names IH]; cbn [put]; intros n n' P M L q.
  - injection P as <-. unfold leaf_at in L. cbn in L.
    assert (is_leaf n) as N by (destruct n; cbn; auto; destruct L; congruence).
    assert (forall k, is_leaf k -> ~ dir_at k q) as D; [|split; intros H; [destruct (D m M H)|destruct (D n N H)]].
    intros k K [es E]. destruct q; cbn in E; [injection E as ->; contradiction|]. destruct k; try contradiction; discriminate.
  - destruct n as [|es| |]; try discriminate.
    assert (exists k', n' = Dir (sset x k' es) /\
      forall q', dir_at k' q' <-> match sget x es with Some k => dir_at k q' | None => False end) as (k' & -> & K).
    { destruct names as [|z names'].
      - injection P as <-. exists m. split; [reflexivity|]. intros q'. unfold leaf_at in L. cbn in L.
        assert (forall k, is_leaf k -> ~ dir_at k q') as D.
        { intros k K [es' E]. destruct q'; cbn in E; [injection E as ->; contradiction|]. destruct k; try contradiction; discriminate. }
        destruct (sget x es) as [k|].
        + assert (is_leaf k) as N by (destruct k; cbn; auto; destruct L; congruence).
          split; intros H; [destruct (D m M H)|destruct (D k N H)].
        + split; [apply D, M|tauto].
      - destruct (sget x es) as [k|] eqn:G; [|discriminate].
        destruct (put (z :: names') m k) as [k'|] eqn:P'; [|discriminate]. injection P as <-.
        exists k'. split; [reflexivity|]. intros q'. apply (IH k); auto.
        unfold leaf_at in L |- *. cbn [lookup] in L. rewrite G in L. exact L. }
    destruct q as [|y q]; [split; intros _; eexists; reflexivity|].
    unfold dir_at at 1. cbn [lookup]. rewrite sget_sset. destruct (str_eqb_spec y x) as [->|NE].
    + fold (dir_at k' q). rewrite K. unfold dir_at at 2. cbn [lookup]. destruct (sget x es); [reflexivity|].
      split; [tauto|intros [? ?]; discriminate].
    + reflexivity.
Qed.

(** ** remove *)

Lemma tree_entry es x m : tree_ok (Dir es) -> sget x es = Some m -> tree_ok m.
Proof. intros T G. apply (tree_sub (Dir es) x es); auto. Qed.

Lemma remove_leaf names : forall n n', tree_ok n -> remove names n = Some n' -> leaf_at n names <> None ->
  forall q, leaf_at n' q = if path_eq_dec q names then None else leaf_at n q.
Proof.
  induction names as [|x names IH]; cbn [remove]; intros n n' T P L q; [discriminate|].
  destruct n as [|es| |]; try discriminate.
  destruct names as [|z names'].
  - destruct (smem x es) eqn:M; [|discriminate]. injection P as <-.
    unfold leaf_at in L. cbn in L. destruct (sget x es) as [k|] eqn:G; [|congruence].
    destruct q as [|y q]; [pdec; reflexivity|]. unfold leaf_at at 1. cbn [lookup].
    destruct (str_eq_dec y x) as [->|NE].
    + rewrite sget_sdel_eq by apply (T [] es eq_refl). destruct (path_eq_dec (x :: q) [x]) as [|N]; [reflexivity|].
      unfold leaf_at. cbn [lookup]. rewrite G. destruct q as [|z q]; [congruence|].
      destruct k; cbn; try reflexivity. congruence.
    + rewrite sget_sdel_ne by congruence. destruct (path_eq_dec (y :: q) [x]); [congruence|]. reflexivity.
  - destruct (sget x es) as [k|] eqn:G; [|discriminate].
    destruct (remove (z :: names') k) as [k'|] eqn:P'; [|discriminate]. injection P as <-.
    assert (leaf_at k (z :: names') <> None) as L' by (unfold leaf_at in L |- *; cbn [lookup] in L; rewrite G in L; exact L).
    destruct q as [|y q]; [pdec; reflexivity|]. unfold leaf_at at 1. cbn [lookup]. rewrite sget_sset.
    destruct (str_eqb_spec y x) as [->|NE].
    + fold (leaf_at k' q). rewrite (IH k k' (tree_entry _ _ _ T G) P' L' q). unfold leaf_at at 2. cbn [lookup]. rewrite G.
      pdec. reflexivity.
    + destruct (path_eq_dec (y :: q) (x :: z :: names')); [congruence|]. reflexivity.
Qed.
Lemma remove_dir names : forall n n', tree_ok n -> remove names n = Some n' -> leaf_at n names <> None ->
  forall q, dir_at n' q <-> dir_at n q.
Proof.
  induction names as [|x names IH]; cbn [remove]; intros n n' T P L q; [discriminate|].
  destruct n as [|es| |]; try discriminate.
  destruct names as [|z names'].
  - destruct (smem x es) eqn:M; [|discriminate]. injection P as <-.
    unfold leaf_at in L. cbn in L. destruct (sget x es) as [k|] eqn:G; [|congruence].
    destruct q as [|y q]; [split; intros _; eexists; reflexivity|]. unfold dir_at. cbn [lookup].
    destruct (str_eq_dec y x) as [->|NE].
    + rewrite sget_sdel_eq by apply (T [] es eq_refl). rewrite G. split; intros [e E]; [discriminate|].
      destruct q; cbn in E; [injection E as ->; congruence|]. destruct k; try discriminate. congruence.
    + rewrite sget_sdel_ne by congruence. reflexivity.
  - destruct (sget x es) as [k|] eqn:G; [|discriminate].
    destruct (remove (z :: names') k) as [k'|] eqn:P'; [|discriminate]. injection P as <-.
    assert (leaf_at k (z :: names') <> None) as L' by (unfold leaf_at in L |- *; cbn [lookup] in L; rewrite G in L; exact L).
    destruct q as [|y q]; [split; intros _; eexists; reflexivity|]. unfold dir_at at 1. cbn [lookup]. rewrite sget_sset.
    destruct (str_eqb_spec y x) as [->|NE].
    + fold (dir_at k' q). rewrite (IH k k' (tree_entry _ _ _ T G) P' L' q). unfold dir_at at 2. cbn [lookup]. rewrite G. reflexivity.
    + reflexivity.
Qed.

(** ** make_dirs *)

Lemma make_dirs_leaf names : forall n n', make_dirs names n = Some n' -> forall q, leaf_at n' q = leaf_at n q.
Proof.
  induction names as [|x names IH]; cbn [make_dirs]; intros n n' P q; destruct n as [|es| |]; try discriminate.
  - injection P as <-. reflexivity.
  - destruct (make_dirs names _) as [k'|] eqn:P'; [|discriminate]. injection P as <-.
    destruct q as [|y q]; [reflexivity|]. unfold leaf_at at 1. cbn [lookup]. rewrite sget_sset.
    destruct (str_eqb_spec y x) as [->|NE]; [|reflexivity].
    fold (leaf_at k' q). rewrite (IH _ _ P' q). unfold leaf_at at 2. cbn [lookup].
    destruct (sget x es); [reflexivity|]. destruct q; reflexivity.
Qed.
Lemma make_dirs_dir names : forall n n', make_dirs names n = Some n' ->
  forall q, dir_at n' q <-> dir_at n q \/ exists r, names = q ++ r.
Proof.
  induction names as [|x names IH]; cbn [make_dirs]; intros n n' P q; destruct n as [|es| |]; try discriminate.
  - injection P as <-. split; [auto|]. intros [H|[r E]]; [auto|]. destruct q; [|discriminate]. eexists; reflexivity.
  - destruct (make_dirs names _) as [k'|] eqn:P'; [|discriminate]. injection P as <-.
    destruct q as [|y q]; [split; intros _; [left|]; eexists; reflexivity|].
    unfold dir_at at 1. cbn [lookup]. rewrite sget_sset. destruct (str_eqb_spec y x) as [->|NE].
    + fold (dir_at k' q). rewrite (IH _ _ P' q). unfold dir_at at 2. cbn [lookup]. destruct (sget x es) as [k|].
      * split; intros [H|[r E]]; auto; right; exists r; [now rewrite E|now injection E as ->].
      * split.
        -- intros [[e E]|[r E]]; [|right; exists r; now rewrite E]. destruct q; [right; exists names; reflexivity|discriminate].
        -- intros [[e E]|[r E]]; [discriminate|right; exists r; now injection E as ->].
    + unfold dir_at. cbn [lookup]. split; [auto|]. intros [H|[r E]]; [auto|]. injection E as E1 E2. congruence.
Qed.
Lemma make_dirs_total names : forall n, dir_at n [] -> (forall q r, names = q ++ r -> leaf_at n q = None) ->
  exists n', make_dirs names n = Some n'.
Proof.
  induction names as [|x names IH]; intros n [es D] F; cbn in D; injection D as ->; cbn; [eauto|].
  destruct (IH (match sget x es with Some k => k | None => Dir [] end)) as [k' K].
  - specialize (F [x] names eq_refl). unfold leaf_at in F. cbn in F. unfold dir_at. cbn.
    destruct (sget x es) as [k|]; [destruct k; try discriminate|]; eauto.
  - intros q r ->. specialize (F (x :: q) r eq_refl). unfold leaf_at in F |- *. cbn [lookup] in F.
    destruct (sget x es); [exact F|]. destruct q; reflexivity.
  - rewrite K. eauto.
Qed.

(** ** Trees stay as a system would have them *)

Lemma tree_dir es : tree_ok (Dir es) <->
  NoDup (map fst es) /\ Forall file_name (map fst es) /\ forall x m, sget x es = Some m -> tree_ok m.
Proof.
  split.
  - intros T. destruct (T [] es eq_refl) as [A B]. split; [exact A|]. split; [exact B|]. intros x m. apply tree_entry, T.
  - intros (A & B & C) names es' L. destruct names as [|x names]; cbn in L; [injection L as <-; auto|].
    destruct (sget x es) as [m|] eqn:G; [|discriminate]. apply (C x m G names es' L).
Qed.
Lemma tree_leaf m : is_leaf m -> tree_ok m.
Proof. intros M names es L. destruct names; cbn in L; destruct m; try contradiction; discriminate. Qed.
Lemma tree_sset es x m : tree_ok (Dir es) -> file_name x -> tree_ok m -> tree_ok (Dir (sset x m es)).
Proof.
  intros T F M. apply tree_dir in T. destruct T as (A & B & C). apply tree_dir. split; [|split].
  - apply (NoDup_sset x m es A).
  - rewrite Forall_forall in *. intros y I. apply (in_dkeys_sset y x m es) in I. destruct I as [->|I]; auto.
  - intros y k. rewrite sget_sset. destruct (str_eqb_spec y x); [intros [= <-]; exact M|apply C].
Qed.
Lemma tree_put m names : forall n n', tree_ok n -> is_leaf m -> Forall file_name names -> put names m n = Some n' -> tree_ok n'.
Proof.
  induction names as [|x names IH]; cbn [put]; intros n n' T M F P.
  - injection P as <-. apply tree_leaf, M.
  - destruct n as [|es| |]; try discriminate. inversion F; subst. destruct names as [|z names].
    + injection P as <-. apply tree_sset; auto. apply tree_leaf, M.
    + destruct (sget x es) as [k|] eqn:G; [|discriminate]. destruct (put (z :: names) m k) as [k'|] eqn:P'; [|discriminate].
      injection P as <-. apply tree_sset; auto. apply (IH k); auto. eapply tree_entry; eauto.
Qed.
Lemma sdel_in {A} x y (m : A) es : In (y, m) (sdel x es) -> In (y, m) es.
Proof. induction es as [|[k v] es IH]; cbn; [tauto|]. destruct (str_eqb x k); cbn; [auto|]. intros [H|H]; auto. Qed.
Lemma tree_remove names : forall n n', tree_ok n -> remove names n = Some n' -> tree_ok n'.
Proof.
  induction names as [|x names IH]; cbn [remove]; intros n n' T P; [discriminate|].
  destruct n as [|es| |]; try discriminate. pose proof (proj1 (tree_dir es) T) as (A & B & C).
  destruct names as [|z names].
  - destruct (smem x es); [|discriminate]. injection P as <-. apply tree_dir. split; [|split].
    + apply (NoDup_sdel x es A).
    + rewrite Forall_forall in *. intros y I. apply B. apply in_map_iff in I. destruct I as ([y' m] & <- & I).
      apply sdel_in in I. apply in_map_iff. exists (y', m). auto.
    + intros y m G. apply sget_in, sdel_in in G. apply (C y). apply sget_iff; auto.
  - destruct (sget x es) as [k|] eqn:G; [|discriminate]. destruct (remove (z :: names) k) as [k'|] eqn:P'; [|discriminate].
    injection P as <-. apply tree_sset; auto; [|apply (IH k); eauto].
    rewrite Forall_forall in B. apply B. apply sget_in in G. apply in_map_iff. exists (x, k). auto.
Qed.
Lemma tree_make_dirs names : forall n n', tree_ok n -> Forall file_name names -> make_dirs names n = Some n' -> tree_ok n'.
Proof.
  induction names as [|x names IH]; cbn [make_dirs]; intros n n' T F P; destruct n as [|es| |]; try discriminate.
  - injection P as <-. exact T.
  - destruct (make_dirs names _) as [k'|] eqn:P'; [|discriminate]. injection P as <-. inversion F; subst.
    apply tree_sset; auto. apply (IH _ _) in P'; auto. destruct (sget x es) as [k|] eqn:G; [eapply tree_entry; eauto|].
    apply tree_dir. cbn. split; [constructor|]. split; [constructor|]. discriminate.
Qed.

(** ** Where paths lead *)

Lemma removelast_app_name (a : list str) : Forall file_name a -> Forall file_name (removelast a).
Proof.
  induction a as [|x a IH]; cbn; intros F; [constructor|]. inversion F; subst. destruct a; [constructor|].
  constructor; auto.
Qed.
Lemma follow_names comps : forall dir, Forall file_name dir -> Forall (fun c => ~ In "/"%char c) comps ->
  Forall file_name (follow dir comps).
Proof.
  induction comps as [|c comps IH]; cbn [follow]; intros dir F C; [exact F|]. inversion C as [|? ? Cc C']; subst.
  destruct (str_eqb_spec c []) as [->|N1]; cbn [orb]; [auto|].
  destruct (str_eqb_spec c $".") as [->|N2]; [auto|].
  destruct (str_eqb_spec c $"..") as [->|N3]; [apply IH; auto; apply removelast_app_name, F|].
  apply IH; auto. apply Forall_app. split; auto. constructor; [|constructor]. repeat split; auto.
Qed.
Lemma resolve_names cwd p : Forall file_name cwd -> Forall file_name (resolve cwd p).
Proof.
  intros F. unfold resolve. apply follow_names; [destruct (startswith _ _); auto|].
  apply Forall_forall. intros c I. apply split_on_fields in I. exact I.
Qed.

(** ** The calls *)

(** Leaves at other places stay. *)
Definition same_leaves_except (q : list str) (a b : node) : Prop := forall q', q' <> q -> leaf_at b q' = leaf_at a q'.

Lemma lstat_leaf cwd root p n : lstat cwd root p = Ok n -> is_leaf n ->
  leaf_at root (resolve cwd p) = Some n /\ means_dir p = false.
Proof.
  unfold lstat, leaf_at. destruct p as [|c p]; [discriminate|]. destruct (lookup _ root) as [k|]; [|discriminate].
  destruct k; try (destruct (means_dir (c :: p)); [discriminate|]); intros [= <-] L; auto; contradiction.
Qed.
Lemma lstat_leaf_iff cwd root p n : p <> [] -> means_dir p = false -> is_leaf n ->
  (lstat cwd root p = Ok n <-> leaf_at root (resolve cwd p) = Some n).
Proof.
  intros N M L. unfold lstat, leaf_at. destruct p as [|c p]; [congruence|]. rewrite M.
  destruct (lookup _ root) as [k|]; [|split; discriminate].
  destruct k; split; intros H; try exact H; try congruence; injection H as <-; contradiction.
Qed.
Lemma lstat_dir_iff cwd root p : p <> [] -> ((exists es, lstat cwd root p = Ok (Dir es)) <-> dir_at root (resolve cwd p)).
Proof.
  intros N. unfold lstat, dir_at. destruct p as [|c p]; [congruence|].
  destruct (lookup _ root) as [k|]; [|split; intros [? ?]; discriminate].
  destruct k; try (destruct (means_dir (c :: p))); split; intros [es E]; try discriminate; injection E as <-; eauto.
Qed.

Lemma write_file_ok cwd root p d now root' : write_file cwd root p d now = Ok root' ->
  means_dir p = false /\ (forall q, leaf_at root' q = if path_eq_dec q (resolve cwd p) then Some (File d now) else leaf_at root q)
  /\ (forall q, dir_at root' q <-> dir_at root q)
  /\ (tree_ok root -> Forall file_name cwd -> tree_ok root').
Proof.
  unfold write_file. destruct (means_dir p) eqn:M; [discriminate|].
  intros H. destruct (put (resolve cwd p) (File d now) root) as [r|] eqn:P.
  2:{ destruct (lookup _ root) as [[]|]; discriminate. }
  assert (r = root' /\ (leaf_at root (resolve cwd p) <> None \/ lookup (resolve cwd p) root = None)) as (-> & L).
  { unfold leaf_at. destruct (lookup _ root) as [[]|]; try discriminate; injection H as ->; split; auto; left; discriminate. }
  split; [reflexivity|]. split; [apply (put_leaf _ _ _ _ P); cbn; auto|].
  split; [apply (put_dir _ _ _ _ P); cbn; auto|]. intros T F. refine (tree_put _ _ _ _ T _ (resolve_names cwd p F) P). exact I.
Qed.
Lemma utime_ok cwd root p t root' : utime cwd root p t = Ok root' ->
  exists d m, means_dir p = false /\ leaf_at root (resolve cwd p) = Some (File d m)
  /\ (forall q, leaf_at root' q = if path_eq_dec q (resolve cwd p) then Some (File d t) else leaf_at root q)
  /\ (forall q, dir_at root' q <-> dir_at root q)
  /\ (tree_ok root -> Forall file_name cwd -> tree_ok root').
Proof.
  unfold utime. destruct (lstat cwd root p) as [n|] eqn:L; [|discriminate]. cbn.
  destruct n as [d m| | |]; try discriminate. apply lstat_leaf in L; [|cbn; auto]. destruct L as [L M].
  destruct (put _ _ _) as [r|] eqn:P; [|discriminate]. intros [= ->]. exists d, m. split; [exact M|]. split; [exact L|].
  assert (leaf_at root (resolve cwd p) <> None \/ lookup (resolve cwd p) root = None) as L' by (left; congruence).
  split; [apply (put_leaf _ _ _ _ P); cbn; auto|].
  split; [apply (put_dir _ _ _ _ P); cbn; auto|]. intros T F. refine (tree_put _ _ _ _ T _ (resolve_names cwd p F) P). exact I.
Qed.
Lemma unlink_ok cwd root p root' : tree_ok root -> unlink cwd root p = Ok root' ->
  exists n, means_dir p = false /\ leaf_at root (resolve cwd p) = Some n
  /\ (forall q, leaf_at root' q = if path_eq_dec q (resolve cwd p) then None else leaf_at root q)
  /\ (forall q, dir_at root' q <-> dir_at root q) /\ tree_ok root'.
Proof.
  unfold unlink. intros T. destruct (lstat cwd root p) as [n|] eqn:L; [|discriminate]. cbn. intros H.
  assert (is_leaf n) as N by (destruct n; cbn; auto; discriminate). apply lstat_leaf in L; [|exact N]. destruct L as [L M].
  destruct (remove (resolve cwd p) root) as [r|] eqn:R; [|destruct n; discriminate].
  assert (r = root') as -> by (destruct n; congruence).
  exists n. split; [exact M|]. split; [exact L|]. assert (leaf_at root (resolve cwd p) <> None) as L' by congruence.
  split; [apply (remove_leaf _ _ _ T R); auto|]. split; [apply (remove_dir _ _ _ T R); auto|]. eapply tree_remove; eauto.
Qed.
Lemma mkpath_ok cwd root p root' : mkpath cwd root p = Ok root' ->
  (forall q, leaf_at root' q = leaf_at root q) /\ (forall q, dir_at root q -> dir_at root' q)
  /\ (p <> [] -> forall q, dir_at root' q <-> dir_at root q \/ exists r, resolve cwd p = q ++ r)
  /\ (tree_ok root -> Forall file_name cwd -> tree_ok root').
Proof.
  unfold mkpath. destruct p as [|c p].
  - intros [= ->]. split; [auto|]. split; [auto|]. split; [congruence|auto].
  - destruct (make_dirs _ root) as [r|] eqn:P; [|discriminate]. intros [= ->].
    split; [apply (make_dirs_leaf _ _ _ P)|]. split; [intros q H; apply (make_dirs_dir _ _ _ P); auto|].
    split; [intros _; apply (make_dirs_dir _ _ _ P)|]. intros T F. apply (tree_make_dirs _ _ _ T (resolve_names cwd (c :: p) F) P).
Qed.
