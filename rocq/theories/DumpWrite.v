(** * DumpWrite: lemmas about checking the files of a dump and writing it *)

From Coq Require Import Permutation Sorted Lia.
From Verif Require Import Py PyFacts Float64 OsPath OsPathFacts Resource ResourceSpec Container ContainerSpec ContainerFacts
  Xml Sitemap SitemapSpec SitemapLists Opener ListIndex Dump PathSpec DumpSpec DumpFacts.

(** ** check_files *)

Definition path_text (r : resource) : str := match r_path r with Some p => p | None => [] end.
Definition dir_of (r : resource) : str := os_dirname (path_text r).
Definition fold_prefix (prefix : option str) (rs : list resource) : option str :=
  fold_left (fun q r => Some (match q with None => dir_of r | Some q => os_commonprefix q (dir_of r) end)) rs prefix.
Definition checked (fs : fsys) (set_len : bool) (r : resource) : resource :=
  match r_length r with None => if set_len then measured fs r else r | Some _ => r end.

Section Check.
Variables (fs : fsys) (max_size : Z) (set_len check : bool).

Lemma check_runs rs : Forall (dumpable fs max_size check) rs -> forall prefix total,
  check_loop fs max_size set_len check rs prefix total
  = Ok (map (checked fs set_len) rs, fold_prefix prefix rs, total + fold_right Z.add 0 (map (fun r => zlen (content fs r)) rs)).
Proof.
  induction 1 as [|r rs (p & f & P & F & L & M) D IH]; intros prefix total; cbn [check_loop]; [now rewrite Z.add_0_r|].
  rewrite P. unfold getsize. rewrite F. cbn [bind].
  assert (C : content fs r = f_data f) by (unfold content; now rewrite P, F).
  assert (X : (match r_length r with
     | Some n => if check && negb (n =? zlen (f_data f)) then Err DumpError else Ok r
     | None => Ok (if set_len then set_length (Some (zlen (f_data f))) r else r) end) = Ok (checked fs set_len r)).
  { unfold checked, measured. rewrite C. destruct (r_length r) as [n|] eqn:E; [|reflexivity].
    destruct check; [|reflexivity]. rewrite (L eq_refl n eq_refl), Z.eqb_refl. reflexivity. }
  rewrite X. cbn [bind]. replace (max_size <? zlen (f_data f)) with false by (symmetry; now apply Z.ltb_ge).
  rewrite IH. cbn [bind map fold_right]. change (fold_prefix prefix (r :: rs))
    with (fold_prefix (Some (match prefix with None => dir_of r | Some q => os_commonprefix q (dir_of r) end)) rs).
  unfold dir_of, path_text. rewrite P, C, Z.add_assoc. reflexivity.
Qed.

Lemma check_only rs : forall prefix total out, check_loop fs max_size set_len check rs prefix total = Ok out ->
  Forall (dumpable fs max_size check) rs.
Proof.
  induction rs as [|r rs IH]; intros prefix total out H; constructor; cbn [check_loop] in H.
  - destruct (r_path r) as [p|] eqn:P; [|discriminate]. unfold getsize in H. destruct (sget p fs) as [f|] eqn:F; [|discriminate]. cbn [bind] in H.
    exists p, f. split; [exact P|]. split; [exact F|]. split.
    + intros C n E. subst check. rewrite E in H. destruct (Z.eqb_spec n (zlen (f_data f))); [assumption|discriminate].
    + destruct (match r_length r with Some n => _ | None => _ end) as [r'|]; [|discriminate]. cbn [bind] in H.
      destruct (max_size <? zlen (f_data f)) eqn:M; [discriminate|]. now apply Z.ltb_ge in M.
  - destruct (r_path r) as [p|]; [|discriminate]. destruct (getsize fs p) as [size|]; [|discriminate]. cbn [bind] in H.
    destruct (match r_length r with Some n => _ | None => _ end) as [r'|]; [|discriminate]. cbn [bind] in H.
    destruct (max_size <? size); [discriminate|]. 
    match type of H with context [check_loop fs max_size set_len check rs ?q ?t] => destruct (check_loop fs max_size set_len check rs q t) as [o|] eqn:E; [|discriminate]; now apply IH in E end.
Qed.
End Check.

Lemma checked_measured fs max_size r : dumpable fs max_size true r -> checked fs true r = measured fs r.
Proof.
  intros (p & f & P & F & L & _). unfold checked. destruct (r_length r) as [n|] eqn:E; [|reflexivity].
  specialize (L eq_refl n eq_refl). unfold measured, content. rewrite P, F, <- L. destruct r. cbn in E. subst. reflexivity.
Qed.

(** ** The common prefix *)

Definition begins (q s : str) : Prop := exists t, s = q ++ t.
Lemma begins_refl q : begins q q. Proof. exists []. now rewrite app_nil_r. Qed.
Lemma begins_trans a b c : begins a b -> begins b c -> begins a c.
Proof. intros (x & ->) (y & ->). exists (x ++ y). now rewrite app_assoc. Qed.
Lemma begins_app a b : begins a (a ++ b). Proof. now exists b. Qed.
Lemma begins_antisym a b : begins a b -> begins b a -> a = b.
Proof.
  intros (x & ->) (y & E). rewrite <- app_assoc in E. rewrite <- (app_nil_r a) in E at 1. apply app_inv_head in E.
  symmetry in E. apply app_eq_nil in E as [-> _]. now rewrite app_nil_r.
Qed.

Lemma fold_prefix_some rs : forall q, exists q', fold_prefix (Some q) rs = Some q' /\ begins q' q
  /\ (forall r, In r rs -> begins q' (dir_of r))
  /\ (forall p, begins p q -> (forall r, In r rs -> begins p (dir_of r)) -> begins p q').
Proof.
  induction rs as [|r rs IH]; intros q.
  - exists q. split; [reflexivity|]. split; [apply begins_refl|]. split; [easy|auto].
  - cbn [fold_prefix fold_left] in *. destruct (IH (os_commonprefix q (dir_of r))) as (q' & E & B & A & M).
    destruct (commonprefix_spec q (dir_of r)) as (x & y & X & Y & _).
    exists q'. split; [exact E|]. split; [|split].
    + eapply begins_trans; [exact B|]. rewrite X at 2. apply begins_app.
    + intros s [<-|I]; [|now apply A]. eapply begins_trans; [exact B|]. rewrite Y at 2. apply begins_app.
    + intros p P1 P2. apply M; [|intros s I; apply P2; now right]. apply commonprefix_max; [exact P1|]. apply P2. now left.
Qed.

Lemma prefix_spec rs : rs <> [] -> exists q, fold_prefix None rs = Some q
  /\ (forall r, In r rs -> begins q (dir_of r))
  /\ (forall p, (forall r, In r rs -> begins p (dir_of r)) -> begins p q).
Proof.
  destruct rs as [|r rs]; intros N; [congruence|]. cbn [fold_prefix fold_left].
  destruct (fold_prefix_some rs (dir_of r)) as (q & E & B & A & M). exists q. split; [exact E|]. split.
  - intros s [<-|I]; auto.
  - intros p P. apply M; [apply P; now left|]. intros s I. apply P. now right.
Qed.

Lemma local_app abs top x : exists t, local_path abs (top ++ x) = local_path abs top ++ t /\
  (x = [] -> t = []) /\
  (forall c a l, x = (c :: a) :: l -> (exists t', t = c :: t' /\ top = []) \/ (exists t', t = "/"%char :: c :: t' /\ top <> [])).
Proof.
  destruct x as [|y l].
  - exists []. rewrite !app_nil_r. split; [reflexivity|]. split; [reflexivity|]. intros; discriminate.
  - destruct top as [|u top].
    + exists (rel_path (y :: l)). split; [destruct abs; reflexivity|]. split; [discriminate|].
      intros c a l' [= -> ->]. left. destruct l'; eexists; split; reflexivity.
    + exists ($"/" ++ rel_path (y :: l)). split.
      * destruct abs; cbn [local_path]; [apply path_of_app|apply rel_path_app]; discriminate.
      * split; [discriminate|]. intros c a l' [= -> ->]. right. destruct l'; eexists; (split; [reflexivity|discriminate]).
Qed.

Lemma dir_of_lies abs l n r : lies_at abs (l ++ [n]) r -> dir_of r = local_path abs l.
Proof. intros [F P]. unfold dir_of, path_text. rewrite P. now apply dirname_names. Qed.

Lemma top_prefix abs top rs : common_top abs top rs -> exists n,
  fold_prefix None rs = Some (local_path abs top ++ repeat "/"%char n) /\ (top = [] -> n = O).
Proof.
  intros [A B].
  assert (NE : rs <> []).
  { destruct B as [(r & n & I & _)|(r & ? & ? & ? & ? & ? & ? & ? & ? & ? & I & _)]; intros ->; destruct I. }
  destruct (prefix_spec rs NE) as (q & E & Q & M). rewrite E.
  assert (T : begins (local_path abs top) q).
  { apply M. intros r I. destruct (A r I) as (rest & NR & L). destruct (exists_last NR) as (x & n & ->). rewrite app_assoc in L.
    rewrite (dir_of_lies _ _ _ _ L). destruct (local_app abs top x) as (t & -> & _). apply begins_app. }
  destruct T as (t & ->). destruct B as [(r & n & I & L)|(r1 & r2 & c1 & a1 & x1 & n1 & c2 & a2 & x2 & n2 & I1 & I2 & NC & L1 & L2)].
  - exists O. split; [|auto]. f_equal. specialize (Q r I). rewrite (dir_of_lies _ _ _ _ L) in Q.
    symmetry. cbn [repeat]. rewrite app_nil_r. apply begins_antisym; [apply begins_app|exact Q].
  - change (top ++ (c1 :: a1) :: x1 ++ [n1]) with (top ++ ((c1 :: a1) :: x1) ++ [n1]) in L1.
    change (top ++ (c2 :: a2) :: x2 ++ [n2]) with (top ++ ((c2 :: a2) :: x2) ++ [n2]) in L2. rewrite app_assoc in L1, L2.
    pose proof (Q r1 I1) as (y1 & Q1). pose proof (Q r2 I2) as (y2 & Q2).
    rewrite (dir_of_lies _ _ _ _ L1) in Q1. rewrite (dir_of_lies _ _ _ _ L2) in Q2.
    destruct (local_app abs top ((c1 :: a1) :: x1)) as (t1 & E1 & _ & T1). destruct (local_app abs top ((c2 :: a2) :: x2)) as (t2 & E2 & _ & T2).
    rewrite E1, <- app_assoc in Q1. rewrite E2, <- app_assoc in Q2. apply app_inv_head in Q1, Q2.
    destruct (T1 _ _ _ eq_refl) as [(u1 & -> & W1)|(u1 & -> & W1)]; destruct (T2 _ _ _ eq_refl) as [(u2 & -> & W2)|(u2 & -> & W2)]; try contradiction.
    + exists O. split; [|auto]. destruct t as [|x t]; [reflexivity|]. injection Q1 as -> _. injection Q2 as -> _. congruence.
    + destruct t as [|x t]; [exists O; auto|]. injection Q1 as <- Q1. injection Q2 as Q2. destruct t as [|x t].
      * exists 1%nat. split; [reflexivity|]. intros; contradiction.
      * injection Q1 as -> _. injection Q2 as -> _. congruence.
Qed.

Lemma rel_path_inj a b : Forall file_name a -> Forall file_name b -> a <> [] -> b <> [] -> rel_path a = rel_path b -> a = b.
Proof.
  unfold rel_path. intros FA FB NA NB E. rewrite <- (split_join a), <- (split_join b), E by auto using names_no_slash. reflexivity.
Qed.

Section Archive.
Variables (cwd : list str) (abs : bool) (top : list str) (n : nat).
Hypothesis cwd_names : Forall file_name cwd.
Hypothesis root_bare : top = [] -> n = O.
Let prefix : option str := Some (local_path abs top ++ repeat "/"%char n).

Lemma archive_name_in r name : name_in abs top r name -> exists p, r_path r = Some p /\ archive_path (path_of cwd) prefix p = Ok name.
Proof.
  intros (rest & NR & [F P] & ->). eexists. split; [exact P|]. unfold archive_path, prefix.
  assert (C : (top = [] /\ abs = false) \/ top <> [] \/ (n = O /\ abs = true)).
  { destruct top as [|u t]; [|right; left; discriminate]. destruct abs; auto. }
  destruct C as [[-> ->]|C].
  - rewrite root_bare by reflexivity. reflexivity.
  - assert (N : local_path abs top ++ repeat "/"%char n <> []).
    { apply local_path_nonempty; [|tauto]. now apply Forall_app in F as [F _]. }
    destruct (local_path abs top ++ repeat "/"%char n) as [|x q] eqn:E; [congruence|]. rewrite <- E. now apply relpath_names.
Qed.

Lemma name_in_fun r a b : name_in abs top r a -> name_in abs top r b -> a = b.
Proof.
  intros A B. destruct (archive_name_in _ _ A) as (p & P & X). destruct (archive_name_in _ _ B) as (q & Q & Y). congruence.
Qed.
Lemma name_in_inj r s a : name_in abs top r a -> name_in abs top s a -> r_path r = r_path s.
Proof.
  intros (x & NX & [FX PX] & ->) (y & NY & [FY PY] & E). apply Forall_app in FX as [_ FX]. apply Forall_app in FY as [_ FY].
  apply rel_path_inj in E; auto. congruence.
Qed.
Lemma zip_name_in r name : name_in abs top r name -> zip_name name = Ok name.
Proof.
  intros (rest & NR & [F P] & ->). apply Forall_app in F as [_ F]. unfold zip_name. rewrite normpath_rel_names by assumption.
  pose proof (names_not_rooted rest F) as R.
  assert (N : rel_path rest <> []).
  { pose proof (local_path_nonempty false rest 0 F (or_introl NR)) as N. cbn [local_path repeat] in N. now rewrite app_nil_r in N. }
  destruct (rel_path rest) as [|c s]; [congruence|].
  assert (C : c <> "/"%char). { intros ->. discriminate R. }
  destruct c as [[] [] [] [] [] [] [] []]; try reflexivity. exfalso. now apply C.
Qed.

(** *** The loops of write_zip *)

Definition named (r : resource) (name : str) : resource := set_path (Some name) r.

Lemma rename_runs rs names : Forall2 (name_in abs top) rs names -> forall real,
  rename_loop (path_of cwd) prefix rs real
  = Ok (map (fun p => named (fst p) (snd p)) (combine rs names),
        fold_left (fun d p => sset (snd p) (path_text (fst p)) d) (combine rs names) real).
Proof.
  induction 1 as [|r a rs names H F IH]; intros real; [reflexivity|]. cbn [rename_loop combine map fold_left fst snd].
  destruct (archive_name_in r a H) as (p & P & X). rewrite P, X. cbn [bind]. rewrite IH. cbn [bind]. replace (path_text r) with p by (unfold path_text; now rewrite P). reflexivity.
Qed.

Lemma real_kept (l : list (resource * str)) : forall real a p,
  Forall (fun x => name_in abs top (fst x) (snd x)) l ->
  (forall x, In x l -> snd x = a -> path_text (fst x) = p) ->
  sget a real = Some p \/ (exists x, In x l /\ snd x = a) ->
  sget a (fold_left (fun d x => sset (snd x) (path_text (fst x)) d) l real) = Some p.
Proof.
  induction l as [|x l IH]; intros real a p F C H; cbn [fold_left].
  - destruct H as [H|(x & [] & _)]. exact H.
  - inversion F; subst. apply IH; [assumption|intros y I; apply C; now right|].
    destruct (str_eqb_spec (snd x) a) as [E|E].
    + left. rewrite <- E, sget_sset_eq. f_equal. apply C; [now left|assumption].
    + destruct H as [H|(y & [->|I] & Y)]; [left|congruence|right; eauto]. rewrite sget_sset_ne by congruence. exact H.
Qed.

Lemma entries_run fs (l : list (resource * str)) real :
  (forall x, In x l -> name_in abs top (fst x) (snd x) /\ (exists f, sget (path_text (fst x)) fs = Some f)
     /\ sget (snd x) real = Some (path_text (fst x))) ->
  entries_loop fs real (map (fun p => named (fst p) (snd p)) l) = Ok (map (fun p => (snd p, content fs (fst p))) l).
Proof.
  induction l as [|x l IH]; intros H; [reflexivity|]. cbn [map entries_loop]. unfold named at 1. cbn [r_path set_path].
  destruct (H x (or_introl eq_refl)) as (N & (f & F) & R). rewrite R, F, (zip_name_in _ _ N). cbn [bind]. rewrite IH by (intros y I; apply H; now right).
  cbn [bind]. unfold content, path_text in *. destruct N as (rest & _ & [_ P] & _). rewrite P in *. now rewrite F.
Qed.

(** *** The manifest *)

Lemma legal_manifest : legal manifest_name.
Proof.
  intros c I. left. revert c I. assert (F : forallb (fun c => N.leb 32 (code c)) manifest_name = true) by reflexivity.
  rewrite forallb_forall in F. intros c I. now apply N.leb_le, F.
Qed.
Lemma manifest_round rs : StronglySorted uri_before rs -> NoDup (map r_uri rs) -> Forall good_resource rs -> Forall legal_resource rs ->
  exists text d, as_xml (fun l => l) default_settings (Some manifest_name) false (MkDoc [] [] rs) = Ok text
    /\ list_parse (fun r => rl_add r false) default_settings (Some manifest_name) (MkDoc [] [] []) text = Ok d
    /\ Forall2 (read_back default_settings) rs (rl_iter (d_items d)).
Proof.
  intros S N G L. pose proof (keyed_sorted rs S N) as K.
  destruct (list_round rl_iter (fun r => rl_add r false) [] default_settings manifest_name (MkDoc [] [] (keyed rs)))
    as (text & d & W & P & (_ & _ & R)).
  - apply legal_manifest.
  - split; [|now left]. unfold in_order. cbn [d_md d_ln d_items]. rewrite K. split; [|split; [|split; assumption]].
    + split; [split; [constructor|split; [easy|split; [easy|easy]]]|split; easy].
    + split; constructor.
  - cbn [d_items]. rewrite K. intros rs' B. apply read_back_uris in B. exists (keyed rs').
    assert (N' : NoDup (map r_uri rs')) by now rewrite B. split; [now apply add_seq_fresh|]. apply keyed_sorted; [|assumption].
    eapply StronglySorted_uris; eassumption.
  - exists text, d. split; [|split; [exact P|]].
    + rewrite <- W. unfold as_xml. cbn. unfold rl_iter, dkeys in K. rewrite K. reflexivity.
    + unfold as_written, in_order in R. cbn [d_items] in R. rewrite K in R. exact R.
Qed.
End Archive.
