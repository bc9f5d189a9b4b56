(** * SucceedEx: baseline synchronizations that succeed and some that do not *)

From Verif Require Import Py PyFacts Float64 W3C Url UrlAuthority PathSpec OsPath Mapper MapperSpec Resource ResourceSpec Container
  ContainerSpec Capability Xml Sitemap ListIndex Hashes Disk DiskSpec DiskFacts Builder BuilderSpec BuilderFacts ClientState ClientStateSpec ClientStateFacts
  Client ClientSpec ClientLists ClientFacts ClientRuns ClientExamples ClientThms ClientSync ClientReport ClientStatus ClientSyncEx ClientDirs
  ConvergeSpec ClientConverge ConvergeEx SucceedSpec ClientSucceed ClientBlocked.

(** ** The destination is there, some files are up to date *)

(** All files are dated before the year 10000. *)
Fixpoint early (n : node) : bool :=
  match n with
  | Dir es => (fix all (es : list (str * node)) : bool := match es with [] => true | (_, m) :: es' => early m && all es' end) es
  | _ => match mtime_of n with Some t => t <? 253402300798 * SEC | None => true end
  end.
Lemma early_sub es x m : early (Dir es) = true -> sget x es = Some m -> early m = true.
Proof.
  cbn [early]. induction es as [|[y k] es IH]; cbn; [discriminate|]. rewrite andb_true_iff. intros [A B].
  destruct (str_eqb _ _); [intros H; injection H as <-; exact A|exact (IH B)].
Qed.
Lemma early_leaf : forall q root n, early root = true -> leaf_at root q = Some n -> early n = true.
Proof.
  unfold leaf_at. induction q as [|x q IH]; intros root n Er L.
  - cbn in L. destruct root; try discriminate; injection L as <-; exact Er.
  - cbn in L. destruct root as [|es| |]; try discriminate. destruct (sget x es) as [k|] eqn:G; [|discriminate].
    apply (IH k n); [exact (early_sub es x k Er G)|exact L].
Qed.
Lemma early_time root q n t : early root = true -> leaf_at root q = Some n -> mtime_of n = Some t -> before_10000 t.
Proof.
  intros Er L T. pose proof (early_leaf q root n Er L) as H. destruct n; try discriminate; unfold early in H; rewrite T in H; apply Z.ltb_lt; exact H.
Qed.
Lemma two_places u q : listed two_env (ex_client one_mapping) u -> place_of two_env (ex_client one_mapping) u q ->
  u = $"http://s.org/r/a" /\ q = [$"d"; $"a"] \/ u = $"http://s.org/r/x/b" /\ q = [$"d"; $"x"; $"b"].
Proof.
  intros L (p & S & ->). destruct (two_listed u L) as [-> | ->]; [left|right]; (split; [reflexivity|]);
    vm_compute in S; injection S as <-; vm_compute; reflexivity.
Qed.
Lemma two_times : forallb (fun x => match r_timestamp (snd x) with Some t => t <? 253402300798 * SEC | None => true end) two_list = true.
Proof. vm_compute. reflexivity. Qed.
Lemma ltb_before t : (t <? 253402300798 * SEC) = true -> before_10000 t. Proof. apply Z.ltb_lt. Qed.
Lemma prefix_cases {A} (a : A) l p x rest : a :: l = p ++ x :: rest -> p = [] \/ exists p', p = a :: p' /\ l = p' ++ x :: rest.
Proof. destruct p as [|y p]; [auto|]. intros [= <- H]. right. exists p. auto. Qed.
Lemma prefix_nil {A} p (x : A) rest : [] = p ++ x :: rest -> False. Proof. destruct p; discriminate. Qed.

Ltac prefixes H := repeat first
  [ exfalso; exact (prefix_nil _ _ _ H)
  | apply prefix_cases in H; let p' := fresh "p'" in let H' := fresh "H'" in destruct H as [->|(p' & -> & H')]; [|rename H' into H] ].
Lemma two_favourable : favourable two_env (ex_client one_mapping) (start old_tree None).
Proof.
  assert (forall u, In u [$"http://s.org/r/a"; $"http://s.org/r/x/b"] <-> listed two_env (ex_client one_mapping) u) as LI.
  { intros u. split; [|intros L; destruct (two_listed u L) as [-> | ->]; cbn; auto].
    intros I. exists two_list. split; [exact two_found|]. destruct I as [<-|[<-|[]]]; vm_compute; auto. }
  split.
  - exact two_synchronizable.
  - exists $"http://s.org/r/a". apply LI. left. reflexivity.
  - vm_compute. reflexivity.
  - intros u q L P. destruct (two_places u q L P) as [[-> ->]|[-> ->]].
    + split; [intros [es X]; vm_compute in X; discriminate|]. split; [intros n X; injection X as <-; eauto|].
      split; [intros p x rest X; prefixes X; reflexivity|].
      intros u' x rest L' P'. destruct (two_places u' _ L' P') as [[_ X]|[_ X]]; discriminate.
    + split; [intros [es X]; vm_compute in X; discriminate|]. split; [intros n X; discriminate|].
      split; [intros p x rest X; prefixes X; reflexivity|].
      intros u' x rest L' P'. destruct (two_places u' _ L' P') as [[_ X]|[_ X]]; discriminate.
  - intros u L k. exists O. destruct (two_listed u L) as [-> | ->]; eexists; (split; [apply Nat.ltb_lt; reflexivity|]); (split; [reflexivity|]); intros i X; lia.
  - right. exists $"http://s.org/r/resourcelist.xml". split; [reflexivity|]. intros u L. destruct (two_listed u L) as [-> | ->]; vm_compute; reflexivity.
  - split.
    + intros u r t (src & F & I) T. rewrite two_found in F. apply Ok_inj in F. subst src.
      pose proof (proj1 (forallb_forall _ _) two_times _ I) as H. cbn [snd] in H. rewrite T in H. exact (ltb_before t H).
    + intros u n t LN T. destruct (node_base _ _ _ two_synchronizable _ u n (sy_world _ _ _ two_synchronizable) (proj1 (sy_names _ _ _ two_synchronizable)) (sy_free _ _ _ two_synchronizable) LN) as (_ & _ & q & _ & L).
      apply (early_time old_tree q n t); [vm_compute; reflexivity|exact L|exact T].
  - exists (MkIni [] []). reflexivity.
  - split; [intros h []|left; reflexivity].
Qed.

(** ** One resource and an empty destination *)

Definition one_docs (u : str) : list (str * str) :=
  [($"http://s.org/r/resourcelist.xml", list_text $"resourcelist" [entry u $"2001-01-01T00:00:00Z" $"length='1'"])].
Definition one_env (u : str) : env := ex_env (one_docs u) [(u, $"A")].
Definition one_entry (u : str) : resource :=
  MkR u (Some day) (Some 1) None None None None None None None None None None None None None.
Lemma one_favourable rel q : let u := $"http://s.org/r/" ++ rel_path rel in
  find_resource_list (e_fetch (one_env u)) (ex_client one_mapping) = Ok [(u, one_entry u)] ->
  rel <> [] -> Forall file_name rel -> Forall one_line rel ->
  authority_over false $"http://s.org/r/resourcelist.xml" u = Ok true ->
  src_to_dst one_mapping u = Ok ($"/d/" ++ rel_path rel) -> denotes [] ($"/d/" ++ rel_path rel) = q -> (1 < List.length q)%nat ->
  favourable (one_env u) (ex_client one_mapping) (start (Dir []) None).
Proof.
  intros u F NR FR OL AU SD DN QL.
  assert (forall v, listed (one_env u) (ex_client one_mapping) v <-> v = u) as LI.
  { intros v. split; [|intros ->; exists [(u, one_entry u)]; split; [exact F|left; reflexivity]].
    intros (src & F' & I). rewrite F in F'. injection F' as <-. destruct I as [<-|[]]. reflexivity. }
  assert (synchronizable (one_env u) (ex_client one_mapping) (start (Dir []) None)) as SY.
  { split.
    - split; [apply names_okb_ok; reflexivity|]. split; [eexists; reflexivity|constructor].
    - split; [apply (proj2 (names_okb_ok (Dir []) eq_refl))|constructor].
    - split; [apply one_mapping_apart|apply one_mapping_alone].
    - intros m [<-|[]]. split; [discriminate|reflexivity].
    - intros v L. apply LI in L. subst v. exists (MkMap $"http://s.org/r" $"/d"), rel. split; [left; reflexivity|]. auto. }
  assert (forall x y (l : list str) n, lookup (x :: l) (Dir []) = Some n -> y = 0) as EM by (intros x y l n X; discriminate).
  assert (forall v p, listed (one_env u) (ex_client one_mapping) v -> place_of (one_env u) (ex_client one_mapping) v p -> p = q) as PL.
  { intros v p L (f & S & ->). apply LI in L. subst v. change (c_mapper (ex_client one_mapping)) with one_mapping in S. rewrite SD in S. injection S as <-. exact DN. }
  destruct q as [|x q]; [cbn in QL; lia|].
  split.
  - exact SY.
  - exists u. apply LI. reflexivity.
  - vm_compute. reflexivity.
  - intros v p L P. rewrite (PL v p L P). split; [intros [es X]; discriminate|]. split; [intros n X; discriminate|].
    split; [intros l y rest X; destruct l; reflexivity|]. intros v' y rest L' P'.
    pose proof (PL v' _ L' P') as X. apply (f_equal (@List.length str)) in X. rewrite app_length in X. cbn in X. lia.
  - intros v L k. apply LI in L. subst v. exists O, $"A". split; [apply Nat.ltb_lt; reflexivity|]. split; [|intros i X; lia].
    cbn [one_env e_get ex_env get_from]. unfold get_from, sget. rewrite str_eqb_refl. reflexivity.
  - right. exists $"http://s.org/r/resourcelist.xml". split; [reflexivity|]. intros v L. apply LI in L. subst v. exact AU.
  - split.
    + intros v r t (src & F' & I) T. rewrite F in F'. apply Ok_inj in F'. subst src. destruct I as [I|[]].
      assert (r = one_entry u) as -> by congruence. assert (t = day) as -> by (unfold one_entry in T; cbn [r_timestamp] in T; congruence).
      apply ltb_before. vm_compute. reflexivity.
    + intros v n t LN T. destruct (node_base _ _ _ SY _ v n (sy_world _ _ _ SY) (proj1 (sy_names _ _ _ SY)) (sy_free _ _ _ SY) LN) as (_ & _ & p & _ & L).
      apply (early_time (Dir []) p n t); [vm_compute; reflexivity|exact L|exact T].
  - exists (MkIni [] []). reflexivity.
  - split; [intros h []|left; reflexivity].
Qed.
Definition file_x : str := $"http://s.org/r/x".
Definition file_b : str := $"http://s.org/r/x/b".
Lemma find_x : find_resource_list (e_fetch (one_env file_x)) (ex_client one_mapping) = Ok [(file_x, one_entry file_x)]. Proof. vm_compute. reflexivity. Qed.
Lemma find_b : find_resource_list (e_fetch (one_env file_b)) (ex_client one_mapping) = Ok [(file_b, one_entry file_b)]. Proof. vm_compute. reflexivity. Qed.
Ltac plain_names := repeat constructor; try discriminate; apply has_char_false; reflexivity.
Lemma x_favourable : favourable (one_env file_x) (ex_client one_mapping) (start (Dir []) None).
Proof.
  apply (one_favourable [$"x"] [$"d"; $"x"] find_x); try discriminate; try (vm_compute; reflexivity); try plain_names.
Qed.
Lemma b_favourable : favourable (one_env file_b) (ex_client one_mapping) (start (Dir []) None).
Proof.
  apply (one_favourable [$"x"; $"b"] [$"d"; $"x"; $"b"] find_b); try discriminate; try (vm_compute; reflexivity); try plain_names.
Qed.
Definition x_end : world := Eval vm_compute in fst (baseline_or_audit (one_env file_x) (ex_client one_mapping) true false (start (Dir []) None)).
Lemma x_end_run : baseline_or_audit (one_env file_x) (ex_client one_mapping) true false (start (Dir []) None) = (x_end, Ok tt).
Proof. vm_compute. reflexivity. Qed.
Definition b_end : world := Eval vm_compute in fst (baseline_or_audit (one_env file_b) (ex_client one_mapping) true false (start (Dir []) None)).
Lemma b_end_run : baseline_or_audit (one_env file_b) (ex_client one_mapping) true false (start (Dir []) None) = (b_end, Ok tt).
Proof. vm_compute. reflexivity. Qed.
Definition after_one (u : str) (w : world) : Prop := synchronizable (one_env u) (ex_client one_mapping) w.
Lemma after_end E E' c w w' : synchronizable E c w -> e_cwd E' = e_cwd E -> (forall u, listed E' c u -> below_base c u) ->
  c_dryrun c = false -> c_ignore_failures c = false -> (0 < c_tries c)%nat ->
  baseline_or_audit E c true false w = (w', Ok tt) -> synchronizable E' c w'.
Proof.
  intros SY CW LB DR IG TR H. destruct (baseline_ran E c w SY w' DR IG TR H) as (T & D & R).
  destruct (synchronizable_after E c w SY w' T D H R) as [A B C F _]. split; auto; unfold world_ok, destinations_apart, destinations_free in *; rewrite CW; auto.
Qed.

Lemma x_end_leaf : leaf_at (w_root x_end) [$"d"; $"x"] = Some (File $"A" day). Proof. vm_compute. reflexivity. Qed.
Lemma b_end_dir : lookup [$"d"; $"x"] (w_root b_end) = Some (Dir [($"b", File $"A" day)]). Proof. vm_compute. reflexivity. Qed.

Lemma two_tries : (0 < c_tries (ex_client one_mapping))%nat. Proof. apply Nat.ltb_lt. reflexivity. Qed.
Lemma x_after_b : synchronizable (one_env file_x) (ex_client one_mapping) b_end.
Proof. exact (after_end (one_env file_b) (one_env file_x) _ _ _ (fv_sync _ _ _ b_favourable) eq_refl (sy_listed _ _ _ (fv_sync _ _ _ x_favourable)) eq_refl eq_refl two_tries b_end_run). Qed.
Lemma x_listed : listed (one_env file_x) (ex_client one_mapping) file_x.
Proof. exists [(file_x, one_entry file_x)]. split; [exact find_x|left; reflexivity]. Qed.
Lemma x_place : place_of (one_env file_x) (ex_client one_mapping) file_x [$"d"; $"x"].
Proof. exists $"/d/x". split; vm_compute; reflexivity. Qed.
Lemma b_dir : dir_at (w_root b_end) [$"d"; $"x"].
Proof. eexists. exact b_end_dir. Qed.
Lemma x_never allow w2 : baseline_or_audit (one_env file_x) (ex_client one_mapping) allow false b_end <> (w2, Ok tt).
Proof. exact (directory_in_the_way _ _ _ x_after_b _ _ x_listed x_place b_dir eq_refl eq_refl two_tries allow w2). Qed.
Lemma b_after_x : synchronizable (one_env file_b) (ex_client one_mapping) x_end.
Proof. exact (after_end (one_env file_x) (one_env file_b) _ _ _ (fv_sync _ _ _ x_favourable) eq_refl (sy_listed _ _ _ (fv_sync _ _ _ b_favourable)) eq_refl eq_refl two_tries x_end_run). Qed.
Lemma b_listed : listed (one_env file_b) (ex_client one_mapping) file_b.
Proof. exists [(file_b, one_entry file_b)]. split; [exact find_b|left; reflexivity]. Qed.
Lemma b_place : place_of (one_env file_b) (ex_client one_mapping) file_b [$"d"; $"x"; $"b"].
Proof. exists $"/d/x/b". split; vm_compute; reflexivity. Qed.
Lemma b_never allow w2 : baseline_or_audit (one_env file_b) (ex_client one_mapping) allow false x_end <> (w2, Ok tt).
Proof. apply (file_in_the_way _ _ _ b_after_x _ _ [$"d"; $"x"] $"b" [] b_listed b_place eq_refl). rewrite x_end_leaf. discriminate. Qed.

(** A file of the source becomes a directory; *)
Lemma becomes_directory : exists E E' c w w', favourable E c w /\ favourable E' c w /\ c_dryrun c = false /\ c_ignore_failures c = false
  /\ e_cwd E' = e_cwd E /\ baseline_or_audit E c true false w = (w', Ok tt)
  /\ forall allow w2, baseline_or_audit E' c allow false w' <> (w2, Ok tt).
Proof.
  exists (one_env file_x), (one_env file_b), (ex_client one_mapping), (start (Dir []) None), x_end.
  split; [exact x_favourable|]. split; [exact b_favourable|]. split; [reflexivity|]. split; [reflexivity|]. split; [reflexivity|]. split; [exact x_end_run|].
  exact b_never.
Qed.
(** and a directory becomes a file. *)
Lemma becomes_file : exists E E' c w w', favourable E c w /\ favourable E' c w /\ c_dryrun c = false /\ c_ignore_failures c = false
  /\ e_cwd E' = e_cwd E /\ baseline_or_audit E c true false w = (w', Ok tt)
  /\ forall allow w2, baseline_or_audit E' c allow false w' <> (w2, Ok tt).
Proof.
  exists (one_env file_b), (one_env file_x), (ex_client one_mapping), (start (Dir []) None), b_end.
  split; [exact b_favourable|]. split; [exact x_favourable|]. split; [reflexivity|]. split; [reflexivity|]. split; [reflexivity|]. split; [exact b_end_run|].
  exact x_never.
Qed.
