(** * MapperFacts2: proofs about Mapper.parse, Map.unsafe and path_from_uri *)

From Verif Require Import Py PyFacts Regex RegexFacts Url OsPath UrlSpec UrlFacts Mapper MapperSpec MapperFacts.

(** ** Mapper.parse *)

Lemma split_eq_two a s d : split_on "=" a = [s; d] <-> is_arg a s d.
Proof.
  split.
  - intros H. pose proof (join_split_on "=" a) as J. rewrite H in J. cbn in J.
    repeat split; [now rewrite <- J| |]; apply (split_on_fields "=" a); rewrite H; cbn; auto.
  - intros (-> & Ns & Nd). change ($"=" ++ d) with ("="%char :: d).
    rewrite split_on_app by auto. now rewrite split_on_no.
Qed.

Definition dup_of (s d : str) (ms : mapper) : Prop :=
  exists m, In m ms /\ (s = src_uri m \/ d = dst_path m).

Lemma dup_existsb s d ms :
  existsb (fun m => str_eqb s (src_uri m) || str_eqb d (dst_path m)) ms = true <-> dup_of s d ms.
Proof.
  rewrite existsb_exists. split; intros (m & I & H); exists m; split; auto.
  - apply orb_true_iff in H. rewrite !str_eqb_eq in H. auto.
  - apply orb_true_iff. rewrite !str_eqb_eq. auto.
Qed.

(** Accepted argument lists, one argument at a time. *)
Inductive accepted : mapper -> list str -> mapper -> Prop :=
| acc_nil acc : accepted acc [] acc
| acc_cons acc a s d args ms :
    is_arg a s d -> ~ dup_of s d acc ->
    accepted (acc ++ [make_map s d]) args ms -> accepted acc (a :: args) ms.

Lemma parse_accepted args : forall acc ms, parse_mappings args acc = Ok ms <-> accepted acc args ms.
Proof.
  induction args as [|a args IH]; intros acc ms; cbn [parse_mappings].
  - split; [intros [= ->]; constructor|intros H; inversion H; auto].
  - split.
    + destruct (split_on "=" a) as [|s [|d [|x l]]] eqn:E; try discriminate.
      destruct (existsb _ acc) eqn:D; [discriminate|]. intros H. apply IH in H.
      econstructor; eauto; [now apply split_eq_two|]. intros X. apply dup_existsb in X. congruence.
    + intros H. inversion H as [|? ? s d ? ? A D' H']; subst. apply split_eq_two in A. rewrite A.
      destruct (existsb _ acc) eqn:D; [apply dup_existsb in D; contradiction|]. now apply IH.
Qed.

Lemma parse_err args : forall acc e, parse_mappings args acc = Err e -> e = MapperError.
Proof.
  induction args as [|a args IH]; intros acc e; cbn [parse_mappings]; [easy|].
  destruct (split_on "=" a) as [|s [|d [|x l]]]; try (intros [= <-]; auto).
  destruct (existsb _ acc); [intros [= <-]; auto|apply IH].
Qed.

Lemma accepted_maps acc args ms : accepted acc args ms ->
  exists new, ms = acc ++ new /\ Forall2 (fun a m => exists s d, is_arg a s d /\ m = make_map s d) args new.
Proof.
  induction 1 as [acc|acc a s d args ms A D _ (new & -> & F)].
  - exists []. rewrite app_nil_r. auto.
  - exists (make_map s d :: new). rewrite <- app_assoc. split; auto. constructor; eauto.
Qed.

Lemma make_mapper_err args e : make_mapper args false = Err e -> e = MapperError.
Proof.
  unfold make_mapper. destruct args as [|a [|b [|c l]]].
  - apply parse_err.
  - cbn [andb]. apply parse_err.
  - destruct (_ && _); [easy|apply parse_err].
  - apply parse_err.
Qed.

Lemma make_mapper_parse args : ~ two_form args -> make_mapper args false = parse_mappings args [].
Proof.
  intros N. unfold make_mapper. destruct args as [|a [|b [|c l]]]; auto.
  destruct (negb (has_char "=" a) && negb (has_char "=" b)) eqn:E; auto.
  exfalso. apply N. exists a, b. apply andb_true_iff in E. rewrite !negb_true_iff, !has_char_false in E. tauto.
Qed.

Lemma make_mapper_maps args ms : ~ two_form args -> make_mapper args false = Ok ms ->
  Forall2 (fun a m => exists s d, is_arg a s d /\ m = make_map s d) args ms.
Proof.
  intros N H. rewrite make_mapper_parse in H by auto. apply parse_accepted, accepted_maps in H as (new & -> & F). auto.
Qed.

Lemma make_mapper_two a b : ~ In "="%char a -> ~ In "="%char b ->
  make_mapper [a; b] false = Ok [make_map a b] /\
  make_mapper [a ++ $"=" ++ b] false = Ok [make_map a b].
Proof.
  intros Na Nb. split.
  - unfold make_mapper. apply has_char_false in Na, Nb. rewrite Na, Nb. reflexivity.
  - unfold make_mapper. cbn [andb]. apply parse_accepted. econstructor; [repeat split; eauto| |constructor].
    intros (m & [] & _).
Qed.

(** Every argument must have exactly one equals sign, or the form is refused. *)
Lemma make_mapper_bad args a : ~ two_form args -> In a args -> (forall s d, ~ is_arg a s d) ->
  make_mapper args false = Err MapperError.
Proof.
  intros N I B. destruct (make_mapper args false) as [ms|e] eqn:E.
  - exfalso. apply make_mapper_maps in E; auto.
    assert (X : forall l l', Forall2 (fun a m => exists s d, is_arg a s d /\ m = make_map s d) l l' -> In a l -> False).
    { induction 1 as [|x y l l' (s & d & A & _) F IH]; [easy|]. intros [->|J]; [eapply B; eauto|auto]. }
    eapply X; eauto.
  - now apply make_mapper_err in E as ->.
Qed.

Lemma parse_no_dups args : forall acc ms,
  parse_mappings args acc = Ok ms ->
  (forall a s d, In a args -> is_arg a s d -> one_line a /\ no_end_slash s /\ no_end_slash d) ->
  NoDup (map src_uri acc) -> NoDup (map dst_path acc) ->
  NoDup (map src_uri ms) /\ NoDup (map dst_path ms).
Proof.
  intros acc ms H. apply parse_accepted in H.
  induction H as [acc|acc a s d args ms A D H IH]; intros P N1 N2; auto.
  destruct (P a s d) as (O & S1 & S2); auto; [now left|].
  destruct A as (-> & Ns & Nd). apply one_line_app in O as [O1 O]. apply one_line_app in O as [_ O2].
  apply IH.
  - intros a' s' d' I. apply P. now right.
  - rewrite map_app. cbn. rewrite strip_no_slash by auto.
    apply NoDup_Add with (a := s) (l := map src_uri acc).
    + rewrite <- (app_nil_r (map src_uri acc)) at 1. apply Add_app.
    + split; auto. intros I. apply D. apply in_map_iff in I as (m & E & I). exists m. auto.
  - rewrite map_app. cbn. rewrite strip_no_slash by auto.
    apply NoDup_Add with (a := d) (l := map dst_path acc).
    + rewrite <- (app_nil_r (map dst_path acc)) at 1. apply Add_app.
    + split; auto. intros I. apply D. apply in_map_iff in I as (m & E & I). exists m. auto.
Qed.

Lemma make_mapper_no_dups args ms : make_mapper args false = Ok ms ->
  (forall a s d, In a args -> is_arg a s d -> one_line a /\ no_end_slash s /\ no_end_slash d) ->
  NoDup (map src_uri ms) /\ NoDup (map dst_path ms).
Proof.
  intros H P. unfold make_mapper in H.
  assert (G : parse_mappings args [] = Ok ms -> NoDup (map src_uri ms) /\ NoDup (map dst_path ms)).
  { intros X. eapply parse_no_dups; eauto; constructor. }
  assert (S : forall m : smap, NoDup (map src_uri [m]) /\ NoDup (map dst_path [m])).
  { intros m; cbn; split; constructor; auto; constructor. }
  destruct args as [|a [|b [|c l]]]; auto.
  destruct (_ && _); auto. injection H as <-. apply S.
Qed.

Lemma parse_dup_witness :
  exists ms, make_mapper [$"http://example.org/=/a"; $"http://example.org/=/b"] false = Ok ms /\
    map src_uri ms = [$"http://example.org"; $"http://example.org"].
Proof. eexists. split; vm_compute; reflexivity. Qed.

(** ** Map.unsafe *)

Lemma commonprefix_prefix a b : os_commonprefix a (a ++ b) = a.
Proof. induction a as [|x a IH]; [reflexivity|]. cbn [app os_commonprefix]. now rewrite ceqb_refl, IH. Qed.
Lemma commonprefix_sym a : forall b, os_commonprefix a b = os_commonprefix b a.
Proof.
  induction a as [|x a IH]; destruct b as [|y b]; cbn [os_commonprefix]; auto.
  destruct (ceqb x y) eqn:E, (ceqb y x) eqn:F; auto.
  - apply ceqb_eq in E as ->. now rewrite IH.
  - apply ceqb_eq in E as ->. now rewrite ceqb_refl in F.
  - apply ceqb_eq in F as ->. now rewrite ceqb_refl in E.
Qed.

(** norm_comps on rooted paths is the walk from the root. *)
Lemma removelast_rev {A} (l : list A) x : removelast (rev (x :: l)) = rev l.
Proof. cbn. apply removelast_last. Qed.

Lemma norm_rooted comps : forall acc,
  Forall (fun c => c <> $"..") acc -> norm_comps true comps acc = walk (rev acc) comps.
Proof.
  induction comps as [|c comps IH]; intros acc F; cbn [norm_comps walk]; auto.
  destruct (str_eqb c [] || str_eqb c $".") ; [now apply IH|].
  destruct (str_eqb_spec c $".."); cbn [negb orb andb].
  - destruct acc as [|x acc].
    + rewrite IH by constructor. reflexivity.
    + inversion F; subst. destruct (str_eqb_spec x $".."); [contradiction|].
      rewrite IH by auto. now rewrite removelast_rev.
  - rewrite IH by (constructor; auto). cbn [rev]. reflexivity.
Qed.

Lemma norm_down comps : (forall c, In c comps -> c <> $"..") -> forall acc,
  norm_comps false comps acc = walk (rev acc) comps.
Proof.
  induction comps as [|c comps IH]; intros N acc; cbn [norm_comps walk]; auto.
  assert (N' : forall c, In c comps -> c <> $"..") by (intros; apply N; now right).
  destruct (str_eqb c [] || str_eqb c $"."); [now apply IH|].
  destruct (str_eqb_spec c $".."); [exfalso; eapply N; [now left|auto]|]. cbn [negb orb].
  rewrite IH by auto. reflexivity.
Qed.

Lemma walk_down comps : (forall c, In c comps -> c <> $"..") -> forall dir,
  walk dir comps = dir ++ walk [] comps.
Proof.
  induction comps as [|c comps IH]; intros N dir; cbn [walk]; [now rewrite app_nil_r|].
  assert (N' : forall c, In c comps -> c <> $"..") by (intros; apply N; now right).
  destruct (str_eqb c [] || str_eqb c $"."); [now apply IH|].
  destruct (str_eqb_spec c $".."); [exfalso; eapply N; [now left|auto]|].
  rewrite IH by auto. rewrite (IH N' ([] ++ [c])). rewrite <- app_assoc. reflexivity.
Qed.

Lemma join_app_prefix a b : a <> [] -> b <> [] -> join $"/" (a ++ b) = join $"/" a ++ $"/" ++ join $"/" b.
Proof.
  intros NA NB. induction a as [|x a IH]; [easy|]. destruct a as [|y a].
  - cbn [app join]. destruct b; easy.
  - cbn [app join] in *. rewrite IH by easy. now rewrite <- !app_assoc.
Qed.
Lemma join_inside a b : exists t, join $"/" (a ++ b) = join $"/" a ++ t.
Proof.
  destruct a as [|x a]; [now eexists|]. destruct b as [|y b].
  - exists []. now rewrite !app_nil_r.
  - rewrite join_app_prefix by easy. eauto.
Qed.

(** Slashes at the front add only empty components. *)
Lemma walk_skip_empty dir l : walk dir ([] :: l) = walk dir l.
Proof. reflexivity. Qed.

Lemma normpath_abs p : absolute p -> (forall q, p <> $"//" ++ q) ->
  os_normpath p = $"/" ++ join $"/" (denotes [] p).
Proof.
  intros (p' & ->) N. unfold os_normpath. cbn [os_splitroot].
  change (ceqb "/" "/") with true. cbn iota.
  assert (E : (match p' with
        | [] => ($"/", [])
        | b :: p2 => if ceqb b "/" then match p2 with [] => ($"//", []) | c :: _ => if ceqb c "/" then ($"/", p') else ($"//", p2) end else ($"/", p')
        end) = ($"/", p')).
  { destruct p' as [|b p2]; auto. destruct (ceqb b "/") eqn:B; auto. apply ceqb_eq in B as ->.
    exfalso. apply (N p2). reflexivity. }
  rewrite E. change (negb (str_eqb $"/" [])) with true.
  rewrite norm_rooted by constructor. cbn [rev].
  unfold denotes. change (startswith $"/" ("/"%char :: p')) with true. cbn iota.
  change (split_on "/" ("/"%char :: p')) with ([] :: split_on "/" p').
  rewrite walk_skip_empty. reflexivity.
Qed.

Lemma split_not_rooted p : startswith $"/" p = false -> os_splitroot p = ([], p).
Proof.
  destruct p as [|a p]; auto. cbn [os_splitroot]. intros H.
  destruct (ceqb a "/") eqn:E; auto. apply ceqb_eq in E as ->. discriminate H.
Qed.

Lemma walk_nonempty comps : (forall c, In c comps -> c <> $"..") ->
  (exists c, In c comps /\ c <> [] /\ c <> $".") -> walk [] comps <> [].
Proof.
  intros N (c & I & H1 & H2). induction comps as [|x comps IH]; [easy|]. cbn [walk].
  assert (N' : forall c, In c comps -> c <> $"..") by (intros; apply N; now right).
  destruct (str_eqb x [] || str_eqb x $".") eqn:E.
  - apply IH; auto. destruct I as [->|I]; auto. apply orb_true_iff in E. rewrite !str_eqb_eq in E. tauto.
  - destruct (str_eqb_spec x $".."); [exfalso; eapply N; [now left|auto]|].
    rewrite walk_down by auto. easy.
Qed.

Lemma walk_comps comps : (forall c, In c comps -> c <> $"..") -> forall c, In c (walk [] comps) -> c <> [].
Proof.
  intros N c. induction comps as [|x comps IH]; [easy|]. cbn [walk].
  assert (N' : forall c, In c comps -> c <> $"..") by (intros; apply N; now right).
  destruct (str_eqb x [] || str_eqb x $".") eqn:E; [now apply IH|].
  destruct (str_eqb_spec x $".."); [exfalso; eapply N; [now left|auto]|].
  rewrite walk_down by auto. cbn [app]. intros [<-|I]; auto.
  apply orb_false_iff in E as [E _]. now apply str_eqb_neq in E.
Qed.

Lemma join_nonempty l : l <> [] -> (forall c, In c l -> c <> []) -> join $"/" l <> [].
Proof.
  destruct l as [|x [|y l]]; intros N H; [easy| |]; cbn [join]; [apply H; now left|].
  destruct x; [exfalso; eapply H; [now left|auto]|easy].
Qed.

Lemma normpath_down p : startswith $"/" p = false -> downward p ->
  os_normpath p = join $"/" (walk [] (split_on "/" p)).
Proof.
  intros R [D W]. unfold os_normpath. rewrite split_not_rooted by auto.
  change (negb (str_eqb [] [])) with false. rewrite norm_down by auto. cbn [rev app].
  destruct p as [|a p].
  - destruct W as (c & [<-|[]] & H & _). easy.
  - destruct (str_eqb_spec (join $"/" (walk [] (split_on "/" (a :: p)))) []) as [E|E]; auto.
    exfalso. revert E. apply join_nonempty; [now apply walk_nonempty|now apply walk_comps].
Qed.

Lemma split_scheme_none u : ~ In ":"%char u \/ absolute u ->
  exists r, split_scheme (url_clean u) [] = ([], r).
Proof.
  intros H. unfold split_scheme. destruct (split1 ":" (url_clean u)) as [[pre post]|] eqn:E; [|eauto].
  apply split1_spec in E as [E _]. destruct H as [H|(p & ->)].
  - exfalso. apply H. assert (I : In ":"%char (url_clean u)) by (rewrite E; apply in_app_iff; right; now left).
    unfold url_clean in I. apply filter_In in I as [I _].
    assert (G : forall s c, In c (lstrip_c0 s) -> In c s).
    { induction s as [|x s IH]; cbn [lstrip_c0]; auto. intros c. destruct (_ <=? _)%N; auto. intros; right; auto. }
    now apply G.
  - assert (C : exists q, url_clean ("/"%char :: p) = "/"%char :: q) by (unfold url_clean; cbn; eauto).
    destruct C as (q & C). rewrite C in *. destruct pre as [|c pre]; [eauto|].
    injection E as <- _. change (is_alpha_az "/" && _) with false. eauto.
Qed.

Lemma unsafe_value s d b : ~ In ":"%char s \/ absolute s ->
  map_unsafe (MkMap s d) = Ok b ->
  b = (str_eqb (os_normpath s) (os_commonprefix (os_normpath s) (os_normpath d))
       || str_eqb (os_normpath d) (os_commonprefix (os_normpath s) (os_normpath d))).
Proof.
  intros H. unfold map_unsafe. cbn [src_uri dst_path]. unfold urlparse, urlsplit.
  destruct (split_scheme_none s H) as (r & ->). destruct (split_netloc r) as [[n r']|e]; [|easy].
  cbn [bind]. destruct (cut_char "#" r') as [r2 f]. destruct (cut_char "?" r2) as [r3 q].
  cbn [bind us_scheme us_path us_netloc us_query us_frag].
  destruct (in_strs [] uses_params && has_char ";" r3).
  - destruct (splitparams r3). cbn [bind up_scheme str_eqb negb]. now intros [= <-].
  - cbn [bind up_scheme str_eqb negb]. now intros [= <-].
Qed.

Lemma starts_abs p : absolute p -> startswith $"/" p = true.
Proof. intros (q & ->). reflexivity. Qed.

Lemma denotes_prefix s d cwd : comparable s d -> inside (denotes cwd s) (denotes cwd d) ->
  exists t, os_normpath d = os_normpath s ++ t.
Proof.
  intros [(As & Ad & Ns & Nd)|(Rs & Rd & Ds & Dd)] (rest & E).
  - rewrite !normpath_abs by auto. unfold denotes in *. rewrite !starts_abs in * by auto. rewrite E.
    destruct (join_inside (walk [] (split_on "/" s)) rest) as (t & ->). exists t. now rewrite app_assoc.
  - rewrite !normpath_down by auto. unfold denotes in E. rewrite Rs, Rd in E.
    rewrite walk_down, (walk_down (split_on "/" s)) in E by (apply Ds || apply Dd).
    rewrite <- app_assoc in E. apply app_inv_head in E. rewrite E. apply join_inside.
Qed.

Lemma safe_separate s d cwd : ~ In ":"%char s \/ absolute s -> comparable s d ->
  map_unsafe (MkMap s d) = Ok false ->
  ~ inside (denotes cwd s) (denotes cwd d) /\ ~ inside (denotes cwd d) (denotes cwd s).
Proof.
  intros H C U. apply unsafe_value in U; auto. symmetry in U. apply orb_false_iff in U as [U1 U2].
  rewrite str_eqb_neq in *. split; intros I.
  - apply denotes_prefix in I as (t & E); auto. apply U1. rewrite E. now rewrite commonprefix_prefix.
  - apply denotes_prefix in I as (t & E); [|destruct C as [(?&?&?&?)|(?&?&?&?)]; [left|right]; auto].
    apply U2. rewrite E, commonprefix_sym. now rewrite commonprefix_prefix.
Qed.

Lemma unsafe_missed : exists s d, map_unsafe (MkMap s d) = Ok false /\
  forall cwd, inside (denotes cwd s) (denotes cwd d).
Proof.
  exists $".", $"foo". split; [vm_compute; reflexivity|]. intros cwd. exists [ $"foo"]. reflexivity.
Qed.
Lemma unsafe_missed_file : exists s d, map_unsafe (MkMap ($"file://" ++ s) d) = Ok false /\ s = d.
Proof. exists $"/data", $"/data". split; vm_compute; reflexivity. Qed.

(** ** path_from_uri *)

Lemma sub_cls neg items u : forall s fuel pos, (List.length s < fuel)%nat ->
  sub_from fuel (Cls neg items) [u] pos s = map (fun c => if cls_match neg items c then u else c) s.
Proof.
  induction s as [|c s IH]; intros fuel pos L; (destruct fuel as [|f]; [cbn in L; lia|]).
  - reflexivity.
  - cbn [sub_from run m_rest m_pos m_caps map]. destruct (cls_match neg items c); cbn [hd_error m_pos m_rest].
    + destruct (Nat.eqb_spec (S pos) pos); [lia|]. cbn [app]. rewrite IH by (cbn in L; lia). reflexivity.
    + rewrite IH by (cbn in L; lia). reflexivity.
Qed.

(** The first result of a starred class is the longest. *)
Fixpoint span (p : ascii -> bool) (s : str) : str * str :=
  match s with
  | [] => ([], [])
  | c :: s' => if p c then let '(a, b) := span p s' in (c :: a, b) else ([], s)
  end.
Lemma span_app p s : fst (span p s) ++ snd (span p s) = s.
Proof.
  induction s as [|c s IH]; cbn; auto. destruct (p c); auto. destruct (span p s). cbn in *. now rewrite IH.
Qed.
Lemma span_snd p s : snd (span p s) = [] \/ exists c t, snd (span p s) = c :: t /\ p c = false.
Proof.
  induction s as [|c s IH]; cbn; auto. destruct (p c) eqn:E; [|cbn; eauto]. destruct (span p s). auto.
Qed.
Lemma span_fst p s : forallb p (fst (span p s)) = true.
Proof. induction s as [|c s IH]; cbn; auto. destruct (p c) eqn:E; auto. destruct (span p s). cbn in *. now rewrite E. Qed.

Lemma star_hd neg items : forall s fuel p c, (List.length s <= fuel)%nat ->
  exists l, star_loop (run (Cls neg items)) fuel (MSt p s c) =
    MSt (p + List.length (fst (span (cls_match neg items) s))) (snd (span (cls_match neg items) s)) c :: l.
Proof.
  induction s as [|x s IH]; intros fuel p c L.
  - exists []. destruct fuel; cbn; rewrite Nat.add_0_r; reflexivity.
  - destruct fuel as [|fuel]; [cbn in L; lia|]. cbn [star_loop span].
    assert (run (Cls neg items) (MSt p (x :: s) c) = if cls_match neg items x then [MSt (S p) s c] else []) as -> by reflexivity.
    destruct (cls_match neg items x); cbn [flat_map m_pos m_caps].
    + destruct (Nat.eqb_spec (S p) p); [lia|]. destruct (IH fuel (S p) c) as (l & E); [cbn in L; lia|].
      rewrite E. destruct (span (cls_match neg items) s) as [a b]. cbn [fst snd List.length app].
      eexists. f_equal. f_equal. lia.
    + exists []. cbn [app fst snd List.length]. now rewrite Nat.add_0_r.
Qed.

Definition is_und : ascii -> bool := cls_match false [CSingle und].
Lemma is_und_eq c : is_und c = true <-> c = und.
Proof. unfold is_und. rewrite cls_single, ceqb_eq. split; congruence. Qed.

Definition r_und2 : re := Cat (Cls false [CSingle und]) (Cat (Cls false [CSingle und]) (Star (Cls false [CSingle und]))).
Lemma re_und2 : re_const $"__+" = r_und2.
Proof. reflexivity. Qed.

Lemma run_und2 pos s : 
  match s with
  | a :: b :: t => if is_und a && is_und b
      then exists q l, run r_und2 (MSt pos s []) = MSt (pos + 2 + q) (snd (span is_und t)) [] :: l
      else run r_und2 (MSt pos s []) = []
  | _ => run r_und2 (MSt pos s []) = []
  end.
Proof.
  destruct s as [|a [|b t]].
  - reflexivity.
  - unfold r_und2. rewrite run_cat. cbn [run m_rest]. destruct (cls_match _ _ a); reflexivity.
  - unfold r_und2. rewrite run_cat. unfold is_und. cbn [run m_rest].
    destruct (cls_match false [CSingle und] a); cbn [andb]; [|reflexivity].
    cbn [flat_map m_rest m_pos m_caps]. destruct (cls_match false [CSingle und] b); [|reflexivity].
    cbn [flat_map m_rest m_pos m_caps]. rewrite !app_nil_r.
    destruct (star_hd false [CSingle und] t (List.length t) (S (S pos)) []) as (l & E); [lia|].
    cbn [run] in E. rewrite E. exists (List.length (fst (span is_und t))), l.
    unfold is_und. f_equal. f_equal. lia.
Qed.

Lemma no_double_nil : no_double [].
Proof. intros a b H. destruct a; discriminate. Qed.
Lemma no_double_cons c s : (c <> und \/ hd_error s <> Some und) -> no_double s -> no_double (c :: s).
Proof.
  intros H N a b E. destruct a as [|x a]; cbn in E.
  - injection E as -> ->. cbn in H. destruct H; congruence.
  - injection E as -> E. apply (N a b). exact E.
Qed.

Lemma span_le p s : (List.length (snd (span p s)) <= List.length s)%nat.
Proof. induction s as [|c s IH]; cbn; auto. destruct (p c); cbn; auto. destruct (span p s). cbn in *. lia. Qed.

Lemma sub_und2 : forall n s fuel pos, (List.length s <= n)%nat -> (List.length s < fuel)%nat ->
  let out := sub_from fuel r_und2 [und] pos s in
  no_double out /\ (hd_error s <> Some und -> hd_error out <> Some und) /\
  (forall c, In c out -> In c s).
Proof.
  induction n as [|n IH]; intros s fuel pos Ln Lf out; subst out.
  - destruct s; [|cbn in Ln; lia]. destruct fuel as [|f]; [cbn in Lf; lia|]. cbn.
    split; [apply no_double_nil|split; easy].
  - destruct fuel as [|f]; [lia|]. cbn [sub_from].
    pose proof (run_und2 pos s) as HR.
    destruct s as [|a [|b t]].
    + rewrite HR. cbn. split; [apply no_double_nil|split; easy].
    + rewrite HR. cbn [hd_error]. destruct f as [|f]; [cbn in Lf; lia|]. cbn.
      split; [|split; auto]. apply no_double_cons; [right; easy|apply no_double_nil].
    + destruct (is_und a && is_und b) eqn:E.
      * destruct HR as (q & l & ->). cbn [hd_error m_pos m_rest].
        destruct (Nat.eqb_spec (pos + 2 + q) pos); [lia|].
        pose proof (span_le is_und t) as SL.
        specialize (IH (snd (span is_und t)) f (pos + 2 + q)%nat). cbn [List.length] in *.
        destruct IH as (A & B & C); [lia|lia|].
        apply andb_true_iff in E as [Ea Eb]. apply is_und_eq in Ea, Eb. subst a b.
        cbn [app]. split; [|split].
        -- apply no_double_cons; auto. right. apply B.
           destruct (span_snd is_und t) as [->|(c & t' & -> & U)]; [easy|].
           cbn. intros [= ->]. assert (is_und und = true) by reflexivity. congruence.
        -- cbn. congruence.
        -- intros c [<-|I]; [now left|]. right; right. apply C in I.
           rewrite <- (span_app is_und t). apply in_app_iff. auto.
      * rewrite HR. cbn [hd_error].
        specialize (IH (b :: t) f (S pos)). cbn [List.length] in *.
        destruct IH as (A & B & C); [lia|lia|].
        split; [|split].
        -- apply no_double_cons; auto. apply andb_false_iff in E as [E|E].
           ++ left. intros ->. assert (is_und und = true) by reflexivity. congruence.
           ++ right. apply B. cbn. intros [= ->]. assert (is_und und = true) by reflexivity. congruence.
        -- cbn. auto.
        -- intros c [<-|I]; [now left|]. right. auto.
Qed.

(** Stripping of underscores and dots at the end and at the front. *)
Definition ud_items : list citem := [CSingle und; CSingle "."%char].
Definition is_ud : ascii -> bool := cls_match false ud_items.
Lemma is_ud_eq c : is_ud c = true <-> c = und \/ c = "."%char.
Proof.
  unfold is_ud, cls_match, ud_items. cbn [existsb citem_match]. rewrite xorb_false_l, orb_false_r, orb_true_iff.
  rewrite !ceqb_eq. split; intros [H|H]; auto.
Qed.
Definition r_end : re := Cat (Cat (Cls false ud_items) (Star (Cls false ud_items))) Eos.
Definition r_front : re := Cat Bos (Cat (Cls false ud_items) (Star (Cls false ud_items))).
Lemma re_end : re_const $"[_\.]+$" = r_end.
Proof. reflexivity. Qed.
Lemma re_front : re_const $"^[_\.]+" = r_front.
Proof. reflexivity. Qed.

Lemma R_plus p g w k g' : R (Cat (Cls false ud_items) (Star (Cls false ud_items))) p g w k g' <->
  w <> [] /\ forallb is_ud w = true /\ g' = g.
Proof.
  split.
  - intros H. apply R_cat_iff in H as (w1 & w2 & c1 & -> & H1 & H2).
    apply R_cls_iff in H1 as (x & -> & X & ->). apply R_star_cls_iff in H2 as (F & ->).
    repeat split; [easy|]. cbn [app forallb]. unfold is_ud at 1. now rewrite X.
  - intros (N & F & ->). destruct w as [|x w]; [easy|]. cbn [forallb] in F. apply andb_true_iff in F as [X F].
    apply (R_cat_intro _ _ _ _ _ _ _ [x] w g); auto.
    + apply R_cls_iff. eauto.
    + apply R_star_cls_iff. auto.
Qed.

Lemma run_none r p s c : (forall w k c', s = w ++ k -> ~ R r p c w k c') -> run r (MSt p s c) = [].
Proof.
  intros H. destruct (run r (MSt p s c)) as [|st l] eqn:E; auto. exfalso.
  assert (I : In st (run r (MSt p s c))) by (rewrite E; now left).
  apply run_sound in I as (w & k & c' & -> & _ & HR). eapply H; eauto.
Qed.

Lemma run_end pos s : one_line s ->
  (s <> [] /\ forallb is_ud s = true /\ exists l, run r_end (MSt pos s []) = MSt (pos + List.length s) [] [] :: l) \/
  ((s = [] \/ forallb is_ud s = false) /\ run r_end (MSt pos s []) = []).
Proof.
  intros N.
  assert (K : forall w k c', s = w ++ k -> R r_end pos [] w k c' -> w = s /\ k = [] /\ w <> [] /\ forallb is_ud w = true /\ c' = []).
  { intros w k c' E H. unfold r_end in H. apply R_cat_iff in H as (w1 & w2 & c1 & -> & H1 & H2).
    apply R_plus in H1 as (W & F & ->). apply R_eos_iff in H2 as (-> & -> & [-> | ->]).
    - rewrite !app_nil_r in *. auto.
    - exfalso. apply N. rewrite E, !in_app_iff. cbn. auto. }
  destruct s as [|x s].
  - right. split; [now left|]. apply run_none. intros w k c' E H. destruct (K w k c' E H) as (W1 & _ & W & _). congruence.
  - destruct (forallb is_ud (x :: s)) eqn:F.
    + left. repeat split; [easy|].
      assert (H : R r_end pos [] (x :: s) [] []).
      { unfold r_end. apply (R_cat_intro _ _ _ _ _ _ _ (x :: s) [] []); [now rewrite app_nil_r| |].
        - apply R_plus. repeat split; auto. easy.
        - apply R_eos_iff. auto. }
      apply run_complete in H. rewrite app_nil_r in H.
      destruct (run r_end (MSt pos (x :: s) [])) as [|st l] eqn:E; [easy|]. exists l.
      assert (I : In st (run r_end (MSt pos (x :: s) []))) by (rewrite E; now left).
      apply run_sound in I as (w & k & c' & E' & -> & HR).
      destruct (K w k c' E' HR) as (-> & -> & _ & _ & ->). reflexivity.
    + right. split; auto. apply run_none. intros w k c' E H.
      destruct (K w k c' E H) as (-> & _ & _ & F' & _). congruence.
Qed.

Lemma sub_end : forall s fuel pos, one_line s -> (List.length s < fuel)%nat ->
  let out := sub_from fuel r_end [] pos s in
  (exists t, s = out ++ t /\ forallb is_ud t = true) /\ (out = [] <-> forallb is_ud s = true) /\
  (forall a z, out = a ++ [z] -> is_ud z = false).
Proof.
  induction s as [|c s IH]; intros fuel pos N L out; subst out; (destruct fuel as [|f]; [cbn in L; lia|]).
  - cbn [sub_from]. destruct (run_end pos [] N) as [(X & _)|(_ & ->)]; [easy|]. cbn.
    split; [now exists []|]. split; [tauto|]. intros [|? ?] z E; discriminate.
  - cbn [sub_from]. destruct (run_end pos (c :: s) N) as [(X & F & l & ->)|(F & ->)]; cbn [hd_error].
    + cbn [m_pos m_rest List.length]. destruct (Nat.eqb_spec (pos + S (List.length s)) pos); [lia|].
      assert (sub_from f r_end [] (pos + S (List.length s)) [] = []) as ->.
      { destruct f as [|f]; [cbn in L; lia|]. cbn [sub_from].
        destruct (run_end (pos + S (List.length s)) []) as [(Y & _)|(_ & ->)]; [easy|easy|reflexivity]. }
      cbn [app]. split; [exists (c :: s); auto|]. split; [tauto|]. intros [|? ?] z E; discriminate.
    + destruct F as [F|F]; [discriminate|]. cbn [List.length] in L.
      destruct (IH f (S pos)) as ((t & T & Tt) & B & C); [intros I; apply N; now right|lia|].
      set (o := sub_from f r_end [] (S pos) s) in *. split; [exists t; cbn; rewrite <- T; auto|].
      split; [split; [easy|congruence]|].
      intros [|x a] z E.
      * cbn in E. injection E as -> E. cbn [forallb] in F. apply B in E. rewrite E, andb_true_r in F. auto.
      * cbn in E. injection E as _ E. now apply (C a).
Qed.

Lemma sub_no_bos : forall s fuel pos, (0 < pos)%nat -> sub_from fuel r_front [] pos s = s.
Proof.
  induction s as [|c s IH]; intros fuel pos P; (destruct fuel as [|f]; [reflexivity|]); cbn [sub_from].
  - assert (run r_front (MSt pos [] []) = []) as ->; [|reflexivity].
    apply run_none. intros w k c' E H. unfold r_front in H. apply R_cat_iff in H as (? & ? & ? & _ & H & _).
    apply R_bos_iff in H as (_ & _ & H). lia.
  - assert (run r_front (MSt pos (c :: s) []) = []) as ->.
    { apply run_none. intros w k c' E H. unfold r_front in H. apply R_cat_iff in H as (? & ? & ? & _ & H & _).
      apply R_bos_iff in H as (_ & _ & H). lia. }
    cbn [hd_error]. rewrite IH by lia. reflexivity.
Qed.

Lemma sub_front s : re_sub r_front [] s = snd (span is_ud s).
Proof.
  unfold re_sub. cbn [sub_from]. unfold r_front. rewrite run_cat. cbn [run m_pos]. cbn [Nat.eqb flat_map]. rewrite app_nil_r.
  destruct s as [|c s].
  - reflexivity.
  - cbn [m_rest m_pos m_caps span]. unfold is_ud at 1. destruct (cls_match false ud_items c) eqn:E; cbn [flat_map hd_error].
    + cbn [m_rest m_pos m_caps]. rewrite app_nil_r.
      destruct (star_hd false ud_items s (List.length s) 1 []) as (l & H); [lia|]. cbn [run] in H. rewrite H. cbn [hd_error m_pos m_rest].
      cbn [Nat.eqb Nat.add]. cbn [app]. fold r_front.
      rewrite sub_no_bos by lia. unfold is_ud. destruct (span (cls_match false ud_items) s). reflexivity.
    + change (Cat Bos (Cat (Cls false ud_items) (Star (Cls false ud_items)))) with r_front.
      rewrite sub_no_bos by lia. reflexivity.
Qed.

Lemma path_from_uri_safe uri p v :
  urlparse uri [] = Ok v -> up_netloc v <> [] -> path_from_uri uri = Ok p -> safe_name p.
Proof.
  intros E N. unfold path_from_uri. rewrite E. cbn [bind].
  destruct (str_eqb_spec (up_netloc v) []); [easy|]. intros [= <-].
  set (p0 := up_netloc v ++ "/"%char :: up_path v).
  assert (re_const $"[^\w\-\.]" = Cls true [CWord false; CSingle "-"%char; CSingle "."%char]) as -> by reflexivity.
  change $"_" with [und]. rewrite re_und2, re_end, re_front.
  set (p1 := re_sub (Cls true [CWord false; CSingle "-"%char; CSingle "."%char]) [und] p0).
  assert (S1 : forall c, In c p1 -> safe_char c).
  { unfold p1, re_sub. rewrite sub_cls by lia. intros c I. apply in_map_iff in I as (x & <- & _).
    destruct (cls_match _ _ x) eqn:M; [left; reflexivity|].
    unfold cls_match in M. cbn [existsb citem_match] in M. rewrite xorb_true_l, negb_false_iff in M.
    rewrite xorb_false_l, orb_false_r, !orb_true_iff, !ceqb_eq in M. unfold safe_char. intuition. }
  set (p2 := re_sub r_und2 [und] p1).
  destruct (sub_und2 (List.length p1) p1 (S (List.length p1)) 0) as (D2 & _ & I2); [lia|lia|].
  fold (re_sub r_und2 [und] p1) in D2, I2. fold p2 in D2, I2.
  assert (S2 : forall c, In c p2 -> safe_char c) by auto.
  assert (O2 : one_line p2). { intros I. apply S2 in I as [X|[X|X]]; discriminate X. }
  set (p3 := re_sub r_end [] p2).
  destruct (sub_end p2 (S (List.length p2)) 0 O2) as ((t3 & T3 & _) & _ & L3); [lia|].
  fold (re_sub r_end [] p2) in T3, L3. fold p3 in T3, L3.
  rewrite sub_front. pose proof (span_app is_ud p3) as SA. set (p4 := snd (span is_ud p3)) in *.
  set (f4 := fst (span is_ud p3)) in *.
  assert (ND : forall x, x <> und /\ x <> "."%char <-> is_ud x = false).
  { intros x. rewrite <- not_true_iff_false, is_ud_eq. tauto. }
  split; [|split; [|split]].
  - intros c I. apply S2. rewrite T3, <- SA, !in_app_iff. auto.
  - intros c t E4. apply ND. destruct (span_snd is_ud p3) as [X|(c' & t' & X & Y)]; fold p4 in X; rewrite X in E4; [discriminate E4|].
    injection E4 as -> _. exact Y.
  - intros t c E4. apply ND. apply (L3 (f4 ++ t)). now rewrite <- app_assoc, <- E4.
  - intros a b E4. apply (D2 (f4 ++ a) (b ++ t3)). rewrite T3, <- SA, E4.
    repeat rewrite <- app_assoc. reflexivity.
Qed.

Lemma safe_name_component p : safe_name p -> ~ In "/"%char p /\ p <> $"." /\ p <> $"..".
Proof.
  intros (A & B & _ & _). repeat split.
  - intros I. apply A in I as [X|[X|X]]; discriminate X.
  - intros ->. destruct (B "."%char []) as [_ X]; auto.
  - intros ->. destruct (B "."%char $".") as [_ X]; auto.
Qed.

Lemma path_from_uri_local uri v : urlparse uri [] = Ok v -> up_netloc v = [] -> path_from_uri uri = Ok uri.
Proof. intros E N. unfold path_from_uri. rewrite E. cbn [bind]. now rewrite N. Qed.

(** ** Whole mappers *)

Lemma src_to_dst_one m u : literal (src_uri m) -> one_line u ->
  src_to_dst [m] u = match spec_map (src_uri m) (dst_path m) u with
                     | Some p => Ok p | None => Err MapperError end.
Proof.
  intros L O. cbn [src_to_dst]. unfold map_src_to_dst. rewrite map_base_literal by auto. cbn [bind].
  now destruct (spec_map _ _ _).
Qed.
Lemma dst_to_src_one m p : literal (dst_path m) -> one_line p ->
  dst_to_src [m] p = match spec_map (dst_path m) (src_uri m) p with
                     | Some u => Ok u | None => Err MapperError end.
Proof.
  intros L O. cbn [dst_to_src]. unfold map_dst_to_src. rewrite map_base_literal by auto. cbn [bind].
  now destruct (spec_map _ _ _).
Qed.

Lemma src_to_dst_first ms u : (forall m, In m ms -> literal (src_uri m)) -> one_line u ->
  forall p, src_to_dst ms u = Ok p <->
  exists before m after, ms = before ++ m :: after /\
    (forall k, In k before -> spec_map (src_uri k) (dst_path k) u = None) /\
    spec_map (src_uri m) (dst_path m) u = Some p.
Proof.
  intros L O p. induction ms as [|k ms IH]; cbn [src_to_dst].
  - split; [easy|]. intros ([|? ?] & m & after & E & _); discriminate E.
  - unfold map_src_to_dst. rewrite map_base_literal by (auto; apply L; now left). cbn [bind].
    destruct (spec_map (src_uri k) (dst_path k) u) as [q|] eqn:E.
    + split.
      * intros [= ->]. exists [], k, ms. repeat split; auto. intros ? [].
      * intros ([|k' before] & m & after & [= -> ->] & B & M); [congruence|].
        rewrite B in E by now left. discriminate.
    + rewrite IH by (intros; apply L; now right). split.
      * intros (before & m & after & -> & B & M). exists (k :: before), m, after. repeat split; auto.
        intros k' [<-|I]; auto.
      * intros ([|k' before] & m & after & [= -> ->] & B & M); [congruence|].
        exists before, m, after. repeat split; auto. intros k I. apply B. now right.
Qed.

Lemma src_to_dst_inside m rest : plain (src_uri m) -> one_line (src_uri m ++ rest) ->
  rest = [] \/ (exists x, rest = "/"%char :: x) ->
  src_to_dst [m] (src_uri m ++ rest) = Ok (dst_path m ++ match rest with [] => $"/" | _ => rest end).
Proof.
  intros P O H. cbn [src_to_dst]. unfold map_src_to_dst.
  rewrite (map_base_applies _ _ _ (src_uri m) rest); auto.
  apply like_self. now apply one_line_app in O.
Qed.

Lemma src_to_dst_outside_base : exists m u p, src_to_dst [m] u = Ok p /\ ~ exists t, u = src_uri m ++ t.
Proof.
  destruct src_to_dst_outside as (m & u & p & E & H & -> & _). exists m, $"http://example-org/data/x", p.
  split; auto. rewrite E. intros (t & X). vm_compute in X. discriminate X.
Qed.

Lemma src_to_dst_literal ms u p :
  (forall k, In k ms -> literal (src_uri k)) -> one_line u -> src_to_dst ms u = Ok p ->
  exists m, In m ms /\ path_prefix (src_uri m) u.
Proof.
  intros L O H. apply src_to_dst_plain_agrees in H as (m & w & rest & I & -> & K & D); auto.
  - exists m. split; auto. apply like_literal in K; auto. subst w.
    destruct D as [(-> & _)|(x & -> & _)]; [left; now rewrite app_nil_r|right; now exists x].
  - intros k I. now apply L.
Qed.

Lemma strip_leaves_slash : exists s, ~ no_end_slash (src_uri (make_map s [])).
Proof.
  destruct strip_idempotent_fails as (p & E & _). exists p. intros N.
  apply (N $"http://example.org"). cbn [make_map src_uri]. rewrite E. reflexivity.
Qed.
Lemma make_map_slashes s d : one_line s -> one_line d -> no_end_slash s -> no_end_slash d ->
  make_map s d = MkMap s d /\ make_map (s ++ $"/") d = MkMap s d /\
  make_map s (d ++ $"/") = MkMap s d /\ make_map (s ++ $"/") (d ++ $"/") = MkMap s d.
Proof.
  intros Os Od Ns Nd. unfold make_map. rewrite !strip_one_slash, !strip_no_slash by auto. auto.
Qed.
Lemma make_map_strips s d : one_line s -> one_line d -> make_map (s ++ $"/") (d ++ $"/") = MkMap s d.
Proof. intros Os Od. unfold make_map. now rewrite !strip_one_slash. Qed.

Lemma no_end_slash_ok s : endswith $"/" s = false -> no_end_slash s.
Proof.
  intros H q ->. enough (endswith $"/" (q ++ $"/") = true) by congruence.
  apply endswith_spec. now exists q.
Qed.

Lemma make_mapper_dups : exists args ms, make_mapper args false = Ok ms /\ ~ NoDup (map src_uri ms).
Proof.
  destruct parse_dup_witness as (ms & E & D). eexists _, ms. split; [exact E|]. rewrite D.
  intros N. inversion N as [|? ? X]. apply X. now left.
Qed.

Lemma accepts_gen pairs : forall done,
  pairs_ok (done ++ pairs) ->
  accepted (map (fun p => make_map (fst p) (snd p)) done) (map (fun p => fst p ++ $"=" ++ snd p) pairs)
           (map (fun p => make_map (fst p) (snd p)) (done ++ pairs)).
Proof.
  induction pairs as [|[s d] pairs IH]; intros done (A & N1 & N2).
  - rewrite app_nil_r. constructor.
  - cbn [map fst snd].
    destruct (A (s, d)) as (E1 & E2 & O1 & O2 & S1 & S2); [apply in_app_iff; right; now left|]. cbn [fst snd] in *.
    apply acc_cons with s d.
    + repeat split; auto.
    + intros (m & I & D). apply in_map_iff in I as ([s' d'] & <- & I). cbn [fst snd make_map src_uri dst_path] in D.
      destruct (A (s', d')) as (_ & _ & O1' & O2' & S1' & S2'); [apply in_app_iff; now left|]. cbn [fst snd] in *.
      rewrite !strip_no_slash in D by auto. rewrite map_app in N1, N2. cbn [map fst snd] in N1, N2.
      apply NoDup_remove_2 in N1, N2. rewrite in_app_iff in N1, N2.
      destruct D as [<-|<-].
      * apply N1. left. apply in_map_iff. exists (s, d'). auto.
      * apply N2. left. apply in_map_iff. exists (s', d). auto.
    + specialize (IH (done ++ [(s, d)])). rewrite <- app_assoc in IH. cbn [app] in IH.
      rewrite map_app in IH. cbn [map fst snd] in IH. apply IH. repeat split; auto; apply A; auto.
Qed.
Lemma make_mapper_accepts pairs : pairs_ok pairs ->
  make_mapper (map (fun p => fst p ++ $"=" ++ snd p) pairs) false = Ok (map (fun p => make_map (fst p) (snd p)) pairs).
Proof.
  intros H. rewrite make_mapper_parse; [apply parse_accepted; now apply (accepts_gen pairs [])|].
  intros (a & b & E & N & _). destruct pairs as [|p pairs]; [discriminate|]. cbn [map] in E.
  injection E as <- _. apply N. rewrite in_app_iff. right. now left.
Qed.

Fixpoint nodupb (l : list str) : bool :=
  match l with [] => true | x :: l' => negb (in_strs x l') && nodupb l' end.
Lemma nodupb_ok l : nodupb l = true -> NoDup l.
Proof.
  induction l as [|x l IH]; intros H; constructor; cbn [nodupb] in H; apply andb_true_iff in H as [H1 H2]; auto.
  intros I. rewrite negb_true_iff in H1. apply in_strs_In in I. congruence.
Qed.
Definition pairs_okb (ps : list (str * str)) : bool :=
  forallb (fun p => negb (has_char "=" (fst p)) && negb (has_char "=" (snd p)) &&
    negb (has_char nl (fst p)) && negb (has_char nl (snd p)) &&
    negb (endswith $"/" (fst p)) && negb (endswith $"/" (snd p))) ps &&
  nodupb (map fst ps) && nodupb (map snd ps).
Lemma pairs_okb_ok ps : pairs_okb ps = true -> pairs_ok ps.
Proof.
  unfold pairs_okb. rewrite !andb_true_iff. intros ((A & B) & C).
  split; [|split; now apply nodupb_ok]. intros p I. rewrite forallb_forall in A. apply A in I.
  rewrite !andb_true_iff, !negb_true_iff, !has_char_false in I.
  destruct I as (((((I1 & I2) & I3) & I4) & I5) & I6). repeat split; auto; now apply no_end_slash_ok.
Qed.

Definition plainb (s : str) : bool := forallb (fun c => negb (has_char c $"^$*+?{}[]\|()")) s.
Lemma plainb_ok s : plainb s = true -> plain s.
Proof.
  intros H c I J. unfold plainb in H. rewrite forallb_forall in H. apply H in I.
  rewrite negb_true_iff in I. now apply has_char_false in I.
Qed.
Lemma literalb_ok s : plainb s && negb (has_char "." s) = true -> literal s.
Proof. rewrite andb_true_iff, negb_true_iff, has_char_false. intros [A B]. split; auto. now apply plainb_ok. Qed.

Lemma unsafe_all ms : unsafe ms = Ok false <-> forall m, In m ms -> map_unsafe m = Ok false.
Proof.
  induction ms as [|m ms IH]; cbn [unsafe]; [split; [intros _ ? []|auto]|].
  split.
  - destruct (map_unsafe m) as [[|]|e] eqn:E; cbn [bind]; try discriminate. intros H k [<-|I]; auto. now apply IH.
  - intros H. rewrite (H m) by now left. cbn [bind]. apply IH. intros k I. apply H. now right.
Qed.

(** path_from_uri of a host alone. *)
Lemma sub_und2_id s : forall fuel pos, no_double s -> sub_from fuel r_und2 [und] pos s = s.
Proof.
  induction s as [|a s IH]; intros fuel pos N; (destruct fuel as [|f]; [reflexivity|]); cbn [sub_from].
  - pose proof (run_und2 pos []) as ->. reflexivity.
  - assert (run r_und2 (MSt pos (a :: s) []) = []) as ->.
    { pose proof (run_und2 pos (a :: s)) as H. destruct s as [|b t]; auto.
      destruct (is_und a && is_und b) eqn:E; auto. exfalso. apply andb_true_iff in E. rewrite !is_und_eq in E.
      destruct E as [-> ->]. now apply (N [] t). }
    cbn [hd_error]. rewrite IH; auto. intros x y E. apply (N (a :: x) y). cbn. now rewrite E.
Qed.

Lemma safe_char_cls c : safe_char c ->
  cls_match true [CWord false; CSingle "-"%char; CSingle "."%char] c = false.
Proof.
  intros H. unfold cls_match. cbn [existsb citem_match]. rewrite xorb_true_l, negb_false_iff.
  rewrite xorb_false_l, orb_false_r, !orb_true_iff, !ceqb_eq. unfold safe_char in H. intuition.
Qed.

Lemma last_split {A} (t1 t2 : list A) (x : A) h : h ++ [x] = t1 ++ t2 -> t2 <> [] -> exists t, t2 = t ++ [x] /\ h = t1 ++ t.
Proof.
  intros E N. destruct (exists_last N) as (t & y & ->). rewrite app_assoc in E.
  apply app_inj_tail in E as [-> ->]. eauto.
Qed.

Lemma path_from_uri_host h : safe_name h -> h <> [] -> path_from_uri ($"http://" ++ h) = Ok h.
Proof.
  intros (A & B & C & D) N.
  assert (W : wf_url (MkUrl $"http" h [] [])).
  { assert (Av : forall bad, (forall c, In c bad -> ~ safe_char c) -> avoids bad h).
    { intros bad H c I J. eapply H; eauto. }
    unfold wf_url. cbn [q_scheme q_host q_path q_tail].
    assert (Bad : forall c bad, In c bad -> forallb (fun c => negb (is_word c || ceqb c "-" || ceqb c ".")) bad = true -> ~ safe_char c).
    { intros c bad I F S. rewrite forallb_forall in F. apply F in I.
      rewrite negb_true_iff, !orb_false_iff in I. destruct I as ((I1 & I2) & I3).
      destruct S as [S|[->| ->]]; [congruence|discriminate I2|discriminate I3]. }
    split; [exists "h"%char, $"ttp"; split; reflexivity|].
    split; [intros c I; vm_compute in I; left; decompose [or] I; subst; reflexivity || contradiction|].
    split; [apply Av; intros c I; eapply Bad; [exact I|reflexivity]|].
    split; [apply Av; intros c I; eapply Bad; [exact I|reflexivity]|].
    split; [now left|]. split; [intros c []|]. split; [intros c []|]. split; [now left|]. intros c []. }
  assert (P : exists v, urlparse ($"http://" ++ h) [] = Ok v /\ up_netloc v = h /\ up_path v = []).
  { destruct (urlsplit_text _ [] W) as (q & f & P). unfold url_text in P. cbn [q_scheme q_host q_path q_tail] in P.
    rewrite !app_nil_r in P. unfold urlparse. change ($"http://" ++ h) with ($"http" ++ $"://" ++ h). rewrite P.
    cbn [bind us_scheme us_path us_netloc us_query us_frag]. change (has_char ";" []) with false.
    rewrite andb_false_r. eexists. split; [reflexivity|]. split; reflexivity. }
  destruct P as (v & P & Pn & Pp). unfold path_from_uri. rewrite P. cbn [bind].
  rewrite Pn, Pp. destruct (str_eqb_spec h []); [easy|].
  change (join $"/" [h; []]) with (h ++ $"/" ++ []). rewrite app_nil_r.
  assert (re_const $"[^\w\-\.]" = Cls true [CWord false; CSingle "-"%char; CSingle "."%char]) as -> by reflexivity.
  change $"_" with [und]. rewrite re_und2, re_end, re_front.
  unfold re_sub at 4. rewrite sub_cls by lia. rewrite map_app.
  assert (map (fun c => if cls_match true [CWord false; CSingle "-"%char; CSingle "."%char] c then und else c) h = h) as ->.
  { rewrite <- map_id. apply map_ext_in. intros c I. now rewrite safe_char_cls by auto. }
  change (map _ $"/") with [und].
  unfold re_sub at 3. rewrite sub_und2_id.
  2:{ intros x y E. destruct y as [|z y] using rev_ind; [|clear IHy].
      - rewrite app_nil_r in E. change [und; und] with ([und] ++ [und]) in E. rewrite app_assoc in E.
        apply app_inj_tail in E as [E _]. now destruct (C x und).
      - rewrite !app_assoc in E. apply app_inj_tail in E as [E _]. rewrite <- app_assoc in E. now apply (D x y). }
  assert (O : one_line (h ++ [und])).
  { intros I. apply in_app_iff in I as [I|[I|[]]]; [|discriminate I]. apply A in I as [X|[X|X]]; discriminate X. }
  set (p3 := re_sub r_end [] (h ++ [und])).
  destruct (sub_end (h ++ [und]) (S (List.length (h ++ [und]))) 0 O) as ((t & T & U) & _ & L); [lia|].
  fold (re_sub r_end [] (h ++ [und])) in T, L. fold p3 in T, L.
  assert (ND : forall x, x <> und /\ x <> "."%char -> is_ud x = false).
  { intros x. rewrite <- not_true_iff_false, is_ud_eq. tauto. }
  assert (E : p3 = h).
  { destruct t as [|z t].
    - rewrite app_nil_r in T. specialize (L h und (eq_sym T)). discriminate L.
    - apply last_split in T as (t' & E & H); [|easy]. destruct t' as [|z' t'] using rev_ind; [now rewrite app_nil_r in H|].
      exfalso. rewrite app_assoc in H. destruct (C _ _ H) as [C1 C2].
      assert (is_ud z' = false) by (apply ND; auto).
      rewrite E, !forallb_app in U. cbn [forallb] in U. rewrite H0, !andb_false_r in U. discriminate U. }
  rewrite sub_front, E. destruct h as [|c h]; [easy|]. cbn [span].
  destruct (B c h eq_refl). rewrite ND by auto. reflexivity.
Qed.

Fixpoint doubleb (s : str) : bool :=
  match s with
  | a :: ((b :: _) as s') => ceqb a und && ceqb b und || doubleb s'
  | _ => false
  end.
Lemma doubleb_ok s : doubleb s = false -> no_double s.
Proof.
  induction s as [|a s IH]; intros H; [apply no_double_nil|]. destruct s as [|b s].
  - apply no_double_cons; [right; easy|apply no_double_nil].
  - cbn [doubleb] in H. apply orb_false_iff in H as [H1 H2]. apply no_double_cons; auto.
    cbn [hd_error]. apply andb_false_iff in H1 as [H1|H1].
    + left. intros ->. now rewrite ceqb_refl in H1.
    + right. intros [= ->]. now rewrite ceqb_refl in H1.
Qed.
Definition safe_nameb (s : str) : bool :=
  forallb (fun c => is_word c || ceqb c "-" || ceqb c ".") s &&
  match s with c :: _ => negb (is_ud c) | [] => true end &&
  match rev s with c :: _ => negb (is_ud c) | [] => true end &&
  negb (doubleb s).
Lemma safe_nameb_ok s : safe_nameb s = true -> safe_name s.
Proof.
  unfold safe_nameb. rewrite !andb_true_iff, negb_true_iff. intros (((A & B) & C) & D).
  assert (ND : forall x, negb (is_ud x) = true -> x <> und /\ x <> "."%char).
  { intros x. rewrite negb_true_iff, <- not_true_iff_false, is_ud_eq. tauto. }
  split; [|split; [|split]].
  - intros c I. rewrite forallb_forall in A. apply A in I. rewrite !orb_true_iff, !ceqb_eq in I.
    unfold safe_char. tauto.
  - intros c t ->. auto.
  - intros t c ->. rewrite rev_app_distr in C. cbn in C. auto.
  - now apply doubleb_ok.
Qed.
