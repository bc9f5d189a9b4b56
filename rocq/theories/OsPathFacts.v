(** * OsPathFacts: lemmas about os.path functions *)

From Verif Require Import Py PyFacts OsPath MapperSpec MapperFacts2 UrlFacts PathSpec.

(** ** normpath means the same directory *)

Lemma walk_app a b : forall d, walk d (a ++ b) = walk (walk d a) b.
Proof.
  induction a as [|c a IH]; intros d; cbn [app walk]; [reflexivity|].
  destruct (str_eqb c [] || str_eqb c $"."); [apply IH|]. destruct (str_eqb c $".."); apply IH.
Qed.

Lemma norm_walk rooted comps : forall acc d, (rooted = true -> d = []) ->
  Forall (fun c => c <> [] /\ c <> $".") acc ->
  walk d (norm_comps rooted comps acc) = walk d (rev acc ++ comps).
Proof.
  induction comps as [|c comps IH]; intros acc d R F; cbn [norm_comps]; [now rewrite app_nil_r|].
  destruct (str_eqb c [] || str_eqb c $".") eqn:E.
  - rewrite IH by assumption. rewrite !walk_app. cbn [walk]. now rewrite E.
  - apply orb_false_iff in E as [E1 E2]. apply str_eqb_neq in E1, E2.
    destruct (negb (str_eqb c $"..") || _ || _) eqn:B.
    + rewrite IH; [|assumption|constructor; auto]. cbn [rev]. now rewrite <- app_assoc.
    + apply orb_false_iff in B as [B1 B2]. apply orb_false_iff in B1 as [B0 B1].
      apply negb_false_iff, str_eqb_eq in B0. subst c. destruct acc as [|x acc].
      * rewrite andb_true_r in B1. apply negb_false_iff in B1. rewrite R by assumption. rewrite IH by auto. reflexivity.
      * inversion F as [|? ? [X1 X2] F']; subst. apply str_eqb_neq in B2. rewrite IH by assumption.
        cbn [rev]. rewrite <- app_assoc, !walk_app. cbn [app walk].
        replace (str_eqb x [] || str_eqb x $".") with false.
        2:{ symmetry. apply orb_false_iff. split; now apply str_eqb_neq. }
        replace (str_eqb x $"..") with false by (symmetry; now apply str_eqb_neq).
        change (str_eqb $".." [] || str_eqb $".." $".") with false. change (str_eqb $".." $"..") with true. cbv iota.
        now rewrite removelast_last.
Qed.

Lemma split_join l : l <> [] -> Forall (fun c => ~ In "/"%char c) l -> split_on "/" (join $"/" l) = l.
Proof.
  induction l as [|x l IH]; intros N F; [congruence|]. inversion F; subst. destruct l as [|y l].
  - cbn [join]. now apply split_on_no.
  - change (join $"/" (x :: y :: l)) with (x ++ "/"%char :: join $"/" (y :: l)). rewrite split_on_app by assumption.
    rewrite IH; congruence.
Qed.

Lemma walk_split_join d l : Forall (fun c => ~ In "/"%char c) l -> walk d (split_on "/" (join $"/" l)) = walk d l.
Proof. intros F. destruct l as [|x l]; [reflexivity|]. rewrite split_join; [reflexivity|discriminate|assumption]. Qed.

Lemma norm_no_slash rooted comps : forall acc, Forall (fun c => ~ In "/"%char c) acc ->
  Forall (fun c => ~ In "/"%char c) comps -> Forall (fun c => ~ In "/"%char c) (norm_comps rooted comps acc).
Proof.
  induction comps as [|c comps IH]; intros acc F G; cbn [norm_comps]; [now apply Forall_rev|]. inversion G; subst.
  destruct (_ || _); [auto|]. destruct (_ || _); [apply IH; auto|]. destruct acc as [|x acc]; [auto|]. inversion F; auto.
Qed.

Lemma splitroot_cases p :
  (os_splitroot p = ([], p) /\ startswith $"/" p = false)
  \/ (exists p', p = $"/" ++ p' /\ os_splitroot p = ($"/", p'))
  \/ (exists p', p = $"//" ++ p' /\ os_splitroot p = ($"//", p')).
Proof.
  destruct p as [|a p1]; [left; auto|]. cbn [os_splitroot]. destruct (ceqb a "/") eqn:E.
  - apply ceqb_eq in E as ->. right. destruct p1 as [|b p2]; [left; now exists []|]. destruct (ceqb b "/") eqn:E.
    + apply ceqb_eq in E as ->. destruct p2 as [|c p3]; [right; now exists []|].
      destruct (ceqb c "/"); [left|right]; eexists; (split; [|reflexivity]); reflexivity.
    + left. eexists. split; [|reflexivity]. reflexivity.
  - left. split; [reflexivity|]. destruct (startswith $"/" (a :: p1)) eqn:S; [|reflexivity].
    apply startswith_spec in S as (t & S). injection S as -> _. discriminate E.
Qed.

(** normpath does not change the directory a path means. *)
Lemma normpath_denotes cwd p : denotes cwd (os_normpath p) = denotes cwd p.
Proof.
  destruct p as [|x p0] eqn:P; [reflexivity|]. rewrite <- P.
  assert (S : forall q, Forall (fun c => ~ In "/"%char c) (split_on "/" q)).
  { intros q. apply Forall_forall. intros f. apply split_on_fields. }
  assert (NE : p <> []) by (rewrite P; discriminate). clear x p0 P.
  assert (U : os_normpath p = let '(root, rest) := os_splitroot p in
     let r := root ++ join $"/" (norm_comps (negb (str_eqb root [])) (split_on "/" rest) []) in
      if str_eqb r [] then $"." else r). { destruct p; [congruence|reflexivity]. }
  rewrite U. clear U NE. destruct (splitroot_cases p) as [[E N]|[(p' & -> & E)|(p' & -> & E)]]; rewrite E; cbv zeta.
  - change (negb (str_eqb [] [])) with false. cbn [app]. unfold denotes. rewrite N.
    assert (W : walk cwd (norm_comps false (split_on "/" p) []) = walk cwd (split_on "/" p)).
    { rewrite norm_walk; [reflexivity|discriminate|constructor]. }
    set (j := join $"/" (norm_comps false (split_on "/" p) [])).
    assert (J : walk cwd (split_on "/" j) = walk cwd (split_on "/" p)).
    { unfold j. rewrite walk_split_join, W; [reflexivity|]. now apply norm_no_slash. }
    destruct (str_eqb_spec j []) as [Ej|Ej].
    + rewrite Ej in J. change (startswith $"/" $".") with false. cbv iota. rewrite <- J. reflexivity.
    + destruct (startswith $"/" j) eqn:R; [|assumption]. exfalso.
      apply startswith_spec in R as (t & R).
      assert (F : Forall (fun c => c <> []) (norm_comps false (split_on "/" p) [])).
      { generalize (split_on "/" p), (Forall_nil (fun c : str => c <> [])). generalize (@nil str).
        intros acc comps. revert acc. induction comps as [|c comps IH]; intros acc F; cbn [norm_comps]; [now apply Forall_rev|].
        destruct (str_eqb c [] || str_eqb c $".") eqn:Z; [auto|]. apply orb_false_iff in Z as [Z _]. apply str_eqb_neq in Z.
        destruct (_ || _); [apply IH; auto|]. destruct acc; [auto|]. inversion F; auto. }
      assert (G : Forall (fun c => ~ In "/"%char c) (norm_comps false (split_on "/" p) [])) by now apply norm_no_slash.
      unfold j in R. destruct (norm_comps false (split_on "/" p) []) as [|y [|z l]].
      * discriminate R.
      * inversion F; inversion G; subst. cbn [join] in R. destruct y as [|h y]; [congruence|]. injection R as -> _.
        match goal with H : ~ In _ (_ :: y) |- _ => apply H; now left end.
      * inversion F; inversion G; subst. cbn [join] in R. destruct y as [|h y]; [congruence|]. injection R as -> _.
        match goal with H : ~ In _ (_ :: y) |- _ => apply H; now left end.
  - change (negb (str_eqb $"/" [])) with true. change (str_eqb ($"/" ++ _) []) with false. cbv iota.
    unfold denotes. change (startswith $"/" ($"/" ++ p')) with true.
    change (startswith $"/" ($"/" ++ join $"/" (norm_comps true (split_on "/" p') []))) with true. cbv iota.
    change (split_on "/" ($"/" ++ ?q)) with ([] :: split_on "/" q). cbn [walk].
    change (str_eqb [] [] || str_eqb [] $".") with true. cbv iota.
    rewrite walk_split_join by now apply norm_no_slash. rewrite norm_walk; [reflexivity|reflexivity|constructor].
  - change (negb (str_eqb $"//" [])) with true. change (str_eqb ($"//" ++ _) []) with false. cbv iota.
    unfold denotes. change (startswith $"/" ($"//" ++ p')) with true.
    change (startswith $"/" ($"//" ++ join $"/" (norm_comps true (split_on "/" p') []))) with true. cbv iota.
    change (walk [] (split_on "/" ($"//" ++ p'))) with (walk [] (split_on "/" p')).
    change (walk [] (split_on "/" ($"//" ++ join $"/" (norm_comps true (split_on "/" p') []))))
      with (walk [] (split_on "/" (join $"/" (norm_comps true (split_on "/" p') [])))).
    rewrite walk_split_join by now apply norm_no_slash. rewrite norm_walk; [reflexivity|reflexivity|constructor].
Qed.

(** ** Paths made of ordinary names *)

Lemma names_no_slash l : Forall file_name l -> Forall (fun c => ~ In "/"%char c) l.
Proof. apply Forall_impl. unfold file_name. tauto. Qed.

Lemma walk_names l d : Forall file_name l -> walk d l = d ++ l.
Proof.
  revert d. induction l as [|c l IH]; intros d F; cbn [walk]; [now rewrite app_nil_r|].
  inversion F as [|? ? (H1 & H2 & H3 & _) F']; subst.
  apply str_eqb_neq in H1, H2, H3. rewrite H1, H2, H3. cbn [orb]. rewrite IH by assumption. now rewrite <- app_assoc.
Qed.

Lemma names_not_rooted l : Forall file_name l -> startswith $"/" (rel_path l) = false.
Proof.
  intros F. destruct (startswith $"/" (rel_path l)) eqn:S; [|reflexivity]. exfalso.
  apply startswith_spec in S as (t & S). unfold rel_path in S. destruct F as [|c l (H & _ & _ & N) F]; [discriminate|].
  destruct c as [|x c]; [congruence|]. apply N. left.
  destruct l; cbn [join] in S; injection S as S _; assumption.
Qed.

Lemma names_last l : Forall file_name l -> l <> [] -> exists s c, rel_path l = s ++ [c] /\ c <> "/"%char.
Proof.
  unfold rel_path. induction l as [|x l IH]; intros F N; [congruence|]. inversion F as [|? ? (H & _ & _ & S) F']; subst.
  destruct l as [|y l].
  - cbn [join]. destruct (exists_last H) as (s & c & ->). exists s, c. split; [reflexivity|]. intros ->. apply S, in_or_app. right. now left.
  - destruct IH as (s & c & E & C); [assumption|discriminate|]. exists (x ++ $"/" ++ s), c. split; [|assumption].
    change (x ++ $"/" ++ join $"/" (y :: l) = (x ++ $"/" ++ s) ++ [c]). rewrite E, <- !app_assoc. reflexivity.
Qed.

Lemma rstrip_slash s c n : c <> "/"%char -> rstrip $"/" ((s ++ [c]) ++ repeat "/"%char n) = s ++ [c].
Proof.
  intros N. unfold rstrip. rewrite rev_app_distr.
  replace (rev (repeat "/"%char n)) with (repeat "/"%char n).
  2:{ clear. induction n as [|n IH]; [reflexivity|]. cbn [repeat rev]. rewrite <- IH. now rewrite <- repeat_cons. }
  assert (E : forall m t, lstrip $"/" (repeat "/"%char m ++ c :: t) = c :: t).
  { intros m t. induction m as [|m IH]; [|exact IH]. cbn [repeat app lstrip].
    replace (has_char c $"/") with false; [reflexivity|]. symmetry. unfold has_char. cbn.
    change (ceqb c "/" || false = false). rewrite orb_false_r. now apply ceqb_neq. }
  rewrite rev_app_distr. change (rev [c] ++ rev s) with (c :: rev s). rewrite E. cbn [rev]. now rewrite rev_involutive.
Qed.

Lemma path_of_app a b : a <> [] -> b <> [] -> path_of (a ++ b) = path_of a ++ $"/" ++ rel_path b.
Proof. intros. unfold path_of, rel_path. rewrite join_app_prefix by assumption. now rewrite <- app_assoc. Qed.
Lemma rel_path_app a b : a <> [] -> b <> [] -> rel_path (a ++ b) = rel_path a ++ $"/" ++ rel_path b.
Proof. apply join_app_prefix. Qed.

Lemma not_all_slash s c : c <> "/"%char -> forallb (ceqb "/") (s ++ [c; "/"%char]) = false.
Proof.
  intros N. rewrite forallb_app. cbn [forallb]. replace (ceqb "/" c) with false; [apply andb_false_r|].
  symmetry. apply ceqb_neq. congruence.
Qed.

Lemma dirname_names abs l n : Forall file_name (l ++ [n]) -> os_dirname (local_path abs (l ++ [n])) = local_path abs l.
Proof.
  intros F. apply Forall_app in F as [F G]. inversion G as [|? ? (_ & _ & _ & S) _]; subst. unfold os_dirname.
  destruct l as [|x l0] eqn:L.
  - destruct abs; cbn [local_path app]; unfold path_of, rel_path; cbn [join].
    + replace (rsplit1 "/" ($"/" ++ n)) with (Some ($"/", n)); [reflexivity|]. symmetry. apply rsplit1_spec. exists []. auto.
    + replace (rsplit1 "/" n) with (@None (str * str)); [reflexivity|]. symmetry. now apply rsplit1_none.
  - rewrite <- L in *. assert (N : l <> []) by (rewrite L; discriminate).
    destruct (names_last l F N) as (s & c & E & C).
    destruct abs; cbn [local_path].
    + rewrite path_of_app by (assumption || discriminate). unfold path_of. rewrite E.
      replace (rsplit1 "/" _) with (Some (($"/" ++ s ++ [c]) ++ $"/", n)).
      2:{ symmetry. apply rsplit1_spec. exists ($"/" ++ s ++ [c]). auto. }
      replace (($"/" ++ s ++ [c]) ++ $"/") with (($"/" ++ s) ++ [c; "/"%char]) by (rewrite <- !app_assoc; reflexivity).
      rewrite not_all_slash by assumption.
      replace (($"/" ++ s) ++ [c; "/"%char]) with ((($"/" ++ s) ++ [c]) ++ repeat "/"%char 1) by (rewrite <- !app_assoc; reflexivity).
      rewrite rstrip_slash by assumption. now rewrite <- app_assoc.
    + rewrite rel_path_app by (assumption || discriminate). rewrite E.
      replace (rsplit1 "/" _) with (Some ((s ++ [c]) ++ $"/", n)).
      2:{ symmetry. apply rsplit1_spec. exists (s ++ [c]). auto. }
      replace ((s ++ [c]) ++ $"/") with (s ++ [c; "/"%char]) by (rewrite <- !app_assoc; reflexivity).
      rewrite not_all_slash by assumption.
      replace (s ++ [c; "/"%char]) with ((s ++ [c]) ++ repeat "/"%char 1) by (rewrite <- !app_assoc; reflexivity).
      now rewrite rstrip_slash.
Qed.

Lemma denotes_names l n d : Forall file_name l -> denotes d (path_of l ++ repeat "/"%char n) = l.
Proof.
  intros F. unfold denotes, path_of. rewrite <- app_assoc. change (startswith $"/" ($"/" ++ _)) with true. cbv iota.
  change (split_on "/" ($"/" ++ ?q)) with ([] :: split_on "/" q). rewrite walk_skip_empty. unfold rel_path.
  assert (E : forall k x, walk x (split_on "/" (repeat "/"%char k)) = x).
  { induction k as [|k IH]; intros x; [reflexivity|]. change (split_on "/" (repeat "/"%char (S k))) with ([] :: split_on "/" (repeat "/"%char k)).
    rewrite walk_skip_empty. apply IH. }
  destruct n as [|n].
  - cbn [repeat]. rewrite app_nil_r, walk_split_join by now apply names_no_slash. now rewrite walk_names.
  - transitivity (walk [] (l ++ split_on "/" (repeat "/"%char n))); [|rewrite walk_app, (walk_names l) by assumption; apply E].
    destruct l as [|x l]; [reflexivity|]. cbn [repeat].
    generalize (names_no_slash _ F). generalize (repeat "/"%char n). clear. intros t. intros G0.
    enough (Q : forall l, l <> [] -> Forall (fun c => ~ In "/"%char c) l ->
      split_on "/" (join $"/" l ++ "/"%char :: t) = l ++ split_on "/" t) by (rewrite Q; [reflexivity|discriminate|assumption]).
    clear x l G0. induction l as [|x l IH]; intros N G; [congruence|]. inversion G; subst. destruct l as [|y l].
    + cbn [join]. now rewrite split_on_app.
    + change (join $"/" (x :: y :: l)) with (x ++ "/"%char :: join $"/" (y :: l)). rewrite <- app_assoc. cbn [app].
      rewrite split_on_app by assumption. rewrite IH; [reflexivity|discriminate|assumption].
Qed.

Lemma path_not_double l n : Forall file_name l -> (l <> [] \/ n = O) -> forall q, path_of l ++ repeat "/"%char n <> $"//" ++ q.
Proof.
  intros F N q E. destruct l as [|x l].
  - destruct N as [N| ->]; [congruence|discriminate E].
  - injection E as E. pose proof (names_not_rooted _ F) as R. unfold rel_path in *.
    inversion F as [|? ? (H & _ & _ & S) _]; subst.
    destruct x as [|h x]; [congruence|]. destruct l; cbn [join app] in E; injection E as -> _; apply S; now left.
Qed.

Lemma normpath_names l n : Forall file_name l -> (l <> [] \/ n = O) -> os_normpath (path_of l ++ repeat "/"%char n) = path_of l.
Proof.
  intros F N. rewrite normpath_abs; [|eexists; reflexivity|now apply path_not_double]. now rewrite denotes_names.
Qed.

Lemma rel_names_downward l : Forall file_name l -> l <> [] -> downward (rel_path l).
Proof.
  intros F N. unfold downward, rel_path. rewrite split_join by (assumption || now apply names_no_slash). split.
  - intros c I. rewrite Forall_forall in F. now apply F in I as (_ & _ & ? & _).
  - destruct F as [|c l (H1 & H2 & _) F]; [congruence|]. exists c. split; [now left|]. auto.
Qed.

Lemma normpath_rel_names l : Forall file_name l -> l <> [] -> os_normpath (rel_path l) = rel_path l.
Proof.
  intros F N. rewrite normpath_down; [|now apply names_not_rooted|now apply rel_names_downward].
  unfold rel_path at 1. rewrite split_join by (assumption || now apply names_no_slash). rewrite walk_names by assumption. reflexivity.
Qed.

Lemma parts_names l : Forall file_name l -> filter (fun s => negb (str_eqb s [])) (split_on "/" (path_of l)) = l.
Proof.
  intros F. unfold path_of. change (split_on "/" ($"/" ++ ?q)) with ([] :: split_on "/" q). cbn [filter].
  change (negb (str_eqb [] [])) with false. cbv iota. destruct l as [|x l]; [reflexivity|].
  unfold rel_path. rewrite split_join; [|discriminate|now apply names_no_slash].
  clear - F. induction (x :: l) as [|c m IH]; [reflexivity|]. inversion F as [|? ? (H & _) F1]; subst. cbn [filter]. apply str_eqb_neq in H. rewrite H. cbn [negb]. now rewrite IH.
Qed.

Lemma endswith_slash_names l : Forall file_name l -> l <> [] -> endswith $"/" (path_of l) = false.
Proof.
  intros F N. destruct (endswith $"/" (path_of l)) eqn:E; [|reflexivity]. exfalso. apply endswith_spec in E as (t & E).
  destruct (names_last l F N) as (s & c & E' & C). unfold path_of in E. rewrite E' in E.
  replace ($"/" ++ s ++ [c]) with (($"/" ++ s) ++ [c]) in E by (now rewrite <- app_assoc). apply app_inj_tail in E as [_ E]. contradiction.
Qed.

(** Absolute or relative, seen from the current directory. *)
Definition seen (abs : bool) (cwd l : list str) : list str := if abs then l else cwd ++ l.

Lemma abspath_names abs cwd l n : Forall file_name cwd -> Forall file_name l -> (l <> [] \/ (n = O /\ abs = true)) ->
  os_abspath (path_of cwd) (local_path abs l ++ repeat "/"%char n) = path_of (seen abs cwd l).
Proof.
  intros FC FL N. unfold os_abspath. destruct abs; cbn [local_path seen].
  - change (startswith $"/" (path_of l ++ _)) with true. cbv iota. rewrite normpath_names; [reflexivity|assumption|tauto].
  - destruct N as [N|[_ N]]; [|discriminate]. 
    assert (R : startswith $"/" (rel_path l ++ repeat "/"%char n) = false).
    { pose proof (names_not_rooted l FL) as R. destruct (rel_path l) as [|c s] eqn:E; [|exact R].
      exfalso. revert E. unfold rel_path. apply join_nonempty; [assumption|]. intros c I. rewrite Forall_forall in FL. now apply FL in I as (? & _). }
    rewrite R. unfold os_join. rewrite R.
    assert (P : path_of (cwd ++ l) ++ repeat "/"%char n = if endswith $"/" (path_of cwd) then path_of cwd ++ rel_path l ++ repeat "/"%char n
       else path_of cwd ++ $"/" ++ rel_path l ++ repeat "/"%char n).
    { destruct cwd as [|x cwd]; [reflexivity|]. rewrite endswith_slash_names by (assumption || discriminate).
      rewrite path_of_app by (assumption || discriminate). now rewrite <- !app_assoc. }
    change (match path_of cwd with [] => ?a | _ :: _ => ?b end) with b. rewrite <- P. apply normpath_names.
    + apply Forall_app. auto.
    + left. intros E. apply app_eq_nil in E. tauto.
Qed.

Lemma common_list_app a b : common_list a (a ++ b) = List.length a.
Proof. induction a as [|x a IH]; [reflexivity|]. cbn [app common_list List.length]. now rewrite str_eqb_refl, IH. Qed.

Lemma local_path_nonempty abs l n : Forall file_name l -> (l <> [] \/ abs = true) -> local_path abs l ++ repeat "/"%char n <> [].
Proof.
  intros F N E. apply app_eq_nil in E as [E _]. destruct abs; [discriminate|]. destruct N as [N|N]; [|discriminate]. cbn in E.
  revert E. unfold rel_path. apply join_nonempty; [assumption|]. intros c I. rewrite Forall_forall in F. now apply F in I as (? & _).
Qed.

(** The path of a file relative to a directory above it. *)
Lemma relpath_names abs cwd top rest n : Forall file_name cwd -> Forall file_name (top ++ rest) -> rest <> [] ->
  (top <> [] \/ (n = O /\ abs = true)) ->
  os_relpath (path_of cwd) (local_path abs (top ++ rest)) (local_path abs top ++ repeat "/"%char n) = Ok (rel_path rest).
Proof.
  intros FC F NR N. pose proof F as F0. apply Forall_app in F0 as [FT FR]. unfold os_relpath.
  assert (NP : local_path abs (top ++ rest) <> []).
  { rewrite <- (app_nil_r (local_path abs (top ++ rest))). apply (local_path_nonempty abs (top ++ rest) 0); [assumption|].
    left. intros E. apply app_eq_nil in E. tauto. }
  assert (NT : local_path abs top ++ repeat "/"%char n <> []) by (apply local_path_nonempty; [assumption|tauto]).
  destruct (local_path abs (top ++ rest)) as [|p0 p] eqn:EP; [congruence|]. rewrite <- EP. clear p0 p NP EP.
  destruct (local_path abs top ++ repeat "/"%char n) as [|q0 q] eqn:EQ; [congruence|]. rewrite <- EQ. clear q0 q NT EQ.
  rewrite abspath_names by assumption.
  replace (os_abspath (path_of cwd) (local_path abs (top ++ rest))) with (path_of (seen abs cwd (top ++ rest))).
  2:{ rewrite <- (abspath_names abs cwd (top ++ rest) 0 FC F). { cbn [repeat]. now rewrite app_nil_r. }
      left. intros E. apply app_eq_nil in E. tauto. }
  assert (S1 : Forall file_name (seen abs cwd top)) by (destruct abs; [assumption|apply Forall_app; auto]).
  assert (S2 : seen abs cwd (top ++ rest) = seen abs cwd top ++ rest) by (destruct abs; [reflexivity|apply app_assoc]).
  rewrite !parts_names; [|rewrite S2; apply Forall_app; auto|assumption]. cbv zeta. rewrite S2, common_list_app, Nat.sub_diag.
  cbn [repeat app]. rewrite skipn_app, Nat.sub_diag, skipn_all. cbn [app skipn]. destruct rest; [congruence|reflexivity].
Qed.

(** The common prefix of strings is the longest. *)
Lemma commonprefix_spec a : forall b, exists a' b', a = os_commonprefix a b ++ a' /\ b = os_commonprefix a b ++ b' /\
  (forall c x y, a' = c :: x -> b' = c :: y -> False).
Proof.
  induction a as [|x a IH]; intros b; [exists [], b; repeat split; intros; discriminate|].
  destruct b as [|y b]; [exists (x :: a), []; repeat split; intros; discriminate|]. cbn [os_commonprefix].
  destruct (ceqb x y) eqn:E.
  - apply ceqb_eq in E as ->. destruct (IH b) as (a' & b' & H1 & H2 & H3). exists a', b'. rewrite <- !app_comm_cons, <- H1, <- H2. auto.
  - exists (x :: a), (y :: b). repeat split. intros c u v [= -> _] [= -> _]. now rewrite ceqb_refl in E.
Qed.
Lemma commonprefix_max p a b : (exists x, a = p ++ x) -> (exists y, b = p ++ y) -> exists z, os_commonprefix a b = p ++ z.
Proof.
  intros (x & ->) (y & ->). induction p as [|c p IH]; [now exists (os_commonprefix x y)|]. cbn [app os_commonprefix].
  rewrite ceqb_refl. destruct IH as (z & ->). now exists z.
Qed.
