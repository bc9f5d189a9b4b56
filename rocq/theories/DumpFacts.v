(** * DumpFacts: lemmas about dumps *)

From Coq Require Import Permutation Sorted Lia.
From Verif Require Import Py PyFacts Float64 OsPath OsPathFacts Resource ResourceSpec Container ContainerSpec ContainerFacts
  Xml Sitemap SitemapSpec SitemapLists Opener ListIndex Dump PathSpec DumpSpec.

Definition keyed (rs : list resource) : rdict := map (fun r => (r_uri r, r)) rs.

Lemma keyed_keys rs : dkeys (keyed rs) = map r_uri rs.
Proof. unfold dkeys, keyed. rewrite map_map. reflexivity. Qed.
Lemma keyed_wf rs : NoDup (map r_uri rs) -> wf_rl (keyed rs).
Proof.
  intros N. split; [change (NoDup (dkeys (keyed rs))); now rewrite keyed_keys|].
  intros u r I. apply in_map_iff in I as (x & [= <- <-] & _). reflexivity.
Qed.
Lemma keyed_perm rs : NoDup (map r_uri rs) -> Permutation (rl_iter (keyed rs)) rs.
Proof.
  intros N. eapply Permutation_trans; [apply rl_iter_perm, keyed_wf, N|]. unfold keyed. rewrite map_map. cbn [snd]. now rewrite map_id.
Qed.
Lemma keyed_sorted rs : StronglySorted uri_before rs -> NoDup (map r_uri rs) -> rl_iter (keyed rs) = rs.
Proof.
  intros S N. apply uri_sorted_ext; [apply rl_iter_sorted, keyed_wf, N|assumption|].
  intros r. pose proof (keyed_perm rs N) as P. split; apply Permutation_in; [assumption|now apply Permutation_sym].
Qed.

Lemma zlen_app {A} (a b : list A) : zlen (a ++ b) = zlen a + zlen b.
Proof. unfold zlen. rewrite app_length. lia. Qed.
Lemma zlen_nonneg {A} (a : list A) : 0 <= zlen a.
Proof. unfold zlen. lia. Qed.

(** ** Partition *)

Lemma total_app a b : total_size (a ++ b) = total_size a + total_size b.
Proof. unfold total_size. rewrite map_app, fold_right_app. induction (map size_of a) as [|x l IH]; cbn; lia. Qed.
Lemma total_one r : total_size [r] = size_of r.
Proof. unfold total_size. cbn. lia. Qed.

Lemma NoDup_app_r {A} (a b : list A) : NoDup (a ++ b) -> NoDup b.
Proof. induction a as [|x a IH]; [auto|]. cbn. intros N. inversion N. auto. Qed.

Section Partition.
Variables max_size max_files : Z.
Notation full := (full max_size max_files).
Notation filled := (filled max_size max_files).

Definition open_part (p : list resource) : Prop := forall a b, p = a ++ b -> a <> [] -> ~ full a.

Lemma open_nil : open_part [].
Proof. intros a b E N. symmetry in E. apply app_eq_nil in E. tauto. Qed.

Lemma prefix_snoc {A} (a b cur : list A) x : cur ++ [x] = a ++ b -> b <> [] -> exists b', cur = a ++ b'.
Proof.
  intros E N. destruct (exists_last N) as (b' & y & ->). rewrite app_assoc in E. apply app_inj_tail in E as [E _]. eauto.
Qed.

Lemma filled_one p : p <> [] -> (forall a b, p = a ++ b -> a <> [] -> b <> [] -> ~ full a) -> filled [p].
Proof.
  intros N H. split.
  - intros q [<-|[]]. split; assumption.
  - intros before q after E A. exfalso. destruct before as [|x before]; cbn in E.
    + injection E as _ E. congruence.
    + injection E as _ E. destruct before; discriminate.
Qed.
Lemma filled_cons p parts : p <> [] -> (forall a b, p = a ++ b -> a <> [] -> b <> [] -> ~ full a) -> full p -> filled parts -> filled (p :: parts).
Proof.
  intros N H F [G1 G2]. split.
  - intros q [<-|I]; [split; assumption|now apply G1].
  - intros before q after E A. destruct before as [|x before]; cbn in E; injection E as <- E; [assumption|]. eapply G2; eassumption.
Qed.

Lemma partition_ok rs : forall cur ms, NoDup (map r_uri cur) -> open_part cur ->
  partition_loop max_size max_files rs (keyed cur) (total_size cur) (zlen cur) = (ms, None) ->
  exists parts, List.concat parts = cur ++ rs /\ filled parts
    /\ Forall2 (fun m p => m = keyed p /\ NoDup (map r_uri p)) ms parts /\ Forall (fun r => r_length r <> None) rs.
Proof.
  induction rs as [|r rs IH]; intros cur ms N O H; cbn [partition_loop] in H.
  - injection H as <-. destruct cur as [|c cur].
    + exists []. split; [reflexivity|]. split; [|split; constructor]. split; [easy|].
      intros before p after E. destruct before; discriminate.
    + exists [c :: cur]. replace (0 <? zlen (c :: cur)) with true by (symmetry; apply Z.ltb_lt; unfold zlen; cbn [List.length]; lia).
      split; [cbn [List.concat]; now rewrite !app_nil_r|]. split; [|split; [constructor; auto|constructor]].
      apply filled_one; [discriminate|]. intros a b E NA _. now apply (O a b).
  - unfold rl_add in H. destruct (smem (r_uri r) (keyed cur)) eqn:M; [discriminate|]. cbn [andb] in H.
    apply smem_false in M. rewrite sset_fresh in H by assumption. rewrite keyed_keys in M.
    destruct (r_length r) as [n|] eqn:L; [|discriminate].
    assert (K : keyed cur ++ [(r_uri r, r)] = keyed (cur ++ [r])) by (unfold keyed; now rewrite map_app).
    assert (T : total_size cur + n = total_size (cur ++ [r])) by (rewrite total_app, total_one; unfold size_of; now rewrite L).
    assert (Z : zlen cur + 1 = zlen (cur ++ [r])) by (rewrite zlen_app; reflexivity).
    rewrite K, T, Z in H.
    assert (N' : NoDup (map r_uri (cur ++ [r]))).
    { rewrite map_app. cbn [map]. eapply Permutation_NoDup; [apply Permutation_cons_append|]. now constructor. }
    destruct ((max_size <=? total_size (cur ++ [r])) || (max_files <=? zlen (cur ++ [r]))) eqn:B.
    + destruct (partition_loop max_size max_files rs [] 0 0) as [ms' e] eqn:P. injection H as <- ->.
      destruct (IH [] ms' (NoDup_nil _) open_nil P) as (parts & C & F & G & LL). cbn [app] in C.
      exists ((cur ++ [r]) :: parts). split; [|split; [|split]].
      * cbn [List.concat]. now rewrite C, <- app_assoc.
      * apply filled_cons; [|intros a b E NA NB; destruct (prefix_snoc _ _ _ _ E NB) as (b' & E'); now apply (O a b')| |assumption].
        { intros E. apply app_eq_nil in E as [_ E]. discriminate. }
        unfold DumpSpec.full. apply orb_true_iff in B. rewrite !Z.leb_le in B. assumption.
      * constructor; auto.
      * constructor; [congruence|assumption].
    + apply orb_false_iff in B as [B1 B2]. apply Z.leb_gt in B1, B2.
      destruct (IH (cur ++ [r]) ms N') as (parts & C & F & G & LL); [|exact H|].
      * intros a b E NA. destruct b as [|y b].
        { rewrite app_nil_r in E. subst a. unfold DumpSpec.full. lia. }
        destruct (prefix_snoc a (y :: b) cur r E) as (b' & E'); [discriminate|]. now apply (O a b').
      * exists parts. rewrite <- app_assoc in C. split; [exact C|]. split; [exact F|]. split; [exact G|]. constructor; [congruence|assumption].
Qed.

Lemma partition_runs rs : forall cur, NoDup (map r_uri (cur ++ rs)) -> Forall (fun r => r_length r <> None) rs ->
  forall size files, snd (partition_loop max_size max_files rs (keyed cur) size files) = None.
Proof.
  induction rs as [|r rs IH]; intros cur N F size files; cbn [partition_loop]; [reflexivity|].
  inversion F; subst. assert (M : ~ In (r_uri r) (dkeys (keyed cur))).
  { rewrite keyed_keys. rewrite map_app in N. cbn [map] in N. apply NoDup_remove_2 in N. intros I. apply N, in_or_app. now left. }
  rewrite rl_add_fresh, sset_fresh by assumption. destruct (r_length r) as [n|]; [|congruence].
  replace (keyed cur ++ [(r_uri r, r)]) with (keyed (cur ++ [r])) by (unfold keyed; now rewrite map_app).
  destruct (_ || _).
  - specialize (IH [] ) with (size := 0) (files := 0). cbn [keyed map] in IH.
    destruct (partition_loop max_size max_files rs [] 0 0) as [ms e]. cbn [snd] in *. apply IH; [|assumption].
    cbn [app]. rewrite map_app in N. apply NoDup_app_r in N. cbn [map] in N. now inversion N.
  - apply IH; [|assumption]. now rewrite <- app_assoc.
Qed.

Lemma partition_fails rs : forall m size files ms e,
  partition_loop max_size max_files rs m size files = (ms, Some e) -> e = ResourceListDupeError \/ e = TypeError.
Proof.
  induction rs as [|r rs IH]; intros m size files ms e H; cbn [partition_loop] in H; [discriminate|].
  unfold rl_add in H. destruct (smem _ _ && _); [injection H; auto|]. destruct (r_length r); [|injection H; auto].
  destruct (_ || _); [|eauto]. destruct (partition_loop max_size max_files rs [] 0 0) as [ms' e'] eqn:P. injection H as _ ->. eauto.
Qed.
End Partition.

(** C42 *)
Lemma partition_covers max_size max_files rs ms : partition_dumps max_size max_files rs = (ms, None) ->
  exists parts, List.concat parts = rs /\ filled max_size max_files parts
    /\ Forall2 (fun m p => Permutation (rl_iter m) p /\ StronglySorted uri_before (rl_iter m)) ms parts.
Proof.
  intros H. destruct (partition_ok max_size max_files rs [] ms (NoDup_nil _) (open_nil _ _) H) as (parts & C & F & G & _).
  exists parts. split; [exact C|]. split; [exact F|]. clear - G. induction G as [|m p ms parts [-> N] G IH]; constructor; auto.
  split; [now apply keyed_perm|]. apply rl_iter_sorted. now apply keyed_wf.
Qed.
Lemma partition_succeeds max_size max_files rs : NoDup (map r_uri rs) -> Forall (fun r => r_length r <> None) rs ->
  exists ms, partition_dumps max_size max_files rs = (ms, None).
Proof.
  intros N F. pose proof (partition_runs max_size max_files rs [] N F 0 0) as H. unfold partition_dumps. cbn [keyed map] in H.
  destruct (partition_loop max_size max_files rs [] 0 0) as [ms e]. cbn in H. subst. eauto.
Qed.

(** What [filled] says about the number of files and the sizes. *)
Lemma filled_files max_size max_files parts p : filled max_size max_files parts -> In p parts -> zlen p <= Z.max 1 max_files.
Proof.
  intros [F _] I. destruct (F p I) as [N H]. destruct (exists_last N) as (a & x & E). destruct a as [|y a].
  - rewrite E. unfold zlen. cbn. lia.
  - assert (A : ~ full max_size max_files (y :: a)) by (apply (H _ [x]); [assumption|discriminate|discriminate]).
    unfold full in A. rewrite E, zlen_app. change (zlen [x]) with 1. lia.
Qed.
Lemma filled_sizes max_size max_files parts p : filled max_size max_files parts -> In p parts ->
  0 < max_size -> Forall (fun r => size_of r <= max_size) p -> total_size p < 2 * max_size.
Proof.
  intros [F _] I M L. destruct (F p I) as [N H]. destruct (exists_last N) as (a & x & E).
  assert (X : size_of x <= max_size). { rewrite Forall_forall in L. apply L. rewrite E. apply in_or_app. right. now left. }
  rewrite E, total_app, total_one. destruct a as [|y a]; [change (total_size []) with 0; lia|].
  assert (A : ~ full max_size max_files (y :: a)) by (apply (H _ [x]); [assumption|discriminate|discriminate]).
  unfold full in A. lia.
Qed.
(** The partition is the only one. *)
Lemma filled_unique max_size max_files : forall ps qs, filled max_size max_files ps -> filled max_size max_files qs ->
  List.concat ps = List.concat qs -> ps = qs.
Proof.
  induction ps as [|p ps IH]; intros [|q qs] F G E; cbn in E.
  - reflexivity.
  - exfalso. destruct G as [G _]. destruct (G q (or_introl eq_refl)) as [N _]. symmetry in E. apply app_eq_nil in E. tauto.
  - exfalso. destruct F as [F _]. destruct (F p (or_introl eq_refl)) as [N _]. apply app_eq_nil in E. tauto.
  - assert (T : forall x xs, filled max_size max_files (x :: xs) -> filled max_size max_files xs).
    { intros x xs [A B]. split; [intros y I; apply A; now right|]. intros before y after -> NA.
      apply (B (x :: before) y after); [reflexivity|assumption]. }
    assert (Q : forall x xs y ys t, filled max_size max_files (x :: xs) -> filled max_size max_files (y :: ys) ->
       t <> [] -> x = y ++ t -> List.concat ys = t ++ List.concat xs -> False).
    { intros x xs y ys t [A1 A2] [B1 B2] NT -> C. destruct (A1 (y ++ t) (or_introl eq_refl)) as [_ A].
      apply (A y t); auto; [apply (B1 y (or_introl eq_refl))|]. apply (B2 [] y ys); [reflexivity|].
      intros ->. cbn in C. symmetry in C. apply app_eq_nil in C. tauto. }
    apply app_eq_app in E as (t & [[E1 E2]|[E1 E2]]); (destruct t as [|x t]; [rewrite app_nil_r in E1; cbn in E2|exfalso]).
    + subst q. f_equal. apply IH; eauto.
    + eapply (Q p ps q qs (x :: t)); eauto. discriminate.
    + subst q. f_equal. apply IH; eauto.
    + eapply (Q q qs p ps (x :: t)); eauto. discriminate.
Qed.

(** C43 *)
Definition sized (u : str) (n : Z) : resource := set_length (Some n) (new_resource u).
