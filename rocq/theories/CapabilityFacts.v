(** * CapabilityFacts: proofs about capability lists *)

From Verif Require Import Py PyFacts Float64 W3C Resource Container ContainerSpec ContainerFacts
  Capability CapabilitySpec.
From Coq Require Import Sorting.Sorted Permutation.

Lemma cap_eqb_eq a b : cap_eqb a b = true <-> a = b.
Proof.
  destruct a, b; simpl; try (split; easy). rewrite str_eqb_eq. split; congruence.
Qed.
Lemma cap_eqb_refl a : cap_eqb a a = true.
Proof. now apply cap_eqb_eq. Qed.
Lemma cap_eqb_spec a b : reflect (a = b) (cap_eqb a b).
Proof. apply iff_reflect. symmetry. apply cap_eqb_eq. Qed.

Section CDict.
  Context {V : Type}.
  Implicit Types d : list (option str * V).
  Lemma cget_in k v d : dget cap_eqb k d = Some v -> In (k, v) d.
  Proof.
    induction d as [|[x y] d IH]; simpl; [easy|].
    destruct (cap_eqb_spec k x); [intros [= ->]; subst; auto|auto].
  Qed.
  Lemma cget_none k d : dget cap_eqb k d = None <-> ~ In k (map fst d).
  Proof.
    induction d as [|[x y] d IH]; simpl; [tauto|].
    destruct (cap_eqb_spec k x); [split; [easy|intros H; exfalso; apply H; auto]|].
    rewrite IH. split; intros H; [intros [E|E]; [congruence|tauto]|tauto].
  Qed.
  Lemma in_cget k v d : NoDup (map fst d) -> In (k, v) d -> dget cap_eqb k d = Some v.
  Proof.
    induction d as [|[x y] d IH]; simpl; [easy|]. intros N H. inversion N; subst.
    destruct (cap_eqb_spec k x).
    - subst. destruct H as [[= ->]|H]; auto. exfalso. apply H2. now apply (in_map fst) in H.
    - destruct H as [[= -> ->]|H]; [easy|auto].
  Qed.
  Lemma cset_mem k v d : In k (map fst d) -> map fst (dset cap_eqb k v d) = map fst d.
  Proof.
    induction d as [|[x y] d IH]; simpl; [easy|]. intros H.
    destruct (cap_eqb_spec k x); simpl; auto. f_equal. apply IH. destruct H; [congruence|auto].
  Qed.
  Lemma cset_fresh k v d : ~ In k (map fst d) -> dset cap_eqb k v d = d ++ [(k, v)].
  Proof.
    induction d as [|[x y] d IH]; simpl; auto. intros H.
    destruct (cap_eqb_spec k x); [exfalso; apply H; auto|]. f_equal. apply IH. tauto.
  Qed.
  Lemma cget_set k k' v d : dget cap_eqb k (dset cap_eqb k' v d) =
    if cap_eqb k k' then Some v else dget cap_eqb k d.
  Proof.
    induction d as [|[x y] d IH]; simpl; [reflexivity|].
    destruct (cap_eqb_spec k' x); simpl.
    - subst. destruct (cap_eqb_spec k x); auto.
    - rewrite IH. destruct (cap_eqb_spec k x), (cap_eqb_spec k k'); subst; congruence.
  Qed.
  Lemma cdel_filter k d : NoDup (map fst d) ->
    ddel cap_eqb k d = filter (fun p => negb (cap_eqb k (fst p))) d.
  Proof.
    induction d as [|[x y] d IH]; simpl; auto. intros N. inversion N; subst.
    destruct (cap_eqb_spec k x); simpl; [|now rewrite IH].
    subst. clear IH N. induction d as [|[a b] d IH]; simpl; auto.
    simpl in H1. inversion H2; subst.
    destruct (cap_eqb_spec x a); [exfalso; apply H1; auto|]. simpl. f_equal. apply IH; tauto.
  Qed.
End CDict.

Definition uris_with (c : option str) (d : rdict) : list str := map fst (filter (has_cap c) d).

Lemma first_pos_app {A} (p : A -> bool) l l' :
  existsb p l = true -> first_pos p (l ++ l') = first_pos p l.
Proof.
  induction l as [|x l IH]; simpl; [easy|]. destruct (p x); simpl; auto.
Qed.
Lemma first_pos_none {A} (p : A -> bool) l : existsb p l = false -> first_pos p l = List.length l.
Proof.
  induction l as [|x l IH]; simpl; auto. destruct (p x); simpl; [easy|auto].
Qed.
Lemma first_pos_lt {A} (p : A -> bool) l : existsb p l = true -> (first_pos p l < List.length l)%nat.
Proof.
  induction l as [|x l IH]; simpl; [easy|]. destruct (p x); simpl; [lia|].
  intros H. specialize (IH H). lia.
Qed.

Lemma uris_with_snoc c d e :
  uris_with c (d ++ [e]) = uris_with c d ++ if has_cap c e then [fst e] else [].
Proof.
  unfold uris_with. rewrite filter_app, map_app. f_equal. cbn. now destruct (has_cap c e).
Qed.

Lemma index_keys d c : In c (map fst (cs_index d)) <-> existsb (has_cap c) d = true.
Proof.
  unfold cs_index. induction d as [|e d IH] using rev_ind; [cbn; split; easy|].
  rewrite fold_left_app. cbn [fold_left]. rewrite existsb_app. cbn [existsb].
  unfold cs_index_step at 1. fold (cs_index d) in *.
  set (v := match _ with Some _ => _ | None => _ end ++ _). clearbody v.
  rewrite orb_false_r, orb_true_iff. unfold has_cap at 2. rewrite cap_eqb_eq, <- IH. clear IH.
  destruct (dget cap_eqb (r_capability (snd e)) (cs_index d)) eqn:G.
  - assert (In (r_capability (snd e)) (map fst (cs_index d))) as I by (apply cget_in in G; now apply (in_map fst) in G).
    rewrite cset_mem by auto. split; [tauto|]. intros [H|H]; [auto|]. now subst.
  - apply cget_none in G. rewrite cset_fresh by auto. rewrite map_app, in_app_iff. cbn. tauto.
Qed.

Definition older (d : rdict) (a b : option str) : Prop :=
  (first_pos (has_cap a) d < first_pos (has_cap b) d)%nat.

Lemma StronglySorted_snoc {A} (R : A -> A -> Prop) l x :
  StronglySorted R l -> Forall (fun y => R y x) l -> StronglySorted R (l ++ [x]).
Proof.
  induction 1 as [|a l S IH F]; cbn; intros G; [repeat constructor|].
  inversion G; subst. constructor; auto. apply Forall_app; auto.
Qed.
Lemma StronglySorted_impl {A} (R R' : A -> A -> Prop) l :
  (forall x y, In x l -> In y l -> R x y -> R' x y) -> StronglySorted R l -> StronglySorted R' l.
Proof.
  intros H S. induction S as [|a l S IH F]; constructor.
  - apply IH. intros x y Hx Hy. apply H; now right.
  - rewrite Forall_forall in *. intros y Hy. apply H; [now left|now right|auto].
Qed.

Lemma index_inv d :
  NoDup (map fst (cs_index d)) /\
  StronglySorted (older d) (map fst (cs_index d)) /\
  (forall c us, dget cap_eqb c (cs_index d) = Some us -> us = uris_with c d).
Proof.
  induction d as [|e d IH] using rev_ind; [cbn; repeat split; try constructor; easy|].
  destruct IH as (N & S & U).
  pose proof (index_keys d) as K.
  unfold cs_index in *. rewrite fold_left_app. cbn [fold_left].
  fold (cs_index d) in *. unfold cs_index_step.
  set (cap := r_capability (snd e)) in *.
  assert (S' : StronglySorted (older (d ++ [e])) (map fst (cs_index d))).
  { apply (StronglySorted_impl (older d)); auto. intros x y Hx Hy. unfold older.
    apply K in Hx, Hy. now rewrite !first_pos_app by auto. }
  assert (UU : forall us, dget cap_eqb cap (cs_index d) = Some us \/ (dget cap_eqb cap (cs_index d) = None /\ us = []) ->
               us = uris_with cap d).
  { intros us [H|[H ->]]; auto. apply cget_none in H. rewrite K in H. unfold uris_with.
    apply not_true_is_false in H. clear - H. induction d; cbn in *; auto.
    apply orb_false_iff in H as [-> H]. auto. }
  destruct (dget cap_eqb cap (cs_index d)) as [us|] eqn:G.
  - assert (In cap (map fst (cs_index d))) as I by (apply cget_in in G; now apply (in_map fst) in G).
    rewrite cset_mem by auto. repeat split; auto.
    intros c us'. rewrite cget_set, uris_with_snoc. destruct (cap_eqb_spec c cap).
    + intros [= <-]. subst c. unfold has_cap. fold cap. rewrite cap_eqb_refl. now rewrite <- (UU us) by auto.
    + intros H. apply U in H. unfold has_cap. fold cap. destruct (cap_eqb_spec cap c); [congruence|].
      now rewrite app_nil_r.
  - assert (G' := G). apply cget_none in G'. split; [|split].
    + rewrite cset_fresh by auto. rewrite map_app. cbn.
      apply NoDup_Add with (a := cap) (l := map fst (cs_index d)); [|auto].
      rewrite <- (app_nil_r (map fst (cs_index d))) at 1. apply Add_app.
    + rewrite cset_fresh by auto. rewrite map_app. cbn. apply StronglySorted_snoc; auto.
      rewrite Forall_forall. intros x Hx. apply K in Hx. unfold older.
      rewrite first_pos_app by auto. apply first_pos_lt in Hx.
      rewrite K in G'. apply not_true_is_false in G'.
      enough (first_pos (has_cap cap) (d ++ [e]) = List.length d) by lia.
      clear - G' cap. induction d; cbn in *.
      * unfold has_cap. fold cap. now rewrite cap_eqb_refl.
      * apply orb_false_iff in G' as [-> G']. auto.
    + intros c us'. rewrite cget_set, uris_with_snoc. destruct (cap_eqb_spec c cap).
      * intros [= <-]. subst c. unfold has_cap. fold cap. rewrite cap_eqb_refl.
        now rewrite <- (UU []) by auto.
      * intros H. apply U in H. unfold has_cap. fold cap. destruct (cap_eqb_spec cap c); [congruence|].
        now rewrite app_nil_r.
Qed.

(** The URIs in order of iteration, as one list of groups. *)
Definition cs_groups (d : rdict) : list (option str) :=
  map Some cs_order ++
  filter (fun c => negb (existsb (fun k => cap_eqb c (Some k)) cs_order)) (map fst (cs_index d)).

Lemma uris_with_none c d : existsb (has_cap c) d = false -> uris_with c d = [].
Proof.
  unfold uris_with. intros H. induction d; cbn in *; auto.
  apply orb_false_iff in H as [-> H]. auto.
Qed.

Lemma NoDup_keys_filter {V} (f : option str * V -> bool) (d : list (option str * V)) :
  NoDup (map fst d) -> NoDup (map fst (filter f d)).
Proof.
  induction d as [|p d IH]; cbn; auto. intros N; inversion N; subst. destruct (f p); cbn; auto.
  constructor; auto. intros H. apply H1. apply in_map_iff in H as (q & E & H).
  apply filter_In in H. rewrite <- E. apply in_map. tauto.
Qed.

Lemma cget_filter {V} (f : option str -> bool) k (d : list (option str * V)) :
  dget cap_eqb k (filter (fun p => f (fst p)) d) = if f k then dget cap_eqb k d else None.
Proof.
  induction d as [|[x y] d IH]; cbn; [now destruct (f k)|].
  destruct (f x) eqn:F; cbn; destruct (cap_eqb_spec k x); subst; rewrite ?F, ?IH; auto.
  now rewrite F.
Qed.

Lemma filter_filter {A} (f g : A -> bool) l : filter f (filter g l) = filter (fun x => g x && f x) l.
Proof. induction l; cbn; auto. destruct (g a); cbn; destruct (f a); cbn; rewrite ?IHl; auto. Qed.

Lemma cs_known_spec order : NoDup order -> forall d idx acc,
  NoDup (map fst idx) ->
  (forall c us, dget cap_eqb c idx = Some us -> us = uris_with c d) ->
  (forall c, In c order -> dget cap_eqb (Some c) idx = None -> uris_with (Some c) d = []) ->
  cs_known order idx acc =
  (acc ++ flat_map (fun c => sort_strs (uris_with (Some c) d)) order,
   filter (fun p => negb (existsb (fun k => cap_eqb (fst p) (Some k)) order)) idx).
Proof.
  intros ND. induction ND as [|c order NI ND IH]; intros d idx acc N U E; cbn [cs_known flat_map existsb].
  - rewrite app_nil_r. f_equal. induction idx; cbn; auto. inversion N; subst.
    f_equal. apply IHidx; auto.
    + intros c us H. destruct a as [x y]. cbn in *. apply U. destruct (cap_eqb_spec c x); auto.
      subst. exfalso. apply cget_in in H. apply H1. now apply (in_map fst) in H.
    + intros c [].
  - destruct (dget cap_eqb (Some c) idx) as [us|] eqn:G.
    + rewrite (U _ _ G). rewrite cdel_filter by auto.
      rewrite (IH d).
      * rewrite <- app_assoc. f_equal. rewrite filter_filter. apply filter_ext. intros [x y]. cbn [fst].
        rewrite negb_orb. f_equal. f_equal.
        destruct (cap_eqb_spec (Some c) x), (cap_eqb_spec x (Some c)); congruence.
      * apply NoDup_keys_filter; auto.
      * intros k us'. rewrite (cget_filter (fun x => negb (cap_eqb (Some c) x))).
        destruct (negb _); [apply U|easy].
      * intros k Hk. rewrite (cget_filter (fun x => negb (cap_eqb (Some c) x))).
        destruct (cap_eqb_spec (Some c) (Some k)); cbn [negb]; [congruence|].
        apply E. now right.
    + rewrite (IH d); auto.
      * rewrite (E c) by (auto; now left). cbn. f_equal.
        apply filter_ext_in. intros [x y] Hx. cbn [fst].
        destruct (cap_eqb_spec x (Some c)); auto. subst.
        exfalso. apply cget_none in G. apply G. now apply (in_map fst) in Hx.
      * intros k Hk. apply E. now right.
Qed.

Lemma cs_order_NoDup : NoDup cs_order.
Proof.
  repeat constructor; cbn; intros H; repeat destruct H as [H|H]; try discriminate H; auto.
Qed.

Lemma flat_map_map {A B C} (f : B -> list C) (g : A -> B) l :
  flat_map f (map g l) = flat_map (fun x => f (g x)) l.
Proof. induction l; cbn; congruence. Qed.

Lemma cs_iter_eq d :
  cs_iter d = lookups (flat_map (fun c => sort_strs (uris_with c d)) (cs_groups d)) d.
Proof.
  destruct (index_inv d) as (N & S & U).
  unfold cs_iter. rewrite (cs_known_spec cs_order cs_order_NoDup d (cs_index d) [] N U).
  2:{ intros c _ H. apply cget_none in H. rewrite index_keys in H.
      apply uris_with_none. now apply not_true_is_false. }
  cbn [app]. f_equal. unfold cs_groups. rewrite flat_map_app, flat_map_map. f_equal.
  unfold cs_rest.
  assert (G : forall p, In p (cs_index d) -> snd p = uris_with (fst p) d).
  { intros [x y] H. apply U. now apply in_cget. }
  revert G. generalize (cs_index d) as idx. clear N S U.
  induction idx as [|p idx IH]; intros G; cbn [filter map flat_map]; auto.
  destruct (negb _); cbn [flat_map]; rewrite ?IH; auto; try (intros; apply G; now right).
  now rewrite (G p) by now left.
Qed.

Definition cs_uris (d : rdict) : list str := flat_map (fun c => sort_strs (uris_with c d)) (cs_groups d).

Lemma in_uris_with u c d : In u (uris_with c d) <-> exists r, In (u, r) d /\ r_capability r = c.
Proof.
  unfold uris_with. rewrite in_map_iff. split.
  - intros ([x r] & <- & H). apply filter_In in H as [H E]. exists r. split; auto. now apply cap_eqb_eq.
  - intros (r & H & <-). exists (u, r). split; auto. apply filter_In. split; auto. apply cap_eqb_refl.
Qed.

Lemma cs_groups_In d c r u : In (u, r) d -> r_capability r = c -> In c (cs_groups d).
Proof.
  intros H E. unfold cs_groups. rewrite in_app_iff.
  destruct (existsb (fun k => cap_eqb c (Some k)) cs_order) eqn:X.
  - left. apply existsb_exists in X as (k & Hk & X). apply cap_eqb_eq in X. subst c. rewrite X. now apply in_map.
  - right. apply filter_In. split; [|now rewrite X]. apply index_keys.
    apply existsb_exists. exists (u, r). split; auto. now apply cap_eqb_eq.
Qed.

Lemma NoDup_filter' {A} (f : A -> bool) l : NoDup l -> NoDup (filter f l).
Proof.
  induction 1; cbn; [constructor|]. destruct (f x); auto. constructor; auto.
  rewrite filter_In. tauto.
Qed.

Lemma cs_groups_NoDup d : NoDup (cs_groups d).
Proof.
  unfold cs_groups.
  assert (forall (l1 l2 : list (option str)), NoDup l1 -> NoDup l2 -> (forall x, In x l1 -> ~ In x l2) -> NoDup (l1 ++ l2)) as A.
  { induction l1; cbn; intros l2 N1 N2 D; auto. inversion N1; subst. constructor.
    - rewrite in_app_iff. intros [?|?]; [auto|]. eapply D; eauto.
    - apply IHl1; auto. }
  apply A.
  - apply FinFun.Injective_map_NoDup; [intros x y [=]; auto|apply cs_order_NoDup].
  - apply NoDup_filter'. apply index_inv.
  - intros x H1 H2. apply filter_In in H2 as [_ H2]. apply in_map_iff in H1 as (k & <- & H1).
    rewrite negb_true_iff in H2. rewrite <- not_true_iff_false in H2. apply H2.
    apply existsb_exists. exists k. split; auto. apply cap_eqb_refl.
Qed.

Lemma wf_in_uris u r1 r2 d : wf_rl d -> In (u, r1) d -> In (u, r2) d -> r1 = r2.
Proof.
  intros [N _] A B. apply (in_sget u r1 d N) in A. apply (in_sget u r2 d N) in B. congruence.
Qed.

Lemma uris_with_NoDup c d : wf_rl d -> NoDup (uris_with c d).
Proof.
  intros [N _]. unfold uris_with. revert N. induction d as [|e d IH]; cbn; intros N; [constructor|].
  inversion N; subst. destruct (has_cap c e); cbn; auto. constructor; auto.
  intros H. apply H1. apply in_map_iff in H as (q & E & H). apply filter_In in H.
  rewrite <- E. apply in_map. tauto.
Qed.

Lemma cs_uris_NoDup d : wf_rl d -> NoDup (cs_uris d).
Proof.
  intros W. unfold cs_uris. pose proof (cs_groups_NoDup d) as N.
  induction N as [|c l NI N IH]; cbn; [constructor|].
  assert (forall (l1 l2 : list str), NoDup l1 -> NoDup l2 -> (forall x, In x l1 -> ~ In x l2) -> NoDup (l1 ++ l2)) as A.
  { induction l1; cbn; intros l2 N1 N2 D; auto. inversion N1; subst. constructor.
    - rewrite in_app_iff. intros [?|?]; [auto|]. eapply D; eauto.
    - apply IHl1; auto. }
  apply A; auto.
  - now apply sort_strs_NoDup, uris_with_NoDup.
  - intros u H1 H2. rewrite sort_strs_In in H1. apply in_flat_map in H2 as (c' & Hc & H2).
    rewrite sort_strs_In in H2. apply in_uris_with in H1 as (r1 & I1 & E1), H2 as (r2 & I2 & E2).
    pose proof (wf_in_uris u r1 r2 d W I1 I2). subst. auto.
Qed.

Lemma cs_uris_In d u : In u (cs_uris d) <-> In u (map fst d).
Proof.
  unfold cs_uris. rewrite in_flat_map. split.
  - intros (c & _ & H). rewrite sort_strs_In in H. apply in_uris_with in H as (r & H & _).
    now apply (in_map fst) in H.
  - intros H. apply in_map_iff in H as ([u' r] & <- & H). cbn. exists (r_capability r). split.
    + eapply cs_groups_In; eauto.
    + rewrite sort_strs_In. apply in_uris_with. eauto.
Qed.

Lemma cs_iter_perm d : wf_rl d -> Permutation (cs_iter d) (map snd d).
Proof.
  intros W. rewrite cs_iter_eq. fold (cs_uris d).
  assert (P : Permutation (cs_uris d) (map fst d)).
  { apply NoDup_Permutation; [now apply cs_uris_NoDup|apply W|apply cs_uris_In]. }
  transitivity (lookups (map fst d) d).
  - clear W. revert P. generalize (cs_uris d) as l1, (map fst d) as l2. intros l1 l2 P.
    induction P; cbn; auto; repeat destruct (sget _ d); auto.
    + constructor.
    + etransitivity; eauto.
  - apply Permutation_refl'. destruct W as [N _].
    assert (H : forall l, (forall p, In p l -> sget (fst p) d = Some (snd p)) ->
              lookups (map fst l) d = map snd l).
    { induction l as [|p l IH]; cbn; intros H; auto. rewrite (H p) by now left. f_equal.
      apply IH. intros q Hq. apply H. now right. }
    apply H. intros [x y] I. now apply in_sget.
Qed.

(** Sortedness. *)
Lemma lookups_app a b d : lookups (a ++ b) d = lookups a d ++ lookups b d.
Proof. induction a; cbn; auto. destruct (sget a d); cbn; congruence. Qed.

Lemma StronglySorted_app {A} (R : A -> A -> Prop) l1 l2 :
  StronglySorted R l1 -> StronglySorted R l2 -> (forall x y, In x l1 -> In y l2 -> R x y) ->
  StronglySorted R (l1 ++ l2).
Proof.
  induction 1 as [|a l S IH F]; cbn; intros S2 H; auto.
  constructor; [apply IH; auto|].
  rewrite Forall_app. split; auto. rewrite Forall_forall. intros y Hy. apply H; auto.
Qed.

Definition rank_of (c : option str) : nat := first_pos (fun k => cap_eqb c (Some k)) canonical.
Definition group_before (d : rdict) (a b : option str) : Prop :=
  (rank_of a < rank_of b)%nat \/ (rank_of a = rank_of b /\ older d a b).

Lemma cs_groups_sorted d : StronglySorted (group_before d) (cs_groups d).
Proof.
  unfold cs_groups. apply StronglySorted_app.
  - change cs_order with canonical. repeat constructor.
    all: unfold group_before; left; vm_compute; lia.
  - destruct (index_inv d) as (_ & S & _). revert S.
    induction (map fst (cs_index d)) as [|c l IH]; cbn [filter]; intros S; [constructor|].
    inversion S; subst. destruct (negb _) eqn:E; auto. constructor; auto.
    rewrite Forall_forall in *. intros x Hx. apply filter_In in Hx as [Hx Ex]. right.
    split; auto. unfold rank_of. rewrite !first_pos_none; auto; rewrite negb_true_iff in *; auto.
  - intros x y Hx Hy. left. apply filter_In in Hy as [_ Hy]. rewrite negb_true_iff in Hy.
    unfold rank_of. rewrite (first_pos_none _ canonical Hy). apply first_pos_lt.
    apply in_map_iff in Hx as (k & <- & Hk). apply existsb_exists. exists k. split; auto. apply cap_eqb_refl.
Qed.

Lemma cs_iter_sorted d : wf_rl d -> StronglySorted (cap_before d) (cs_iter d).
Proof.
  intros W. rewrite cs_iter_eq. pose proof (cs_groups_sorted d) as S.
  induction S as [|c l S IH F]; cbn [flat_map]; [constructor|].
  rewrite lookups_app.
  assert (G : forall c r, In r (lookups (sort_strs (uris_with c d)) d) -> r_capability r = c).
  { intros c' r H. apply in_lookups in H as (k & Hk & E). rewrite sort_strs_In in Hk.
    apply in_uris_with in Hk as (r' & Hr & <-). apply sget_in in E.
    now rewrite (wf_in_uris k r r' d W E Hr). }
  apply StronglySorted_app; auto.
  - assert (U : StronglySorted uri_before (lookups (sort_strs (uris_with c d)) d)).
    { apply (StronglySorted_map r_uri str_lt). rewrite lookups_uris; auto.
      - apply sort_strs_strict. now apply uris_with_NoDup.
      - intros k Hk. rewrite sort_strs_In in Hk. apply in_uris_with in Hk as (r & Hr & _).
        now apply (in_map fst) in Hr. }
    eapply StronglySorted_impl; [|exact U]. intros x y Hx Hy B. right.
    apply G in Hx, Hy. unfold rank, cap_age. rewrite Hx, Hy. split; auto.
  - intros x y Hx Hy. apply in_lookups in Hy as (k & Hk & E). apply in_flat_map in Hk as (c' & Hc & Hk).
    assert (Hy : In y (lookups (sort_strs (uris_with c' d)) d)) by (apply in_lookups; eauto).
    apply G in Hx, Hy. rewrite Forall_forall in F. specialize (F c' Hc).
    unfold cap_before, rank, cap_age. rewrite Hx, Hy.
    destruct F as [F|[F O]]; [left; exact F|right; split; [exact F|left; exact O]].
Qed.

(** capability_info *)
Lemma find_sorted {A} (R : A -> A -> Prop) (p : A -> bool) l x :
  StronglySorted R l -> find p l = Some x ->
  In x l /\ p x = true /\ forall y, In y l -> p y = true -> y = x \/ R x y.
Proof.
  induction 1 as [|a l S IH F]; cbn; [easy|]. destruct (p a) eqn:E.
  - intros [= <-]. repeat split; auto. intros y [->|Hy] _; auto. right.
    rewrite Forall_forall in F; auto.
  - intros H. destruct (IH H) as (I & P & M). repeat split; auto.
    intros y [->|Hy] Q; [congruence|auto].
Qed.

Lemma capability_info_spec d name r : wf_rl d ->
  capability_info name d = Some r <->
  (In (r_uri r, r) d /\ r_capability r = name /\
   forall r', In (r_uri r', r') d -> r_capability r' = name -> r' = r \/ uri_before r r').
Proof.
  intros W. pose proof (cs_iter_perm d W) as P.
  assert (I : forall x, In x (cs_iter d) <-> In (r_uri x, x) d).
  { intros x. destruct W as [_ K]. split.
    - intros H. apply (Permutation_in _ P) in H. apply in_map_iff in H as ([u x'] & E & H). cbn in E. subst x'.
      now rewrite (K _ _ H).
    - intros H. apply (Permutation_in _ (Permutation_sym P)). now apply (in_map snd) in H. }
  pose proof (cs_iter_sorted d W) as S. unfold capability_info.
  assert (SAME : forall a b, cap_before d a b -> r_capability a = r_capability b -> uri_before a b).
  { intros a b [H|[_ [H|[_ H]]]] E; auto; exfalso; unfold rank, cap_age in H; rewrite E in H; lia. }
  split.
  - intros H. destruct (find_sorted _ _ _ _ S H) as (A & B & M).
    apply I in A. apply cap_eqb_eq in B. repeat split; auto.
    intros r' Hr E. apply I in Hr. destruct (M r' Hr) as [->|Q]; [now apply cap_eqb_eq|auto|].
    right. apply SAME; congruence.
  - intros (A & B & M). destruct (find _ (cs_iter d)) as [x|] eqn:E.
    + destruct (find_sorted _ _ _ _ S E) as (A' & B' & M'). apply cap_eqb_eq in B'.
      apply I in A as A2. destruct (M' r A2) as [->|Q]; [now apply cap_eqb_eq|auto|].
      apply SAME in Q; [|congruence]. apply I in A'.
      destruct (M x A' B') as [->|Q2]; auto. exfalso. unfold uri_before in *.
      apply str_ltb_asym in Q. congruence.
    + exfalso. apply I in A. pose proof (find_none _ _ E r A) as F. cbn in F. rewrite B, cap_eqb_refl in F. easy.
Qed.

Lemma has_capability_spec d name : wf_rl d ->
  has_capability name d = true <-> exists u r, In (u, r) d /\ r_capability r = name.
Proof.
  intros W. unfold has_capability. destruct (capability_info name d) as [r|] eqn:E.
  - split; auto. intros _. apply capability_info_spec in E as (A & B & _); eauto.
  - split; [easy|]. intros (u & r & H & C). exfalso.
    unfold capability_info in E. pose proof (cs_iter_perm d W) as P.
    assert (In r (cs_iter d)) as I.
    { apply (Permutation_in _ (Permutation_sym P)). now apply (in_map snd) in H. }
    pose proof (find_none _ _ E r I) as F. cbn in F. rewrite C, cap_eqb_refl in F. easy.
Qed.

Definition ex_cap (u c : String.string) : str * resource :=
  (lit u, set_capability (Some (lit c)) (new_resource (lit u))).

Lemma unknown_not_alphabetical :
  exists d a b, wf_rl d /\ cs_iter d = [a; b] /\ r_capability a = Some $"zeta" /\ r_capability b = Some $"alpha".
Proof.
  exists [ex_cap "http://x/1" "zeta"; ex_cap "http://x/2" "alpha"], (snd (ex_cap "http://x/1" "zeta")),
    (snd (ex_cap "http://x/2" "alpha")).
  split; [|vm_compute; auto].
  split; cbn; [repeat constructor; cbn; intuition discriminate|].
  intros u r [[= <- <-]|[[= <- <-]|[]]]; reflexivity.
Qed.
