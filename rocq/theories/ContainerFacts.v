From Verif Require Import Py PyFacts Float64 Float64Facts W3C Resource ResourceSpec ResourceFacts
  Container ContainerSpec.
From Coq Require Import Sorting.Sorted Permutation.

(** ** C11 *)

Lemma wf_nil : wf_rl [].
Proof. split; [constructor|easy]. Qed.

Lemma in_sset {V} k v k' v' (d : list (str * V)) :
  In (k', v') (sset k v d) -> (k' = k /\ v' = v) \/ In (k', v') d.
Proof.
  induction d as [|[x y] d IH]; simpl.
  - intros [[= -> ->]|[]]; auto.
  - destruct (str_eqb_spec k x) as [->|]; simpl; intros [H|H]; auto.
    + injection H as -> ->; auto.
    + apply IH in H as [|]; auto.
Qed.

Lemma wf_sset r d : wf_rl d -> wf_rl (sset (r_uri r) r d).
Proof.
  intros [N K]. split; [now apply NoDup_sset|].
  intros u x H. apply in_sset in H as [[-> ->]|H]; auto.
Qed.

Lemma rl_add_cases r replace d :
  (smem (r_uri r) d = true /\ replace = false /\ rl_add r replace d = Err ResourceListDupeError) \/
  ((smem (r_uri r) d = false \/ replace = true) /\ rl_add r replace d = Ok (sset (r_uri r) r d)).
Proof.
  unfold rl_add. destruct (smem (r_uri r) d), replace; simpl; auto.
Qed.

Lemma spec_add_ok_map r replace d :
  spec_add_ok r replace (map_of d) = negb (smem (r_uri r) d && negb replace).
Proof.
  unfold spec_add_ok, map_of, dmem. destruct (sget (r_uri r) d), replace; reflexivity.
Qed.

Lemma rl_add_all_wf rs replace d : wf_rl d -> wf_rl (fst (rl_add_all rs replace d)).
Proof.
  revert d; induction rs as [|r rs IH]; intros d W; simpl; auto.
  destruct (rl_add_cases r replace d) as [(A & B & ->)|(A & ->)]; auto.
  apply IH. now apply wf_sset.
Qed.

Lemma map_of_sset u r d x : map_of (sset u r d) x = m_put u r (map_of d) x.
Proof. unfold map_of, m_put. apply sget_sset. Qed.

Lemma spec_add_all_ext rs replace m m' :
  (forall u, m u = m' u) -> forall u, spec_add_all rs replace m u = spec_add_all rs replace m' u.
Proof.
  revert m m'; induction rs as [|r rs IH]; intros m m' E u; simpl; auto.
  unfold spec_add_ok. rewrite E.
  destruct (replace || _); auto. apply IH. intros x. unfold m_put. now rewrite E.
Qed.

Lemma rl_add_all_map rs replace d u :
  map_of (fst (rl_add_all rs replace d)) u = spec_add_all rs replace (map_of d) u.
Proof.
  revert d; induction rs as [|r rs IH]; intros d; simpl; auto.
  rewrite spec_add_ok_map. unfold rl_add.
  destruct (smem (r_uri r) d && negb replace); simpl; auto.
  rewrite IH. apply spec_add_all_ext. intros x. apply map_of_sset.
Qed.

Lemma rl_step_is d o : rl_step d o = fst (match o with AddOne r rep => rl_add_all [r] rep d | AddMany rs rep => rl_add_all rs rep d end).
Proof. destruct o; simpl; auto. destruct (rl_add r replace d); auto. Qed.

Lemma rl_run_wf ops : wf_rl (rl_run ops).
Proof.
  unfold rl_run. cut (forall d, wf_rl d -> wf_rl (fold_left rl_step ops d)).
  { intros H; apply H, wf_nil. }
  induction ops as [|o ops IH]; intros d W; simpl; auto.
  apply IH. rewrite rl_step_is. destruct o; now apply rl_add_all_wf.
Qed.

Lemma spec_step_ext o m m' :
  (forall u, m u = m' u) -> forall u, spec_step m o u = spec_step m' o u.
Proof. destruct o; unfold spec_step; intros; now apply spec_add_all_ext. Qed.

Lemma spec_run_ext ops : forall m m',
  (forall u, m u = m' u) -> forall u, fold_left spec_step ops m u = fold_left spec_step ops m' u.
Proof.
  induction ops as [|o ops IH]; intros m m' E u; cbn [fold_left]; auto.
  apply IH. now apply spec_step_ext.
Qed.

Lemma rl_run_map ops u : map_of (rl_run ops) u = fold_left spec_step ops m_empty u.
Proof.
  unfold rl_run. change m_empty with (map_of []).
  generalize (@nil (str * resource)) as d.
  induction ops as [|o ops IH]; intros d; cbn [fold_left]; auto.
  rewrite IH. apply spec_run_ext. intros x. rewrite rl_step_is.
  destruct o; apply rl_add_all_map.
Qed.

Lemma add_present r d :
  In (r_uri r) (map fst d) -> rl_add r false d = Err ResourceListDupeError.
Proof.
  intros H. unfold rl_add. apply smem_In in H. now rewrite H.
Qed.
Lemma add_effect r replace d :
  (~ In (r_uri r) (map fst d) \/ replace = true) ->
  exists d', rl_add r replace d = Ok d' /\ map_of d' (r_uri r) = Some r /\
             forall u, u <> r_uri r -> map_of d' u = map_of d u.
Proof.
  intros H. exists (sset (r_uri r) r d). split.
  - unfold rl_add. destruct H as [H| ->]; [|now rewrite andb_false_r].
    apply smem_false in H. now rewrite H.
  - split; [apply sget_sset_eq|intros; now apply sget_sset_ne].
Qed.

(** ** C12 *)

Lemma sget_wf d u r : wf_rl d -> sget u d = Some r -> r_uri r = u.
Proof. intros [_ K] H. apply K. now apply sget_in. Qed.

Lemma lookups_uris ks d :
  wf_rl d -> (forall k, In k ks -> In k (dkeys d)) -> map r_uri (lookups ks d) = ks.
Proof.
  intros W. induction ks as [|k ks IH]; intros H; simpl; auto.
  assert (In k (dkeys d)) as I by (apply H; left; auto).
  apply sget_some_key in I as [r E]. rewrite E. simpl. f_equal.
  - eapply sget_wf; eauto.
  - apply IH. intros; apply H; right; auto.
Qed.

Lemma in_lookups r ks d : In r (lookups ks d) <-> exists k, In k ks /\ sget k d = Some r.
Proof.
  induction ks as [|k ks IH]; simpl; [split; [easy|intros (k & [] & _)]|].
  destruct (sget k d) eqn:E; simpl; rewrite IH; split.
  - intros [<-|(k' & A & B)]; eauto.
  - intros (k' & [<-|A] & B); [left; congruence|right; eauto].
  - intros (k' & A & B); eauto.
  - intros (k' & [<-|A] & B); [congruence|eauto].
Qed.

Lemma in_rl_iter r d : In r (rl_iter d) <-> exists k, sget k d = Some r.
Proof.
  unfold rl_iter. rewrite in_lookups. split; intros (k & H).
  - exists k; tauto.
  - exists k. split; auto. apply sort_strs_In. apply sget_some_key; eauto.
Qed.

Lemma rl_iter_uris d : wf_rl d -> map r_uri (rl_iter d) = sort_strs (dkeys d).
Proof. intros W. apply lookups_uris; auto. intros k. now rewrite sort_strs_In. Qed.

Lemma StronglySorted_map {A B} (f : A -> B) (R : B -> B -> Prop) l :
  StronglySorted R (map f l) -> StronglySorted (fun x y => R (f x) (f y)) l.
Proof.
  induction l; simpl; intros S; inversion S; subst; constructor; auto.
  rewrite Forall_map in H2. auto.
Qed.

Lemma rl_iter_sorted d : wf_rl d -> StronglySorted uri_before (rl_iter d).
Proof.
  intros W. apply (StronglySorted_map r_uri str_lt).
  rewrite rl_iter_uris by auto. apply sort_strs_strict. apply W.
Qed.

Lemma NoDup_map_inv' {A B} (f : A -> B) l : NoDup (map f l) -> NoDup l.
Proof. apply NoDup_map_inv. Qed.

Lemma rl_iter_perm d : wf_rl d -> Permutation (rl_iter d) (map snd d).
Proof.
  intros W. destruct (W) as [ND K]. apply NoDup_Permutation.
  - apply (NoDup_map_inv r_uri). rewrite rl_iter_uris by auto. now apply sort_strs_NoDup.
  - apply (NoDup_map_inv r_uri). rewrite map_map.
    replace (map (fun x : str * resource => r_uri (snd x)) d) with (map fst d); auto.
    apply map_ext_in. intros [u r] H. simpl. symmetry. now apply K.
  - intros r. rewrite in_rl_iter, in_map_iff. split.
    + intros [k H]. exists (k, r). split; auto. now apply sget_in.
    + intros ([k x] & E & H). simpl in E. subst x. exists k. now apply in_sget.
Qed.

Lemma uri_sorted_ext l1 l2 :
  StronglySorted uri_before l1 -> StronglySorted uri_before l2 ->
  (forall r, In r l1 <-> In r l2) -> l1 = l2.
Proof.
  intros S1; revert l2; induction S1 as [|a l1 S1 IH F1]; intros l2 S2 E.
  - destruct l2 as [|b l2]; auto. exfalso; apply (E b); left; auto.
  - destruct S2 as [|b l2 S2 F2]; [exfalso; apply (E a); left; auto|].
    rewrite Forall_forall in F1, F2. unfold uri_before in *.
    assert (a = b).
    { destruct (proj1 (E a)) as [|Ha]; [left; auto|auto|].
      destruct (proj2 (E b)) as [|Hb]; [left; auto|auto|].
      apply F1 in Hb. apply F2 in Ha. apply str_ltb_asym in Hb. congruence. }
    subst b. f_equal. apply IH; auto. intros x. split; intros H.
    + destruct (proj1 (E x)) as [|]; [right; auto| |auto]. subst x.
      apply F1 in H. rewrite str_ltb_irrefl in H. easy.
    + destruct (proj2 (E x)) as [|]; [right; auto| |auto]. subst x.
      apply F2 in H. rewrite str_ltb_irrefl in H. easy.
Qed.

Lemma rl_iter_canonical d1 d2 :
  wf_rl d1 -> wf_rl d2 -> (forall u, map_of d1 u = map_of d2 u) -> rl_iter d1 = rl_iter d2.
Proof.
  intros W1 W2 E. apply uri_sorted_ext; auto using rl_iter_sorted.
  intros r. rewrite !in_rl_iter. unfold map_of in E.
  split; intros [k H]; exists k; congruence.
Qed.

Lemma ordered_iter_insertion rs d :
  NoDup (map fst d ++ map r_uri rs) ->
  exists d', rl_add_all rs false d = (d', None) /\ rlo_iter d' = map snd d ++ rs.
Proof.
  revert d; induction rs as [|r rs IH]; intros d ND; simpl.
  - exists d. split; auto. now rewrite app_nil_r.
  - assert (N : ~ In (r_uri r) (dkeys d)).
    { simpl in ND. apply NoDup_remove_2 in ND. unfold dkeys. intros H; apply ND.
      rewrite in_app_iff; auto. }
    unfold rl_add. pose proof N as N'. apply smem_false in N'. rewrite N'. simpl.
    rewrite sset_fresh by auto.
    destruct (IH (d ++ [(r_uri r, r)])) as (d' & E & I).
    + rewrite map_app. simpl. rewrite <- app_assoc. auto.
    + exists d'. split; auto. rewrite I, map_app. simpl. now rewrite <- app_assoc.
Qed.

(** ** C13 *)

Definition keys_ge (ks : list str) (b : option str) : Prop := True.

(** One [add] to an accumulator with a fresh key. *)
Lemma rl_add_fresh r d : ~ In (r_uri r) (dkeys d) -> rl_add r false d = Ok (sset (r_uri r) r d).
Proof. intros H. unfold rl_add. apply smem_false in H. now rewrite H. Qed.

(** Pure merge of two sorted lists of resources. *)
Fixpoint merge (fuel : nat) (ds ss : list resource) (c : cmp_result) : res cmp_result :=
  match ds, ss with
  | [], [] => Ok c
  | _, _ =>
  match fuel with
  | O => Err OutOfModel
  | S f =>
    match ds, ss with
    | d :: ds', s :: ss' =>
        if str_eqb (r_uri d) (r_uri s) then
          let* c := if r_eqb d s then add_same d c else add_updated s c in merge f ds' ss' c
        else if str_ltb (r_uri d) (r_uri s) then
          let* c := add_deleted d c in merge f ds' ss c
        else let* c := add_created s c in merge f ds ss' c
    | d :: ds', [] => let* c := add_deleted d c in merge f ds' [] c
    | [], s :: ss' => let* c := add_created s c in merge f [] ss' c
    | [], [] => Ok c
    end
  end
  end.

Definition cur_list (cur : option resource) (ks : list str) (d : rdict) : list resource :=
  match cur with Some r => r :: lookups ks d | None => [] end.

Lemma next_iter_spec o d p :
  (forall k, In k (p o) -> In k (dkeys d)) ->
  exists cur p', next_iter o d p = (cur, p') /\
    lookups (p o) d = cur_list cur (p' o) d /\
    (forall k, In k (p' o) -> In k (dkeys d)) /\
    (forall o', o' <> o -> p' o' = p o') /\
    (cur = None -> p' o = []).
Proof.
  intros H. unfold next_iter. destruct (p o) as [|k ks] eqn:E.
  - exists None, p. rewrite E. repeat split; auto.
  - assert (In k (dkeys d)) as I by (apply H; left; auto).
    apply sget_some_key in I as [r G].
    exists (Some r), (pend_set o ks p). rewrite G. split; auto.
    unfold pend_set. rewrite Nat.eqb_refl. simpl. rewrite G. repeat split; auto.
    + intros k' Hk. apply H; right; auto.
    + intros o' Ho. apply Nat.eqb_neq in Ho. now rewrite Ho.
    + easy.
Qed.

Lemma cmp_loop_merge fuel od os dd ds : od <> os ->
  forall p dcur scur c,
  (forall k, In k (p od) -> In k (dkeys dd)) ->
  (forall k, In k (p os) -> In k (dkeys ds)) ->
  cmp_loop fuel od os dd ds p dcur scur c =
  merge fuel (cur_list dcur (p od) dd) (cur_list scur (p os) ds) c.
Proof.
  intros NE. induction fuel as [|f IH]; intros p dcur scur c Pd Ps;
    destruct dcur as [d|], scur as [s|]; cbn [cmp_loop merge cur_list]; auto.
  - destruct (str_eqb (r_uri d) (r_uri s)); [|destruct (str_ltb (r_uri d) (r_uri s))].
    + destruct (if r_eqb d s then add_same d c else add_updated s c) as [c'|]; cbn [bind]; auto.
      destruct (next_iter_spec od dd p Pd) as (dc & p1 & -> & L1 & K1 & O1 & _).
      assert (Ps1 : forall k, In k (p1 os) -> In k (dkeys ds)) by (rewrite O1 by auto; auto).
      destruct (next_iter_spec os ds p1 Ps1) as (sc & p2 & -> & L2 & K2 & O2 & _).
      rewrite IH; auto; [|rewrite O2 by auto; auto].
      rewrite (O2 od) by auto. rewrite <- L1. rewrite <- L2. rewrite O1 by auto. reflexivity.
    + destruct (add_deleted d c) as [c'|]; cbn [bind]; auto.
      destruct (next_iter_spec od dd p Pd) as (dc & p1 & -> & L1 & K1 & O1 & _).
      rewrite IH; auto; [|rewrite O1 by auto; auto].
      rewrite <- L1. rewrite O1 by auto. reflexivity.
    + destruct (add_created s c) as [c'|]; cbn [bind]; auto.
      destruct (next_iter_spec os ds p Ps) as (sc & p2 & -> & L2 & K2 & O2 & _).
      rewrite IH; auto; [|rewrite O2 by auto; auto].
      rewrite <- L2. rewrite (O2 od) by auto. reflexivity.
  - destruct (add_deleted d c) as [c'|]; cbn [bind]; auto.
    destruct (next_iter_spec od dd p Pd) as (dc & p1 & -> & L1 & K1 & O1 & _).
    rewrite IH; auto; [|rewrite O1 by auto; auto].
    rewrite <- L1. reflexivity.
  - destruct (add_created s c) as [c'|]; cbn [bind]; auto.
    destruct (next_iter_spec os ds p Ps) as (sc & p2 & -> & L2 & K2 & O2 & _).
    rewrite IH; auto; [|rewrite O2 by auto; auto].
    rewrite <- L2. reflexivity.
Qed.

Lemma length_lookups ks d : (List.length (lookups ks d) <= List.length ks)%nat.
Proof. induction ks; simpl; auto. destruct (sget a d); simpl; lia. Qed.

Lemma compare_merge od os dst src : od <> os ->
  compare od os dst src =
  merge (S (List.length dst + List.length src)) (rl_iter dst) (rl_iter src) cmp_empty.
Proof.
  intros NE. unfold compare, rl_iter, start_iter.
  set (kd := sort_strs (dkeys dst)). set (ks := sort_strs (dkeys src)).
  set (p0 := pend_set os ks (pend_set od kd pend_none)).
  assert (P0 : p0 od = kd).
  { unfold p0, pend_set. apply Nat.eqb_neq in NE as N1. rewrite N1, Nat.eqb_refl. auto. }
  assert (P1 : p0 os = ks) by (unfold p0, pend_set; rewrite Nat.eqb_refl; auto).
  destruct (next_iter_spec od dst p0) as (dc & p1 & -> & L1 & K1 & O1 & _).
  { rewrite P0. intros k. unfold kd. now rewrite sort_strs_In. }
  destruct (next_iter_spec os src p1) as (sc & p2 & -> & L2 & K2 & O2 & _).
  { rewrite O1 by auto. rewrite P1. intros k. unfold ks. now rewrite sort_strs_In. }
  rewrite cmp_loop_merge; auto; [|rewrite O2 by auto; auto].
  rewrite (O2 od) by auto. rewrite <- L1, <- L2, O1 by auto. now rewrite P0, P1.
Qed.

(** Lookup by URI in a list of resources. *)
Definition look (u : str) (l : list resource) : option resource :=
  find (fun r => str_eqb (r_uri r) u) l.

Lemma look_cons u r l : look u (r :: l) = if str_eqb (r_uri r) u then Some r else look u l.
Proof. reflexivity. Qed.
Lemma look_none u l : look u l = None <-> ~ In u (map r_uri l).
Proof.
  induction l as [|r l IH]; [cbn; tauto|]. rewrite look_cons. cbn [map In].
  destruct (str_eqb_spec (r_uri r) u); [split; [easy|tauto]|rewrite IH; tauto].
Qed.

Lemma look_iter d u : wf_rl d -> look u (rl_iter d) = sget u d.
Proof.
  intros W. unfold rl_iter.
  assert (forall ks, (forall k, In k ks -> In k (dkeys d)) ->
            look u (lookups ks d) = if in_strs u ks then sget u d else None) as G.
  { induction ks as [|k ks IH]; intros H; auto.
    assert (In k (dkeys d)) as I by (apply H; left; auto).
    apply sget_some_key in I as [r E]. simpl lookups. rewrite E, look_cons.
    rewrite (sget_wf _ _ _ W E). unfold in_strs. cbn [existsb].
    destruct (str_eqb_spec k u) as [->|N].
    - rewrite str_eqb_refl. simpl. auto.
    - rewrite (proj2 (str_eqb_neq u k)) by auto. simpl. apply IH. intros; apply H; right; auto. }
  rewrite G by (intros k; now rewrite sort_strs_In).
  destruct (in_strs u (sort_strs (dkeys d))) eqn:E; auto.
  apply in_strs_false in E. rewrite sort_strs_In in E. symmetry. now apply sget_none.
Qed.

Definition usorted := StronglySorted uri_before.

Lemma usorted_lt r l u : usorted (r :: l) -> In u (map r_uri l) -> str_ltb (r_uri r) u = true.
Proof.
  intros S H. inversion S; subst. rewrite Forall_forall in H3.
  apply in_map_iff in H as (x & <- & H). now apply H3.
Qed.

(** Overlay: a dictionary extended by a map. *)
Definition overlay (d : rdict) (m : rmap) : rmap :=
  fun u => match m u with Some r => Some r | None => sget u d end.

Definition disjoint (d : rdict) (l : list resource) : Prop :=
  forall u, In u (dkeys d) -> ~ In u (map r_uri l).

Lemma sset_key_in u k (r : resource) d : In u (dkeys (sset k r d)) <-> u = k \/ In u (dkeys d).
Proof. apply in_dkeys_sset. Qed.

Definition lk (l : list resource) : rmap := fun u => look u l.

Lemma merge_spec fuel : forall ds ss c,
  usorted ds -> usorted ss -> (List.length ds + List.length ss <= fuel)%nat ->
  wf_rl (same c) -> wf_rl (updated c) -> wf_rl (deleted c) -> wf_rl (created c) ->
  disjoint (same c) (ds ++ ss) -> disjoint (updated c) (ds ++ ss) ->
  disjoint (deleted c) (ds ++ ss) -> disjoint (created c) (ds ++ ss) ->
  exists c', merge fuel ds ss c = Ok c' /\
    wf_rl (same c') /\ wf_rl (updated c') /\ wf_rl (deleted c') /\ wf_rl (created c') /\
    forall u,
      sget u (same c') = overlay (same c) (spec_same (lk ds) (lk ss)) u /\
      sget u (updated c') = overlay (updated c) (spec_updated (lk ds) (lk ss)) u /\
      sget u (deleted c') = overlay (deleted c) (spec_deleted (lk ds) (lk ss)) u /\
      sget u (created c') = overlay (created c) (spec_created (lk ds) (lk ss)) u.
Proof.
  induction fuel as [|f IH]; intros ds ss c Sd Ss F W1 W2 W3 W4 D1 D2 D3 D4.
  - destruct ds, ss; simpl in F; try lia. exists c. simpl. repeat (split; auto).
  - destruct ds as [|d ds], ss as [|s ss]; cbn [merge].
    + exists c. repeat (split; auto).
    + (* created *)
      unfold add_created. rewrite rl_add_fresh.
      2:{ intros H. apply (D4 _ H). simpl; auto. }
      cbn [bind].
      destruct (IH [] ss (MkCmp (same c) (updated c) (deleted c) (sset (r_uri s) s (created c))))
        as (c' & E & V1 & V2 & V3 & V4 & R); cbn [same updated deleted created]; auto.
      * now inversion Ss.
      * simpl in *; lia.
      * now apply wf_sset.
      * intros u H K; apply (D1 u H). simpl in *; auto.
      * intros u H K; apply (D2 u H). simpl in *; auto.
      * intros u H K; apply (D3 u H). simpl in *; auto.
      * intros u H K. apply sset_key_in in H as [->|H].
        -- pose proof (usorted_lt _ _ _ Ss K). rewrite str_ltb_irrefl in H. easy.
        -- apply (D4 u H). simpl in *; auto.
      * exists c'. split; [exact E|]. do 4 (split; [assumption|]). intros u. destruct (R u) as (R1 & R2 & R3 & R4).
        cbn [same updated deleted created] in *.
        rewrite R1, R2, R3, R4. repeat split.
        unfold overlay, spec_created, lk. cbn [look find]. rewrite sget_sset.
        fold (look u ss). rewrite (str_eqb_sym (r_uri s) u).
        destruct (str_eqb_spec u (r_uri s)) as [->|N].
        -- destruct (look (r_uri s) ss) eqn:L; auto.
           exfalso. assert (In (r_uri s) (map r_uri ss)) as I.
           { destruct (in_dec str_eq_dec (r_uri s) (map r_uri ss)); auto.
             apply look_none in n. congruence. }
           pose proof (usorted_lt _ _ _ Ss I). rewrite str_ltb_irrefl in H. easy.
        -- reflexivity.
    + (* deleted *)
      unfold add_deleted. rewrite rl_add_fresh.
      2:{ intros H. apply (D3 _ H). simpl; auto. }
      cbn [bind].
      destruct (IH ds [] (MkCmp (same c) (updated c) (sset (r_uri d) d (deleted c)) (created c)))
        as (c' & E & V1 & V2 & V3 & V4 & R); cbn [same updated deleted created]; auto.
      * now inversion Sd.
      * simpl in *; lia.
      * now apply wf_sset.
      * intros u H K; apply (D1 u H). simpl in *; auto.
      * intros u H K; apply (D2 u H). simpl in *; auto.
      * intros u H K. apply sset_key_in in H as [->|H].
        -- rewrite app_nil_r in K. pose proof (usorted_lt _ _ _ Sd K). rewrite str_ltb_irrefl in H. easy.
        -- apply (D3 u H). simpl in *; auto.
      * intros u H K; apply (D4 u H). simpl in *; auto.
      * exists c'. split; [exact E|]. do 4 (split; [assumption|]). intros u. destruct (R u) as (R1 & R2 & R3 & R4).
        cbn [same updated deleted created] in *.
        rewrite R1, R2, R3, R4.
        unfold overlay, spec_same, spec_updated, spec_deleted, spec_created, lk.
        cbn [look find]. fold (look u ds).
        repeat split; try (destruct (str_eqb (r_uri d) u), (look u ds); reflexivity).
        rewrite sget_sset, (str_eqb_sym (r_uri d) u).
        destruct (str_eqb_spec u (r_uri d)) as [->|N].
        -- destruct (look (r_uri d) ds) eqn:L; auto.
           exfalso. assert (In (r_uri d) (map r_uri ds)) as I.
           { destruct (in_dec str_eq_dec (r_uri d) (map r_uri ds)); auto.
             apply look_none in n. congruence. }
           pose proof (usorted_lt _ _ _ Sd I). rewrite str_ltb_irrefl in H. easy.
        -- destruct (look u ds); reflexivity.
    + assert (Ld : look (r_uri d) ds = None).
      { apply look_none. intros I. pose proof (usorted_lt _ _ _ Sd I) as H.
        rewrite str_ltb_irrefl in H. easy. }
      assert (Ls : look (r_uri s) ss = None).
      { apply look_none. intros I. pose proof (usorted_lt _ _ _ Ss I) as H.
        rewrite str_ltb_irrefl in H. easy. }
      destruct (str_eqb_spec (r_uri d) (r_uri s)) as [EQ|NEQ].
      * assert (Sd' : usorted ds) by now inversion Sd.
        assert (Ss' : usorted ss) by now inversion Ss.
        assert (G : forall c0, (exists c1, c0 = c1 /\
              wf_rl (same c0) /\ wf_rl (updated c0) /\ deleted c0 = deleted c /\ created c0 = created c /\
              (if r_eqb d s then same c0 = sset (r_uri d) d (same c) /\ updated c0 = updated c
               else same c0 = same c /\ updated c0 = sset (r_uri s) s (updated c))) ->
            exists c', merge f ds ss c0 = Ok c' /\
    wf_rl (same c') /\ wf_rl (updated c') /\ wf_rl (deleted c') /\ wf_rl (created c') /\
    forall u,
      sget u (same c') = overlay (same c) (spec_same (lk (d :: ds)) (lk (s :: ss))) u /\
      sget u (updated c') = overlay (updated c) (spec_updated (lk (d :: ds)) (lk (s :: ss))) u /\
      sget u (deleted c') = overlay (deleted c) (spec_deleted (lk (d :: ds)) (lk (s :: ss))) u /\
      sget u (created c') = overlay (created c) (spec_created (lk (d :: ds)) (lk (s :: ss))) u).
        { intros c0 (c1 & _ & X1 & X2 & X3 & X4 & X5).
          assert (T : forall u, In u (map r_uri (ds ++ ss)) -> u <> r_uri d).
          { intros u Hu ->. rewrite map_app, in_app_iff in Hu. destruct Hu as [Hu|Hu].
            - pose proof (usorted_lt _ _ _ Sd Hu) as H. rewrite str_ltb_irrefl in H. easy.
            - rewrite EQ in Hu. pose proof (usorted_lt _ _ _ Ss Hu) as H.
              rewrite str_ltb_irrefl in H. easy. }
          assert (T' : forall u, In u (map r_uri (ds ++ ss)) -> In u (map r_uri ((d :: ds) ++ s :: ss))).
          { intros u. rewrite !map_app, !in_app_iff. simpl. tauto. }
          destruct (IH ds ss c0) as (c' & E & V1 & V2 & V3 & V4 & R); auto.
          - simpl in F; lia.
          - congruence.
          - congruence.
          - intros u H K. destruct (r_eqb d s); destruct X5 as [X5 X6]; rewrite X5 in H.
            + apply sset_key_in in H as [->|H]; [now apply (T (r_uri d))|]. apply (D1 u H); auto.
            + apply (D1 u H); auto.
          - intros u H K. destruct (r_eqb d s); destruct X5 as [X5 X6]; rewrite X6 in H.
            + apply (D2 u H); auto.
            + apply sset_key_in in H as [->|H].
              * apply (T (r_uri s)); auto.
              * apply (D2 u H); auto.
          - rewrite X3. intros u H K. apply (D3 u H); auto.
          - rewrite X4. intros u H K. apply (D4 u H); auto.
          - exists c'. repeat (split; auto).
            all: destruct (R u) as (R1 & R2 & R3 & R4); rewrite ?R1, ?R2, ?R3, ?R4.
            all: unfold overlay, spec_same, spec_updated, spec_deleted, spec_created, lk;
                 rewrite !look_cons; rewrite <- EQ in *;
                 destruct (str_eqb_spec (r_uri d) u) as [<-|N]; rewrite ?Ld, ?Ls, ?X3, ?X4;
                 destruct (r_eqb d s) eqn:Q; destruct X5 as [X5 X6]; rewrite ?X5, ?X6;
                 rewrite ?sget_sset_eq; auto; rewrite ?sget_sset_ne by auto; auto. }
        destruct (r_eqb d s) eqn:Q.
        -- unfold add_same. rewrite rl_add_fresh by (intros H; apply (D1 _ H); simpl; auto).
           cbn [bind]. apply G. eexists. cbn [same updated deleted created].
           repeat (split; auto). now apply wf_sset. apply wf_sset; auto.
        -- unfold add_updated. rewrite rl_add_fresh.
           2:{ intros H. rewrite <- EQ in H. apply (D2 _ H). simpl; auto. }
           cbn [bind]. apply G. eexists. cbn [same updated deleted created].
           repeat (split; auto). now apply wf_sset. apply wf_sset; auto.
      * destruct (str_ltb (r_uri d) (r_uri s)) eqn:LT.
        -- assert (Lds : look (r_uri d) (s :: ss) = None).
           { apply look_none. simpl. intros [I|I]; [congruence|].
             pose proof (usorted_lt _ _ _ Ss I) as H. apply str_ltb_asym in H. congruence. }
           unfold add_deleted. rewrite rl_add_fresh by (intros H; apply (D3 _ H); simpl; auto).
           cbn [bind].
           assert (T : forall u, In u (map r_uri (ds ++ s :: ss)) -> u <> r_uri d).
           { intros u Hu ->. rewrite map_app, in_app_iff in Hu. destruct Hu as [Hu|Hu].
             - apply look_none in Ld; auto.
             - apply look_none in Lds; auto. }
           destruct (IH ds (s :: ss) (MkCmp (same c) (updated c) (sset (r_uri d) d (deleted c)) (created c)))
             as (c' & E & V1 & V2 & V3 & V4 & R); cbn [same updated deleted created]; auto.
           ++ now inversion Sd.
           ++ simpl in *; lia.
           ++ now apply wf_sset.
           ++ intros u H K; apply (D1 u H). simpl; auto.
           ++ intros u H K; apply (D2 u H). simpl; auto.
           ++ intros u H K. apply sset_key_in in H as [->|H]; [now apply (T (r_uri d))|].
              apply (D3 u H). simpl; auto.
           ++ intros u H K; apply (D4 u H). simpl; auto.
           ++ exists c'. split; auto. repeat (split; auto).
              all: destruct (R u) as (R1 & R2 & R3 & R4); rewrite ?R1, ?R2, ?R3, ?R4;
                cbn [same updated deleted created];
                unfold overlay, spec_same, spec_updated, spec_deleted, spec_created, lk;
                rewrite (look_cons u d ds);
                destruct (str_eqb_spec (r_uri d) u) as [<-|N]; rewrite ?Ld, ?Lds, ?sget_sset_eq; auto.
              rewrite sget_sset_ne by auto. auto.
        -- assert (GT : str_ltb (r_uri s) (r_uri d) = true).
           { destruct (str_ltb_total (r_uri d) (r_uri s)) as [|[|]]; auto; congruence. }
           assert (Lsd : look (r_uri s) (d :: ds) = None).
           { apply look_none. simpl. intros [I|I]; [congruence|].
             pose proof (usorted_lt _ _ _ Sd I) as H. apply str_ltb_asym in H. congruence. }
           unfold add_created. rewrite rl_add_fresh.
           2:{ intros H; apply (D4 _ H). rewrite map_app, in_app_iff. simpl; auto. }
           cbn [bind].
           assert (T : forall u, In u (map r_uri ((d :: ds) ++ ss)) -> u <> r_uri s).
           { intros u Hu ->. rewrite map_app, in_app_iff in Hu. destruct Hu as [Hu|Hu].
             - apply look_none in Lsd; auto.
             - apply look_none in Ls; auto. }
           assert (T' : forall u, In u (map r_uri ((d :: ds) ++ ss)) -> In u (map r_uri ((d :: ds) ++ s :: ss))).
           { intros u. rewrite !map_app, !in_app_iff. simpl. tauto. }
           destruct (IH (d :: ds) ss (MkCmp (same c) (updated c) (deleted c) (sset (r_uri s) s (created c))))
             as (c' & E & V1 & V2 & V3 & V4 & R); cbn [same updated deleted created]; auto.
           ++ now inversion Ss.
           ++ simpl in *; lia.
           ++ now apply wf_sset.
           ++ intros u H K; apply (D1 u H); auto.
           ++ intros u H K; apply (D2 u H); auto.
           ++ intros u H K; apply (D3 u H); auto.
           ++ intros u H K. apply sset_key_in in H as [->|H]; [now apply (T (r_uri s))|].
              apply (D4 u H); auto.
           ++ exists c'. split; auto. repeat (split; auto).
              all: destruct (R u) as (R1 & R2 & R3 & R4); rewrite ?R1, ?R2, ?R3, ?R4;
                cbn [same updated deleted created];
                unfold overlay, spec_same, spec_updated, spec_deleted, spec_created, lk;
                rewrite (look_cons u s ss);
                destruct (str_eqb_spec (r_uri s) u) as [<-|N]; rewrite ?Ls, ?Lsd, ?sget_sset_eq; auto.
              rewrite sget_sset_ne by auto. auto.
Qed.

Lemma length_rl_iter d : wf_rl d -> List.length (rl_iter d) = List.length d.
Proof.
  intros W. rewrite (Permutation_length (rl_iter_perm d W)). apply map_length.
Qed.

Lemma compare_spec od os dst src :
  od <> os -> wf_rl dst -> wf_rl src ->
  exists c, compare od os dst src = Ok c /\
    wf_rl (same c) /\ wf_rl (updated c) /\ wf_rl (deleted c) /\ wf_rl (created c) /\
    forall u,
      map_of (same c) u = spec_same (map_of dst) (map_of src) u /\
      map_of (updated c) u = spec_updated (map_of dst) (map_of src) u /\
      map_of (deleted c) u = spec_deleted (map_of dst) (map_of src) u /\
      map_of (created c) u = spec_created (map_of dst) (map_of src) u.
Proof.
  intros NE Wd Ws. rewrite compare_merge by auto.
  destruct (merge_spec (S (List.length dst + List.length src)) (rl_iter dst) (rl_iter src) cmp_empty)
    as (c & E & V1 & V2 & V3 & V4 & R); try (apply wf_nil); try (intros u []; fail);
    try (now apply rl_iter_sorted).
  - rewrite !length_rl_iter by auto. lia.
  - exists c. repeat (split; auto).
    all: destruct (R u) as (R1 & R2 & R3 & R4).
    all: unfold map_of; rewrite ?R1, ?R2, ?R3, ?R4;
      unfold overlay, spec_same, spec_updated, spec_deleted, spec_created, lk, cmp_empty;
      rewrite !look_iter by auto; cbn [same updated deleted created];
      destruct (sget u dst), (sget u src); try destruct (r_eqb _ _); reflexivity.
Qed.

(** ** C14 *)

Lemma compare_equal_content od os d :
  od <> os -> wf_rl d ->
  exists c, compare od os d d = Ok c /\
    (forall u, map_of (same c) u = map_of d u) /\ updated c = [] /\ deleted c = [] /\ created c = [].
Proof.
  intros NE W. destruct (compare_spec od os d d NE W W) as (c & E & V1 & V2 & V3 & V4 & R).
  exists c. split; auto.
  assert (N : forall (d0 : rdict), (forall u, map_of d0 u = None) -> d0 = []).
  { intros [|[k r] d0] H; auto. specialize (H k). unfold map_of in H. simpl in H.
    rewrite str_eqb_refl in H. easy. }
  split; [|split; [|split]]; try apply N; intros u; destruct (R u) as (R1 & R2 & R3 & R4);
    rewrite ?R1, ?R2, ?R3, ?R4; unfold spec_same, spec_updated, spec_deleted, spec_created;
    destruct (map_of d u); rewrite ?r_eqb_refl; reflexivity.
Qed.

Lemma bind_ok' {A B} (x : res A) (f : A -> res B) b :
  bind x f = Ok b -> exists a, x = Ok a /\ f a = Ok b.
Proof. apply bind_ok. Qed.

Lemma cmp_loop_self fuel o d : wf_rl d -> forall p dcur scur c c',
  NoDup (p o) ->
  (forall k, In k (p o) -> In k (dkeys d)) ->
  (forall x, dcur = Some x -> ~ In (r_uri x) (p o)) ->
  (forall x, scur = Some x -> ~ In (r_uri x) (p o)) ->
  (forall x y, dcur = Some x -> scur = Some y -> r_uri x <> r_uri y) ->
  cmp_loop fuel o o d d p dcur scur c = Ok c' ->
  same c' = same c /\ updated c' = updated c.
Proof.
  intros W.
  assert (NX : forall p cur p', NoDup (p o) -> (forall k, In k (p o) -> In k (dkeys d)) ->
     next_iter o d p = (cur, p') ->
     NoDup (p' o) /\ (forall k, In k (p' o) -> In k (p o)) /\
     (forall x, cur = Some x -> ~ In (r_uri x) (p' o) /\ In (r_uri x) (p o))).
  { intros p cur p' ND K. unfold next_iter. destruct (p o) as [|k ks] eqn:E.
    - intros [= <- <-]. rewrite E. repeat split; auto; easy.
    - intros [= <- <-]. unfold pend_set. rewrite Nat.eqb_refl. inversion ND; subst.
      split; auto. split; [intros; right; auto|].
      intros x Hx. pose proof (sget_wf _ _ _ W Hx) as ->. split; auto. left; auto. }
  induction fuel as [|f IH]; intros p dcur scur c c' ND K Hd Hs Hne.
  - destruct dcur, scur; simpl; try easy. intros [= ->]; auto.
  - destruct dcur as [x|], scur as [y|]; cbn [cmp_loop].
    + rewrite (proj2 (str_eqb_neq (r_uri x) (r_uri y))) by auto.
      destruct (str_ltb (r_uri x) (r_uri y)).
      * intros H. apply bind_ok in H as (c1 & A & H).
        destruct (next_iter o d p) as [cur p'] eqn:E.
        destruct (NX _ _ _ ND K E) as (N1 & N2 & N3).
        apply IH in H; auto.
        -- unfold add_deleted in A. apply bind_ok in A as (l & _ & [= <-]). auto.
        -- intros z Hz. now apply N3.
        -- intros z [= <-] I. apply (Hs y); auto.
        -- intros z w Hz [= <-] EQ. apply (Hs y eq_refl). rewrite <- EQ. now apply N3.
      * intros H. apply bind_ok in H as (c1 & A & H).
        destruct (next_iter o d p) as [cur p'] eqn:E.
        destruct (NX _ _ _ ND K E) as (N1 & N2 & N3).
        apply IH in H; auto.
        -- unfold add_created in A. apply bind_ok in A as (l & _ & [= <-]). auto.
        -- intros z [= <-] I. apply (Hd x); auto.
        -- intros z Hz. now apply N3.
        -- intros z w [= <-] Hw EQ. apply (Hd x eq_refl). rewrite EQ. now apply N3.
    + intros H. apply bind_ok in H as (c1 & A & H).
      destruct (next_iter o d p) as [cur p'] eqn:E.
      destruct (NX _ _ _ ND K E) as (N1 & N2 & N3).
      apply IH in H; auto; try easy.
      * unfold add_deleted in A. apply bind_ok in A as (l & _ & [= <-]). auto.
      * intros z Hz. now apply N3.
    + intros H. apply bind_ok in H as (c1 & A & H).
      destruct (next_iter o d p) as [cur p'] eqn:E.
      destruct (NX _ _ _ ND K E) as (N1 & N2 & N3).
      apply IH in H; auto; try easy.
      * unfold add_created in A. apply bind_ok in A as (l & _ & [= <-]). auto.
      * intros z Hz. now apply N3.
    + intros [= ->]; auto.
Qed.

Lemma compare_self_finds_nothing_same o d c :
  wf_rl d -> compare o o d d = Ok c -> same c = [] /\ updated c = [].
Proof.
  intros W. unfold compare, start_iter.
  set (p0 := pend_set o (sort_strs (dkeys d)) _).
  assert (P0 : p0 o = sort_strs (dkeys d)) by (unfold p0, pend_set; rewrite Nat.eqb_refl; auto).
  assert (ND : NoDup (p0 o)) by (rewrite P0; apply sort_strs_NoDup, W).
  assert (K : forall k, In k (p0 o) -> In k (dkeys d)) by (rewrite P0; intros k; now rewrite sort_strs_In).
  clearbody p0. clear P0. unfold next_iter. destruct (p0 o) as [|k1 ks] eqn:E.
  - rewrite E. cbn [cmp_loop]. intros [= <-]. auto.
  - unfold pend_set at 1 4. rewrite Nat.eqb_refl.
    inversion ND as [|? ? N1 ND1]; subst.
    destruct ks as [|k2 ks].
    + intros H. apply cmp_loop_self in H; auto; unfold pend_set; rewrite ?Nat.eqb_refl; auto; try easy.
    + inversion ND1 as [|? ? N2 ND2]; subst.
      intros H. apply cmp_loop_self in H; auto; unfold pend_set; rewrite ?Nat.eqb_refl; auto; try easy.
      * intros k Hk; apply K; right; right; auto.
      * intros x Hx. pose proof (sget_wf _ _ _ W Hx) as ->. simpl in N1; tauto.
      * intros x Hx. pose proof (sget_wf _ _ _ W Hx) as ->. auto.
      * intros x y Hx Hy. rewrite (sget_wf _ _ _ W Hx), (sget_wf _ _ _ W Hy).
        intros ->. apply N1; left; auto.
Qed.

(** ** C15 *)

Lemma make_with_change r c :
  valid_change (Some c) -> make_resource (Some r) (change_args (Some c)) = Ok (store_change (Some c) r).
Proof.
  intros V. unfold make_resource. cbn [change_args a_uri a_timestamp a_length a_md5 a_sha1 a_sha256
    a_mime_type a_change a_ts_datetime a_path a_ts_at a_ts_completed a_ts_from a_ts_until a_capability
    a_ln a_lastmod a_datetime a_md_at a_md_completed a_md_from a_md_until override override_res].
  rewrite set_change_total by auto. reflexivity.
Qed.

Lemma cl_add_changed_ok rs c l :
  valid_change (Some c) ->
  cl_add_changed rs (Some c) l = (l ++ map (store_change (Some c)) rs, None).
Proof.
  intros V. revert l; induction rs as [|r rs IH]; intros l; cbn [cl_add_changed map].
  - now rewrite app_nil_r.
  - rewrite make_with_change by auto. cbn [bind cl_add store_change r_change].
    rewrite IH, <- app_assoc. reflexivity.
Qed.

Lemma valid_updated : valid_change (Some $"updated"). Proof. right; right; left; auto. Qed.
Lemma valid_deleted : valid_change (Some $"deleted"). Proof. right; right; right; auto. Qed.
Lemma valid_created : valid_change (Some $"created"). Proof. right; left; auto. Qed.

Lemma replay_app a b m : replay (a ++ b) m = replay b (replay a m).
Proof. unfold replay. apply fold_left_app. Qed.

Lemma replay_deleted_list rs m u :
  replay (map (store_change (Some $"deleted")) rs) m u =
  if in_strs u (map r_uri rs) then None else m u.
Proof.
  revert m; induction rs as [|r rs IH]; intros m; auto.
  cbn [map]. change (replay (?a :: ?l) m) with (replay l (apply_change m a)).
  rewrite IH. unfold in_strs. cbn [existsb]. 
  unfold apply_change. cbn [r_change store_change r_uri].
  change (opt_eqb str_eqb (Some $"deleted") (Some $"deleted")) with true. cbn match.
  unfold m_del. destruct (existsb (str_eqb u) (map r_uri rs)).
  - now rewrite orb_true_r.
  - rewrite orb_false_r. destruct (str_eqb u (r_uri r)); reflexivity.
Qed.

Lemma replay_put_list c rs m u :
  opt_eqb str_eqb (Some c) (Some $"deleted") = false -> NoDup (map r_uri rs) ->
  replay (map (store_change (Some c)) rs) m u =
  match look u rs with Some r => Some (store_change (Some c) r) | None => m u end.
Proof.
  intros Hc. revert m; induction rs as [|r rs IH]; intros m ND; auto.
  cbn [map]. change (replay (?a :: ?l) m) with (replay l (apply_change m a)).
  inversion ND; subst. rewrite IH by auto. rewrite look_cons.
  unfold apply_change. cbn [r_change store_change r_uri]. rewrite Hc.
  unfold m_put. rewrite (str_eqb_sym u).
  destruct (str_eqb_spec (r_uri r) u) as [<-|N].
  - replace (look (r_uri r) rs) with (@None resource); auto.
    symmetry. now apply look_none.
  - destruct (look u rs); auto.
Qed.

Lemma rl_iter_NoDup d : wf_rl d -> NoDup (map r_uri (rl_iter d)).
Proof. intros W. rewrite rl_iter_uris by auto. apply sort_strs_NoDup, W. Qed.

Lemma in_uris_iter d u : wf_rl d -> in_strs u (map r_uri (rl_iter d)) = match sget u d with Some _ => true | None => false end.
Proof.
  intros W. rewrite rl_iter_uris by auto.
  destruct (sget u d) eqn:E.
  - apply in_strs_In. rewrite sort_strs_In. apply sget_some_key; eauto.
  - apply in_strs_false. rewrite sort_strs_In. now apply sget_none.
Qed.

Lemma change_list_transforms od os old new :
  od <> os -> wf_rl old -> wf_rl new ->
  exists l, change_list_between od os old new = Ok l /\
  forall u,
    match map_of old u, map_of new u with
    | _, None => replay l (map_of old) u = None
    | None, Some s => replay l (map_of old) u = Some (store_change (Some $"created") s)
    | Some d, Some s =>
        replay l (map_of old) u =
        if r_eqb d s then Some d else Some (store_change (Some $"updated") s)
    end.
Proof.
  intros NE Wo Wn. destruct (compare_spec od os old new NE Wo Wn) as (c & E & V1 & V2 & V3 & V4 & R).
  unfold change_list_between. rewrite E. cbn [bind].
  rewrite !cl_add_changed_ok by (apply valid_updated || apply valid_deleted || apply valid_created).
  eexists. split; [reflexivity|]. intros u. cbn [app].
  rewrite !replay_app.
  rewrite replay_put_list by (reflexivity || now apply rl_iter_NoDup).
  rewrite replay_deleted_list, in_uris_iter by auto.
  rewrite replay_put_list by (reflexivity || now apply rl_iter_NoDup).
  rewrite !look_iter by auto.
  destruct (R u) as (R1 & R2 & R3 & R4). unfold map_of in R1, R2, R3, R4 |- *.
  rewrite R2, R3, R4. unfold spec_updated, spec_deleted, spec_created.
  destruct (sget u old) as [d|] eqn:Ed, (sget u new) as [s|] eqn:Es; auto.
  destruct (r_eqb d s); auto.
Qed.

(** ** C16, C17 *)

(** Keep the last entry for each URI, in order. *)
Fixpoint keep_last (rs : list resource) : list resource :=
  match rs with
  | [] => []
  | r :: rs' => if in_strs (r_uri r) (map r_uri rs') then keep_last rs' else r :: keep_last rs'
  end.

Definition first_change (u : str) (rs : list resource) : option (option str) :=
  option_map r_change (first_entry u rs).

Lemma last_entry_cons u r t :
  last_entry u (r :: t) =
  match last_entry u t with Some l => Some l | None => if str_eqb (r_uri r) u then Some r else None end.
Proof.
  unfold last_entry, entries_for. cbn [filter].
  destruct (str_eqb (r_uri r) u); cbn [rev].
  - destruct (rev (filter _ t)); reflexivity.
  - destruct (hd_error _); reflexivity.
Qed.
Lemma last_entry_none u t : last_entry u t = None <-> ~ In u (map r_uri t).
Proof.
  induction t as [|r t IH]; [cbn; tauto|]. rewrite last_entry_cons. cbn [map In].
  destruct (last_entry u t) eqn:E.
  - split; [easy|]. intros H. exfalso. apply H. right.
    destruct (in_dec str_eq_dec u (map r_uri t)); auto. apply IH in n. easy.
  - destruct (str_eqb_spec (r_uri r) u); [split; [easy|tauto]|]. tauto.
Qed.

(** The state of the first loop after the entries [t] at the end of the list. *)
Lemma prune1_spec pre t n :
  forall pruned seen deletes,
  pruned = rev (keep_last t) ->
  (forall u, In u seen <-> In u (map r_uri t)) ->
  (forall u, sget u deletes =
     match last_entry u t with
     | Some l => if opt_eqb str_eqb (r_change l) (Some $"deleted") then first_change u t else None
     | None => None
     end) ->
  exists deletes' ,
  prune1 (rev pre) pruned seen deletes n =
    (rev (keep_last (pre ++ t)), deletes',
     n + (Z.of_nat (List.length pre) - (Z.of_nat (List.length (keep_last (pre ++ t))) - Z.of_nat (List.length (keep_last t))))) /\
  (forall u, sget u deletes' =
     match last_entry u (pre ++ t) with
     | Some l => if opt_eqb str_eqb (r_change l) (Some $"deleted") then first_change u (pre ++ t) else None
     | None => None
     end).
Proof.
  revert t n. induction pre as [|r pre IH] using rev_ind; intros t n pruned seen deletes HP HS HD.
  - exists deletes. simpl. rewrite HP. split; auto. f_equal; lia.
  - rewrite rev_app_distr. cbn [rev app prune1].
    assert (EA : (pre ++ [r]) ++ t = pre ++ r :: t) by (rewrite <- app_assoc; auto).
    rewrite EA.
    pose proof (fun u => last_entry_cons u r t) as LE.
    assert (FE : forall u, first_change u (r :: t) =
       if str_eqb (r_uri r) u then Some (r_change r) else first_change u t).
    { intros u. unfold first_change, first_entry, entries_for. cbn [filter].
      destruct (str_eqb (r_uri r) u); reflexivity. }
    pose proof (fun u => last_entry_none u t) as LN.
    destruct (in_strs (r_uri r) seen) eqn:S.
    + apply in_strs_In in S. apply HS in S. pose proof S as S'. apply in_strs_In in S'.
      edestruct (IH (r :: t) (n + 1)) as (deletes' & E & Q); [ | | |rewrite E].
      4:{ exists deletes'. split; auto. f_equal.
          rewrite app_length. cbn [List.length keep_last]. rewrite S'. lia. }
      * cbn [keep_last]. rewrite S'. exact HP.
      * intros u. rewrite HS. cbn [map In]. split; auto. intros [<-|]; auto.
      * intros u. rewrite LE, FE.
        destruct (last_entry (r_uri r) t) as [l|] eqn:L.
        2:{ apply LN in L. tauto. }
        assert (M : smem (r_uri r) deletes = opt_eqb str_eqb (r_change l) (Some $"deleted")).
        { unfold dmem. rewrite HD, L. destruct (opt_eqb str_eqb (r_change l) (Some $"deleted")); auto.
          unfold first_change, first_entry.
          destruct (entries_for (r_uri r) t) eqn:EE; auto.
          unfold last_entry in L. rewrite EE in L. easy. }
        rewrite M.
        destruct (str_eqb_spec (r_uri r) u) as [<-|NE].
        -- specialize (HD (r_uri r)). rewrite L in *.
           destruct (opt_eqb str_eqb (r_change l) (Some $"deleted")).
           ++ apply sget_sset_eq.
           ++ exact HD.
        -- destruct (opt_eqb str_eqb (r_change l) (Some $"deleted")); rewrite ?sget_sset_ne by auto;
             rewrite HD; destruct (last_entry u t); auto.
    + apply in_strs_false in S. rewrite HS in S. pose proof S as S'. apply in_strs_false in S'.
      pose proof S as L. apply LN in L.
      edestruct (IH (r :: t) n) as (deletes' & E & Q); [ | | |rewrite E].
      4:{ exists deletes'. split; auto. f_equal.
          rewrite app_length. cbn [List.length keep_last]. rewrite S'. cbn [List.length]. lia. }
      * cbn [keep_last]. rewrite S'. cbn [rev]. now rewrite HP.
      * intros u. cbn [map In]. rewrite HS. reflexivity.
      * intros u. rewrite LE, FE.
        destruct (str_eqb_spec (r_uri r) u) as [<-|NE].
        -- rewrite L. destruct (opt_eqb str_eqb (r_change r) (Some $"deleted")) eqn:X.
           ++ apply sget_sset_eq.
           ++ rewrite HD, L. reflexivity.
        -- destruct (opt_eqb str_eqb (r_change r) (Some $"deleted")); rewrite ?sget_sset_ne by auto;
             rewrite HD; destruct (last_entry u t); auto.
Qed.

Lemma prune2_spec rs deletes n :
  let keepb := fun r => negb (opt_eqb (opt_eqb str_eqb) (sget (r_uri r) deletes) (Some (Some $"created"))) in
  prune2 rs deletes n =
  (filter keepb rs, n + Z.of_nat (List.length rs - List.length (filter keepb rs))).
Proof.
  intros keepb. revert n; induction rs as [|r rs IH]; intros n; cbn [prune2 filter].
  - simpl. f_equal; lia.
  - assert (LF : (List.length (filter keepb rs) <= List.length rs)%nat).
    { clear. induction rs; simpl; auto. destruct (keepb a); simpl; lia. }
    destruct (keepb r) eqn:B; unfold keepb in B;
      destruct (sget (r_uri r) deletes) as [c|]; cbn [opt_eqb] in B; try discriminate B.
    + apply negb_true_iff in B. rewrite B, IH. f_equal.
    + rewrite IH. f_equal.
    + apply negb_false_iff in B. rewrite B, IH. f_equal. cbn [List.length]. lia.
Qed.

(** Declarative description of the survivors. *)
Definition survives (rs : list resource) (r : resource) : bool :=
  negb (opt_eqb str_eqb (r_change r) (Some $"deleted") &&
        opt_eqb (opt_eqb str_eqb) (first_change (r_uri r) rs) (Some (Some $"created"))).

Lemma keep_last_uris rs u : In u (map r_uri (keep_last rs)) <-> In u (map r_uri rs).
Proof.
  induction rs as [|r rs IH]; cbn [keep_last map]; [tauto|].
  destruct (in_strs (r_uri r) (map r_uri rs)) eqn:E.
  - rewrite IH. apply in_strs_In in E. cbn [In]. split; auto. intros [<-|]; auto.
  - cbn [map In]. rewrite IH. tauto.
Qed.
Lemma keep_last_NoDup rs : NoDup (map r_uri (keep_last rs)).
Proof.
  induction rs as [|r rs IH]; cbn [keep_last map]; [constructor|].
  destruct (in_strs (r_uri r) (map r_uri rs)) eqn:E; auto.
  cbn [map]. constructor; auto. rewrite keep_last_uris. now apply in_strs_false.
Qed.
Lemma in_keep_last r rs : In r (keep_last rs) <-> last_entry (r_uri r) rs = Some r.
Proof.
  induction rs as [|x rs IH]; [cbn; easy|]. rewrite last_entry_cons. cbn [keep_last].
  destruct (in_strs (r_uri x) (map r_uri rs)) eqn:E.
  - apply in_strs_In in E. rewrite IH. destruct (last_entry (r_uri r) rs) eqn:L; [tauto|].
    split; [easy|]. apply last_entry_none in L. destruct (str_eqb_spec (r_uri x) (r_uri r)) as [Q|]; [|easy].
    rewrite Q in E. tauto.
  - apply in_strs_false in E. cbn [In]. rewrite IH.
    destruct (last_entry (r_uri r) rs) eqn:L.
    + split; auto. intros [<-|]; auto. exfalso. apply last_entry_none in E. congruence.
    + destruct (str_eqb_spec (r_uri x) (r_uri r)) as [Q|N].
      * split; [|intros [= <-]; auto]. intros [->|]; [auto|easy].
      * split; [|easy]. intros [->|]; [congruence|easy].
Qed.

Lemma filter_ext_in' {A} (f g : A -> bool) l :
  (forall a, In a l -> f a = g a) -> filter f l = filter g l.
Proof.
  induction l as [|x l IH]; intros H; cbn [filter]; auto.
  rewrite (H x) by (left; auto). rewrite IH by (intros; apply H; right; auto). auto.
Qed.

Lemma prune_dupes_eq rs :
  prune_dupes rs =
  (filter (survives rs) (keep_last rs),
   Z.of_nat (List.length rs) - Z.of_nat (List.length (filter (survives rs) (keep_last rs)))).
Proof.
  unfold prune_dupes.
  destruct (prune1_spec rs [] 0 [] [] []) as (deletes & E & Q); auto; try easy.
  rewrite app_nil_r in *. rewrite E. rewrite rev_involutive, prune2_spec.
  assert (F : filter (fun r => negb (opt_eqb (opt_eqb str_eqb) (sget (r_uri r) deletes) (Some (Some $"created"))))
                (keep_last rs) = filter (survives rs) (keep_last rs)).
  { apply filter_ext_in'. intros r Hr. apply in_keep_last in Hr. rewrite Q, Hr.
    unfold survives. destruct (opt_eqb str_eqb (r_change r) (Some $"deleted")); reflexivity. }
  rewrite F. f_equal. cbn [keep_last List.length].
  assert (LF : (List.length (filter (survives rs) (keep_last rs)) <= List.length (keep_last rs))%nat).
  { generalize (keep_last rs). intros l. induction l; simpl; auto. destruct (survives rs a); simpl; lia. }
  lia.
Qed.

Lemma came_and_went_iff rs r :
  last_entry (r_uri r) rs = Some r ->
  (survives rs r = false <-> came_and_went (r_uri r) rs).
Proof.
  intros L. unfold survives, came_and_went, first_change.
  rewrite negb_false_iff, andb_true_iff.
  assert (O : forall a b : option str, opt_eqb str_eqb a b = true <-> a = b).
  { intros [a|] [b|]; cbn; try easy. rewrite str_eqb_eq. split; congruence. }
  rewrite O.
  destruct (first_entry (r_uri r) rs) as [f|]; cbn [option_map opt_eqb].
  - rewrite O. split.
    + intros [A B]. exists f, r. auto.
    + intros (f' & l & [= <-] & E & A & B). rewrite L in E. injection E as <-. auto.
  - split; [easy|]. intros (f' & l & E & _). easy.
Qed.

Lemma filter_subseq {A} (f : A -> bool) l : subseq (filter f l) l.
Proof. induction l; cbn; [constructor|]. destruct (f a); [apply sub_keep|apply sub_skip]; auto. Qed.
Lemma keep_last_subseq rs : subseq (keep_last rs) rs.
Proof. induction rs; cbn; [constructor|]. destruct (in_strs _ _); [apply sub_skip|apply sub_keep]; auto. Qed.
Lemma subseq_trans {A} (a b c : list A) : subseq a b -> subseq b c -> subseq a c.
Proof.
  intros H K; revert a H; induction K; intros a' H; auto.
  - apply sub_skip; auto.
  - inversion H; subst; [apply sub_skip|apply sub_keep]; auto.
Qed.
Lemma NoDup_filter_map {A B} (g : A -> B) f l : NoDup (map g l) -> NoDup (map g (filter f l)).
Proof.
  induction l; cbn; auto. intros H; inversion H; subst. destruct (f a); auto. cbn. constructor; auto.
  intros I. apply H2. apply in_map_iff in I as (x & E & I). apply filter_In in I as [I _].
  rewrite <- E. now apply in_map.
Qed.

Lemma prune_dupes_spec rs rs' n :
  prune_dupes rs = (rs', n) ->
  NoDup (map r_uri rs') /\
  subseq rs' rs /\
  (forall r, In r rs' <-> last_entry (r_uri r) rs = Some r /\ ~ came_and_went (r_uri r) rs) /\
  n = Z.of_nat (List.length rs) - Z.of_nat (List.length rs').
Proof.
  rewrite prune_dupes_eq. intros [= <- <-]. split; [|split; [|split]].
  - apply NoDup_filter_map, keep_last_NoDup.
  - eapply subseq_trans; [apply filter_subseq|apply keep_last_subseq].
  - intros r. rewrite filter_In, in_keep_last. split; intros [A B]; split; auto.
    + rewrite <- came_and_went_iff by auto. congruence.
    + rewrite <- came_and_went_iff in B by auto. destruct (survives rs r); congruence.
  - reflexivity.
Qed.

(** Replaying depends only on the last entry for each URI. *)
Lemma replay_last rs : forall m u,
  replay rs m u =
  match last_entry u rs with
  | Some r => if opt_eqb str_eqb (r_change r) (Some $"deleted") then None else Some r
  | None => m u
  end.
Proof.
  induction rs as [|r rs IH]; intros m u; auto.
  change (replay (r :: rs) m) with (replay rs (apply_change m r)).
  rewrite IH, last_entry_cons. destruct (last_entry u rs); auto.
  unfold apply_change, m_del, m_put. rewrite (str_eqb_sym (r_uri r) u).
  destruct (opt_eqb str_eqb (r_change r) (Some $"deleted")) eqn:X, (str_eqb u (r_uri r)); rewrite ?X; auto.
Qed.

Lemma in_last_entry_uri u rs r : last_entry u rs = Some r -> r_uri r = u /\ In r rs.
Proof.
  unfold last_entry, entries_for. intros H.
  assert (In r (rev (filter (fun r => str_eqb (r_uri r) u) rs))) as I.
  { destruct (rev _); [easy|]. injection H as ->. left; auto. }
  rewrite <- in_rev in I. apply filter_In in I as [I J]. apply str_eqb_eq in J. auto.
Qed.

Lemma last_entry_unique u rs r :
  NoDup (map r_uri rs) -> In r rs -> r_uri r = u -> last_entry u rs = Some r.
Proof.
  intros ND I <-. apply in_keep_last.
  assert (keep_last rs = rs) as ->; auto.
  clear I. induction rs as [|x rs IH]; auto. cbn [keep_last]. inversion ND; subst.
  rewrite (proj2 (in_strs_false _ _)) by auto. rewrite IH; auto.
Qed.

Lemma prune_preserves_effect rs rs' n m :
  prune_dupes rs = (rs', n) ->
  (forall u f, first_entry u rs = Some f -> r_change f = Some $"created" -> m u = None) ->
  forall u, replay rs' m u = replay rs m u.
Proof.
  intros P H u. destruct (prune_dupes_spec _ _ _ P) as (ND & _ & MEM & _).
  rewrite !replay_last.
  destruct (last_entry u rs) as [r|] eqn:L.
  - destruct (in_last_entry_uri _ _ _ L) as [U I].
    destruct (last_entry u rs') as [r'|] eqn:L'.
    + destruct (in_last_entry_uri _ _ _ L') as [U' I'].
      apply MEM in I' as [A _]. rewrite U' in A. assert (r' = r) as -> by congruence. reflexivity.
    + assert (C : ~ ~ came_and_went u rs).
      { intros NC. apply last_entry_none in L'. apply L'. rewrite <- U. apply in_map.
        apply MEM. rewrite U. auto. }
      assert (survives rs r = false) as S.
      { destruct (survives rs r) eqn:S; auto. exfalso. apply C. intros CW.
        rewrite <- U in CW. rewrite <- came_and_went_iff in CW by (rewrite U; auto). congruence. }
      rewrite came_and_went_iff in S by (rewrite U; auto). rewrite U in S.
      destruct S as (f & l & F1 & F2 & F3 & F4).
      rewrite (H u f F1 F3). rewrite L in F2. injection F2 as <-. rewrite F4. reflexivity.
  - destruct (last_entry u rs') as [r'|] eqn:L'; auto.
    destruct (in_last_entry_uri _ _ _ L') as [U' I']. apply MEM in I' as [A _].
    rewrite U' in A. congruence.
Qed.

(** ** C18 *)

Lemma prune_before_loop_ok use t rs :
  (forall r, In r rs -> change_time use r <> None) ->
  let kept := filter (fun r => match change_time use r with Some x => t <=? x | None => false end) rs in
  prune_before_loop use t rs = Ok (kept, Z.of_nat (List.length rs) - Z.of_nat (List.length kept)).
Proof.
  cbv zeta. induction rs as [|r rs IH]; intros H; auto.
  cbn [prune_before_loop filter]. fold (change_time use r).
  assert (change_time use r <> None) as N by (apply H; left; auto).
  destruct (change_time use r) as [x|] eqn:E; [|easy].
  rewrite IH by (intros; apply H; right; auto). cbn [bind].
  destruct (t <=? x); cbn [List.length]; do 2 f_equal; lia.
Qed.

Lemma prune_before_loop_err use t rs :
  (exists r, In r rs /\ change_time use r = None) ->
  prune_before_loop use t rs = Err PlainException.
Proof.
  induction rs as [|r rs IH]; intros (x & I & N); [easy|].
  cbn [prune_before_loop]. fold (change_time use r).
  destruct (change_time use r) eqn:E; auto.
  destruct I as [->|I]; [congruence|]. rewrite IH by eauto. reflexivity.
Qed.

Lemma prune_updates_before_ok use t rs :
  (forall r, In r rs -> change_time use r <> None) ->
  exists kept,
  prune_updates_before use t rs =
    (kept, Ok (Z.of_nat (List.length rs) - Z.of_nat (List.length kept))) /\
  subseq kept rs /\
  kept = filter (fun r => match change_time use r with Some x => t <=? x | None => false end) rs.
Proof.
  intros H. eexists. split; [|split; [apply filter_subseq|reflexivity]].
  unfold prune_updates_before. now rewrite prune_before_loop_ok.
Qed.
Lemma prune_updates_before_err use t rs :
  (exists r, In r rs /\ change_time use r = None) ->
  prune_updates_before use t rs = (rs, Err PlainException).
Proof. intros H. unfold prune_updates_before. now rewrite prune_before_loop_err. Qed.

Lemma one_per_uri ops u r1 r2 :
  In (u, r1) (rl_run ops) -> In (u, r2) (rl_run ops) -> r1 = r2 /\ r_uri r1 = u.
Proof.
  intros A B. destruct (rl_run_wf ops) as [ND K]. split; [|now apply K].
  apply in_sget in A, B; auto. congruence.
Qed.

Lemma self_compare_witness :
  exists d c, wf_rl d /\ compare 0 0 d d = Ok c /\ same c = [] /\
              (exists r, map_of d $"a" = Some r /\ map_of (deleted c) $"a" = Some r).
Proof.
  exists [($"a", new_resource $"a")].
  eexists. split; [|split; [vm_compute; reflexivity|split; [reflexivity|eexists; split; vm_compute; reflexivity]]].
  split.
  - cbn. constructor; [easy|constructor].
  - intros u r [[= <- <-]|[]]. reflexivity.
Qed.

Lemma change_list_uris od os old new l :
  od <> os -> wf_rl old -> wf_rl new -> change_list_between od os old new = Ok l ->
  forall u, (replay l (map_of old) u = None <-> map_of new u = None).
Proof.
  intros NE Wo Wn E u. destruct (change_list_transforms od os old new NE Wo Wn) as (l' & E' & H).
  rewrite E in E'. injection E' as <-. specialize (H u).
  destruct (map_of old u), (map_of new u); rewrite H; try easy.
  destruct (r_eqb _ _); easy.
Qed.

Lemma prune_effect_example :
  let e u n c := store_change c (set_length (Some n) (new_resource u)) in
  let rs := [e $"a" 1 (Some $"created"); e $"b" 2 (Some $"updated"); e $"a" 3 (Some $"deleted")] in
  let m := m_put $"b" (e $"b" 0 None) m_empty in
  fst (prune_dupes rs) = [e $"b" 2 (Some $"updated")] /\
  (forall u f, first_entry u rs = Some f -> r_change f = Some $"created" -> m u = None).
Proof.
  cbv zeta. split; [reflexivity|]. intros u f.
  unfold first_entry, entries_for. cbn [filter r_uri store_change set_length new_resource].
  destruct (str_eqb_spec $"a" u) as [<-|].
  - intros _ _. reflexivity.
  - destruct (str_eqb_spec $"b" u) as [<-|]; cbn; [|easy].
    intros [= <-]. cbn. intros [=].
Qed.

(** ** C70: histories of a change list *)

Definition all_changed (l : list resource) : Prop := forall r, In r l -> r_change r <> None.
Lemma all_changed_app a b : all_changed a -> all_changed b -> all_changed (a ++ b).
Proof. intros A B r I. apply in_app_iff in I as [I|I]; auto. Qed.

Lemma cl_add_iff r l :
  (r_change r <> None -> cl_add r l = Ok (l ++ [r])) /\
  (r_change r = None -> cl_add r l = Err ChangeTypeError).
Proof. unfold cl_add. destruct (r_change r); split; congruence. Qed.

Lemma changed_prefix_all rs : all_changed (changed_prefix rs).
Proof.
  induction rs as [|r rs IH]; [intros ? []|]. cbn [changed_prefix].
  destruct (r_change r) eqn:E; [|intros ? []]. intros x [<-|I]; [congruence|auto].
Qed.
Lemma cl_add_all_prefix rs : forall l,
  cl_add_all rs l = (l ++ changed_prefix rs,
    if forallb (fun r => match r_change r with Some _ => true | None => false end) rs
    then None else Some ChangeTypeError).
Proof.
  induction rs as [|r rs IH]; intros l; cbn [cl_add_all changed_prefix forallb]; [now rewrite app_nil_r|].
  unfold cl_add. destruct (r_change r); cbn [andb]; [|now rewrite app_nil_r].
  rewrite IH, <- app_assoc. reflexivity.
Qed.
Lemma cl_add_all_spec rs l :
  fst (cl_add_all rs l) = l ++ changed_prefix rs /\
  (snd (cl_add_all rs l) = None <-> all_changed rs) /\
  (snd (cl_add_all rs l) = None \/ snd (cl_add_all rs l) = Some ChangeTypeError).
Proof.
  rewrite cl_add_all_prefix. cbn [fst snd]. split; auto.
  destruct (forallb _ rs) eqn:E; split; auto; split; auto; try discriminate.
  - intros _ r I. rewrite forallb_forall in E. apply E in I. destruct (r_change r); easy.
  - intros H. exfalso. revert E. apply not_false_iff_true. apply forallb_forall. intros r I. apply H in I.
    now destruct (r_change r).
Qed.

Lemma cl_add_changed_all rs c : forall l, all_changed l -> all_changed (fst (cl_add_changed rs c l)).
Proof.
  induction rs as [|r rs IH]; intros l H; cbn [cl_add_changed fst]; auto.
  destruct (make_resource _ _) as [rc|e]; cbn [bind]; auto.
  unfold cl_add. destruct (r_change rc) eqn:E; auto. apply IH. apply all_changed_app; auto.
  intros x [<-|[]]. congruence.
Qed.

Lemma subseq_In {A} (a b : list A) : subseq a b -> forall x, In x a -> In x b.
Proof. induction 1; cbn; intuition. Qed.

Lemma cl_step_all l o : all_changed l -> all_changed (cl_step l o).
Proof.
  intros H. destruct o as [r|rs|rs c| |b t]; cbn [cl_step].
  - unfold cl_add. destruct (r_change r) eqn:E; auto. apply all_changed_app; auto. intros x [<-|[]]. congruence.
  - rewrite cl_add_all_prefix. apply all_changed_app; auto. apply changed_prefix_all.
  - now apply cl_add_changed_all.
  - destruct (prune_dupes l) as [l' n] eqn:E. apply prune_dupes_spec in E as (_ & S & _).
    intros r I. apply H. eapply subseq_In; eauto.
  - destruct (existsb (fun r => match change_time b r with None => true | _ => false end) l) eqn:E.
    + apply existsb_exists in E as (r & I & E). rewrite prune_updates_before_err; auto.
      exists r. split; auto. now destruct (change_time b r).
    + destruct (prune_updates_before_ok b t l) as (kept & -> & S & _).
      * intros r I N. enough (existsb (fun r => match change_time b r with None => true | _ => false end) l = true) by congruence.
        apply existsb_exists. exists r. now rewrite N.
      * intros r I. apply H. eapply subseq_In; eauto.
Qed.
Lemma cl_run_all ops r : In r (cl_run ops) -> r_change r <> None.
Proof.
  revert r. change (all_changed (cl_run ops)). unfold cl_run.
  assert (H : all_changed []) by (intros ? []). revert H. generalize (@nil resource).
  induction ops as [|o ops IH]; intros l H; cbn [fold_left]; auto. apply IH. now apply cl_step_all.
Qed.
