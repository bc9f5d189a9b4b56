(** * Proofs about adding lists *)

From Verif Require Import Py PyFacts Resource ResourceFacts Container ContainerSpec Capability CapabilityFacts ListIndex Client Listing ListingSpec.
From Coq Require Import Permutation.

Lemma made_entry u name : make_resource None (entry_args (Some u) name) = Ok (set_capability name (new_resource u)).
Proof. now destruct name. Qed.
Lemma made_none name : make_resource None (entry_args None name) = Err ValueError.
Proof. now destruct name. Qed.
Lemma find_none_rel rel ln : (forall x, In x ln -> sget $"rel" x <> Some (PStr rel)) -> find_link rel ln = None.
Proof.
  intro H. unfold find_link. destruct (find _ ln) as [x|] eqn:E; auto. apply find_some in E as [I R]. apply link_has_rel_iff in R. now destruct (H x I).
Qed.
Lemma described_is g h : description_of g h -> described_by g = Ok (option_map PStr h).
Proof.
  unfold described_by, description_of. destruct h as [h|].
  - intros (l1 & l & l2 & -> & N & R & H). rewrite find_link_app, (find_none_rel _ _ N). unfold find_link. cbn [find].
    now rewrite (proj2 (link_has_rel_iff _ _) R), H.
  - intro H. now rewrite (find_none_rel _ _ H).
Qed.
Lemma rs_add_is r d : rs_add r d = if smem (r_uri r) d then Err ResourceSetDupeError else Ok (d ++ [(r_uri r, r)]).
Proof. unfold rs_add. destruct (smem (r_uri r) d) eqn:E; auto. apply smem_false in E. now rewrite sset_fresh. Qed.
Lemma add_uri_is u d : add_capability_list (AUri u) d =
  if smem u d then Err ResourceSetDupeError else Ok (d ++ [(u, set_capability (Some $"capabilitylist") (new_resource u))]).
Proof. exact (rs_add_is (set_capability (Some $"capabilitylist") (new_resource u)) d). Qed.

Lemma object_added g u h d : g_uri g = Some u -> description_of g h ->
  (In u (map fst d) /\ add_capability_list (AnObject g) d = Err ResourceSetDupeError)
  \/ ~ In u (map fst d) /\ exists r, leads_to u (g_name g) h r /\ add_capability_list (AnObject g) d = Ok (d ++ [(u, r)]).
Proof.
  intros U H. unfold add_capability_list. rewrite U, made_entry. cbn [bind]. rewrite (described_is g h H). cbn [bind].
  assert (X : exists r, leads_to u (g_name g) h r /\
     match option_map PStr h with Some (PStr h) => link_set $"describedby" h false [] (set_capability (Some (g_name g)) (new_resource u))
       | Some PNone | None => Ok (set_capability (Some (g_name g)) (new_resource u)) | Some (PInt _) => Err OutOfModel end = Ok r).
  { destruct h as [h|]; eexists; split; reflexivity. }
  destruct X as (r & L & ->). cbn [bind]. rewrite rs_add_is. assert (r_uri r = u) as -> by now rewrite L.
  destruct (smem u d) eqn:E; [left|right].
  - apply smem_In in E. auto.
  - apply smem_false in E. split; auto. now exists r.
Qed.
Lemma uri_added u d :
  (In u (map fst d) /\ add_capability_list (AUri u) d = Err ResourceSetDupeError)
  \/ ~ In u (map fst d) /\ exists r, leads_to u $"capabilitylist" None r /\ add_capability_list (AUri u) d = Ok (d ++ [(u, r)]).
Proof.
  rewrite add_uri_is. destruct (smem u d) eqn:E; [left|right].
  - apply smem_In in E. auto.
  - apply smem_false in E. split; auto. eexists; split; [|reflexivity]. reflexivity.
Qed.
Lemma no_uri_list g d : g_uri g = None -> add_capability_list (AnObject g) d = Err ValueError.
Proof. intro H. unfold add_capability_list. now rewrite H, made_none. Qed.
Lemma no_list d : add_capability_list NotGiven d = Err ValueError.
Proof. reflexivity. Qed.

(** The URI that goes with a capability: that of the object, or the one given. *)
Lemma capability_added g uri name u d : (g_uri g = Some u \/ g_uri g = None /\ uri = Some u) ->
  (In u (map fst d) /\ add_capability (Some g) uri name d = Err ResourceSetDupeError)
  \/ ~ In u (map fst d) /\ exists r, leads_to u (g_name g) None r /\ add_capability (Some g) uri name d = Ok (d ++ [(u, r)]).
Proof.
  intros H. unfold add_capability. assert ((match g_uri g with Some u => Some u | None => uri end) = Some u) as -> by (destruct H as [-> | [-> ->]]; reflexivity).
  rewrite made_entry. cbn [bind]. rewrite rs_add_is. cbn [r_uri set_capability new_resource]. destruct (smem u d) eqn:E; [left|right].
  - apply smem_In in E. auto.
  - apply smem_false in E. split; auto. eexists; split; [|reflexivity]. reflexivity.
Qed.
Lemma name_added name u d :
  (In u (map fst d) /\ add_capability None (Some u) (Some name) d = Err ResourceSetDupeError)
  \/ ~ In u (map fst d) /\ exists r, leads_to u name None r /\ add_capability None (Some u) (Some name) d = Ok (d ++ [(u, r)]).
Proof.
  unfold add_capability. rewrite made_entry. cbn [bind]. rewrite rs_add_is. cbn [r_uri set_capability new_resource]. destruct (smem u d) eqn:E; [left|right].
  - apply smem_In in E. auto.
  - apply smem_false in E. split; auto. eexists; split; [|reflexivity]. reflexivity.
Qed.
Lemma no_uri_capability g name d : g_uri g = None -> add_capability (Some g) None name d = Err ValueError.
Proof. intro H. unfold add_capability. now rewrite H, made_none. Qed.

(** ** Lists of capabilities that are added one after the other *)

Lemma each_added xs : forall d d', wf_rl d -> add_each (fun x => add_capability (Some x) None None) xs d = Ok d' ->
  wf_rl d' /\ (forall u r, In (u, r) d' <-> In (u, r) d \/ exists x, In x xs /\ g_uri x = Some u /\ leads_to u (g_name x) None r).
Proof.
  induction xs as [|x xs IH]; intros d d' W; cbn [add_each].
  - intros [= <-]. split; auto. intros u r. split; auto. now intros [H|(x & [] & _)].
  - destruct (g_uri x) as [u|] eqn:U; [|rewrite (no_uri_capability x None d U); discriminate].
    destruct (capability_added x None None u d (or_introl U)) as [[I E]|[N (r & L & E)]]; rewrite E; cbn [bind]; [discriminate|].
    intro H. assert (W0 : wf_rl (d ++ [(u, r)])).
    { destruct W as [W1 W2]. split.
      - rewrite map_app. cbn. apply (Permutation_NoDup (Permutation_cons_append _ _)). now constructor.
      - intros v s I. apply in_app_or in I as [I|[[= <- <-]|[]]]; auto. now rewrite L. }
    destruct (IH _ _ W0 H) as [W' M]. split; auto. intros v s. rewrite M, in_app_iff. cbn. split.
    + intros [[I|[[= <- <-]|[]]]|(y & I & Y)]; auto; right; [exists x|exists y]; auto.
    + intros [I|(y & [<-|I] & Y1 & Y2)]; auto; [|right; eauto]. left. right. left. rewrite U in Y1. injection Y1 as ->.
      rewrite L. unfold leads_to in Y2. now rewrite Y2.
Qed.
Lemma found xs d name r : add_each (fun x => add_capability (Some x) None None) xs [] = Ok d ->
  capability_info (Some name) d = Some r <->
  (exists x, In x xs /\ g_name x = name /\ g_uri x = Some (r_uri r) /\ leads_to (r_uri r) name None r
     /\ forall y v, In y xs -> g_name y = name -> g_uri y = Some v -> v = r_uri r \/ str_ltb (r_uri r) v = true).
Proof.
  intro H. destruct (each_added xs [] d) as [W M]; auto; [split; [constructor|easy]|]. rewrite (capability_info_spec d (Some name) r W). split.
  - intros (I & C & F). apply M in I as [[]|(x & Hx & U & L)]. assert (g_name x = name) as N by (rewrite L in C; cbn in C; congruence).
    exists x. rewrite <- N at 2. repeat split; auto. intros y v Hy Ny Uy.
    assert (I' : In (v, set_capability (Some name) (new_resource v)) d).
    { apply M. right. exists y. repeat split; auto. now rewrite Ny. }
    destruct (F (set_capability (Some name) (new_resource v)) I' eq_refl) as [<-|B]; [now left|now right].
  - intros (x & Hx & N & U & L & F). repeat split.
    + apply M. right. exists x. rewrite N. auto.
    + now rewrite L.
    + intros r' I C. apply M in I as [[]|(y & Hy & Uy & Ly)]. assert (Ny : g_name y = name) by (rewrite Ly in C; cbn in C; congruence).
      destruct (F y _ Hy Ny Uy) as [E|B]; [left|now right]. rewrite Ny in Ly. rewrite Ly, L, E. reflexivity.
Qed.
