(** * SitemapLists: writing a whole list as text and reading it back *)

From Verif Require Import Py PyFacts Float64 W3C W3CSpec Resource ResourceSpec Container ContainerSpec ContainerFacts
  Xml XmlFacts Sitemap SitemapSpec SitemapFacts SitemapText.
From Coq Require Import Sorting.Sorted Permutation.

Lemma default_capability_written {C} (iter : C -> list resource) name (d : doc C) :
  in_order iter (default_capability (Some name) d) = as_written iter name d.
Proof.
  unfold default_capability, as_written, in_order, smem.
  destruct (sget $"capability" (d_md d)) eqn:E; [reflexivity|]. cbn [d_md d_ln d_items].
  f_equal. apply sset_fresh. now apply sget_none.
Qed.

Lemma as_written_good {C} (iter : C -> list resource) name (d : doc C) : legal name ->
  good_list iter name d -> good_doc (as_written iter name d)
  /\ sget $"capability" (d_md (as_written iter name d)) = Some (PStr name).
Proof.
  intros L [((G & LA) & R) Q]. unfold as_written. destruct (sget $"capability" (d_md d)) eqn:E.
  - destruct Q as [Q|Q]; [discriminate|]. injection Q as ->. cbn [d_md]. split; [split; [split|]; assumption|assumption].
  - assert (N : ~ In $"capability" (map fst (d_md d))) by now apply sget_none.
    rewrite <- (sset_fresh _ _ _ N : sset $"capability" (PStr name) (d_md d) = _). cbn [d_md]. split; [|apply sget_sset_eq].
    split; [|exact R]. clear R. cbn [d_md in_order] in G, LA |- *. destruct G as (ND & O & T & Ch). destruct LA as (K & S). split.
    + split; [now apply NoDup_sset|]. split; [|split].
      * intros k I J. apply in_dkeys_sset in J as [->|J]; [|now apply (O k)].
        revert I. cbn. intuition discriminate.
      * intros k v I. apply in_sset in I as [[-> ->]|I]; [exists name; now left|now apply T].
      * intros c. rewrite sget_sset_ne by discriminate. apply Ch.
    + split.
      * intros k J. apply in_dkeys_sset in J as [->|J]; [cbn; auto|auto].
      * intros k s I. apply in_sset in I as [[-> [= <-]]|I]; [assumption|eapply S; eauto].
Qed.

(** Any kind of list whose iteration, added one after the other to an empty one, gives
    the same iteration. *)
Lemma list_round {C} (iter : C -> list resource) (add : resource -> C -> res C) (empty : C) sm name (d : doc C) :
  legal name -> good_list iter name d ->
  (forall rs', Forall2 (read_back sm) (iter (d_items d)) rs' ->
     exists c, add_seq add rs' empty = Ok c /\ iter c = rs') ->
  exists text d', as_xml iter sm (Some name) false d = Ok text
    /\ list_parse add sm (Some name) (MkDoc [] [] empty) text = Ok d'
    /\ doc_read_back sm (as_written iter name d) (in_order iter d').
Proof.
  intros L G A. destruct (as_written_good iter name d L G) as [G' Q].
  destruct (document_text sm false _ G') as (text & md' & ln' & rs' & W & RB & P & _).
  destruct RB as (RM & RL & RR). cbn [d_md d_ln d_items] in RM, RL, RR.
  destruct (A rs') as (c & A1 & A2); [exact RR|].
  exists text, (MkDoc md' ln' c). split; [|split].
  - unfold as_xml. rewrite <- W, <- default_capability_written. reflexivity.
  - unfold list_parse. rewrite P by auto. rewrite A1. cbn [bind]. unfold check_capability. cbn [d_md].
    destruct (RM $"capability") as [X _]. rewrite Q in X. cbn [present] in X.
    assert (X' : sget $"capability" md' = Some (PStr name)) by (apply X; cbn; auto).
    rewrite X'. cbn [bind d_md]. rewrite X'. unfold pv_eqb. rewrite str_eqb_refl. reflexivity.
  - split; [exact RM|]. split; [exact RL|]. unfold in_order. cbn [d_items]. now rewrite A2.
Qed.

Lemma read_back_uris sm rs rs' : Forall2 (read_back sm) rs rs' -> map r_uri rs' = map r_uri rs.
Proof. induction 1 as [|r r' rs rs' (U & _) _ IH]; cbn; congruence. Qed.

Lemma add_seq_fresh rs : forall d, NoDup (dkeys d ++ map r_uri rs) ->
  add_seq (fun r => rl_add r false) rs d = Ok (d ++ map (fun r => (r_uri r, r)) rs).
Proof.
  induction rs as [|r rs IH]; intros d N; cbn [add_seq map].
  - now rewrite app_nil_r.
  - assert (F : ~ In (r_uri r) (dkeys d)).
    { cbn [map] in N. intros I. apply NoDup_remove_2 in N. apply N. apply in_or_app. now left. }
    rewrite rl_add_fresh by exact F. cbn [bind]. rewrite sset_fresh by exact F.
    rewrite IH.
    + now rewrite <- app_assoc.
    + unfold dkeys in *. rewrite map_app. cbn [map fst] in *. now rewrite <- app_assoc.
Qed.

Lemma StronglySorted_uris rs rs' : map r_uri rs' = map r_uri rs ->
  StronglySorted uri_before rs -> StronglySorted uri_before rs'.
Proof.
  intros E S. revert rs' E. induction S as [|r rs S IH F]; intros [|r' rs'] E; try discriminate; constructor.
  - apply IH. now injection E.
  - injection E as E1 E2. rewrite Forall_forall in *. intros x I.
    assert (J : In (r_uri x) (map r_uri rs)) by (rewrite <- E2; now apply in_map).
    apply in_map_iff in J as (y & J1 & J2). specialize (F y J2). unfold uri_before in *. congruence.
Qed.

Lemma resource_list_round sm (d : doc rdict) :
  wf_rl (d_items d) -> good_list rl_iter $"resourcelist" d ->
  exists text d', as_xml rl_iter sm (Some $"resourcelist") false d = Ok text
    /\ list_parse (fun r => rl_add r false) sm (Some $"resourcelist") (MkDoc [] [] []) text = Ok d'
    /\ doc_read_back sm (as_written rl_iter $"resourcelist" d) (in_order rl_iter d').
Proof.
  intros W G. apply list_round; auto. { intros c I. left. revert c I.
    assert (F : forallb (fun c => N.leb 32 (code c)) $"resourcelist" = true) by reflexivity.
    rewrite forallb_forall in F. intros c I. now apply N.leb_le, F. }
  intros rs' R. apply read_back_uris in R.
  exists (map (fun r => (r_uri r, r)) rs'). split.
  - apply add_seq_fresh. cbn [dkeys map app]. rewrite R, rl_iter_uris by auto. apply sort_strs_NoDup, W.
  - assert (W' : wf_rl (map (fun r => (r_uri r, r)) rs')).
    { split.
      - rewrite map_map. cbn [fst]. change (NoDup (map r_uri rs')). rewrite R, rl_iter_uris by auto. apply sort_strs_NoDup, W.
      - intros u r I. apply in_map_iff in I as (x & [= <- <-] & _). reflexivity. }
    apply uri_sorted_ext.
    + now apply rl_iter_sorted.
    + eapply StronglySorted_uris; [exact R|]. now apply rl_iter_sorted.
    + intros r. pose proof (rl_iter_perm _ W') as P. rewrite map_map in P. cbn [snd] in P. rewrite map_id in P.
      split; intros I; [now apply (Permutation_in _ P)|now apply (Permutation_in _ (Permutation_sym P))].
Qed.

(** ResourceListOrdered keeps the order in which resources were added. *)
Lemma ordered_list_round sm (d : doc rdict) :
  wf_rl (d_items d) -> good_list rlo_iter $"resourcelist" d ->
  exists text d', as_xml rlo_iter sm (Some $"resourcelist") false d = Ok text
    /\ list_parse (fun r => rl_add r false) sm (Some $"resourcelist") (MkDoc [] [] []) text = Ok d'
    /\ doc_read_back sm (as_written rlo_iter $"resourcelist" d) (in_order rlo_iter d').
Proof.
  intros W G. apply list_round; auto. { intros c I. left. revert c I.
    assert (F : forallb (fun c => N.leb 32 (code c)) $"resourcelist" = true) by reflexivity.
    rewrite forallb_forall in F. intros c I. now apply N.leb_le, F. }
  intros rs' R. apply read_back_uris in R.
  exists (map (fun r => (r_uri r, r)) rs'). split.
  - apply add_seq_fresh. cbn [dkeys map app]. rewrite R. destruct W as [N K].
    unfold rlo_iter. rewrite map_map. replace (map _ (d_items d)) with (map fst (d_items d)); [exact N|].
    apply map_ext_in. intros [u r] I. cbn. now rewrite (K u r I).
  - unfold rlo_iter. rewrite map_map. apply map_id.
Qed.

Lemma add_seq_changes rs : (forall r, In r rs -> r_change r <> None) -> forall l,
  add_seq cl_add rs l = Ok (l ++ rs).
Proof.
  induction rs as [|r rs IH]; intros H l; cbn [add_seq].
  - now rewrite app_nil_r.
  - rewrite (proj1 (cl_add_iff r l)) by (apply H; now left). cbn [bind].
    rewrite IH by (intros; apply H; now right). now rewrite <- app_assoc.
Qed.

Lemma change_list_round sm (d : doc (list resource)) :
  Forall (fun r => r_change r <> None) (d_items d) -> good_list (fun l => l) $"changelist" d ->
  exists text d', as_xml (fun l => l) sm (Some $"changelist") false d = Ok text
    /\ list_parse cl_add sm (Some $"changelist") (MkDoc [] [] []) text = Ok d'
    /\ doc_read_back sm (as_written (fun l => l) $"changelist" d) (in_order (fun l => l) d').
Proof.
  intros W G. apply list_round; auto. { intros c I. left. revert c I.
    assert (F : forallb (fun c => N.leb 32 (code c)) $"changelist" = true) by reflexivity.
    rewrite forallb_forall in F. intros c I. now apply N.leb_le, F. }
  intros rs' R. exists rs'. split; [|reflexivity]. apply add_seq_changes.
  clear G. intros r I. induction R as [|a a' l l' RB _ IH]; [contradiction|]. inversion W; subst.
  destruct I as [<-|I]; [|auto]. destruct RB as (_ & _ & _ & _ & _ & _ & _ & _ & E & _). now rewrite E.
Qed.
