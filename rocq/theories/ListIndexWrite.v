(** * ListIndexWrite: the files that write leaves *)

From Verif Require Import Py PyFacts Float64 Float64Facts Regex Mapper Resource ResourceSpec Container
  Xml Sitemap SitemapSpec Opener ListIndex ListIndexSpec ListIndexFacts.

(** What is known of one part after it has been written. *)
Definition part_written md5 clock sm ms md ln basename fs (n : Z) (c : list resource) (e : resource) : Prop :=
  exists uri f, map_name ms (part_name basename n) = Ok uri /\ sget (part_name basename n) fs = Some f
    /\ resources_as_xml sm false (MkDoc md ln c) = Ok (f_data f) /\ f_mtime f = clock (part_name basename n)
    /\ e = index_entry md5 uri f.

Lemma write_parts_inv md5 clock sm ms md ln b chunks : forall n index fs fs' index', 0 <= n ->
  write_parts md5 clock sm ms md ln b chunks n index fs = (fs', Ok index') ->
  exists entries, index' = index ++ entries /\ List.length entries = List.length chunks
    /\ (forall i c e, nth_error chunks i = Some c -> nth_error entries i = Some e ->
          part_written md5 clock sm ms md ln b fs' (n + Z.of_nat i) c e)
    /\ (forall p, (forall i, n <= i < n + zlen chunks -> p <> part_name b i) -> sget p fs' = sget p fs).
Proof.
  induction chunks as [|c chunks IH]; intros n index fs fs' index' N H; cbn [write_parts] in H.
  - injection H as <- <-. exists []. rewrite app_nil_r. repeat split; auto. intros [|i]; discriminate.
  - destruct (map_name ms (part_name b n)) as [uri|] eqn:M; [|discriminate].
    unfold write_doc in H. destruct (resources_as_xml sm false (MkDoc md ln c)) as [text|] eqn:X.
    2:discriminate.
    unfold put_file in H. rewrite sget_sset_eq in H.
    destruct (IH (n + 1) _ _ _ _ ltac:(lia) H) as (es & I1 & I2 & I3 & I4). clear IH.
    exists (index_entry md5 uri (MkFile text (clock (part_name b n))) :: es).
    rewrite I1, <- app_assoc. split; [reflexivity|]. split; [cbn; now rewrite I2|]. split.
    + intros [|i] c' e' E1 E2; cbn [nth_error] in E1, E2.
      * injection E1 as <-. injection E2 as <-. rewrite Z.add_0_r.
        exists uri, (MkFile text (clock (part_name b n))). split; [assumption|]. split; [|auto].
        rewrite I4, sget_sset_eq; [reflexivity|]. intros i R E. apply part_name_inj in E; lia.
      * replace (n + Z.of_nat (S i)) with (n + 1 + Z.of_nat i) by lia. now apply I3.
    + intros p D. rewrite zlen_cons in D. rewrite I4.
      * apply sget_sset_ne. pose proof (zlen_nonneg chunks). apply D. lia.
      * intros i R. apply D. lia.
Qed.

Lemma write_parts_ok md5 clock sm ms md ln b chunks : forall n index fs, 0 <= n ->
  (forall i, 0 <= i -> exists u, map_name ms (part_name b i) = Ok u) ->
  (forall c, In c chunks -> exists t, resources_as_xml sm false (MkDoc md ln c) = Ok t) ->
  exists fs' index', write_parts md5 clock sm ms md ln b chunks n index fs = (fs', Ok index').
Proof.
  induction chunks as [|c chunks IH]; intros n index fs N M X; cbn [write_parts]; [eauto|].
  destruct (M n N) as (u & ->). destruct (X c (or_introl eq_refl)) as (t & E).
  unfold write_doc. rewrite E. unfold put_file. rewrite sget_sset_eq.
  apply IH; [lia|assumption|]. intros c' I. apply X. now right.
Qed.

Definition written_md {C} (l : ixlist C) : link := d_md (default_capability (l_name l) (l_doc l)).
Definition part_links (uri : str) (ln : list link) : list link := list_link_set $"index" uri ln.
Definition shared_links (uri : str) (ln : list link) : list link :=
  match find_link $"index" ln with Some _ => part_links uri ln | None => ln end.

Definition the_chunks (max : Z) (items : list resource) : list (list resource) :=
  all_chunks (S (S (List.length items))) max None items.

(** Several files. *)
Lemma list_write_multi {C} (k : kind C) md5 clock l b fs max :
  let items := k_iter k (d_items (l_doc l)) in
  l_max l = Some max -> Z.max max 1 < zlen items ->
  list_write k md5 clock l b fs =
    if negb (l_allow l) then (fs, Err ListBaseIndexError)
    else match map_name (l_mapper l) b with
         | Err e => (fs, Err e)
         | Ok uri =>
             let '(fs, index) := write_parts md5 clock (l_sm l) (l_mapper l) (written_md l)
               (part_links uri (d_ln (l_doc l))) b (the_chunks max items) 0 [] fs in
             match index with
             | Err e => (fs, Err e)
             | Ok index =>
                 let '(fs, e) := write_doc clock (l_sm l) true
                   (MkDoc (written_md l) (shared_links uri (d_ln (l_doc l))) index) b fs in
                 (fs, match e with
                      | Some e => Err e
                      | None => Ok (with_doc (MkDoc (d_md (l_doc l)) (shared_links uri (d_ln (l_doc l)))
                                      (d_items (l_doc l))) (l_index l) l)
                      end)
             end
         end.
Proof.
  intros items M L. unfold list_write. rewrite M. fold items.
  destruct (get_chunk max None items) as [[c nxt] it] eqn:G.
  pose proof (get_chunk_next _ _ _ _ _ G) as X.
  destruct (get_chunk_spec _ _ _ _ _ _ G) as (_ & _ & _ & I4 & _).
  destruct nxt as [r|]; [|exfalso; destruct X as [X _]; specialize (X eq_refl); lia].
  assert (NE : c <> []).
  { intros ->. destruct (I4 eq_refl) as [_ Z0]. rewrite Z0 in L. rewrite zlen_nil in L. lia. }
  replace (the_chunks max items) with (c :: all_chunks (S (List.length items)) max (Some r) it).
  2:{ now apply first_chunk. }
  reflexivity.
Qed.

(** One file. *)
Lemma list_write_single {C} (k : kind C) md5 clock l b fs max :
  let items := k_iter k (d_items (l_doc l)) in
  l_max l = Some max -> zlen items <= Z.max max 1 ->
  list_write k md5 clock l b fs =
    let '(fs, e) := write_doc clock (l_sm l) (l_index l) (MkDoc (written_md l) (d_ln (l_doc l)) items) b fs in
    (fs, match e with Some e => Err e | None => Ok l end).
Proof.
  intros items M L. unfold list_write. rewrite M. fold items.
  destruct (get_chunk max None items) as [[c nxt] it] eqn:G.
  pose proof (get_chunk_next _ _ _ _ _ G) as X.
  destruct (get_chunk_spec _ _ _ _ _ _ G) as (I1 & I2 & _).
  destruct nxt as [r|]; [exfalso; apply X in L; discriminate|].
  rewrite (I2 eq_refl) in I1. cbn [opt_list app] in I1. rewrite app_nil_r in I1. subst items. rewrite I1. reflexivity.
Qed.

Lemma the_chunks_spec max items :
  List.concat (the_chunks max items) = items /\ (forall c, In c (the_chunks max items) -> c <> []).
Proof. apply (all_chunks_spec (S (S (List.length items))) max None items). cbn [opt_list app]. lia. Qed.
Lemma the_chunks_sizes max items : 2 <= max -> split_by max (the_chunks max items).
Proof. apply all_chunks_sizes. cbn [opt_list app]. lia. Qed.

(** The files after a successful write of a list that needs several. *)
Lemma list_write_files {C} (k : kind C) md5 clock (l l' : ixlist C) b fs fs' max :
  let items := k_iter k (d_items (l_doc l)) in
  l_max l = Some max -> Z.max max 1 < zlen items ->
  list_write k md5 clock l b fs = (fs', Ok l') ->
  exists uri entries, map_name (l_mapper l) b = Ok uri
    /\ List.length entries = List.length (the_chunks max items)
    /\ (forall i c e, nth_error (the_chunks max items) i = Some c -> nth_error entries i = Some e ->
          part_written md5 clock (l_sm l) (l_mapper l) (written_md l) (part_links uri (d_ln (l_doc l))) b fs'
            (Z.of_nat i) c e)
    /\ holds (l_sm l) fs' b true (written_md l) (shared_links uri (d_ln (l_doc l))) entries
    /\ (forall p, p <> b -> (forall i, 0 <= i < zlen (the_chunks max items) -> p <> part_name b i) -> sget p fs' = sget p fs).
Proof.
  intros items M L H. rewrite (list_write_multi k md5 clock l b fs max M L) in H. fold items in H.
  destruct (negb (l_allow l)); [discriminate|].
  destruct (map_name (l_mapper l) b) as [uri|] eqn:Eu; [|discriminate].
  destruct (write_parts _ _ _ _ _ _ _ _ _ _ _) as [fs1 [index|e]] eqn:W; [|discriminate].
  destruct (write_parts_inv _ _ _ _ _ _ _ _ _ _ _ _ _ (Z.le_refl 0) W) as (es & I1 & I2 & I3 & I4).
  cbn [app] in I1. subst index. unfold write_doc in H.
  destruct (resources_as_xml (l_sm l) true _) as [text|] eqn:X; [|discriminate]. injection H as <- <-.
  exists uri, es. split; [reflexivity|]. split; [assumption|]. split; [|split].
  - intros i c e E1 E2. destruct (I3 i c e E1 E2) as (u & f & F1 & F2 & F3 & F4 & F5). rewrite Z.add_0_l in *.
    exists u, f. split; [assumption|]. split; [|auto]. unfold put_file.
    rewrite sget_sset_ne by apply part_name_not_base. assumption.
  - eexists. split; [apply sget_sset_eq|assumption].
  - intros p Nb Np. unfold put_file. rewrite sget_sset_ne by assumption. apply I4. intros i R. apply Np. lia.
Qed.
