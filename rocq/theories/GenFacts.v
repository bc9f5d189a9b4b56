(** * GenFacts: lists that are given an iterator and a count *)

From Verif Require Import Py PyFacts Float64 Mapper Resource Container Xml Sitemap SitemapSpec Opener ListIndex ListIndexSpec
  ListIndexFacts ListIndexWrite ListIndexProps SitemapExamples ListIndexExamples GenList.

Lemma exhausted_items g : g_once g = true -> g_items (exhausted g) = [].
Proof. intros O. unfold exhausted, taken. rewrite O. unfold with_items, g_items at 1. cbn [g_list with_doc l_doc d_items]. apply skipn_all. Qed.

Lemma taken_list n g : g_once g = false -> taken n g = g.
Proof. intros O. unfold taken. now rewrite O. Qed.

Lemma counted_len g : g_count g = Some (zlen (g_items g)) \/ (g_count g = None /\ g_once g = false) -> g_len g = Ok (zlen (g_items g)).
Proof. unfold g_len. intros [-> | [-> ->]]; reflexivity. Qed.

Lemma counted g : g_count g = Some (zlen (g_items g)) \/ (g_count g = None /\ g_once g = false) ->
  g_requires g = requires_multifile iterable_kind (g_list g)
  /\ (forall b, g_index g b = as_xml_index iterable_kind (g_list g) b)
  /\ (forall allow b, fst (g_as_xml g allow b) = list_as_xml iterable_kind (g_list g) allow b)
  /\ (forall b part, fst (g_as_xml_part g b part) = as_xml_part iterable_kind (g_list g) b part).
Proof.
  intros H. apply counted_len in H.
  assert (R : g_requires g = requires_multifile iterable_kind (g_list g)).
  { unfold g_requires, requires_multifile. rewrite H. reflexivity. }
  assert (X : forall b, g_index g b = as_xml_index iterable_kind (g_list g) b).
  { intros b. unfold g_index, as_xml_index. rewrite R. reflexivity. }
  split; [exact R|]. split; [exact X|]. split.
  - intros allow b. unfold g_as_xml, list_as_xml. rewrite R.
    destruct (requires_multifile iterable_kind (g_list g)) as [n|e]; cbn [bind fst]; [|reflexivity].
    destruct (n =? 0); cbn [fst]; [reflexivity|]. destruct allow; [apply X|reflexivity].
  - intros b part. unfold g_as_xml_part, as_xml_part. rewrite R, H.
    destruct (requires_multifile iterable_kind (g_list g)) as [n|e] eqn:E; cbn [bind fst]; [|reflexivity].
    destruct (l_max (g_list g)) as [max|]; [|reflexivity]. change (k_iter iterable_kind (d_items (l_doc (g_list g)))) with (g_items g).
    cbv beta zeta. destruct (n =? 0); cbn [fst]; [reflexivity|]. destruct (zlen (g_items g) <? part * max); cbn [fst]; [reflexivity|].
    destruct ((part * max <? 0) || _)%bool; reflexivity.
Qed.

(** A collection stays as it is. *)
Lemma collection_kept g : g_once g = false ->
  (forall allow b, snd (g_as_xml g allow b) = g) /\ (forall b part, snd (g_as_xml_part g b part) = g).
Proof.
  intros O. split.
  - intros allow b. unfold g_as_xml. destruct (g_requires g) as [n|e]; [|reflexivity].
    destruct (n =? 0); cbn [snd]; [|reflexivity]. now apply taken_list.
  - intros b part. unfold g_as_xml_part. destruct (g_requires g) as [n|e]; [|reflexivity].
    destruct (l_max (g_list g)) as [max|]; [|reflexivity]. destruct (g_len g) as [len|e]; [|reflexivity].
    cbv beta zeta. destruct (n =? 0); [reflexivity|]. destruct (len <? part * max); [reflexivity|].
    destruct ((part * max <? 0) || _)%bool; [reflexivity|]. cbn [snd]. now apply taken_list.
Qed.

(** An iterator without a count. *)
Lemma uncounted g max : g_once g = true -> g_count g = None -> l_max (g_list g) = Some max ->
  g_requires g = Err TypeError /\ (forall allow b, g_as_xml g allow b = (Err TypeError, g))
  /\ (forall b part, g_as_xml_part g b part = (Err TypeError, g)).
Proof.
  intros O N M.
  assert (R : g_requires g = Err TypeError) by (unfold g_requires, g_len; rewrite M, N, O; reflexivity).
  split; [exact R|]. split; intros; [unfold g_as_xml|unfold g_as_xml_part]; now rewrite R.
Qed.

(** Writing. *)
Lemma written_once md5 clock g b fs fs' g' max : l_max (g_list g) = Some max -> g_write md5 clock g b fs = (fs', Ok g') ->
  (exists parts, List.concat parts = g_items g
     /\ (zlen (g_items g) <= Z.max max 1 -> parts = [g_items g]
         /\ exists md, holds (l_sm (g_list g)) fs' b (l_index (g_list g)) md (d_ln (l_doc (g_list g))) (g_items g))
     /\ (Z.max max 1 < zlen (g_items g) -> (2 <= max -> split_by max parts)
         /\ exists md ln, forall i p, nth_error parts i = Some p ->
              holds (l_sm (g_list g)) fs' (part_name b (Z.of_nat i)) false md ln p))
  /\ (g_once g = true -> g_items g' = []) /\ (g_once g = false -> g_items g' = g_items g).
Proof.
  intros M H. unfold g_write in H. destruct (list_write iterable_kind md5 clock (g_list g) b fs) as [fs1 [l'|e]] eqn:W;
    cbn [bind] in H; [|discriminate]. injection H as <- <-. split.
  - destruct (Z.le_gt_cases (zlen (g_items g)) (Z.max max 1)) as [Few|Many].
    + exists [g_items g]. split; [cbn; apply app_nil_r|]. split; [|lia].
      intros _. split; [reflexivity|].
      destruct (one_file iterable_kind md5 clock (g_list g) l' b fs fs1 max M Few W) as (_ & H & _). exact H.
    + destruct (the_files iterable_kind md5 clock (g_list g) l' b fs fs1 max M Many W)
        as (parts & md & pln & iln & es & ms & H1 & H2 & H3 & H4 & _).
      exists parts. split; [exact H1|]. split; [lia|]. intros _. split; [exact H2|]. exists md, pln. exact H4.
  - assert (I : d_items (l_doc l') = g_items g).
    { destruct (Z.le_gt_cases (zlen (g_items g)) (Z.max max 1)) as [Few|Many].
      - destruct (one_file iterable_kind md5 clock (g_list g) l' b fs fs1 max M Few W) as (-> & _). reflexivity.
      - rewrite (list_write_multi iterable_kind md5 clock (g_list g) b fs max M Many) in W.
        destruct (negb (l_allow (g_list g))); [discriminate W|]. destruct (map_name (l_mapper (g_list g)) b); [|discriminate W].
        destruct (write_parts _ _ _ _ _ _ _ _ _ _ _) as [fs2 [es|e]]; [|discriminate W].
        destruct (write_doc _ _ _ _ _ _) as [fs3 [e|]]; [discriminate W|]. injection W as _ <-. reflexivity. }
    split; intros O.
    + now apply exhausted_items.
    + unfold exhausted. rewrite taken_list by exact O. exact I.
Qed.

(** ** Three resources from a generator *)

Definition three : list resource := [some_resource; other_resource; third_resource].
Definition gen3 (count : option Z) (max : Z) (once : bool) : glist :=
  MkGen (MkIx (MkDoc [] [] three) (Some $"resourcelist") (Some max) true (Some [some_map]) false false SitemapExamples.plain)
    count once.

(** The third is in no part. *)
Lemma lost_part :
  g_requires (gen3 (Some 3) 2 true) = Ok 2
  /\ fst (g_parts (gen3 (Some 3) 2 true) base [0; 1])
     = [resources_as_xml SitemapExamples.plain false (part_doc $"resourcelist" base [some_resource; other_resource]);
        resources_as_xml SitemapExamples.plain false (part_doc $"resourcelist" base [])]
  /\ fst (g_parts (gen3 (Some 3) 2 false) base [0; 1])
     = [resources_as_xml SitemapExamples.plain false (part_doc $"resourcelist" base [some_resource; other_resource]);
        resources_as_xml SitemapExamples.plain false (part_doc $"resourcelist" base [third_resource])]
  /\ exists text, resources_as_xml SitemapExamples.plain false (part_doc $"resourcelist" base []) = Ok text.
Proof. split; [|split; [|split; [|eexists]]]; vm_compute; reflexivity. Qed.

(** Written twice, the file is left without entries. *)
Definition once3 : glist := gen3 None 9 true.
Definition once_files : fsys := fst (g_write some_md5 some_clock once3 base []).
Definition twice_files : fsys := fst (g_write some_md5 some_clock (exhausted once3) base once_files).
Lemma written_twice :
  g_write some_md5 some_clock once3 base [] = (once_files, Ok (exhausted once3))
  /\ holds SitemapExamples.plain once_files base false [($"capability", PStr $"resourcelist")] [] three
  /\ g_write some_md5 some_clock (exhausted once3) base once_files = (twice_files, Ok (exhausted once3))
  /\ holds SitemapExamples.plain twice_files base false [($"capability", PStr $"resourcelist")] [] [].
Proof.
  split; [vm_compute; reflexivity|]. split; [|split; [vm_compute; reflexivity|]].
  - exists (match sget base once_files with Some f => f | None => MkFile [] 0 end). split; vm_compute; reflexivity.
  - exists (match sget base twice_files with Some f => f | None => MkFile [] 0 end). split; vm_compute; reflexivity.
Qed.

(** A count that is too small: a document with more entries than allowed. *)
Lemma small_count :
  fst (g_as_xml (gen3 (Some 1) 2 true) false base)
  = resources_as_xml SitemapExamples.plain false (MkDoc [($"capability", PStr $"resourcelist")] [] three)
  /\ exists text, fst (g_as_xml (gen3 (Some 1) 2 true) false base) = Ok text.
Proof. split; [|eexists]; vm_compute; reflexivity. Qed.
