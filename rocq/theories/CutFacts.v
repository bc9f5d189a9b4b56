(** * CutFacts: documents that were cut short are refused or read the same *)

From Verif Require Import Py PyFacts Mapper Resource Container Xml XmlFacts XmlSpell XmlSpellFacts XmlCut Sitemap SitemapSpec
  XmlWritten Opener ListIndex Client CutSpec.

Lemma cut_text t s x : parse_text t = Ok x -> cut_off t s ->
  parse_text s = Ok x \/ exists e, parse_text s = Err e.
Proof.
  intros P (r & R & ->). destruct (parse_text s) as [x'|e] eqn:Q; [left|right; eauto]. f_equal. exact (cut_same s r x x' P Q).
Qed.

Lemma cut_tag t s x : parse_text t = Ok x -> ends_in_tag t -> cut_off t s -> parse_text s = Err XmlError.
Proof. intros P (y & c & E & A & B) (r & R & ->). exact (cut_refused s r x y c P R E A B). Qed.

(** What the library writes ends with the root. *)
Lemma written_ends sm index d t : resources_as_xml sm index d = Ok t -> ends_in_tag t.
Proof.
  unfold resources_as_xml, resources_tree. destruct (mapM _ _) as [items|]; [|discriminate]. cbn [bind].
  set (kids := _ ++ _ ++ items). set (tag := if index then $"sitemapindex" else $"urlset"). intros H. injection H as <-.
  assert (T : exists tg c, tag = tg ++ [c] /\ c <> "-"%char /\ c <> "?"%char).
  { unfold tag. destruct index; [exists $"sitemapinde", "x"%char|exists $"urlse", "t"%char]; repeat split; discriminate. }
  destruct T as (tg & c & T & A & B). unfold write_xml. cbn [serialize opt_text]. unfold esc_text at 2. cbn [flat_map opt_text].
  destruct (opt_text (newline sm)) as [|a x]; [destruct kids as [|k ks]|].
  - exists (xml_decl ++ $"<" ++ tag ++ flat_map ser_att [($"xmlns", SITEMAP_NS); ($"xmlns:rs", RS_NS)] ++ $" "), "/"%char.
    split; [|split; discriminate]. rewrite !app_nil_r, <- !app_assoc. reflexivity.
  - exists (xml_decl ++ $"<" ++ tag ++ flat_map ser_att [($"xmlns", SITEMAP_NS); ($"xmlns:rs", RS_NS)]
            ++ $">" ++ esc_text [] ++ flat_map serialize (k :: ks) ++ $"</" ++ tg), c.
    split; [|split; assumption]. rewrite T, !app_nil_r, <- !app_assoc. reflexivity.
  - exists (xml_decl ++ $"<" ++ tag ++ flat_map ser_att [($"xmlns", SITEMAP_NS); ($"xmlns:rs", RS_NS)]
            ++ $">" ++ esc_text (a :: x) ++ flat_map serialize kids ++ $"</" ++ tg), c.
    split; [|split; assumption]. unfold esc_text. cbn [flat_map]. rewrite T, ?app_nil_r, <- ?app_assoc. reflexivity.
Qed.

Lemma cut_written {C} sm index d t s sm' (add : resource -> C -> res C) cap si d0 : good_doc d ->
  resources_as_xml sm index d = Ok t -> cut_off t s -> parse_xml sm' add cap si d0 s = Err XmlError.
Proof.
  intros G W K. destruct (written_spelled sm index d G) as (t' & root & W' & S). rewrite W in W'. injection W' as <-.
  apply spelled_read in S. unfold parse_xml. rewrite (cut_tag t s root S (written_ends _ _ _ _ W) K). reflexivity.
Qed.

(** ** Lists with and without an index *)

Lemma cut_parse {C} sm (add : resource -> C -> res C) cap si d t s x : parse_xml sm add cap si d t = Ok x -> cut_off t s ->
  parse_xml sm add cap si d s = Ok x \/ exists e, parse_xml sm add cap si d s = Err e.
Proof.
  unfold parse_xml. intros P K. destruct (parse_text t) as [root|] eqn:T; [|discriminate].
  destruct (cut_text t s root T K) as [->|(e & ->)]; [left; exact P|right; cbn [bind]; eauto].
Qed.

Section Reading.
Variable fetch fetch' : str -> res str.
Hypothesis Cut : cut_documents fetch fetch'.

Lemma cut_component {C} (k : kind C) l iu isf c u x : read_component k fetch l iu isf c u = Ok x ->
  read_component k fetch' l iu isf c u = Ok x \/ exists e, read_component k fetch' l iu isf c u = Err e.
Proof.
  unfold read_component. intros H. match goal with |- context [bind ?m _] => destruct m as [uri|e] end; [|right; cbn [bind]; eauto].
  cbn [bind] in *. destruct (Cut uri) as [->|(t & s & F & F' & K)]; [now left|]. rewrite F' in *. rewrite F in H. cbn [bind] in *.
  destruct (parse_xml (l_sm l) _ None (Some false) (MkDoc [] [] []) t) as [d|] eqn:P; [|discriminate].
  destruct (cut_parse _ _ _ _ _ _ _ _ P K) as [->|(e & ->)]; [left; exact H|right; cbn [bind]; eauto].
Qed.

Lemma cut_components {C} (k : kind C) l iu isf uris : forall c x, read_components k fetch l iu isf uris c = Ok x ->
  read_components k fetch' l iu isf uris c = Ok x \/ exists e, read_components k fetch' l iu isf uris c = Err e.
Proof.
  induction uris as [|u uris IH]; intros c x H; cbn [read_components] in *; [now left|].
  destruct (read_component k fetch l iu isf c u) as [c'|] eqn:R; [|discriminate]. cbn [bind] in H.
  destruct (cut_component k l iu isf c u c' R) as [->|(e & ->)]; [|right; cbn [bind]; eauto]. cbn [bind]. now apply IH.
Qed.

Lemma cut_list {C} (k : kind C) io l uri x : list_read k fetch io l uri = Ok x ->
  list_read k fetch' io l uri = Ok x \/ exists e, list_read k fetch' io l uri = Err e.
Proof.
  unfold list_read. intros H.
  destruct (fetch uri) as [t|] eqn:F; [|discriminate]. cbn [bind] in H.
  destruct (parse_xml (l_sm l) (k_add k) (l_name l) None (l_doc l) t) as [[d index]|] eqn:P; [|discriminate]. cbn [bind] in H.
  assert (T : fetch' uri = Ok t \/ exists s, fetch' uri = Ok s /\ cut_off t s).
  { destruct (Cut uri) as [->|(t' & s & F1 & F' & K)]; [now left|]. rewrite F in F1. injection F1 as <-. right; eauto. }
  assert (D : (let* text := fetch' uri in parse_xml (l_sm l) (k_add k) (l_name l) None (l_doc l) text) = Ok (d, index)
    \/ exists e, (let* text := fetch' uri in parse_xml (l_sm l) (k_add k) (l_name l) None (l_doc l) text) = Err e).
  { destruct T as [->|(s & -> & K)]; cbn [bind]; [now left|]. exact (cut_parse _ _ _ _ _ _ _ _ P K). }
  clear T. destruct (fetch' uri) as [t'|e]; cbn [bind] in *; [|right; eauto].
  destruct D as [->|(e & ->)]; cbn [bind]; [|right; eauto].
  destruct index; cbn [negb] in *; [|now left]. destruct (l_allow l); cbn [negb] in *; [|discriminate].
  destruct io; [now left|]. destruct (k_uris k (d_items d)) as [uris|]; [|discriminate]. cbn [bind] in *.
  destruct (read_components k fetch l uri (is_file_uri uri) (sort_strs uris) (k_empty k)) as [c|] eqn:R; [|discriminate].
  destruct (cut_components k l uri (is_file_uri uri) _ _ _ R) as [->|(e & ->)]; [left; exact H|right; cbn [bind]; eauto].
Qed.

Lemma cut_resource_list c uri x : read_resource_list fetch c uri = Ok x ->
  read_resource_list fetch' c uri = Ok x \/ exists e, read_resource_list fetch' c uri = Err e.
Proof.
  unfold read_resource_list. intros H.
  destruct (list_read resource_list_kind fetch false _ uri) as [l|e] eqn:R in H; [|destruct e; discriminate].
  destruct (cut_list _ _ _ _ _ R) as [->|(e & ->)]; [now left|right]. destruct e; cbn [wrapped bind]; eauto.
Qed.

Lemma cut_capability_list uri x : find_from_capability_list fetch uri = Ok x ->
  find_from_capability_list fetch' uri = Ok x \/ exists e, find_from_capability_list fetch' uri = Err e.
Proof.
  unfold find_from_capability_list. intros H.
  destruct (fetch uri) as [t|e0] eqn:F; [|destruct e0; discriminate].
  destruct (Cut uri) as [F'|(t' & s & F1 & F' & K)]; [rewrite F', F; now left|].
  rewrite F in F1. injection F1 as <-. rewrite F'. cbn [bind] in *. unfold list_parse in *.
  destruct (parse_xml plain_settings rs_add (Some $"capabilitylist") (Some false) (MkDoc [] [] []) t) as [d|e0] eqn:P; [|destruct e0; discriminate].
  destruct (cut_parse _ _ _ _ _ _ _ _ P K) as [->|(e & ->)]; [now left|right]. destruct e; cbn [wrapped bind]; eauto.
Qed.

(** With --sitemap, or else --capabilitylist. *)
Lemma cut_found c src : c_sitemap_name c <> None \/ c_capability_list c <> None -> find_resource_list fetch c = Ok src ->
  find_resource_list fetch' c = Ok src \/ exists e, find_resource_list fetch' c = Err e.
Proof.
  unfold find_resource_list. intros N H. destruct (c_sitemap_name c) as [u|]; [now apply cut_resource_list|].
  destruct (c_capability_list c) as [u|]; [|destruct N as [N|N]; now elim N].
  destruct (find_from_capability_list fetch u) as [rl|] eqn:F; [|discriminate]. cbn [bind] in H.
  destruct (cut_capability_list u rl F) as [->|(e & ->)]; cbn [bind]; [now apply cut_resource_list|right; eauto].
Qed.
End Reading.

(** ** Synchronizations *)

Lemma andthen_ext A B (m m' : act A) (f f' : A -> act B) : (forall w, m w = m' w) -> (forall a w, f a w = f' a w) ->
  forall w, andthen m f w = andthen m' f' w.
Proof. intros M F w. unfold andthen. rewrite M. destruct (m' w) as [w' [a|e]]; [apply F|reflexivity]. Qed.

Lemma lifted A B (r : res A) (f : A -> act B) w : andthen (lift r) f w = match r with Ok a => f a w | Err e => (w, Err e) end.
Proof. reflexivity. Qed.

Lemma looked A B (g : world -> res A) (f : A -> act B) w :
  andthen (fun w => (w, g w)) f w = match g w with Ok a => f a w | Err e => (w, Err e) end.
Proof. reflexivity. Qed.

Section Same.
Variables (E : env) (fetch' : str -> res str) (c : client).
Notation E' := (with_fetch fetch' E).

Lemma same_download uri filename : forall n w, download E' c n uri filename w = download E c n uri filename w.
Proof.
  induction n as [|n IH]; intros w; [reflexivity|]. cbn [download].
  change (attempt E' uri filename w) with (attempt E uri filename w). destruct (attempt E uri filename w) as [w' [u|e]]; [reflexivity|].
  destruct e; try reflexivity. destruct n; [reflexivity|apply IH].
Qed.

Lemma same_update r filename w : update_resource E' c r filename w = update_resource E c r filename w.
Proof.
  unfold update_resource. apply andthen_ext; [reflexivity|]. intros _ w1. destruct (c_dryrun c); [reflexivity|].
  apply andthen_ext; [intros w2; apply same_download|]. reflexivity.
Qed.

Lemma same_for_each f f' rs : (forall r n w, f r n w = f' r n w) -> forall w, for_each c f rs w = for_each c f' rs w.
Proof.
  intros F. induction rs as [|r rs IH]; intros w; [reflexivity|]. cbn [for_each].
  apply andthen_ext; [reflexivity|]. intros n. apply andthen_ext; [apply F|]. intros k. apply andthen_ext; [exact IH|reflexivity].
Qed.

Lemma same_synchronize allow src cmp w : synchronize E' c allow src cmp w = synchronize E c allow src cmp w.
Proof.
  unfold synchronize. apply andthen_ext; [reflexivity|]. intros _. apply andthen_ext; [reflexivity|]. intros _.
  apply andthen_ext; [apply same_for_each; intros; apply same_update|]. intros nc.
  apply andthen_ext; [apply same_for_each; intros; apply same_update|]. intros nu.
  apply andthen_ext; [apply same_for_each; reflexivity|]. reflexivity.
Qed.

Lemma same_changes allow rs : forall w, apply_changes E' c allow rs w = apply_changes E c allow rs w.
Proof.
  induction rs as [|r rs IH]; intros w; [reflexivity|]. cbn [apply_changes].
  apply andthen_ext; [reflexivity|]. intros n. apply andthen_ext.
  - intros w1. destruct (change_is $"updated" r); [apply andthen_ext; [intros; apply same_update|reflexivity]|].
    destruct (change_is $"created" r); [apply andthen_ext; [intros; apply same_update|reflexivity]|]. reflexivity.
  - intros k. apply andthen_ext; [exact IH|reflexivity].
Qed.

Lemma same_apply allow from l w : apply_change_list E' c allow from l w = apply_change_list E c allow from l w.
Proof.
  unfold apply_change_list. apply andthen_ext; [reflexivity|]. intros p. apply andthen_ext; [reflexivity|]. intros _ w1.
  destruct (negb _); [reflexivity|]. revert w1. apply andthen_ext; [reflexivity|]. intros _ w1.
  destruct (_ || _); [reflexivity|]. revert w1. apply andthen_ext; [intros; apply same_changes|]. reflexivity.
Qed.
End Same.

Lemma cut_baseline E fetch' c allow audit w src : cut_documents (e_fetch E) fetch' ->
  c_sitemap_name c <> None \/ c_capability_list c <> None -> find_resource_list (e_fetch E) c = Ok src ->
  baseline_or_audit (with_fetch fetch' E) c allow audit w = baseline_or_audit E c allow audit w
  \/ exists e, baseline_or_audit (with_fetch fetch' E) c allow audit w = (w, Err e).
Proof.
  intros Cut N F. unfold baseline_or_audit. destruct (match c_mapper c with [] => true | _ => false end); [now left|].
  rewrite !lifted. destruct (if audit then Ok false else unsafe (c_mapper c)) as [bad|e]; [|now left].
  destruct bad; [now left|]. rewrite !lifted. change (e_fetch (with_fetch fetch' E)) with fetch'. rewrite F.
  destruct (cut_found _ _ Cut c src N F) as [->|(e & ->)]; [left|right; eauto].
  destruct (match src with [] => true | _ => false end); [reflexivity|]. revert w.
  apply andthen_ext; [reflexivity|]. intros _. apply andthen_ext; [reflexivity|]. intros dst. apply andthen_ext; [reflexivity|].
  intros cmp. apply andthen_ext; [reflexivity|]. intros _ w. destruct (_ || _); [reflexivity|]. apply same_synchronize.
Qed.

Lemma cut_incremental E fetch' c allow clu from w uri l : cut_documents (e_fetch E) fetch' ->
  sitemap_uri c (match clu with Some (x :: u) => x :: u | _ => c_change_list_name c end) = Ok uri ->
  list_read change_list_kind (e_fetch E) false (new_list change_list_kind $"changelist" true None) uri = Ok l ->
  incremental (with_fetch fetch' E) c allow clu from w = incremental E c allow clu from w
  \/ exists e, incremental (with_fetch fetch' E) c allow clu from w = (w, Err e).
Proof.
  intros Cut U R. unfold incremental. destruct (match c_mapper c with [] => true | _ => false end); [now left|].
  rewrite !lifted. destruct (unsafe (c_mapper c)) as [bad|e]; [|now left].
  destruct bad; [now left|]. rewrite !looked. change (start_time (with_fetch fetch' E)) with (start_time E).
  destruct (start_time E c from w) as [t|e]; [|now left]. rewrite !lifted, U, !lifted.
  change (e_fetch (with_fetch fetch' E)) with fetch'. rewrite R.
  destruct (cut_list _ _ Cut _ _ _ _ _ R) as [->|(e & ->)]; [left|right; destruct e; cbn [wrapped]; eauto].
  cbn [wrapped]. revert w. apply andthen_ext; [reflexivity|]. intros _. apply andthen_ext; [reflexivity|]. intros _.
  apply andthen_ext; [reflexivity|]. intros la. apply andthen_ext; [reflexivity|]. intros _. apply andthen_ext; [reflexivity|].
  intros _ w. apply same_apply.
Qed.
