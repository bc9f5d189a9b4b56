(** * ListIndexExamples: concrete lists with indexes *)

From Verif Require Import Py PyFacts Float64 W3C W3CSpec Regex Mapper MapperSpec MapperFacts UrlAuthority Resource ResourceSpec Container ContainerSpec
  Xml Sitemap SitemapSpec SitemapExamples Opener ListIndex ListIndexSpec ListIndexFacts ListIndexWrite ListIndexProps.

Definition third_resource : resource := new_resource $"http://ex.org/c".
Definition three_rl : doc rdict :=
  MkDoc some_md [some_link]
    [(r_uri third_resource, third_resource); (r_uri other_resource, other_resource); (r_uri some_resource, some_resource)].
Definition some_map : smap := MkMap $"http://ex.org/d" $"/tmp/d".
Definition list3 (max : Z) (ms : mapper) : ixlist rdict :=
  MkIx three_rl (Some $"resourcelist") (Some max) true (Some ms) false false SitemapExamples.plain.
Definition some_md5 (s : str) : str := $"d41d8cd98f00b204e9800998ecf8427e".
Definition some_clock (f : str) : Z := 1325376000 * SEC.
Definition no_web (u : str) : res str := Err IOError.
Definition base : str := $"/tmp/d/rl.xml".

Lemma third_resource_good : good_resource third_resource /\ legal_resource third_resource.
Proof.
  split.
  - split; [discriminate|]. split; [repeat (split; [apply plain_none|]); apply plain_none|].
    split; [split; [|split]; intros v c [=]|]. split; [left; reflexivity|constructor].
  - split; [|split; [|split]]; [|split; [|split]; intros s [=]|split; [|split]; intros s [=]|constructor].
    split.
    + intros c I. left. assert (F : forallb (fun c => N.leb 32 (code c)) (r_uri third_resource) = true) by reflexivity.
      rewrite forallb_forall in F. now apply N.leb_le, F.
    + intros I. assert (X : forallb (fun c => negb (Ascii.eqb c cr)) (r_uri third_resource) = true) by reflexivity.
      rewrite forallb_forall in X. now specialize (X cr I).
Qed.

Lemma three_rl_good : wf_rl (d_items three_rl) /\ good_list rl_iter $"resourcelist" three_rl.
Proof.
  destruct some_link_good, some_resource_good, other_resource_good, third_resource_good, some_md_good.
  split; [split; [nodup|]|].
  - intros u r I. cbn in I. decompose [or] I; try contradiction;
      match goal with H : (_, _) = (_, _) |- _ => injection H as <- <- end; reflexivity.
  - split; [|now left].
    replace (in_order rl_iter three_rl) with (MkDoc some_md [some_link] [some_resource; other_resource; third_resource]) by reflexivity.
    split; [auto|]. split; [split; repeat (apply Forall_cons; auto)|].
    split; repeat (apply Forall_cons; auto).
Qed.

Definition textb (s : str) : bool := forallb (fun c => N.leb 32 (code c)) s.
Lemma textb_ok s : textb s = true -> uri_text s.
Proof.
  unfold textb. rewrite forallb_forall. intros F. split.
  - intros c I. left. now apply N.leb_le, F.
  - intros I. specialize (F _ I). discriminate F.
Qed.

Lemma base_plain : plain_path base.
Proof.
  split; [exists "t"%char, $"mp/d/rl.xml"; split; [reflexivity|discriminate]|].
  split; [vm_compute; intuition discriminate|]. split; [vm_compute; intuition discriminate|].
  intros q c E. change base with ($"/tmp/d/rl.xm" ++ ["l"%char]) in E. apply last_char in E. subst c. reflexivity.
Qed.
Lemma base_published : published [some_map] base.
Proof.
  apply (map_published $"http://ex.org/d" $"/tmp/d" $"rl.xml").
  - intros c I J. vm_compute in I, J. intuition (subst; discriminate).
  - intros c I J. vm_compute in I, J. intuition (subst; discriminate).
  - vm_compute. intuition discriminate.
  - vm_compute. intuition discriminate.
  - vm_compute. intuition discriminate.
  - reflexivity.
  - now apply textb_ok.
  - now apply textb_ok.
Qed.
Lemma some_md5_ok : digest_like some_md5.
Proof.
  intros s. split; [|now apply textb_ok].
  intros v c [= <-]. revert c. apply Forall_forall. unfold some_md5. vm_compute. repeat constructor.
Qed.
Lemma some_clock_ok : clock_like some_clock.
Proof.
  intros f. unfold some_clock. assert (0 < SEC) by reflexivity. split; apply Z.mul_le_mono_nonneg_r; lia.
Qed.


Lemma limit_one : exists fs' l' md ln,
  list_write resource_list_kind some_md5 some_clock (list3 1 [some_map]) base [] = (fs', Ok l')
  /\ holds (l_sm l') fs' (part_name base 1) false md ln [other_resource; third_resource].
Proof.
  eexists _, _, (written_md (list3 1 [some_map])), (part_links $"http://ex.org/d/rl.xml" [some_link]).
  split; [vm_compute; reflexivity|]. eexists. split; [reflexivity|]. vm_compute. reflexivity.
Qed.

(** A mapping to an https URI. *)
Definition https_map : smap := MkMap $"https://ex.org/d" $"/tmp/d".
Lemma https_inverse n : exists x,
  dst_to_src [https_map] (part_name base n) = Ok x /\ src_to_dst [https_map] x = Ok (part_name base n).
Proof.
  change base with ($"/tmp/d" ++ $"/" ++ $"rl.xml"). rewrite part_name_below.
  destruct (single_round_trip https_map (part_name $"rl.xml" n)) as [R1 R2].
  - intros c I J. vm_compute in I, J. intuition (subst; discriminate).
  - intros c I J. vm_compute in I, J. intuition (subst; discriminate).
  - vm_compute. intuition discriminate.
  - vm_compute. intuition discriminate.
  - intros I. apply part_name_In in I as [I|[I|I]]; [| |]; vm_compute in I; intuition discriminate.
  - eauto.
Qed.
Lemma https_unreadable :
  (exists l', snd (list_write resource_list_kind some_md5 some_clock (list3 2 [https_map]) base []) = Ok l')
  /\ list_read resource_list_kind
       (open_uri (fst (list_write resource_list_kind some_md5 some_clock (list3 2 [https_map]) base [])) no_web)
       false (emptied resource_list_kind (list3 2 [https_map])) base = Err ListBaseIndexError.
Proof. split; [eexists|]; vm_compute; reflexivity. Qed.
Lemma percent_unreadable :
  (exists l', snd (list_write resource_list_kind some_md5 some_clock (list3 9 [some_map]) $"/tmp/a%41.xml" []) = Ok l')
  /\ list_read resource_list_kind
       (open_uri (fst (list_write resource_list_kind some_md5 some_clock (list3 9 [some_map]) $"/tmp/a%41.xml" [])) no_web)
       false (emptied resource_list_kind (list3 9 [some_map])) $"/tmp/a%41.xml" = Err IOError.
Proof. split; [eexists|]; vm_compute; reflexivity. Qed.

(** An index that lists a component on another host. *)
Definition ex_index : str :=
  $"<sitemapindex xmlns=""http://www.sitemaps.org/schemas/sitemap/0.9"" xmlns:rs=""http://www.openarchives.org/rs/terms/""><rs:md capability=""resourcelist""/><sitemap><loc>http://b.org/c.xml</loc></sitemap></sitemapindex>".
Definition file_index : str :=
  $"<sitemapindex xmlns=""http://www.sitemaps.org/schemas/sitemap/0.9"" xmlns:rs=""http://www.openarchives.org/rs/terms/""><rs:md capability=""resourcelist""/><sitemap><loc>file://other/c.xml</loc></sitemap></sitemapindex>".
Definition ex_part : str :=
  $"<urlset xmlns=""http://www.sitemaps.org/schemas/sitemap/0.9""><url><loc>http://x.org/r</loc></url></urlset>".
Definition ex_fetch (u : str) : res str :=
  if str_eqb u $"http://a.org/i.xml" then Ok ex_index
  else if str_eqb u $"http://b.org/c.xml" then Ok ex_part
  else if str_eqb u $"/i.xml" then Ok file_index else Err IOError.
Definition checking : ixlist rdict :=
  MkIx (MkDoc [] [] []) (Some $"resourcelist") (Some 50000) true (Some []) true false SitemapExamples.plain.
Lemma foreign_component : exists l2 d,
  parse_xml (l_sm checking) (fun r => rl_add r false) (l_name checking) None (l_doc checking) ex_index = Ok (d, true)
  /\ dkeys (d_items d) = [$"http://b.org/c.xml"]
  /\ authority_over false $"http://a.org/i.xml" $"http://b.org/c.xml" = Ok false
  /\ list_read resource_list_kind ex_fetch false checking $"http://a.org/i.xml" = Ok l2
  /\ dkeys (d_items (l_doc l2)) = [$"http://x.org/r"].
Proof. eexists _, _. split; [vm_compute; reflexivity|]. repeat split; vm_compute; reflexivity. Qed.
Lemma foreign_file : list_read resource_list_kind ex_fetch false checking $"/i.xml" = Err ListBaseIndexError.
Proof. vm_compute. reflexivity. Qed.

(** Change lists. *)
Definition cl3 (max : Z) : ixlist (list resource) :=
  MkIx some_cl (Some $"changelist") (Some max) true (Some [some_map]) false false SitemapExamples.plain.
Lemma long_change_list :
  (exists l', snd (list_write change_list_kind some_md5 some_clock (cl3 2) base []) = Ok l')
  /\ list_read change_list_kind
       (open_uri (fst (list_write change_list_kind some_md5 some_clock (cl3 2) base [])) no_web)
       false (emptied change_list_kind (cl3 2)) base = Err ChangeTypeError.
Proof. split; [eexists|]; vm_compute; reflexivity. Qed.

(** One part too many. *)
Lemma empty_part : requires_multifile resource_list_kind (list3 1 [some_map]) = Ok 3
  /\ as_xml_part resource_list_kind (list3 1 [some_map]) base 3
     = resources_as_xml SitemapExamples.plain false (part_doc $"resourcelist" base [])
  /\ exists text, as_xml_part resource_list_kind (list3 1 [some_map]) base 3 = Ok text.
Proof. repeat split; [..|eexists]; vm_compute; reflexivity. Qed.

(** A list with a link to another index. *)
Definition indexed : ixlist rdict :=
  MkIx (MkDoc [] [[($"rel", PStr $"index"); ($"href", PStr $"http://ex.org/old")]] (d_items three_rl))
    (Some $"resourcelist") (Some 2) true (Some [some_map]) false false SitemapExamples.plain.
Lemma index_link_changed : exists l',
  snd (list_write resource_list_kind some_md5 some_clock indexed base []) = Ok l'
  /\ d_ln (l_doc l') = [[($"rel", PStr $"index"); ($"href", PStr $"http://ex.org/d/rl.xml")]].
Proof. eexists. split; vm_compute; reflexivity. Qed.
