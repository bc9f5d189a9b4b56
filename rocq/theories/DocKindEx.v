(** * DocKindEx: documents of several kinds *)

From Verif Require Import Py Mapper Resource ResourceSpec Container ContainerSpec Xml Sitemap SitemapSpec SitemapExamples Opener
  ListIndex ListIndexSpec ListIndexExamples StoredSpec Client DocKinds.

Lemma good_recorded r : good_resource r -> recorded r.
Proof. intros (H1 & (T1 & T2 & T3 & T4 & T5 & T6) & H3). split; [exact H1|]. split; [|exact H3]. repeat split; left; assumption. Qed.

Lemma recorded_any {C} (iter : C -> list resource) name name' d : good_list iter name d -> sget $"capability" (d_md d) = None ->
  recorded_list iter name' d.
Proof.
  intros [(GM & GL & GR & LR) _] N. split; [exact GM|]. split; [exact GL|]. split; [|split; [exact LR|now left]].
  revert GR. apply Forall_impl. exact good_recorded.
Qed.

Lemma three_recorded name : wf_rl (d_items three_rl) /\ recorded_list rl_iter name three_rl.
Proof. destruct three_rl_good as [W G]. split; [exact W|]. now apply (recorded_any _ _ _ _ G). Qed.
Lemma changes_recorded name : Forall (fun r => r_change r <> None) (d_items some_cl) /\ recorded_list (fun l => l) name some_cl.
Proof. destruct some_cl_good as [W G]. split; [exact W|]. now apply (recorded_any _ _ _ _ G). Qed.

(** An archive with three entries, at most two in a file. *)
Definition archive3 : ixlist (list resource) :=
  mapped [some_map] (limited 2 (archive $"resourcedump-archive" SitemapExamples.plain some_cl)).
Definition archive_files : fsys := fst (list_write archive_kind some_md5 some_clock archive3 base []).
Lemma long_archive :
  (exists l', snd (list_write archive_kind some_md5 some_clock archive3 base []) = Ok l')
  /\ (exists d, list_read archive_kind (open_uri archive_files no_web) true (emptied archive_kind archive3) base = Ok d)
  /\ list_read archive_kind (open_uri archive_files no_web) false (emptied archive_kind archive3) base = Err AttributeError.
Proof. split; [eexists|split; [eexists|]]; vm_compute; reflexivity. Qed.

(** A resource dump that should not be split. *)
Definition dump3 (allow : option bool) : ixlist rdict :=
  limited 2 (resource_dump allow (Some [some_map]) SitemapExamples.plain three_rl).
Definition dump_files : fsys := fst (list_write resource_list_kind some_md5 some_clock (dump3 (Some false)) base []).
Lemma split_anyway :
  (exists l', snd (list_write resource_list_kind some_md5 some_clock (dump3 (Some false)) base []) = Ok l')
  /\ dkeys dump_files = [$"/tmp/d/rl00000.xml"; $"/tmp/d/rl00001.xml"; base]
  /\ exists l2, list_read resource_list_kind (open_uri dump_files no_web) false
       (resource_dump (Some false) (Some [some_map]) SitemapExamples.plain (MkDoc [] [] [])) base = Ok l2
     /\ dkeys (d_items (l_doc l2)) = [$"http://ex.org/a?b&c"; $"http://ex.org/b"; $"http://ex.org/c"].
Proof. split; [eexists|split; [|eexists; split]]; vm_compute; reflexivity. Qed.
Lemma list_not_split :
  list_write resource_list_kind some_md5 some_clock (limited 2 (resource_list (Some false) (Some [some_map]) SitemapExamples.plain three_rl)) base []
    = ([], Err ListBaseIndexError)
  /\ list_write resource_list_kind some_md5 some_clock (allowing false (dump3 None)) base [] = ([], Err ListBaseIndexError)
  /\ list_read resource_list_kind (open_uri dump_files no_web) false (allowing false (emptied resource_list_kind (dump3 None))) base
     = Err ListBaseIndexError.
Proof. split; [|split]; vm_compute; reflexivity. Qed.
