(** * ConvergeEx: baseline synchronizations of small destinations *)

From Verif Require Import Py PyFacts Float64 W3C Url UrlAuthority PathSpec OsPath Mapper MapperSpec Resource ResourceSpec Container
  ContainerSpec Capability Xml Sitemap ListIndex Hashes Disk DiskSpec DiskFacts Builder BuilderSpec BuilderFacts ClientState ClientStateSpec ClientStateFacts
  Client ClientSpec ClientLists ClientFacts ClientRuns ClientExamples ClientThms ClientSync ClientReport ClientStatus ClientSyncEx ClientDirs
  ConvergeSpec ClientConverge.

Lemma Ok_inj {A} (a b : A) : Ok a = Ok b -> a = b. Proof. intros [= H]. exact H. Qed.
Lemma one_mapping_alone E : destinations_apart E (ex_client one_mapping).
Proof. intros m m' q [<-|[]] [<-|[]] _ _. reflexivity. Qed.
Lemma base_a : below_base (ex_client one_mapping) $"http://s.org/r/a".
Proof.
  exists (MkMap $"http://s.org/r" $"/d"), [$"a"]. split; [left; reflexivity|]. split; [discriminate|].
  split; [constructor; [|constructor]; repeat split; try discriminate; apply has_char_false; reflexivity|].
  split; [constructor; [|constructor]; apply has_char_false; reflexivity|reflexivity].
Qed.
Lemma base_b : below_base (ex_client one_mapping) $"http://s.org/r/x/b".
Proof.
  exists (MkMap $"http://s.org/r" $"/d"), [$"x"; $"b"]. split; [left; reflexivity|]. split; [discriminate|].
  split; [repeat constructor; try discriminate; apply has_char_false; reflexivity|].
  split; [repeat constructor; apply has_char_false; reflexivity|reflexivity].
Qed.

(** Two resources of the source, and a destination with one of them and another file. *)
Lemma two_synchronizable : synchronizable two_env (ex_client one_mapping) (start old_tree None).
Proof.
  split.
  - apply old_world_ok.
  - split; [apply old_tree_ok|constructor].
  - split; [apply one_mapping_apart|apply one_mapping_alone].
  - intros m [<-|[]]. split; [discriminate|reflexivity].
  - intros u L. destruct (two_listed u L) as [-> | ->]; [apply base_a|apply base_b].
Qed.
Definition two_list : rdict := source_of two_env (ex_client one_mapping).
Lemma two_found : find_resource_list (e_fetch two_env) (ex_client one_mapping) = Ok two_list.
Proof.
  unfold two_list, source_of. assert (match find_resource_list (e_fetch two_env) (ex_client one_mapping) with Ok _ => true | _ => false end = true) by (vm_compute; reflexivity).
  destruct (find_resource_list (e_fetch two_env) (ex_client one_mapping)); [reflexivity|discriminate].
Qed.
Definition honest_entry (x : str * resource) : bool :=
  match r_timestamp (snd x), r_length (snd x), get_from two_contents 0 (fst x) with Some _, Some n, Data d => n =? zlen d | _, _, _ => false end.
Lemma two_all : forallb honest_entry two_list = true.
Proof. vm_compute. reflexivity. Qed.
Lemma get_from_const files k u : get_from files k u = get_from files 0 u. Proof. reflexivity. Qed.
Lemma two_honest : honest two_env (ex_client one_mapping).
Proof.
  intros u r (src & F & I). rewrite two_found in F. apply Ok_inj in F. subst src.
  pose proof (proj1 (forallb_forall _ _) two_all _ I) as H. unfold honest_entry in H. cbn [fst snd] in H.
  destruct (r_timestamp r); [|discriminate]. split; [discriminate|]. intros k d G x y X Y.
  change (get_from two_contents k u = Data d) in G. rewrite (get_from_const two_contents k u) in G. rewrite G, X in H.
  injection Y as <-. apply Z.eqb_eq in H. exact H.
Qed.
Definition two_end : world := Eval vm_compute in fst (baseline_or_audit two_env (ex_client one_mapping) true false (start old_tree None)).
Lemma two_end_run : baseline_or_audit two_env (ex_client one_mapping) true false (start old_tree None) = (two_end, Ok tt).
Proof. vm_compute. reflexivity. Qed.
Lemma two_end_tree : leaf_at (w_root two_end) [$"d"; $"x"; $"b"] = Some (File $"BBB" (day + SEC)) /\ leaf_at (w_root two_end) [$"d"; $"old"] = None
  /\ dir_at (w_root two_end) [$"d"; $"x"] /\ ~ dir_at old_tree [$"d"; $"x"].
Proof.
  split; [vm_compute; reflexivity|]. split; [vm_compute; reflexivity|]. split; [|intros [es H]; vm_compute in H; discriminate].
  exists (match lookup [$"d"; $"x"] (w_root two_end) with Some (Dir es) => es | _ => [] end). vm_compute. reflexivity.
Qed.

(** The content of a resource has changed, but neither its length nor its time; the list
    has its digest and digests are asked for. *)
Definition stale_env : env := ex_env with_md5 [($"http://s.org/r/a", $"B")].
Lemma stale_listed src : find_resource_list (e_fetch stale_env) (ex_client one_mapping) = Ok src -> src = [($"http://s.org/r/a", listed_a)].
Proof.
  intros F. change (e_fetch stale_env) with (e_fetch md5_env) in F. rewrite md5_source in F. apply Ok_inj in F. rewrite <- F. vm_compute. reflexivity.
Qed.
Lemma stale_synchronizable : synchronizable stale_env (ex_client one_mapping) md5_start.
Proof.
  split.
  - apply (one_world_ok stale_env None eq_refl).
  - split; [|constructor]. apply (names_okb_ok one_tree). vm_compute. reflexivity.
  - split; [apply one_mapping_apart|apply one_mapping_alone].
  - intros m [<-|[]]. split; [discriminate|reflexivity].
  - intros u (src & F & I). rewrite (stale_listed src F) in I. destruct I as [<-|[]]. apply base_a.
Qed.
Lemma stale_honest : honest stale_env (ex_client one_mapping).
Proof.
  intros u r (src & F & I). rewrite (stale_listed src F) in I. destruct I as [[= <- <-]|[]]. split; [discriminate|].
  intros k d G x y X Y. cbn in G. injection G as <-. injection X as <-. injection Y as <-. reflexivity.
Qed.
Definition stale_end : world := Eval vm_compute in fst (baseline_or_audit stale_env (ex_client one_mapping) true false md5_start).
Lemma stale_end_run : baseline_or_audit stale_env (ex_client one_mapping) true false md5_start = (stale_end, Ok tt).
Proof. vm_compute. reflexivity. Qed.
Lemma stale_leaf : leaf_at (w_root stale_end) [$"d"; $"a"] = Some (File $"A" day). Proof. vm_compute. reflexivity. Qed.
Lemma stale : exists E c w w' u r q d d' t, synchronizable E c w /\ honest E c /\ c_dryrun c = false /\ c_ignore_failures c = false /\ (0 < c_tries c)%nat
  /\ baseline_or_audit E c true false w = (w', Ok tt)
  /\ In $"md5" (w_hashes w) /\ source_entry E c u r /\ digest $"md5" r = Some (digest_function (e_digests E) $"md5" d)
  /\ (forall k, e_get E k u = Data d) /\ place_of E c u q /\ leaf_at (w_root w') q = Some (File d' t) /\ d' <> d.
Proof.
  exists stale_env, (ex_client one_mapping), md5_start, stale_end, $"http://s.org/r/a", listed_a, [$"d"; $"a"], $"B", $"A", day.
  split; [apply stale_synchronizable|]. split; [apply stale_honest|]. split; [reflexivity|]. split; [reflexivity|]. split; [apply Nat.ltb_lt; reflexivity|].
  split; [exact stale_end_run|]. split; [left; reflexivity|]. split; [exact md5_entry|]. split; [reflexivity|]. split; [intros k; reflexivity|].
  split; [exists $"/d/a"; split; vm_compute; reflexivity|]. split; [exact stale_leaf|]. discriminate.
Qed.
