(** * MirrorEx: a small tree is published and copied *)

From Verif Require Import Py PyFacts Float64 W3C Url UrlAuthority PathSpec OsPath Mapper MapperSpec Resource ResourceSpec Container
  ContainerSpec Capability Xml Sitemap Opener ListIndex Hashes Disk DiskSpec DiskFacts Builder BuilderSpec BuilderFacts ClientState
  Client ClientSpec ClientExamples ClientThms ConvergeSpec SucceedSpec Build PublishSpec PublishFacts PublishEx MirrorSpec Mirror.

Definition mirror_base : str := $"http://s.org/r".
Definition mirror_sm : str := $"http://s.org/r/resourcelist.xml".
Definition mirror_files : list (str * str) :=
  [($"http://s.org/r/a", $"A1"); ($"http://s.org/r/same", $"S"); ($"http://s.org/r/x/old", $"OLD")].
Definition mirror_env (text : str) : env := ex_env [(mirror_sm, text)] mirror_files.

Lemma leaf_step es x rest : leaf_at (Dir es) (x :: rest) = match sget x es with Some n => leaf_at n rest | None => None end.
Proof. unfold leaf_at. cbn [lookup]. destruct (sget x es); reflexivity. Qed.
Lemma leaf_file b s rest d t : leaf_at (File b s) rest = Some (File d t) -> rest = [] /\ d = b.
Proof. destruct rest; [|discriminate]. intros H. unfold leaf_at in H. cbn [lookup] in H. inversion H. auto. Qed.
Lemma before_files rel d t : source_file (pub_env before_tree) $"/d" rel d t ->
  rel = [$"a"] /\ d = $"A1" \/ rel = [$"same"] /\ d = $"S" \/ rel = [$"x"; $"old"] /\ d = $"OLD".
Proof.
  unfold source_file. change (denotes (be_cwd (pub_env before_tree)) $"/d") with [$"d"]. change (be_root (pub_env before_tree)) with before_tree.
  change ([$"d"] ++ rel) with ($"d" :: rel). unfold before_tree. rewrite leaf_step. cbn [sget]. rewrite str_eqb_refl.
  destruct rel as [|x rel]; [discriminate|]. rewrite leaf_step. cbn [sget].
  destruct (str_eqb_spec x $"a") as [->|_]; [intros H; apply leaf_file in H; destruct H as [-> ->]; auto|].
  destruct (str_eqb_spec x $"same") as [->|_]; [intros H; apply leaf_file in H; destruct H as [-> ->]; auto|].
  destruct (str_eqb_spec x $"x") as [->|_]; [|discriminate]. destruct rel as [|y rel]; [discriminate|]. rewrite leaf_step. cbn [sget].
  destruct (str_eqb_spec y $"old") as [->|_]; [intros H; apply leaf_file in H; destruct H as [-> ->]; auto|discriminate].
Qed.
(** No device in the tree, as a check. *)
Fixpoint specials_okb (n : node) : bool :=
  match n with
  | Dir es => (fix all (es : list (str * node)) := match es with [] => true | (_, m) :: es' => specials_okb m && all es' end) es
  | Special _ => false
  | _ => true
  end.
Lemma specials_okb_ok names : forall n m, specials_okb n = true -> lookup names n <> Some (Special m).
Proof.
  induction names as [|x names IH]; intros n m B; [cbn; intros [= ->]; discriminate|].
  destruct n as [b s|es|l|k0]; try discriminate. cbn [lookup]. destruct (sget x es) as [k|] eqn:G; [|discriminate]. apply IH.
  revert B G. cbn [specials_okb]. induction es as [|[y j] es IH2]; [discriminate|]. rewrite andb_true_iff. intros [B1 B2]. cbn [sget].
  destruct (str_eqb x y); [intros [= <-]; exact B1|exact (IH2 B2)].
Qed.
Lemma mirror_publisher : publisher (pub_env before_tree) pub_client mirror_base $"/d" (listed_at before_tree false).
Proof.
  split.
  - reflexivity.
  - reflexivity.
  - exact before_publishable.
  - apply before_scan.
  - apply Z.leb_le. vm_compute. reflexivity.
  - apply one_mapping_apart.
  - apply names_okb_ok. vm_compute. reflexivity.
  - intros names m. exact (specials_okb_ok names before_tree m eq_refl).
  - split; [discriminate|reflexivity].
  - exists [$"a"], $"A1", day. reflexivity.
Qed.
Lemma mirror_copier text : copier (mirror_env text) (ex_client one_mapping) (start (Dir []) None) mirror_base $"/d" mirror_sm.
Proof.
  split.
  - reflexivity.
  - reflexivity.
  - split; [reflexivity|]. split; [reflexivity|apply Nat.ltb_lt; reflexivity].
  - apply one_mapping_apart.
  - vm_compute. reflexivity.
  - split; [apply names_okb_ok; reflexivity|]. split; [eexists; reflexivity|constructor].
  - split; [apply (proj2 (names_okb_ok (Dir []) eq_refl))|constructor].
  - split; [discriminate|]. intros p rest _. destruct p; reflexivity.
  - intros x. reflexivity.
  - exists (MkIni [] []). reflexivity.
  - split; [intros h []|left; reflexivity].
Qed.
Lemma mirror_serves text : serves (mirror_env text) (ex_client one_mapping) (pub_env before_tree) mirror_base $"/d" mirror_sm text.
Proof.
  split; [unfold mirror_env, ex_env, e_fetch, fetch_from, sget; rewrite str_eqb_refl; reflexivity|].
  intros rel d t S. destruct (before_files rel d t S) as [[-> ->]|[[-> ->]|[-> ->]]]; (split; [intros k; vm_compute; reflexivity|right; vm_compute; reflexivity]).
Qed.
