(** * DumpExamples: cases of the properties of dumps *)

From Coq Require Import Permutation Sorted Lia.
From Verif Require Import Py PyFacts Float64 OsPath OsPathFacts Resource ResourceSpec Container ContainerSpec ContainerFacts
  Xml Sitemap SitemapSpec Opener ListIndex Dump PathSpec DumpSpec DumpFacts DumpWrite DumpProps.

Definition at_path (u p : str) : resource := set_path (Some p) (new_resource u).
Definition sized (u : str) (n : Z) : resource := set_length (Some n) (new_resource u).
Definition no_md5 : str -> str := fun _ => $"d41d8cd98f00b204e9800998ecf8427e".
Definition no_clock : str -> Z := fun _ => 0.

(** ** C42, C43 *)

Definition three_sizes : list resource := [sized $"http://ex.org/a" 6; sized $"http://ex.org/b" 6; sized $"http://ex.org/c" 1].

Lemma three_sizes_parts :
  NoDup (map r_uri three_sizes) /\ Forall (fun r => r_length r <> None) three_sizes
  /\ map rl_iter (fst (partition_dumps 12 2 three_sizes)) = [firstn 2 three_sizes; skipn 2 three_sizes]
  /\ map rl_iter (fst (partition_dumps 10 5 three_sizes)) = [firstn 2 three_sizes; skipn 2 three_sizes].
Proof.
  split; [|split; [|split; vm_compute; reflexivity]].
  - unfold three_sizes. cbn [map]. repeat (constructor; [cbn; intuition discriminate|]). constructor.
  - repeat constructor; discriminate.
Qed.

Lemma size_exceeded : exists max_size max_files rs m,
  Forall (fun r => size_of r <= max_size) rs /\ partition_dumps max_size max_files rs = ([m], None)
  /\ max_size < total_size (rl_iter m).
Proof.
  exists 10, 50000, [sized $"http://ex.org/a" 9; sized $"http://ex.org/b" 9]. eexists. split; [|split].
  - repeat constructor; vm_compute; discriminate.
  - vm_compute. reflexivity.
  - vm_compute. reflexivity.
Qed.

(** ** C44 *)

Definition two_dirs : list resource := [at_path $"http://ex.org/a" $"/data/abc/x"; at_path $"http://ex.org/b" $"/data/abd/y"].
Definition two_files : fsys := [($"/data/abc/x", MkFile $"one" 0); ($"/data/abd/y", MkFile $"two!" 0)].

Lemma dots_in_archive : exists s z,
  dump_write no_md5 no_clock $"/" 1000 50000 $"zip" $"/tmp/rd_" false two_dirs two_files = (s, Ok 1)
  /\ w_zips s = [($"/tmp/rd_00000.zip", z)] /\ map fst (z_entries z) = [$"../abc/x"; $"../abd/y"].
Proof. eexists. eexists. split; [vm_compute; reflexivity|]. split; vm_compute; reflexivity. Qed.

Definition manifest_dir : list resource := [at_path $"http://ex.org/a" $"/data/manifest.xml"; at_path $"http://ex.org/b" $"/data/y"].
Definition manifest_files : fsys := [($"/data/manifest.xml", MkFile $"one" 0); ($"/data/y", MkFile $"two!" 0)].
Lemma manifest_twice : exists s z,
  dump_write no_md5 no_clock $"/" 1000 50000 $"zip" $"/tmp/rd_" false manifest_dir manifest_files = (s, Ok 1)
  /\ w_zips s = [($"/tmp/rd_00000.zip", z)] /\ zip_namelist z = [$"manifest.xml"; $"manifest.xml"; $"y"].
Proof. eexists. eexists. split; [vm_compute; reflexivity|]. split; vm_compute; reflexivity. Qed.

Definition dotted : list resource := [at_path $"http://ex.org/a" $"a/./b"; at_path $"http://ex.org/b" $"c"].
Definition dotted_files : fsys := [($"a/./b", MkFile $"one" 0); ($"c", MkFile $"two!" 0)].
Lemma names_disagree : exists s z d,
  dump_write no_md5 no_clock $"/" 1000 50000 $"zip" $"/tmp/rd_" false dotted dotted_files = (s, Ok 1)
  /\ w_zips s = [($"/tmp/rd_00000.zip", z)] /\ map fst (z_entries z) = [$"a/b"; $"c"]
  /\ list_parse (fun r => rl_add r false) default_settings (Some manifest_name) (MkDoc [] [] []) (z_manifest z) = Ok d
  /\ map r_path (rl_iter (d_items d)) = [Some $"a/./b"; Some $"c"].
Proof.
  eexists. eexists. eexists. split; [vm_compute; reflexivity|]. split; [vm_compute; reflexivity|].
  split; [vm_compute; reflexivity|]. split; vm_compute; reflexivity.
Qed.

(** A dump that does work: files in a directory and below, and two directories. *)
Definition tree : list resource :=
  [at_path $"http://ex.org/a" $"/data/x"; at_path $"http://ex.org/b" $"/data/sub/y"; at_path $"http://ex.org/c" $"/data/sub/z"].
Definition tree_files : fsys :=
  [($"/data/x", MkFile $"one" 0); ($"/data/sub/y", MkFile $"two!" 0); ($"/data/sub/z", MkFile $"three" 0); ($"/data/other", MkFile $"" 0)].

Lemma name_ok (c : str) : c <> [] -> c <> $"." -> c <> $".." -> existsb (ceqb "/") c = false -> file_name c.
Proof.
  intros A B C D. repeat split; auto. intros I. assert (E : existsb (ceqb "/") c = true) by (apply existsb_exists; eauto). congruence.
Qed.
Ltac names := repeat (constructor; [apply name_ok; [discriminate|discriminate|discriminate|reflexivity]|]); constructor.

Lemma at_good u p : u <> [] -> good_resource (at_path u p).
Proof.
  assert (T : plain_time None) by (intros t; discriminate). assert (W : ws_free None) by (intros v c; discriminate).
  intros N. split; [exact N|]. split; [cbn; auto 10|]. split; [cbn; auto|]. split; [now left|constructor].
Qed.
Lemma at_legal u p : forallb (fun c => N.leb 32 (code c)) u = true -> forallb (fun c => N.leb 32 (code c)) p = true -> legal_resource (at_path u p).
Proof.
  intros U P. assert (LG : forall s : str, forallb (fun c => N.leb 32 (code c)) s = true -> legal s).
  { intros s F c I. left. rewrite forallb_forall in F. now apply N.leb_le, F. }
  assert (X : legal_opt None) by (intros t; discriminate).
  split; [split; [now apply LG|]|split; [split; [exact X|split; [|exact X]]|split; [split; [exact X|split; exact X]|constructor]]].
  - intros I. rewrite forallb_forall in U. apply U in I. discriminate I.
  - intros t [= <-]. now apply LG.
Qed.

Lemma tree_ok : common_top true [$"data"] tree /\ Forall (dumpable tree_files 1000 true) tree /\ NoDup (map r_uri tree)
  /\ Forall good_resource tree /\ Forall legal_resource tree
  /\ (forall r n, In r tree -> 0 <= n -> r_path r <> Some (manifest_file $"/tmp/rd_" n)).
Proof.
  split; [split|split; [|split; [|split; [|split]]]].
  - intros r [<-|[<-|[<-|[]]]]; [exists [$"x"]|exists [$"sub"; $"y"]|exists [$"sub"; $"z"]]; (split; [discriminate|]); (split; [names|reflexivity]).
  - left. exists (at_path $"http://ex.org/a" $"/data/x"), $"x". split; [now left|]. split; [names|reflexivity].
  - repeat (apply Forall_cons; [eexists; eexists; (split; [reflexivity|]); (split; [vm_compute; reflexivity|]); (split; [discriminate|vm_compute; discriminate])|]). apply Forall_nil.
  - cbn [map tree]. repeat (constructor; [cbn; intuition discriminate|]). constructor.
  - repeat (apply Forall_cons; [apply at_good; discriminate|]). apply Forall_nil.
  - repeat (apply Forall_cons; [apply at_legal; reflexivity|]). apply Forall_nil.
  - intros r n I _ E. assert (S : exists t, manifest_file $"/tmp/rd_" n = $"/tmp/" ++ t) by (eexists; reflexivity). destruct S as (t & S). rewrite S in E.
    destruct I as [<-|[<-|[<-|[]]]]; discriminate E.
Qed.

Lemma tree_dump : exists s z1 z2,
  dump_write no_md5 no_clock $"/" 7 50000 $"zip" $"/tmp/rd_" true tree tree_files = (s, Ok 2)
  /\ w_zips s = [($"/tmp/rd_00000.zip", z1); ($"/tmp/rd_00001.zip", z2)]
  /\ z_entries z1 = [($"x", $"one"); ($"sub/y", $"two!")] /\ z_entries z2 = [($"sub/z", $"three")].
Proof. eexists. eexists. eexists. split; [vm_compute; reflexivity|]. repeat split; vm_compute; reflexivity. Qed.

(** ** C75 *)
Lemma paths_changed : exists s s',
  dump_write no_md5 no_clock $"/" 1000 50000 $"zip" $"/tmp/rd_" false tree tree_files = (s, Ok 1)
  /\ map r_path (w_done s) = [Some $"x"; Some $"sub/y"; Some $"sub/z"]
  /\ dump_write no_md5 no_clock $"/" 1000 50000 $"zip" $"/tmp/rd_" false (w_done s) tree_files = (s', Err IOError).
Proof. eexists. eexists. split; [vm_compute; reflexivity|]. split; vm_compute; reflexivity. Qed.

(** ** C76 *)
Lemma manifest_local_paths : exists s f d,
  dump_write no_md5 no_clock $"/" 1000 50000 $"zip" $"/tmp/rd_" true tree tree_files = (s, Ok 1)
  /\ sget $"/tmp/rd_00000.xml" (w_fs s) = Some f
  /\ list_parse (fun r => rl_add r false) default_settings (Some manifest_name) (MkDoc [] [] []) (f_data f) = Ok d
  /\ map r_path (rl_iter (d_items d)) = [Some $"/data/x"; Some $"/data/sub/y"; Some $"/data/sub/z"].
Proof.
  eexists. eexists. eexists. split; [vm_compute; reflexivity|]. split; [vm_compute; reflexivity|]. split; vm_compute; reflexivity.
Qed.
