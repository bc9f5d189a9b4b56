(** * Prop_Succeed: when a baseline synchronization succeeds *)

From Verif Require Import Py Float64 PathSpec OsPath Mapper MapperSpec Resource ResourceSpec Container ListIndex Hashes Disk DiskSpec
  Builder BuilderSpec Client ClientSpec ClientExamples ClientThms ClientSyncEx ConvergeSpec ClientConverge ConvergeEx SucceedSpec ClientSucceed ClientBlocked SucceedEx.

(** C98: it is said that a source that can be synchronized to an empty destination can
    also be synchronized to the destination as earlier synchronizations left it.  It
    cannot if a file of the source has become a directory, since deletions come last; *)
Theorem C98_refuted : exists E E' c w w', favourable E c w /\ favourable E' c w /\ c_dryrun c = false /\ c_ignore_failures c = false
  /\ e_cwd E' = e_cwd E /\ baseline_or_audit E c true false w = (w', Ok tt)
  /\ forall allow w2, baseline_or_audit E' c allow false w' <> (w2, Ok tt).
Proof. exact becomes_directory. Qed.
Print Assumptions C98_refuted.

(** in general, if a file is on the way to the place of a listed resource, whatever
    the options; *)
Theorem C98_file_in_the_way : forall E c w, synchronizable E c w ->
  forall u q p x rest, listed E c u -> place_of E c u q -> q = p ++ x :: rest -> leaf_at (w_root w) p <> None ->
  forall allow w', baseline_or_audit E c allow false w <> (w', Ok tt).
Proof. exact file_in_the_way. Qed.
Print Assumptions C98_file_in_the_way.

(** nor if a directory has become a file, since directories are never removed. *)
Theorem C98_directory_in_the_way : forall E c w, synchronizable E c w ->
  forall u q, listed E c u -> place_of E c u q -> dir_at (w_root w) q ->
  c_dryrun c = false -> c_ignore_failures c = false -> (0 < c_tries c)%nat ->
  forall allow w', baseline_or_audit E c allow false w <> (w', Ok tt).
Proof. exact directory_in_the_way. Qed.
Print Assumptions C98_directory_in_the_way.

(** If there is room for the files, the data comes within the tries allowed, the source
    has authority, times are before the year 10000 and the client's memory can be read,
    then a baseline synchronization succeeds. *)
Theorem C98_succeeds : forall E c w, favourable E c w -> c_dryrun c = false ->
  forall allow, exists w', baseline_or_audit E c allow false w = (w', Ok tt).
Proof. exact baseline_succeeds. Qed.
Print Assumptions C98_succeeds.

Example C98_example : favourable two_env (ex_client one_mapping) (start old_tree None)
  /\ exists w', baseline_or_audit two_env (ex_client one_mapping) true false (start old_tree None) = (w', Ok tt)
     /\ leaf_at (w_root w') [$"d"; $"x"; $"b"] = Some (File $"BBB" (day + SEC)).
Proof. split; [exact two_favourable|]. exists two_end. split; [exact two_end_run|]. apply two_end_tree. Qed.

Example C98_file_example : exists w u q p x rest, synchronizable (one_env file_b) (ex_client one_mapping) w
  /\ listed (one_env file_b) (ex_client one_mapping) u /\ place_of (one_env file_b) (ex_client one_mapping) u q
  /\ q = p ++ x :: rest /\ leaf_at (w_root w) p <> None.
Proof.
  exists x_end, file_b, [$"d"; $"x"; $"b"], [$"d"; $"x"], $"b", []. split; [exact b_after_x|]. split; [exact b_listed|]. split; [exact b_place|].
  split; [reflexivity|]. rewrite x_end_leaf. discriminate.
Qed.
Example C98_directory_example : exists w u q, synchronizable (one_env file_x) (ex_client one_mapping) w
  /\ listed (one_env file_x) (ex_client one_mapping) u /\ place_of (one_env file_x) (ex_client one_mapping) u q /\ dir_at (w_root w) q.
Proof. exists b_end, file_x, [$"d"; $"x"]. split; [exact x_after_b|]. split; [exact x_listed|]. split; [exact x_place|exact b_dir]. Qed.
