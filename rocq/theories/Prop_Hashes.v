(** * Property C41: digests of files *)

From Verif Require Import Py Resource Hashes HashesFacts.

(** C41: the digests that were asked for are those of the whole file, whatever the
    block size; the others are None. *)
Theorem C41_whole_file : forall D names h n data, new_hashes names = Ok h -> n <> 0 ->
  let h' := compute_for_file n data h in
  hash_md5 D h' = (if in_strs $"md5" names then Some (of_md5 D data) else None)
  /\ hash_sha1 D h' = (if in_strs $"sha-1" names then Some (of_sha1 D data) else None)
  /\ hash_sha256 D h' = (if in_strs $"sha-256" names then Some (of_sha256 D data) else None).
Proof. exact digests_of_file. Qed.
Print Assumptions C41_whole_file.
(** The object can be used for one file after the other. *)
Theorem C41_again : forall names h n data n' data', new_hashes names = Ok h -> n <> 0 -> n' <> 0 ->
  compute_for_file n data (compute_for_file n' data' h) = compute_for_file n data h.
Proof. exact same_again. Qed.
Print Assumptions C41_again.
(** Exactly the three supported types can be asked for. *)
Theorem C41_types : forall names,
  (exists h, new_hashes names = Ok h) <-> (forall n, In n names -> In n [$"md5"; $"sha-1"; $"sha-256"]).
Proof. exact new_hashes_iff. Qed.
Print Assumptions C41_types.
(** Digests are stored in a resource; those not asked for stay as they are. *)
Theorem C41_set : forall D names h n data r, new_hashes names = Ok h -> n <> 0 ->
  hash_set D (compute_for_file n data h) r
  = set_sha256 (if in_strs $"sha-256" names then Some (of_sha256 D data) else r_sha256 r)
      (set_sha1 (if in_strs $"sha-1" names then Some (of_sha1 D data) else r_sha1 r)
        (set_md5 (if in_strs $"md5" names then Some (of_md5 D data) else r_md5 r) r)).
Proof. exact hash_set_resource. Qed.
Print Assumptions C41_set.

Example C41_example : exists h,
  new_hashes [$"sha-256"; $"md5"; $"md5"] = Ok h
  /\ let h' := compute_for_file 2 $"hello" h in
     let D := MkDigests (fun s => $"m" ++ s) (fun s => $"s" ++ s) (fun s => $"t" ++ s) in
     hash_md5 D h' = Some $"mhello" /\ hash_sha1 D h' = None /\ hash_sha256 D h' = Some $"thello".
Proof. eexists. split; [reflexivity|]. vm_compute. auto. Qed.
