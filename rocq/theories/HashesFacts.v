(** * HashesFacts: lemmas about file digests *)

From Verif Require Import Py PyFacts Resource Hashes.

Lemma update_app a b h : update_hashes b (update_hashes a h) = update_hashes (a ++ b) h.
Proof.
  unfold update_hashes. destruct h as [? ? ? m s t]. cbn. f_equal; [destruct m|destruct s|destruct t]; cbn; rewrite <- ?app_assoc; reflexivity.
Qed.
Lemma update_nil h : update_hashes [] h = h.
Proof.
  unfold update_hashes. destruct h as [? ? ? m s t]. cbn. f_equal; [destruct m|destruct s|destruct t]; cbn; rewrite ?app_nil_r; reflexivity.
Qed.

Lemma read_loop_all f : forall n data h, n <> 0 -> (List.length data < f)%nat ->
  read_loop f n data h = update_hashes data h.
Proof.
  induction f as [|f IH]; intros n data h N L; [lia|]. cbn [read_loop]. unfold read_block.
  destruct (Z.ltb_spec n 0).
  - destruct data as [|c data]; [now rewrite update_nil|]. rewrite IH; [|assumption|cbn [List.length]; cbn [List.length] in L; lia].
    now rewrite update_nil.
  - destruct (firstn (Z.to_nat n) data) as [|c b] eqn:E.
    + destruct data as [|x data]; [now rewrite update_nil|]. destruct (Z.to_nat n) eqn:Z0; [lia|discriminate].
    + rewrite IH; [|assumption|].
      * rewrite update_app, <- E, firstn_skipn. reflexivity.
      * apply (f_equal (@List.length ascii)) in E. rewrite firstn_length in E. rewrite skipn_length. cbn [List.length] in E. lia.
Qed.

Lemma digests_of_file D names h n data : new_hashes names = Ok h -> n <> 0 ->
  let h' := compute_for_file n data h in
  hash_md5 D h' = (if in_strs $"md5" names then Some (of_md5 D data) else None)
  /\ hash_sha1 D h' = (if in_strs $"sha-1" names then Some (of_sha1 D data) else None)
  /\ hash_sha256 D h' = (if in_strs $"sha-256" names then Some (of_sha256 D data) else None).
Proof.
  unfold new_hashes. destruct (forallb _ names); [|discriminate]. intros [= <-] N. cbv zeta.
  unfold compute_for_file. rewrite read_loop_all by (auto; lia).
  unfold hash_md5, hash_sha1, hash_sha256, update_hashes, initialize_hashes. cbn.
  destruct (in_strs $"md5" names), (in_strs $"sha-1" names), (in_strs $"sha-256" names); auto.
Qed.

Lemma same_again names h n data n' data' : new_hashes names = Ok h -> n <> 0 -> n' <> 0 ->
  compute_for_file n data (compute_for_file n' data' h) = compute_for_file n data h.
Proof.
  unfold new_hashes. destruct (forallb _ names); [|discriminate]. intros [= <-] N N'.
  unfold compute_for_file. rewrite !read_loop_all by (auto; lia).
  unfold update_hashes, initialize_hashes. cbn.
  destruct (in_strs $"md5" names), (in_strs $"sha-1" names), (in_strs $"sha-256" names); reflexivity.
Qed.

Lemma new_hashes_iff names : (exists h, new_hashes names = Ok h) <-> (forall n, In n names -> In n hash_names).
Proof.
  unfold new_hashes. split.
  - destruct (forallb _ names) eqn:E; [|intros (h & [=])]. intros _ n I. rewrite forallb_forall in E.
    now apply in_strs_In, E.
  - intros H. replace (forallb _ names) with true; [eauto|]. symmetry. apply forallb_forall. intros n I. now apply in_strs_In, H.
Qed.

Lemma hash_set_resource D names h n data r : new_hashes names = Ok h -> n <> 0 ->
  hash_set D (compute_for_file n data h) r
  = set_sha256 (if in_strs $"sha-256" names then Some (of_sha256 D data) else r_sha256 r)
      (set_sha1 (if in_strs $"sha-1" names then Some (of_sha1 D data) else r_sha1 r)
        (set_md5 (if in_strs $"md5" names then Some (of_md5 D data) else r_md5 r) r)).
Proof.
  unfold new_hashes. destruct (forallb _ names); [|discriminate]. intros [= <-] N.
  unfold compute_for_file. rewrite read_loop_all by (auto; lia).
  unfold hash_set, hash_md5, hash_sha1, hash_sha256, update_hashes, initialize_hashes. destruct r; cbn.
  destruct (in_strs $"md5" names), (in_strs $"sha-1" names), (in_strs $"sha-256" names); reflexivity.
Qed.
