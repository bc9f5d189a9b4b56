(** * ClientDirs: the directories made by synchronization *)

From Verif Require Import Py PyFacts PathSpec OsPath Mapper MapperSpec Resource Container ContainerSpec Hashes ListIndex
  Disk DiskSpec DiskFacts DiskChange Builder BuilderSpec Capability Xml Sitemap Client ClientSpec ClientLists ClientFacts ClientRuns ClientInc ClientCompare ClientPlaces ClientProps.

(** The directories of [w'] are those of [w] and some of [Q]. *)
Definition dirs_by (Q : list str -> Prop) (w w' : world) : Prop :=
  forall q, dir_at (w_root w') q -> dir_at (w_root w) q \/ Q q.
(** [q] is the directory of the path or leads to it. *)
Definition dir_of (cwd : list str) (p : str) (q : list str) : Prop :=
  os_dirname p <> [] /\ exists rest, denotes cwd (os_dirname p) = q ++ rest.
Definition dirs_of (E : env) (c : client) (rs : list resource) (q : list str) : Prop :=
  exists r p, In r rs /\ src_to_dst (c_mapper c) (r_uri r) = Ok p /\ dir_of (e_cwd E) p q.

Lemma dirs_refl Q w : dirs_by Q w w. Proof. intros q H. auto. Qed.
Lemma dirs_same Q w w' : w_root w' = w_root w -> dirs_by Q w w'. Proof. intros E q H. rewrite E in H. auto. Qed.
Lemma dirs_trans Q a b c : dirs_by Q a b -> dirs_by Q b c -> dirs_by Q a c.
Proof. intros A B q H. destruct (B q H); auto. Qed.
Lemma dirs_mono (Q R : list str -> Prop) a b : (forall q, Q q -> R q) -> dirs_by Q a b -> dirs_by R a b.
Proof. intros M A q H. destruct (A q H); auto. Qed.

Lemma attempt_dirs Q E uri fn w w' r : attempt E uri fn w = (w', r) -> dirs_by Q w w'.
Proof.
  unfold attempt. change (w_root (with_gets (w_gets w ++ [uri]) w)) with (w_root w).
  assert (forall d root', write_file (e_cwd E) (w_root w) fn d (e_now E) = Ok root' ->
    dirs_by Q w (with_root root' (with_gets (w_gets w ++ [uri]) w))) as W.
  { intros d root' H q D. apply write_file_ok in H. destruct H as (_ & _ & H & _). left. apply H, D. }
  destruct (e_get E _ uri) as [e|d|d e]; [|destruct (write_file _ _ _ d _) eqn:WF..].
  all: intros [= <- <-]; try (apply dirs_same; reflexivity); eauto.
Qed.
Lemma download_dirs Q E c uri fn : forall left w w' r, download E c left uri fn w = (w', r) -> dirs_by Q w w'.
Proof.
  induction left as [|left IH]; cbn [download]; intros w w' r H; [injection H as <- <-; apply dirs_refl|].
  destruct (attempt E uri fn w) as [w1 x] eqn:A. apply (attempt_dirs Q) in A.
  destruct x as [u|e]; [injection H as <- <-; exact A|].
  destruct e; try (injection H as <- <-; exact A).
  destruct left; [injection H as <- <-; exact A|]. apply IH in H. eapply dirs_trans; eauto.
Qed.
Lemma update_dirs E c r fn w w' x : update_resource E c r fn w = (w', x) -> dirs_by (dir_of (e_cwd E) fn) w w'.
Proof.
  unfold update_resource. intros H. apply andthen_inv in H.
  assert (forall w1 y, match mkpath (e_cwd E) (w_root w) (os_dirname fn) with Ok root => (with_root root w, Ok tt) | Err e => (w, Err e) end = (w1, y) ->
    dirs_by (dir_of (e_cwd E) fn) w w1) as MK.
  { intros w1 y. destruct (mkpath (e_cwd E) (w_root w) (os_dirname fn)) as [root'|e] eqn:M; intros [= <- <-]; [|apply dirs_refl].
    intros q D. destruct (os_dirname fn) as [|ch d] eqn:N.
    - cbn in M. injection M as <-. auto.
    - apply mkpath_ok in M. destruct M as (_ & _ & M & _). cbn in D. apply M in D; [|discriminate].
      destruct D as [D|(rest & D)]; [auto|]. right. split; [congruence|]. rewrite N, <- resolve_denotes. eauto. }
  destruct H as [(w1 & [] & M & H)|(e & M & ->)]; [|apply (MK _ _ M)]. apply MK in M. clear MK.
  eapply dirs_trans; [exact M|]. clear M.
  destruct (c_dryrun c); [injection H as <- <-; apply dirs_refl|].
  apply andthen_inv in H. destruct H as [(w2 & got & D & H)|(e & D & ->)]; apply (download_dirs (dir_of (e_cwd E) fn)) in D; [|exact D].
  eapply dirs_trans; [exact D|]. clear D. destruct got as [b|]; [|injection H as <- <-; apply dirs_refl].
  apply andthen_inv in H.
  assert (forall y w3, match r_timestamp r with
        | None => ret tt
        | Some t =>
            (fun w => match utime (e_cwd E) (w_root w) fn (whole_seconds t) with
                      | Ok root => (with_root root w, Ok tt)
                      | Err e => (w, Err e)
                      end) ;;;
            modify (fun w => if w_last w <? t then with_last t w else w)
        end w2 = (w3, y) -> dirs_by (dir_of (e_cwd E) fn) w2 w3) as U.
  { intros y w3. destruct (r_timestamp r) as [t|]; [|intros [= <- <-]; apply dirs_refl].
    intros U. apply andthen_inv in U.
    destruct (utime (e_cwd E) (w_root w2) fn (whole_seconds t)) as [root2|e] eqn:UT.
    - destruct U as [(w4 & [] & U & V)|(e & U & ->)]; [|discriminate]. injection U as <-. unfold modify in V. injection V as <- _.
      apply utime_ok in UT. destruct UT as (_ & _ & _ & _ & _ & UT & _). intros q D. left. apply UT.
      destruct (w_last _ <? t); exact D.
    - destruct U as [(w4 & [] & U & V)|(e' & U & ->)]; [discriminate|]. injection U as <- _. apply dirs_refl. }
  destruct H as [(w3 & [] & S & H)|(e & S & ->)]; apply U in S; [|exact S]. eapply dirs_trans; [exact S|]. clear U S.
  apply andthen_inv in H. destruct H as [(w4 & data & F & H)|(e & F & ->)]; injection F as <- F; [|apply dirs_refl].
  apply dirs_same. apply andthen_inv in H.
  assert (forall y w5, match r_length r with
        | Some n => if n =? zlen data then ret tt else log (SizeDiffers (r_uri r) (zlen data) n)
        | None => ret tt
        end w3 = (w5, y) -> w_root w5 = w_root w3) as L.
  { intros y w5. destruct (r_length r) as [n|]; [destruct (n =? _)|]; intros [= <- <-]; reflexivity. }
  destruct H as [(w5 & [] & S & H)|(e & S & ->)]; apply L in S; [|exact S]. rewrite <- S. clear L S.
  apply andthen_inv in H. destruct H as [(w6 & [] & C & H)|(e & C & ->)]; apply check_hashes_effect in C; [|apply C].
  injection H as <- <-. apply C.
Qed.
Lemma delete_dirs Q E c allow r fn w w' x : tree_ok (w_root w) -> delete_resource E c allow r fn w = (w', x) -> dirs_by Q w w'.
Proof.
  intros T. unfold delete_resource. intros H. apply andthen_inv in H.
  destruct H as [(w1 & [] & M & H)|(e & M & ->)]; [|discriminate]. unfold modify in M.
  assert (w_root w1 = w_root w) as R by (injection M as <-; destruct (r_timestamp r) as [t|]; [destruct (_ <? t)|]; reflexivity).
  clear M. destruct (allow && negb (c_dryrun c)); [|injection H as <- <-; apply dirs_same, R].
  rewrite R in H. destruct (unlink _ (w_root w) fn) as [root'|e] eqn:U; injection H as <- <-; [|apply dirs_same, R].
  apply (unlink_ok _ _ _ _ T) in U. destruct U as (_ & _ & _ & _ & U & _). intros q D. left. apply U, D.
Qed.

Lemma dirs_head E c r rs p : src_to_dst (c_mapper c) (r_uri r) = Ok p -> forall q, dir_of (e_cwd E) p q -> dirs_of E c (r :: rs) q.
Proof. intros S q D. exists r, p. split; [left; reflexivity|auto]. Qed.
Lemma dirs_tail E c r rs q : dirs_of E c rs q -> dirs_of E c (r :: rs) q.
Proof. intros (r' & p & I & R). exists r', p. split; [right; exact I|exact R]. Qed.
Lemma dirs_incl E c rs rs' q : incl rs rs' -> dirs_of E c rs q -> dirs_of E c rs' q.
Proof. intros A (r & p & I & R). exists r, p. split; [apply A, I|exact R]. Qed.

Lemma updates_dirs E c rs : forall w w' x, for_each c (update_resource E c) rs w = (w', x) -> dirs_by (dirs_of E c rs) w w'.
Proof.
  induction rs as [|r rs IH]; cbn [for_each]; intros w w' x H; [injection H as <- <-; apply dirs_refl|].
  apply andthen_inv in H. destruct H as [(w1 & p & S & H)|(e & S & ->)]; unfold lift in S; injection S as <- S; [|apply dirs_refl].
  apply andthen_inv in H. destruct H as [(w2 & n & U & H)|(e & U & ->)]; apply update_dirs in U;
    apply (dirs_mono _ _ _ _ (dirs_head E c r rs p S)) in U; [|exact U].
  eapply dirs_trans; [exact U|]. apply (dirs_mono (dirs_of E c rs)); [intros q; apply dirs_tail|].
  apply andthen_inv in H. destruct H as [(w3 & m & L & H)|(e & L & ->)]; [injection H as <- <-|]; apply (IH _ _ _ L).
Qed.
Lemma deletes_dirs Q E c allow rs : forall w w' x, tree_ok (w_root w) -> Forall file_name (e_cwd E) ->
  for_each c (delete_resource E c allow) rs w = (w', x) -> dirs_by Q w w'.
Proof.
  induction rs as [|r rs IH]; cbn [for_each]; intros w w' x T F H; [injection H as <- <-; apply dirs_refl|].
  apply andthen_inv in H. destruct H as [(w1 & p & S & H)|(e & S & ->)]; unfold lift in S; injection S as <- S; [|apply dirs_refl].
  apply andthen_inv in H. destruct H as [(w2 & n & U & H)|(e & U & ->)]; pose proof (delete_dirs Q _ _ _ _ _ _ _ _ T U) as D; [|exact D].
  eapply dirs_trans; [exact D|]. apply delete_effect in U; [|exact T]. destruct U as (U & _).
  assert (tree_ok (w_root w2)) as T2 by (apply (oa_tree _ _ _ _ U); auto).
  apply andthen_inv in H. destruct H as [(w3 & m & L & H)|(e & L & ->)]; [injection H as <- <-|]; apply (IH _ _ _ T2 F L).
Qed.
Lemma transfers_dirs E c allow cmp w w' x : tree_ok (w_root w) -> Forall file_name (e_cwd E) -> transfers E c allow cmp w = (w', x) ->
  dirs_by (dirs_of E c (rl_iter (created cmp) ++ rl_iter (updated cmp))) w w'.
Proof.
  intros T F H. unfold transfers in H.
  assert (forall q, dirs_of E c (rl_iter (created cmp)) q -> dirs_of E c (rl_iter (created cmp) ++ rl_iter (updated cmp)) q) as M1
    by (intros q; apply dirs_incl; intros r I; apply in_app_iff; auto).
  assert (forall q, dirs_of E c (rl_iter (updated cmp)) q -> dirs_of E c (rl_iter (created cmp) ++ rl_iter (updated cmp)) q) as M2
    by (intros q; apply dirs_incl; intros r I; apply in_app_iff; auto).
  apply andthen_inv in H. destruct H as [(w1 & nc & C & H)|(e & C & ->)]; pose proof (updates_dirs _ _ _ _ _ _ C) as D1;
    apply (dirs_mono _ _ _ _ M1) in D1; [|exact D1].
  eapply dirs_trans; [exact D1|]. pose proof (for_each_update _ _ _ _ _ _ C) as (O1 & _). pose proof (oa_tree _ _ _ _ O1 T F) as T1.
  apply andthen_inv in H. destruct H as [(w2 & nu & U & H)|(e & U & ->)]; pose proof (updates_dirs _ _ _ _ _ _ U) as D2;
    apply (dirs_mono _ _ _ _ M2) in D2; [|exact D2].
  eapply dirs_trans; [exact D2|]. pose proof (for_each_update _ _ _ _ _ _ U) as (O2 & _). pose proof (oa_tree _ _ _ _ O2 T1 F) as T2.
  apply andthen_inv in H. destruct H as [(w3 & nd & D & H)|(e & D & ->)]; [injection H as <- _|]; apply (deletes_dirs _ _ _ _ _ _ _ _ T2 F D).
Qed.
Lemma apply_changes_dirs E c allow rs : forall w w' x, tree_ok (w_root w) -> Forall file_name (e_cwd E) ->
  apply_changes E c allow rs w = (w', x) ->
  dirs_by (dirs_of E c (filter is_update rs)) w w'.
Proof.
  induction rs as [|r rs IH]; intros w w' x T F H.
  - injection H as <- <-. apply dirs_refl.
  - apply apply_changes_cons in H. destruct H as [(e & S & -> & ->)|(p & S & [(_ & _ & -> & ->)|(w1 & y & O & H)])]; try apply dirs_refl.
    assert (tree_ok (w_root w1)) as T1 by (pose proof (one_change _ _ _ _ _ _ _ _ T F O) as (O1 & _); apply (oa_tree _ _ _ _ O1 T F)).
    assert (dirs_by (dirs_of E c (filter is_update (r :: rs))) w w1) as D.
    { cbn [filter]. destruct (is_update r).
      - apply update_dirs in O. apply (dirs_mono _ _ _ _ (dirs_head E c r _ p S) O).
      - destruct O as [_ O]. apply (delete_dirs _ _ _ _ _ _ _ _ _ T O). }
    eapply dirs_trans; [exact D|].
    apply (dirs_mono (dirs_of E c (filter is_update rs))).
    { intros q. apply dirs_incl. cbn [filter]. destruct (is_update r); [apply incl_tl|]; apply incl_refl. }
    destruct H as [(e & -> & -> & ->)|(n & z & -> & A & H)]; [apply dirs_refl|apply (IH _ _ _ T1 F A)].
Qed.

Lemma baseline_dirs E c allow audit w w' x : world_ok E w -> baseline_or_audit E c allow audit w = (w', x) ->
  dirs_by (fun q => exists u p, listed E c u /\ src_to_dst (c_mapper c) u = Ok p /\ dir_of (e_cwd E) p q) w w'.
Proof.
  intros (T & R & F) H. apply baseline_inv in H.
  destruct H as [(e & _ & (N & _) & _)|(src & dst & cmp & _ & _ & FR & _ & S & C & H)]; [apply dirs_same, N|].
  pose proof (after_report_same src cmp w) as [(N0 & _) _].
  destruct (audit || (differences cmp =? 0)); [destruct H as [-> _]; apply dirs_same, N0|].
  assert (exists w1 y, (w' = after_report src cmp w \/ transfers E c allow cmp (with_last 0 (after_report src cmp w)) = (w1, y) /\ w_root w' = w_root w1))
    as (w1 & y & [->|(Tr & R1)]); [|apply dirs_same, N0|].
  { apply synchronize_inv in H. destruct H as [(e & _ & -> & _)|(_ & [(e & Tr & _)|(w1 & nc & nu & nd & Tr & [(e & St & _)|(w2 & St & Lg)])])].
    - exists w, (Err e). auto.
    - exists w', (Err e). auto.
    - apply store_if_any_effect in St. destruct St as (St & _). exists w1, (Ok (nc, nu, nd)). auto.
    - apply store_if_any_effect in St. destruct St as (St & _). rewrite log_status_is in Lg. injection Lg as <- _.
      exists w1, (Ok (nc, nu, nd)). auto. }
  assert (list_ok src) as [WS _] by (apply (find_resource_list_ok _ _ _ FR)).
  assert (w_root (pruned_world src w) = w_root w) as PR by (unfold pruned_world; destruct (w_hashes w); reflexivity).
  destruct (scan_is E c (pruned_world src w) dst ltac:(rewrite PR; exact T) S) as [WD _].
  destruct (compare_parts _ _ _ WD WS C) as (_ & _ & _ & _ & IC & IU & _).
  apply transfers_dirs in Tr; [|change (tree_ok (w_root (after_report src cmp w))); rewrite N0; exact T|exact F].
  intros q D. rewrite R1 in D. apply Tr in D. change (dir_at (w_root (after_report src cmp w)) q \/ dirs_of E c (rl_iter (created cmp) ++ rl_iter (updated cmp)) q) in D. rewrite N0 in D. destruct D as [D|(r & p & I & SD & DO)]; [auto|].
  right. exists (r_uri r), p. split; [|auto]. apply (find_listed E c src _ FR).
  apply in_app_iff in I. destruct I as [I|I]; [apply IC in I|apply IU in I]; destruct I; congruence.
Qed.
Lemma incremental_dirs E c allow clu from_dt w w' x : world_ok E w -> incremental E c allow clu from_dt w = (w', x) ->
  dirs_by (fun q => exists uri changes r p, changes_read E c clu uri changes /\ In r changes
    /\ (r_change r = Some $"created" \/ r_change r = Some $"updated")
    /\ src_to_dst (c_mapper c) (r_uri r) = Ok p /\ dir_of (e_cwd E) p q) w w'.
Proof.
  intros OK H. apply incremental_inv in H.
  destruct H as [(e & _ & (N & _) & _)|(from & uri & l & last & M & U & F & S & R & HW & L & CC & H)]; [apply dirs_same, N|].
  apply apply_change_list_inv in H. destruct H as [(e & _ & ->)|(kept & n & todo & PB & PD & K & H)]; [apply dirs_same; reflexivity|].
  destruct (nothing_to_do todo || only_deletions todo && negb allow); [destruct H as [-> _]; apply dirs_same; reflexivity|].
  destruct H as (w1 & y & A & H). apply apply_changes_dirs in A; [|apply OK|apply OK].
  assert (w_root w' = w_root w1) as R1.
  { destruct H as [(e & _ & -> & _)|(nc & nu & nd & _ & St)]; [reflexivity|]. apply store_if_any_effect in St. apply St. }
  intros q D. rewrite R1 in D. apply A in D. destruct D as [D|(r & p & I & SD & DO)]; [auto|].
  right. apply filter_In in I. destruct I as [I UP].
  exists uri, (d_items (l_doc l)), r, p. split; [apply (read_changes _ _ _ _ _ S R)|].
  split. { rewrite PD in I. apply prune_dupes_in in I. apply prune_before_in in PB. destruct PB as [-> _]. apply filter_In in I. apply I. }
  split; [|auto]. unfold is_update, change_is in UP. destruct (r_change r) as [ch|]; [|discriminate]. cbn [opt_eqb] in UP.
  apply orb_true_iff in UP. destruct UP as [UP|UP]; apply str_eqb_eq in UP; subst ch; auto.
Qed.

Lemma made_by_baseline E c allow audit w w' x : world_ok E w -> baseline_or_audit E c allow audit w = (w', x) ->
  (forall q, dir_at (w_root w) q -> dir_at (w_root w') q)
  /\ forall q, dir_at (w_root w') q -> dir_at (w_root w) q \/
     exists u p rest, listed E c u /\ src_to_dst (c_mapper c) u = Ok p /\ denotes (e_cwd E) (os_dirname p) = q ++ rest.
Proof.
  intros OK H. split; [apply (re_dirs _ _ _ _ _ _ _ _ (proj1 (baseline_effect _ _ _ _ _ _ _ OK H)))|].
  intros q D. apply (baseline_dirs _ _ _ _ _ _ _ OK H) in D. destruct D as [D|(u & p & L & S & _ & rest & Q)]; [auto|right; eauto 6].
Qed.
Lemma made_by_incremental E c allow clu from_dt w w' x : world_ok E w -> incremental E c allow clu from_dt w = (w', x) ->
  (forall q, dir_at (w_root w) q -> dir_at (w_root w') q)
  /\ forall q, dir_at (w_root w') q -> dir_at (w_root w) q \/
     exists uri changes r p rest, changes_read E c clu uri changes /\ In r changes
       /\ (r_change r = Some $"created" \/ r_change r = Some $"updated")
       /\ src_to_dst (c_mapper c) (r_uri r) = Ok p /\ denotes (e_cwd E) (os_dirname p) = q ++ rest.
Proof.
  intros OK H. split.
  - destruct (incremental_effect _ _ _ _ _ _ _ _ OK H) as [(N & _)|(uri & changes & _ & R)]; [rewrite N; auto|apply R].
  - intros q D. apply (incremental_dirs _ _ _ _ _ _ _ _ OK H) in D.
    destruct D as [D|(uri & changes & r & p & CR & I & K & S & _ & rest & Q)]; [auto|right; exists uri, changes, r, p, rest; auto].
Qed.
Lemma deletion_dirs E c r fn w w' x q : tree_ok (w_root w) -> delete_resource E c true r fn w = (w', x) ->
  (dir_at (w_root w') q <-> dir_at (w_root w) q).
Proof.
  intros T H. split.
  - intros D. apply (delete_dirs (fun _ => False) _ _ _ _ _ _ _ _ T H) in D. destruct D as [D|[]]. exact D.
  - apply delete_effect in H; [|exact T]. destruct H as (O & _). apply (oa_dir _ _ _ _ O).
Qed.
