(** * ClientDownload: requests and retries *)

From Verif Require Import Py PyFacts Float64 Float64Facts W3C PathSpec OsPath OsPathFacts Mapper MapperSpec Resource
  Container Hashes Disk DiskSpec DiskFacts DiskChange ClientState Client ClientSpec ClientFacts ClientRuns.

Lemma put_any names m m' : forall root r, put names m root = Some r -> exists r', put names m' root = Some r'.
Proof.
  induction names as [|x names IH]; intros root r; [cbn; eauto|]. cbn [put]. destruct root as [| es | |]; try discriminate.
  destruct names as [|y names]; [eauto|]. destruct (sget x es) as [k|]; [|discriminate].
  destruct (put (y :: names) m k) as [k'|] eqn:P; [|discriminate]. intros _. destruct (IH _ _ P) as (k2 & ->). eauto.
Qed.
Lemma put_existing names m : forall root n, lookup names root = Some n -> exists r, put names m root = Some r.
Proof.
  induction names as [|x names IH]; intros root n; [cbn; eauto|]. cbn [put lookup]. destruct root as [| es | |]; try discriminate.
  destruct names as [|y names]; [eauto|]. destruct (sget x es) as [k|]; [|discriminate]. intros L.
  destruct (IH _ _ L) as (k2 & ->). eauto.
Qed.
Lemma write_any cwd root p d t d' t' r : write_file cwd root p d t = Ok r -> exists r', write_file cwd root p d' t' = Ok r'.
Proof.
  unfold write_file. destruct (means_dir p); [discriminate|].
  destruct (lookup (resolve cwd p) root) as [[]|]; try discriminate;
    (destruct (put _ (File d t) root) as [r1|] eqn:P; [|discriminate]; intros _;
     destruct (put_any _ _ (File d' t') _ _ P) as (r2 & ->); eauto).
Qed.
Lemma write_again cwd root p d t d0 t0 : means_dir p = false -> leaf_at root (resolve cwd p) = Some (File d0 t0) ->
  exists r, write_file cwd root p d t = Ok r.
Proof.
  intros M L. unfold write_file. rewrite M. unfold leaf_at in L.
  destruct (lookup (resolve cwd p) root) as [[a b| | |]|] eqn:K; try discriminate.
  destruct (put_existing _ (File d t) _ _ K) as (r & ->). eauto.
Qed.

Section Download.
Variables (E : env) (c : client) (uri fn : str).
Local Notation cwd := (e_cwd E).
Definition writable (w : world) : Prop := exists r, write_file cwd (w_root w) fn [] 0 = Ok r.

Lemma writable_means w : writable w -> means_dir fn = false.
Proof. intros (r & W). unfold write_file in W. destruct (means_dir fn); [discriminate|reflexivity]. Qed.

Lemma attempt_exact w w' r : writable w -> attempt E uri fn w = (w', r) ->
  writable w' /\ w_gets w' = w_gets w ++ [uri] /\
  match e_get E (List.length (w_gets w)) uri with
  | Data d => r = Ok tt
  | Refused e | Broken _ e => r = Err e
  end.
Proof.
  intros W. pose proof (writable_means w W) as M. destruct W as (r0 & W). unfold attempt.
  change (w_root (with_gets (w_gets w ++ [uri]) w)) with (w_root w).
  assert (forall d root', write_file cwd (w_root w) fn d (e_now E) = Ok root' -> writable (with_root root' (with_gets (w_gets w ++ [uri]) w))) as WW.
  { intros d root' H. apply write_file_ok in H. destruct H as (_ & L & _). unfold writable. cbn.
    apply (write_again _ _ _ _ _ d (e_now E) M). rewrite L. pdec; reflexivity. }
  destruct (e_get E _ uri) as [e|d|d e].
  - intros [= <- <-]. split; [exists r0; exact W|]. auto.
  - destruct (write_any _ _ _ _ _ d (e_now E) _ W) as (r1 & W1). rewrite W1. intros [= <- <-]. split; [apply (WW _ _ W1)|]. auto.
  - destruct (write_any _ _ _ _ _ d (e_now E) _ W) as (r1 & W1). rewrite W1. intros [= <- <-]. split; [apply (WW _ _ W1)|]. auto.
Qed.

(** What is tried, in general. *)
Lemma download_tries : forall left w w' r, download E c left uri fn w = (w', r) ->
  exists k, (k <= left)%nat /\ w_gets w' = w_gets w ++ repeat uri k
  /\ forall i, (S i < k)%nat -> exists o, o = e_get E (List.length (w_gets w) + i) uri /\ timed_out o.
Proof.
  induction left as [|left IH]; intros w w' r; cbn [download].
  - intros [= <- <-]. exists O. rewrite app_nil_r. repeat split; auto. intros i. lia.
  - destruct (attempt E uri fn w) as [w1 a] eqn:A. pose proof (attempt_effect _ _ _ _ _ _ A) as (_ & _ & _ & _ & G & _ & _).
    assert (forall y : res (option bool), (w1, y) = (w', r) -> exists k, (k <= S left)%nat /\ w_gets w' = w_gets w ++ repeat uri k
      /\ forall i, (S i < k)%nat -> exists o, o = e_get E (List.length (w_gets w) + i) uri /\ timed_out o) as Stop.
    { intros y [= <- <-]. exists 1%nat. split; [lia|]. split; [exact G|]. intros i. lia. }
    destruct a as [[]|e]; [apply Stop|]. destruct e; try apply Stop. destruct left as [|left']; [apply Stop|].
    intros H. apply IH in H. destruct H as (k & K & G' & T). exists (S k). split; [lia|].
    split; [rewrite G', G, <- app_assoc; reflexivity|]. intros i I. destruct i as [|i].
    + rewrite Nat.add_0_r. eexists. split; [reflexivity|]. unfold attempt in A. unfold timed_out.
      destruct (e_get E (List.length (w_gets w)) uri) as [e|d|d e].
      * injection A as _ ->. auto.
      * exfalso. destruct (write_file _ _ _ d _) as [root'|e'] eqn:WF; [discriminate|]. injection A as _ ->.
        unfold write_file in WF. destruct (means_dir fn); [discriminate|].
        destruct (lookup _ _) as [[]|]; try discriminate; destruct (put _ _ _); discriminate.
      * destruct (write_file _ _ _ d _) as [root'|e'] eqn:WF; injection A as _ ->; [eauto|].
        unfold write_file in WF. destruct (means_dir fn); [discriminate|].
        destruct (lookup _ _) as [[]|]; try discriminate; destruct (put _ _ _); discriminate.
    + destruct (T i ltac:(lia)) as (o & -> & To). rewrite G, app_length in To. cbn in To. eexists. split; [|exact To].
      f_equal. lia.
Qed.

(** The policy, if the file can be written. *)
Lemma download_exact : forall left w w' r, (0 < left)%nat -> writable w -> download E c left uri fn w = (w', r) ->
  exists k o, (0 < k <= left)%nat /\ w_gets w' = w_gets w ++ repeat uri k
  /\ o = e_get E (List.length (w_gets w) + (k - 1)) uri
  /\ (timed_out o -> k = left)
  /\ match error_of o with
     | None => r = Ok (Some true)
     | Some IOError | Some SocketTimeout => r = if c_ignore_failures c then Ok None else Err ClientFatalError
     | Some e => r = Err e
     end.
Proof.
  induction left as [|left IH]; intros w w' r P W; [lia|]. cbn [download].
  destruct (attempt E uri fn w) as [w1 a] eqn:A. apply attempt_exact in A; [|exact W]. destruct A as (W1 & G & A).
  assert (forall y : res (option bool), (w1, y) = (w', r) ->
    (timed_out (e_get E (List.length (w_gets w)) uri) -> 1%nat = S left) ->
    match error_of (e_get E (List.length (w_gets w)) uri) with
    | None => y = Ok (Some true)
    | Some IOError | Some SocketTimeout => y = if c_ignore_failures c then Ok None else Err ClientFatalError
    | Some e => y = Err e
    end -> exists k o, (0 < k <= S left)%nat /\ w_gets w' = w_gets w ++ repeat uri k
    /\ o = e_get E (List.length (w_gets w) + (k - 1)) uri
    /\ (timed_out o -> k = S left)
    /\ match error_of o with
       | None => r = Ok (Some true)
       | Some IOError | Some SocketTimeout => r = if c_ignore_failures c then Ok None else Err ClientFatalError
       | Some e => r = Err e
       end) as Stop.
  { intros y [= <- <-] T Y. exists 1%nat, (e_get E (List.length (w_gets w)) uri). split; [lia|]. split; [exact G|].
    split; [rewrite Nat.add_0_r; reflexivity|]. auto. }
  destruct (e_get E (List.length (w_gets w)) uri) as [e|d|d e] eqn:O; subst a.
  - destruct e; try (intros H; apply (Stop _ H); [intros [T|(? & T)]; discriminate|reflexivity]).
    destruct left as [|left']; [intros H; apply (Stop _ H); [auto|reflexivity]|].
    intros H. apply IH in H; [|lia|exact W1]. destruct H as (k & o & K & G' & OO & T & Q). exists (S k), o. split; [lia|].
    split; [rewrite G', G, <- app_assoc; reflexivity|]. split; [rewrite OO, G, app_length; cbn; f_equal; lia|]. split; [intros X; rewrite (T X); reflexivity|exact Q].
  - intros H. apply (Stop _ H); [intros [T|(? & T)]; discriminate|reflexivity].
  - destruct e; try (intros H; apply (Stop _ H); [intros [T|(? & T)]; discriminate|reflexivity]).
    destruct left as [|left']; [intros H; apply (Stop _ H); [auto|reflexivity]|].
    intros H. apply IH in H; [|lia|exact W1]. destruct H as (k & o & K & G' & OO & T & Q). exists (S k), o. split; [lia|].
    split; [rewrite G', G, <- app_assoc; reflexivity|]. split; [rewrite OO, G, app_length; cbn; f_equal; lia|]. split; [intros X; rewrite (T X); reflexivity|exact Q].
Qed.

(** What a download leaves. *)
Lemma download_content : forall left w w' r, download E c left uri fn w = (w', r) ->
  w_root w' = w_root w /\ (r = Ok (Some true) -> False)
  \/ exists n d, (List.length (w_gets w) <= n < List.length (w_gets w'))%nat /\ delivered (e_get E n uri) = Some d
       /\ leaf_at (w_root w') (resolve cwd fn) = Some (File d (e_now E)).
Proof.
  induction left as [|left IH]; intros w w' r; cbn [download].
  - intros [= <- <-]. left. split; [reflexivity|discriminate].
  - destruct (attempt E uri fn w) as [w1 a] eqn:A. pose proof (attempt_effect _ _ _ _ _ _ A) as (_ & _ & _ & _ & G & _ & _).
    assert (w_root w1 = w_root w /\ a <> Ok tt
      \/ exists d, delivered (e_get E (List.length (w_gets w)) uri) = Some d /\ leaf_at (w_root w1) (resolve cwd fn) = Some (File d (e_now E))) as L.
    { unfold attempt in A. change (w_root (with_gets (w_gets w ++ [uri]) w)) with (w_root w) in A.
      destruct (e_get E (List.length (w_gets w)) uri) as [e|d|d e].
      - injection A as <- <-. left. split; [reflexivity|discriminate].
      - destruct (write_file _ _ _ d _) as [root'|e'] eqn:WF; injection A as <- <-; [|left; split; [reflexivity|discriminate]]. right. exists d. split; [reflexivity|].
        apply write_file_ok in WF. destruct WF as (_ & L & _). cbn. rewrite L. pdec; reflexivity.
      - destruct (write_file _ _ _ d _) as [root'|e'] eqn:WF; injection A as <- <-; [|left; split; [reflexivity|discriminate]]. right. exists d. split; [reflexivity|].
        apply write_file_ok in WF. destruct WF as (_ & L & _). cbn. rewrite L. pdec; reflexivity. }
    assert (forall y : res (option bool), (a <> Ok tt -> y <> Ok (Some true)) -> (w1, y) = (w', r) ->
      w_root w' = w_root w /\ (r = Ok (Some true) -> False)
      \/ exists n d, (List.length (w_gets w) <= n < List.length (w_gets w'))%nat /\ delivered (e_get E n uri) = Some d
           /\ leaf_at (w_root w') (resolve cwd fn) = Some (File d (e_now E))) as Stop.
    { intros y Y [= <- <-]. destruct L as [[L N]|(d & D & L)]; [left; split; [exact L|apply (Y N)]|]. right. exists (List.length (w_gets w)), d.
      rewrite G, app_length. cbn. repeat split; auto; lia. }
    assert (forall z : exn, (if c_ignore_failures c then Ok None else Err z : res (option bool)) <> Ok (Some true)) as F
      by (intros z; destruct (c_ignore_failures c); discriminate).
    destruct a as [[]|e]; [apply Stop; congruence|].
    destruct e; try (apply Stop; intros _; try apply F; discriminate). destruct left as [|left']; [apply Stop; auto|].
    intros H. pose proof (download_tries _ _ _ _ H) as (k & _ & G2 & _). apply IH in H. destruct H as [[H N]|(n & d & N & D & H)].
    + rewrite H. destruct L as [[L _]|(d & D & L)]; [auto|]. right. exists (List.length (w_gets w)), d.
      rewrite G2, G, !app_length. cbn. repeat split; auto; lia.
    + right. exists n, d. rewrite G, app_length in N. repeat split; auto; lia.
Qed.
End Download.

(** ** The whole of update_resource *)

Lemma utime_total cwd root p t d m : means_dir p = false -> leaf_at root (resolve cwd p) = Some (File d m) ->
  exists root', utime cwd root p t = Ok root'.
Proof.
  intros M L. assert (p <> []) as N by (intros ->; discriminate). unfold utime.
  rewrite (proj2 (lstat_leaf_iff cwd root p (File d m) N M I) L). cbn. unfold leaf_at in L.
  destruct (lookup (resolve cwd p) root) as [k|] eqn:K; [|discriminate]. destruct (put_existing _ (File d t) _ _ K) as (r & ->). eauto.
Qed.

(** Nothing but the download can fail. *)
Lemma update_split E c r fn w w' x : c_dryrun c = false -> update_resource E c r fn w = (w', x) ->
  (exists e, mkpath (e_cwd E) (w_root w) (os_dirname fn) = Err e /\ w' = w /\ x = Err e)
  \/ exists root1 w1 g, mkpath (e_cwd E) (w_root w) (os_dirname fn) = Ok root1
     /\ download E c (c_tries c) (r_uri r) fn (with_root root1 w) = (w1, g) /\ w_gets w' = w_gets w1
     /\ (leaf_at (w_root w') (resolve (e_cwd E) fn) = leaf_at (w_root w1) (resolve (e_cwd E) fn)
         \/ exists d m t, leaf_at (w_root w1) (resolve (e_cwd E) fn) = Some (File d m) /\ leaf_at (w_root w') (resolve (e_cwd E) fn) = Some (File d t))
     /\ match g with
        | Err e => w' = w1 /\ x = Err e
        | Ok None => w' = w1 /\ x = Ok 0
        | Ok (Some b) => forall d, means_dir fn = false -> leaf_at (w_root w1) (resolve (e_cwd E) fn) = Some (File d (e_now E)) ->
            x = Ok (if b then 1 else 0)
        end.
Proof.
  intros DR. unfold update_resource. rewrite DR. unfold andthen at 1.
  destruct (mkpath (e_cwd E) (w_root w) (os_dirname fn)) as [root1|e]; [|intros [= <- <-]; left; eauto].
  intros H. right. unfold andthen at 1 in H. destruct (download E c (c_tries c) (r_uri r) fn (with_root root1 w)) as [w1 g] eqn:DL.
  exists root1, w1, g. split; [reflexivity|]. split; [exact DL|].
  destruct g as [[b|]|e]; [|injection H as <- <-; repeat split; auto|injection H as <- <-; repeat split; auto].
  match type of H with (?st ;;; _) w1 = _ => set (stamp := st) in H end.
  unfold andthen at 1 in H. destruct (stamp w1) as [w2 y] eqn:ST.
  assert (w_gets w2 = w_gets w1
    /\ (leaf_at (w_root w2) (resolve (e_cwd E) fn) = leaf_at (w_root w1) (resolve (e_cwd E) fn)
        \/ exists d m t, leaf_at (w_root w1) (resolve (e_cwd E) fn) = Some (File d m) /\ leaf_at (w_root w2) (resolve (e_cwd E) fn) = Some (File d t))
    /\ forall d, means_dir fn = false -> leaf_at (w_root w1) (resolve (e_cwd E) fn) = Some (File d (e_now E)) ->
    y = Ok tt /\ exists t, leaf_at (w_root w2) (resolve (e_cwd E) fn) = Some (File d t)) as (G2 & L2' & K2).
  { subst stamp. destruct (r_timestamp r) as [t|].
    2:{ injection ST as <- <-. split; [reflexivity|]. split; [auto|]. intros d M L. eauto. }
    unfold andthen, modify in ST. destruct (utime (e_cwd E) (w_root w1) fn (whole_seconds t)) as [root2|e] eqn:UT.
    - assert (w_gets w2 = w_gets w1 /\ w_root w2 = root2 /\ y = Ok tt) as (-> & -> & ->).
      { injection ST as <- <-. cbn. destruct (_ <? t); auto. }
      split; [reflexivity|]. apply utime_ok in UT. destruct UT as (d' & m & _ & U2 & U3 & _).
      split; [right; exists d', m, (whole_seconds t); split; [exact U2|rewrite U3; pdec; reflexivity]|].
      intros d M L. split; [reflexivity|]. exists (whole_seconds t). rewrite U3. rewrite L in U2. injection U2 as <- _. pdec; reflexivity.
    - injection ST as <- <-. split; [reflexivity|]. split; [auto|]. intros d M L. destruct (utime_total _ _ _ (whole_seconds t) _ _ M L) as (? & X).
      rewrite X in UT. discriminate. }
  destruct y as [[]|e].
  2:{ injection H as <- <-. split; [exact G2|]. split; [exact L2'|]. intros d M L. destruct (K2 d M L) as [X _]. discriminate. }
  unfold andthen at 1 in H. destruct (file_data E w2 fn) as [data|e] eqn:FD.
  2:{ injection H as <- <-. split; [exact G2|]. split; [exact L2'|]. intros d M L. destruct (K2 d M L) as [_ (t & L2)]. exfalso.
      assert (fn <> []) as N by (intros ->; discriminate). unfold file_data in FD.
      rewrite (proj2 (lstat_leaf_iff _ _ fn (File d t) N M I) L2) in FD. discriminate. }
  match type of H with (?st ;;; _) w2 = _ => set (size := st) in H end.
  unfold andthen at 1 in H. destruct (size w2) as [w3 y] eqn:SZ.
  assert (w_gets w3 = w_gets w2 /\ w_root w3 = w_root w2 /\ y = Ok tt) as (Z3 & Z1 & ->).
  { subst size. destruct (r_length r) as [n|]; [destruct (n =? _)|]; injection SZ as <- <-; repeat split. }
  unfold andthen at 1 in H. destruct (check_hashes E data r w3) as [w4 y] eqn:CH.
  apply check_hashes_effect in CH. destruct CH as (C1 & C2 & C3 & C4 & C5 & ->). injection H as <- <-. split; [congruence|]. split; [rewrite C1, Z1; exact L2'|auto].
Qed.

Lemma update_tries E c r fn w w' x : update_resource E c r fn w = (w', x) ->
  exists k, (k <= if c_dryrun c then 0 else c_tries c)%nat /\ w_gets w' = w_gets w ++ repeat (r_uri r) k
  /\ forall i, (S i < k)%nat -> timed_out (e_get E (List.length (w_gets w) + i) (r_uri r)).
Proof.
  intros H. destruct (c_dryrun c) eqn:DR.
  { exists O. split; [lia|]. pose proof (update_effect _ _ _ _ _ _ _ H) as (_ & _ & _ & _ & D & _). destruct (D DR) as (-> & _).
    rewrite app_nil_r. split; [reflexivity|]. intros i I. lia. }
  apply update_split in H; [|exact DR].
  destruct H as [(e & _ & -> & _)|(root1 & w1 & g & _ & DL & G & _ & _)].
  - exists O. rewrite app_nil_r. split; [lia|]. split; [reflexivity|]. intros i I. lia.
  - apply download_tries in DL. destruct DL as (k & K & G1 & T). exists k. split; [exact K|]. rewrite G. split; [exact G1|].
    intros i I. destruct (T i I) as (o & -> & X). exact X.
Qed.

Lemma update_exact E c r fn w w' x : c_dryrun c = false -> (0 < c_tries c)%nat -> can_write E w fn ->
  update_resource E c r fn w = (w', x) ->
  exists k o, (0 < k <= c_tries c)%nat /\ w_gets w' = w_gets w ++ repeat (r_uri r) k
  /\ (forall i, (S i < k)%nat -> timed_out (e_get E (List.length (w_gets w) + i) (r_uri r)))
  /\ o = e_get E (List.length (w_gets w) + (k - 1)) (r_uri r)
  /\ (timed_out o -> k = c_tries c)
  /\ match error_of o with
     | None => x = Ok 1
     | Some IOError | Some SocketTimeout => x = if c_ignore_failures c then Ok 0 else Err ClientFatalError
     | Some e => x = Err e
     end.
Proof.
  intros DR T (root1 & root2 & MK & WR) H. pose proof (update_tries _ _ _ _ _ _ _ H) as (k0 & _ & G0 & T0).
  apply update_split in H; [|exact DR].
  destruct H as [(e & X & _)|(root1' & w1 & g & MK' & DL & G & _ & H)]; [congruence|].
  assert (root1' = root1) as -> by congruence. pose proof DL as DL'.
  apply download_exact in DL; [|exact T|exists root2; exact WR]. destruct DL as (k & o & K & G1 & O & To & R).
  exists k, o. split; [exact K|]. split; [rewrite G; exact G1|].
  assert (k = k0) as ->. { rewrite G, G1 in G0. cbn in G0. apply app_inv_head in G0. apply (f_equal (@List.length _)) in G0. rewrite !repeat_length in G0. exact G0. }
  split; [exact T0|]. split; [exact O|]. split; [exact To|].
  destruct (error_of o) as [e|].
  - assert (forall b, g <> Ok (Some b)) as NB.
    { intros b ->. destruct e; try discriminate; destruct (c_ignore_failures c); discriminate. }
    destruct g as [[b|]|e']; [destruct (NB b eq_refl)| |]; destruct H as [_ ->]; destruct e; try discriminate;
      try (destruct (c_ignore_failures c); try discriminate); congruence.
  - subst g. pose proof (download_effect _ _ _ _ _ _ _ _ DL') as (_ & _ & _ & _ & _ & D & _). destruct (D eq_refl) as (j & d & _ & _ & M & L).
    apply (H d M L).
Qed.

(** A failed download, and what is then in the file. *)
Lemma update_refused E c r fn w w' x : (0 < c_tries c)%nat -> (forall n, exists e, e_get E n (r_uri r) = Refused e) ->
  update_resource E c r fn w = (w', x) -> forall q, leaf_at (w_root w') q = leaf_at (w_root w) q.
Proof.
  intros T R H. destruct (c_dryrun c) eqn:DR.
  { pose proof (update_effect _ _ _ _ _ _ _ H) as (_ & _ & _ & _ & D & _). destruct (D DR) as (_ & _ & _ & L). exact L. }
  apply update_split in H; [|exact DR]. destruct H as [(e & _ & -> & _)|(root1 & w1 & g & MK & DL & _ & _ & H)]; [reflexivity|].
  apply mkpath_ok in MK. destruct MK as (M1 & _).
  assert (forall left w w' r0, (0 < left)%nat -> download E c left (r_uri r) fn w = (w', r0) -> w_root w' = w_root w /\ (forall b, r0 <> Ok (Some b))) as K.
  { clear - R. induction left as [|left IH]; intros w w' r0 P; [lia|]. cbn [download]. destruct (attempt E (r_uri r) fn w) as [wa a] eqn:A.
    apply attempt_effect in A. destruct A as (_ & _ & _ & _ & _ & _ & A). destruct (R (List.length (w_gets w))) as (e & X).
    destruct (A e X) as [-> RR].
    assert (forall b (z : exn), (if c_ignore_failures c then Ok None else Err z : res (option bool)) <> Ok (Some b)) as F by (intros b z; destruct (c_ignore_failures c); discriminate).
    destruct e; try (intros [= <- <-]; split; [exact RR|intros b; try apply F; discriminate]).
    destruct left as [|left']; [intros [= <- <-]; split; [exact RR|intros b; apply F]|]. intros H. apply IH in H; [|lia]. rewrite <- RR. exact H. }
  destruct (K _ _ _ _ T DL) as [RT NB]. destruct g as [[b|]|e]; [destruct (NB b eq_refl)| |]; destruct H as [-> _]; rewrite RT; exact M1.
Qed.
Lemma update_content E c r fn w w' x : update_resource E c r fn w = (w', x) ->
  let q := denotes (e_cwd E) fn in
  leaf_at (w_root w') q = leaf_at (w_root w) q
  \/ exists d t, leaf_at (w_root w') q = Some (File d t)
     /\ ((exists n, (List.length (w_gets w) <= n < List.length (w_gets w'))%nat /\ delivered (e_get E n (r_uri r)) = Some d)
         \/ exists t0, c_tries c = O /\ leaf_at (w_root w) q = Some (File d t0)).
Proof.
  intros H q. subst q. rewrite <- resolve_denotes. destruct (c_dryrun c) eqn:DR.
  { pose proof (update_effect _ _ _ _ _ _ _ H) as (_ & _ & _ & _ & D & _). destruct (D DR) as (_ & _ & _ & L). left. apply L. }
  apply update_split in H; [|exact DR].
  destruct H as [(e & _ & -> & _)|(root1 & w1 & g & MK & DL & G & L & H)]; [auto|].
  apply mkpath_ok in MK. destruct MK as (M1 & _). pose proof (download_content _ _ _ _ _ _ _ _ DL) as C.
  cbn [w_root w_gets with_root] in C. destruct C as [[C NS]|(n & d' & N & D & C)].
  - rewrite C in L. cbn in L. rewrite M1 in L. destruct L as [L|(d & m & t & L1 & L2)]; [auto|].
    destruct (c_tries c) as [|tries] eqn:T; [right; exists d, t; split; [exact L2|]; right; exists m; auto|].
    left. destruct g as [[b|]|e].
    + pose proof (download_effect _ _ _ _ _ _ _ _ DL) as (_ & _ & _ & _ & _ & _ & D' & _).
      destruct b; [destruct (NS eq_refl)|specialize (D' eq_refl); discriminate].
    + destruct H as [-> _]. rewrite C. apply M1.
    + destruct H as [-> _]. rewrite C. apply M1.
  - destruct L as [L|(d & m & t & L1 & L2)].
    + rewrite L. right. exists d', (e_now E). split; [exact C|]. left. exists n. rewrite G. auto.
    + rewrite C in L1. injection L1 as <- <-. right. exists d', t. split; [exact L2|]. left. exists n. rewrite G. auto.
Qed.
