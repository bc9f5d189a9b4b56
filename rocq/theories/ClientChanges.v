(** * ClientChanges: what an incremental synchronization applies *)

From Verif Require Import Py PyFacts Float64 Float64Facts W3C Url UrlAuthority PathSpec OsPath OsPathFacts Regex RegexFacts
  Mapper MapperSpec MapperFacts MapperFacts2 Resource Container ContainerSpec ContainerFacts Capability Xml Sitemap Hashes ListIndex
  Disk DiskSpec DiskFacts DiskChange Builder BuilderSpec BuilderFacts ClientState ClientStateSpec ClientStateFacts
  Client ClientSpec ClientLists ClientFacts ClientRuns ClientInc ClientCompare ClientPlaces ClientProps ClientDownload.

Lemma start_time_from E c from_dt w from : start_time E c from_dt w = Ok from -> started_from E c from_dt w from.
Proof.
  unfold start_time, started_from. destruct from_dt as [s|].
  - destruct (str_to_datetime s) as [t|[]]; try discriminate; auto.
  - destruct (sitemap c) as [sm|]; [|discriminate]. cbn [bind]. destruct (get_state _ _ sm) as [[t|]|] eqn:G; try discriminate.
    cbn [bind]. intros [= ->]. eauto.
Qed.

(** The stages of a run. *)
Inductive incremental_run (E : env) (c : client) (allow : bool) (clu from_dt : option str) (w w' : world) (x : res unit) : Prop :=
| inc_failed e : x = Err e -> no_effect w w' -> w_log w' = w_log w -> incremental_run E c allow clu from_dt w w' x
| inc_listed from uri changes todo last :
    c_mapper c <> [] -> unsafe (c_mapper c) = Ok false -> w_hashes w = [] ->
    started_from E c from_dt w from -> changes_read E c clu uri changes -> last_time changes 0 = Ok last ->
    (forall r, In r changes -> change_time (c_spec_1_0 c) r <> None) ->
    check_changes c (is_explicit clu) uri changes = Ok tt ->
    (forall r, In r todo <-> due c from changes r) -> NoDup (map r_uri todo) -> subseq todo changes ->
    (forall r, In r todo -> known_change r = true) ->
    (if nothing_to_do todo || (only_deletions todo && negb allow) then w' = logged (first_status todo) (with_last last w) /\ x = Ok tt
     else exists w1 y, apply_changes E c allow todo (logged (first_status todo) (with_last last w)) = (w1, y) /\
       ((exists e, y = Err e /\ w' = w1 /\ x = Err e) \/
        exists nc nu nd, y = Ok (nc, nu, nd)
          /\ store_if_any E c (logged (status_of true true false None nc nu nd (count_changes $"deleted" todo)) w1) = (w', x))) ->
    incremental_run E c allow clu from_dt w w' x.


Lemma incremental_stages E c allow clu from_dt w w' x : incremental E c allow clu from_dt w = (w', x) ->
  incremental_run E c allow clu from_dt w w' x.
Proof.
  intros H. apply incremental_inv in H. destruct H as [(e & X & N & L)|(from & uri & l & last & M & U & F & S & R & HW & L & CC & H)].
  { apply (inc_failed _ _ _ _ _ _ _ _ e); auto. }
  apply apply_change_list_inv in H. destruct H as [(e & X & ->)|(kept & n & todo & PB & PD & K & H)].
  { apply (inc_failed _ _ _ _ _ _ _ _ e); auto. repeat split. }
  pose proof (prune_before_in _ _ _ _ _ PB) as [KE KT]. destruct (prune_dupes kept) as [todo' n'] eqn:PE.
  pose proof (prune_dupes_spec _ _ _ PE) as (ND & SS & MEM & _). cbn [fst] in PD. subst todo'.
  apply (inc_listed _ _ _ _ _ _ _ _ from uri (d_items (l_doc l)) todo last); auto.
  - apply start_time_from, F.
  - apply (read_changes _ _ _ _ _ S R).
  - intros r. unfold due, since. rewrite <- KE. apply MEM.
  - apply (subseq_trans _ _ _ SS). rewrite KE. apply filter_subseq.
  - intros r I. rewrite forallb_forall in K. apply K, I.
Qed.

(** Requests are made in the order of the changes. *)
Lemma subseq_none {A} (l : list A) : subseq [] l.
Proof. induction l; constructor; auto. Qed.
Lemma apply_changes_turns E c allow rs : forall w w' x, tree_ok (w_root w) -> Forall file_name (e_cwd E) ->
  apply_changes E c allow rs w = (w', x) ->
  exists asked, subseq (map fst asked) rs /\ Forall (fun a => is_update (fst a) = true) asked /\ w_gets w' = w_gets w ++ in_turn asked.
Proof.
  assert (forall rs w, exists asked, subseq (map fst asked) rs /\ Forall (fun a => is_update (fst a) = true) asked /\ w_gets w = w_gets w ++ in_turn asked) as Z.
  { intros rs' w. exists []. split; [apply subseq_none|]. split; [constructor|now rewrite app_nil_r]. }
  induction rs as [|r rs IH]; intros w w' x T F H.
  - injection H as <- <-. apply Z.
  - apply apply_changes_cons in H. destruct H as [(e & S & -> & ->)|(p & S & [(_ & _ & -> & ->)|(w1 & y & O & H)])]; auto.
    assert (tree_ok (w_root w1)) as T1 by (pose proof (one_change _ _ _ _ _ _ _ _ T F O) as (O1 & _); apply (oa_tree _ _ _ _ O1 T F)).
    assert (exists asked, subseq (map fst asked) rs /\ Forall (fun a => is_update (fst a) = true) asked /\ w_gets w' = w_gets w1 ++ in_turn asked) as (asked & SS & UP & G').
    { destruct H as [(e & -> & -> & ->)|(n & z & -> & A & H)]; [apply Z|apply (IH _ _ _ T1 F A)]. }
    destruct (is_update r) eqn:U.
    + apply update_effect in O. destruct O as (_ & _ & _ & (k & _ & G) & _).
      exists ((r, k) :: asked). cbn [map fst]. split; [constructor; exact SS|]. split; [constructor; auto|].
      rewrite G', G, <- app_assoc. reflexivity.
    + destruct O as [_ O]. apply delete_effect in O; [|exact T]. destruct O as (_ & _ & G & _).
      exists asked. split; [constructor; exact SS|]. split; [exact UP|]. now rewrite G', G.
Qed.
