(** * ArgsLaws: command lines that say the same, and those that are refused, for the three scripts *)

From Verif Require Import Py PyFacts Opener ListIndex Hashes ClientState Client ClientUtils Build Sync Explorer ExplorerMain
  Args ArgsSpec ArgsFacts ArgsRead ArgsScripts ArgsMain ArgsOther.

Definition same_names (l l' : list str) : bool := forallb (fun n => in_strs n l') l && forallb (fun n => in_strs n l) l'.
Lemma same_names_iff l l' : same_names l l' = true -> forall n, In n l <-> In n l'.
Proof.
  unfold same_names. rewrite andb_true_iff, !forallb_forall. intros [H1 H2] n.
  split; intro H; apply in_strs_In; auto.
Qed.
Lemma sync_names n : In n (all_names sync_flags sync_values) <-> In n (map fst (names_of sync_cli)).
Proof. revert n. apply same_names_iff. vm_compute. reflexivity. Qed.
Lemma build_names n : In n (all_names build_flags build_values) <-> In n (map fst (names_of build_cli)).
Proof. revert n. apply same_names_iff. vm_compute. reflexivity. Qed.
Lemma explorer_names n : In n (all_names explorer_flags explorer_values) <-> In n (map fst (names_of explorer_cli)).
Proof. revert n. apply same_names_iff. vm_compute. reflexivity. Qed.

(** ** Saying the same *)

Lemma said_mode {M} (mode_of : str -> option M) N m us : (forall n, mode_of n = Some m <-> in_strs n N = true) ->
  (In m (modes_said mode_of us) <-> is_said N us = true).
Proof.
  intro HN. unfold is_said, modes_said. rewrite existsb_exists, in_flat_map. split.
  - intros (nv & Hin & E). exists nv. split; auto. apply HN. destruct (mode_of (fst nv)); [|easy]. destruct E as [->|[]]. auto.
  - intros (nv & Hin & E). exists nv. split; auto. apply HN in E. rewrite E. now left.
Qed.
Lemma parse_names n : sync_mode_of n = Some Parse <-> in_strs n [$"--parse"; $"-p"] = true.
Proof. mode_names n. Qed.

Definition within (groups : list (list str)) (l : list str) : bool :=
  forallb (fun n => existsb (fun g => in_strs n g && forallb (fun n' => in_strs n' l) g) groups) l.
Lemma within_group groups l n : within groups l = true -> In n l -> exists g, In g groups /\ In n g /\ forall n', In n' g -> In n' l.
Proof.
  unfold within. rewrite forallb_forall. intros H Hn. apply H in Hn. apply existsb_exists in Hn as (g & Hg & E).
  apply andb_true_iff in E as [E1 E2]. rewrite forallb_forall in E2. exists g. repeat split; auto; [now apply in_strs_In|].
  intros n' Hn'. apply in_strs_In. auto.
Qed.
Lemma value_said g us v : In v (values_said g us) <-> exists n, In n g /\ In (n, Some v) (said_all us).
Proof.
  unfold values_said. rewrite in_flat_map. split.
  - intros ([n x] & Hin & E). cbn in E. destruct (in_strs n g) eqn:Eg; [|easy]. apply in_strs_In in Eg.
    destruct x as [s|]; [|easy]. destruct E as [->|[]]. eauto.
  - intros (n & Hg & Hin). exists (n, Some v). split; auto. cbn. apply in_strs_In in Hg. rewrite Hg. now left.
Qed.

Lemma same_sym groups us us' : say_the_same groups us us' -> say_the_same groups us' us.
Proof. intros H g Hg. now destruct (H g Hg). Qed.
Lemma same_acceptable float_of us us' : say_the_same sync_groups us us' ->
  acceptable float_of sync_ints [$"--delay"] versions us -> acceptable float_of sync_ints [$"--delay"] versions us'.
Proof.
  intros S A n v Hin.
  assert (forall l, within sync_groups l = true -> In n l -> exists n', In n' l /\ In (n', Some v) (said_all us)) as K.
  { intros l W Hn. destruct (within_group _ _ _ W Hn) as (g & Hg & Hng & Hl). destruct (S g Hg) as [_ E].
    assert (In v (values_said g us')) as I1 by (apply value_said; eauto). rewrite <- E in I1.
    apply value_said in I1 as (n' & H1 & H2). eauto. }
  repeat split; intro Hn.
  - destruct (K sync_ints ltac:(vm_compute; reflexivity) Hn) as (n' & H1 & H2). now apply (A n' v H2).
  - destruct (K [$"--delay"] ltac:(vm_compute; reflexivity) Hn) as (n' & H1 & H2). now apply (A n' v H2).
  - destruct (K versions ltac:(vm_compute; reflexivity) Hn) as (n' & H1 & H2). now apply (A n' v H2).
Qed.
Lemma group_in g : existsb (fun x => if list_eq_dec (list_eq_dec ascii_dec) x g then true else false) sync_groups = true -> In g sync_groups.
Proof.
  intro H. apply existsb_exists in H as (x & Hx & E). destruct (list_eq_dec _ x g); [now subst|discriminate].
Qed.
Lemma same_modes us us' m : say_the_same sync_groups us us' -> In m (modes_said sync_mode_of us) -> In m (modes_said sync_mode_of us').
Proof.
  intros S.
  destruct m; [rewrite !(said_mode _ _ _ _ baseline_names)|rewrite !(said_mode _ _ _ _ incremental_names)
              |rewrite !(said_mode _ _ _ _ audit_names)|rewrite !(said_mode _ _ _ _ parse_names)];
  (match goal with |- is_said ?N us = true -> _ => assert (In N sync_groups) as Hg by (apply group_in; vm_compute; reflexivity); destruct (S N Hg) as [-> _]; auto end).
Qed.
Lemma same_one_mode us us' m : say_the_same sync_groups us us' -> one_mode sync_mode_of us m -> one_mode sync_mode_of us' m.
Proof.
  intros S [H1 H2]. split; [eapply same_modes; eauto|]. intros m' Hm'. apply H2. eapply same_modes; [apply same_sym, S|exact Hm'].
Qed.
Lemma same_meaning float_of us us' m ms : say_the_same sync_groups us us' -> sync_meaning float_of m us ms = sync_meaning float_of m us' ms.
Proof.
  intro S. unfold sync_meaning, last_int_said, last_said, all_said.
  assert (forall g, existsb (fun x => if list_eq_dec (list_eq_dec ascii_dec) x g then true else false) sync_groups = true ->
    is_said g us = is_said g us' /\ values_said g us = values_said g us') as K by (intros g Hg; apply S, group_in, Hg).
  rewrite !(proj2 (K [$"--sitemap"] ltac:(vm_compute; reflexivity))).
  rewrite !(proj2 (K [$"--capabilitylist"; $"--capability-list"] ltac:(vm_compute; reflexivity))).
  rewrite !(proj2 (K [$"--changelist-uri"; $"--change-list-uri"] ltac:(vm_compute; reflexivity))).
  rewrite !(proj2 (K [$"--from"] ltac:(vm_compute; reflexivity))).
  rewrite !(proj2 (K [$"--hash"] ltac:(vm_compute; reflexivity))).
  rewrite !(proj2 (K [$"--access-token"] ltac:(vm_compute; reflexivity))).
  rewrite !(proj2 (K [$"--delay"] ltac:(vm_compute; reflexivity))).
  rewrite !(proj2 (K [$"--exclude"] ltac:(vm_compute; reflexivity))).
  rewrite !(proj2 (K [$"--max-sitemap-entries"] ltac:(vm_compute; reflexivity))).
  rewrite !(proj2 (K [$"--tries"; $"-t"] ltac:(vm_compute; reflexivity))).
  rewrite !(proj2 (K [$"--spec-version"] ltac:(vm_compute; reflexivity))).
  rewrite (proj1 (K [$"--checksum"] ltac:(vm_compute; reflexivity))).
  rewrite (proj1 (K [$"--multifile"; $"-m"] ltac:(vm_compute; reflexivity))).
  rewrite (proj1 (K [$"--noauth"] ltac:(vm_compute; reflexivity))).
  rewrite (proj1 (K [$"--strictauth"] ltac:(vm_compute; reflexivity))).
  rewrite (proj1 (K [$"--delete"] ltac:(vm_compute; reflexivity))).
  rewrite (proj1 (K [$"--dryrun"; $"-n"] ltac:(vm_compute; reflexivity))).
  rewrite (proj1 (K [$"--ignore-failures"] ltac:(vm_compute; reflexivity))).
  rewrite (proj1 (K [$"--verbose"; $"-v"] ltac:(vm_compute; reflexivity))).
  reflexivity.
Qed.

Lemma decide_line float_of us : (forall u, In u us -> good sync_flags sync_values u) ->
  (acceptable float_of sync_ints [$"--delay"] versions us /\ exists m, one_mode sync_mode_of us m) \/
  ~ (acceptable float_of sync_ints [$"--delay"] versions us /\ exists m, one_mode sync_mode_of us m).
Proof.
  intro G. pose proof (good_proper sync_flags sync_values us G) as Pr.
  pose proof (assigns_iff sync_cli float_of _ _ _ _ _ sync_described eq_refl _ Pr) as A.
  destruct (assigns sync_cli float_of (said_all us)) as [a|] eqn:Ea.
  - destruct (modes_said sync_mode_of us) as [|m l] eqn:El.
    + right. intros [_ (m & [H _])]. now rewrite El in H.
    + destruct (forallb (smeqb m) l) eqn:F.
      * left. split; [apply A; eauto|]. exists m. unfold one_mode. rewrite El. split; [now left|].
        intros m' [<- |H]; auto. rewrite forallb_forall in F. apply F, smeqb_eq in H. auto.
      * right. intros [_ (m' & [_ H])]. rewrite El in H. rewrite <- not_true_iff_false in F. apply F, forallb_forall.
        intros x Hx. apply smeqb_eq. rewrite (H m), (H x); auto; [now right|now left].
  - right. intros [H _]. apply A in H as [a H]. discriminate.
Qed.

Lemma sync_same float_of E w us1 ms us2 us1' us2' :
  sync_line us1 us2 ms -> sync_line us1' us2' ms -> say_the_same sync_groups (us1 ++ us2) (us1' ++ us2') ->
  sync_command float_of E (typed_all us1 ++ ms ++ typed_all us2) w = sync_command float_of E (typed_all us1' ++ ms ++ typed_all us2') w.
Proof.
  intros L L' S. destruct (decide_line float_of (us1 ++ us2) (proj1 L)) as [[A [m O]]|B].
  - rewrite (sync_read float_of E w us1 ms us2 m L A O).
    rewrite (sync_read float_of E w us1' ms us2' m L' (same_acceptable _ _ _ S A) (same_one_mode _ _ _ S O)).
    now rewrite (same_meaning float_of _ _ m ms S).
  - rewrite (sync_refused float_of E w us1 ms us2 L B). rewrite (sync_refused float_of E w us1' ms us2' L'); auto.
    intros [A [m O]]. apply B. apply same_sym in S. split; [eapply same_acceptable; eauto|]. exists m. eapply same_one_mode; eauto.
Qed.

(** ** Abbreviations *)

Section Abbreviations.
  Variable float_of : str -> option Z.

  Lemma abbreviated P flags values pre p n post : wellmade P = true ->
    (forall n, In n (all_names flags values) <-> In n (map fst (names_of P))) ->
    ~ In $"--" pre -> abbreviates (all_names flags values) p n ->
    parse_args float_of P (pre ++ p :: post) = parse_args float_of P (pre ++ n :: post) /\
    forall v, parse_args float_of P (pre ++ (p ++ "="%char :: v) :: post) = parse_args float_of P (pre ++ (n ++ "="%char :: v) :: post).
  Proof.
    intros M N H A. destruct (abbreviation P _ M N p n A) as (E & N1 & N2 & K). split.
    - now apply parse_at.
    - intro v. destruct (K v) as (Ev & N3 & N4). now apply parse_at.
  Qed.
  Lemma sync_abbreviated E w pre p n post : ~ In $"--" pre -> abbreviates (all_names sync_flags sync_values) p n ->
    sync_command float_of E (pre ++ p :: post) w = sync_command float_of E (pre ++ n :: post) w /\
    forall v, sync_command float_of E (pre ++ (p ++ "="%char :: v) :: post) w = sync_command float_of E (pre ++ (n ++ "="%char :: v) :: post) w.
  Proof.
    intros H A. destruct (abbreviated sync_cli _ _ pre p n post sync_made sync_names H A) as [E1 E2]. unfold sync_command.
    split; [now rewrite E1|]. intro v. now rewrite E2.
  Qed.
  Lemma build_abbreviated e w pre p n post : ~ In $"--" pre -> abbreviates (all_names build_flags build_values) p n ->
    build_command float_of e (pre ++ p :: post) w = build_command float_of e (pre ++ n :: post) w /\
    forall v, build_command float_of e (pre ++ (p ++ "="%char :: v) :: post) w = build_command float_of e (pre ++ (n ++ "="%char :: v) :: post) w.
  Proof.
    intros H A. destruct (abbreviated build_cli _ _ pre p n post build_made build_names H A) as [E1 E2]. unfold build_command.
    split; [now rewrite E1|]. intro v. now rewrite E2.
  Qed.
  Lemma explorer_abbreviated e inputs pre p n post : ~ In $"--" pre -> abbreviates (all_names explorer_flags explorer_values) p n ->
    explorer_command float_of e (pre ++ p :: post) inputs = explorer_command float_of e (pre ++ n :: post) inputs /\
    forall v, explorer_command float_of e (pre ++ (p ++ "="%char :: v) :: post) inputs = explorer_command float_of e (pre ++ (n ++ "="%char :: v) :: post) inputs.
  Proof.
    intros H A. destruct (abbreviated explorer_cli _ _ pre p n post explorer_made explorer_names H A) as [E1 E2]. unfold explorer_command.
    split; [now rewrite E1|]. intro v. now rewrite E2.
  Qed.

  Lemma sync_ambiguous E w pre p post : ~ In $"--" pre -> ambiguous (all_names sync_flags sync_values) p ->
    sync_command float_of E (pre ++ p :: post) w = (w, [], UsageError).
  Proof. intros H A. unfold sync_command. now rewrite (ambiguous_refused sync_cli float_of _ sync_names pre p post H A). Qed.
  Lemma build_ambiguous e w pre p post : ~ In $"--" pre -> ambiguous (all_names build_flags build_values) p ->
    build_command float_of e (pre ++ p :: post) w = (w, UsageError).
  Proof. intros H A. unfold build_command. now rewrite (ambiguous_refused build_cli float_of _ build_names pre p post H A). Qed.
  Lemma explorer_ambiguous e inputs pre p post : ~ In $"--" pre -> ambiguous (all_names explorer_flags explorer_values) p ->
    explorer_command float_of e (pre ++ p :: post) inputs = ([], UsageError).
  Proof. intros H A. unfold explorer_command. now rewrite (ambiguous_refused explorer_cli float_of _ explorer_names pre p post H A). Qed.

  (** ** Unknown options *)

  Lemma sync_unknown E w pre s post : ~ In $"--" pre -> unknown_option (all_names sync_flags sync_values) s ->
    sync_command float_of E (pre ++ s :: post) w = (w, [], UsageError) \/
    (sync_command float_of E (pre ++ s :: post) w = (w, [], Build.Done) /\ parse_args float_of sync_cli (pre ++ s :: post) = Helped).
  Proof.
    intros H U. unfold sync_command.
    destruct (unknown_refused sync_cli float_of _ sync_made sync_names pre s post H U) as [E1|E1]; rewrite E1; auto.
  Qed.
  Lemma build_unknown e w pre s post : ~ In $"--" pre -> unknown_option (all_names build_flags build_values) s ->
    build_command float_of e (pre ++ s :: post) w = (w, UsageError) \/
    (build_command float_of e (pre ++ s :: post) w = (w, Build.Done) /\ parse_args float_of build_cli (pre ++ s :: post) = Helped).
  Proof.
    intros H U. unfold build_command.
    destruct (unknown_refused build_cli float_of _ build_made build_names pre s post H U) as [E1|E1]; rewrite E1; auto.
  Qed.
  Lemma explorer_unknown e inputs pre s post : ~ In $"--" pre -> unknown_option (all_names explorer_flags explorer_values) s ->
    explorer_command float_of e (pre ++ s :: post) inputs = ([], UsageError) \/
    (explorer_command float_of e (pre ++ s :: post) inputs = ([], Build.Done) /\ parse_args float_of explorer_cli (pre ++ s :: post) = Helped).
  Proof.
    intros H U. unfold explorer_command.
    destruct (unknown_refused explorer_cli float_of _ explorer_made explorer_names pre s post H U) as [E1|E1]; rewrite E1; auto.
  Qed.

  (** ** Arguments in two places *)

  Lemma sync_split E w us1 ms us2 ms' us3 :
    (forall u, In u (us1 ++ us2 ++ us3) -> good sync_flags sync_values u) -> (forall m, In m (ms ++ ms') -> plain m) ->
    ms <> [] -> us2 <> [] -> ms' <> [] ->
    sync_command float_of E (typed_all us1 ++ ms ++ typed_all us2 ++ ms' ++ typed_all us3) w = (w, [], UsageError).
  Proof.
    intros G Pl N1 N2 N3. unfold sync_command. rewrite (split_refused sync_cli float_of sync_made us1 ms us2 ms' us3); auto.
    - intros u Hu. eapply good_meant; [apply sync_described|auto].
    - eapply proper_no_help; [apply sync_described|apply (good_proper sync_flags sync_values _ G)].
  Qed.
  Lemma build_split e w us1 ms us2 ms' us3 :
    (forall u, In u (us1 ++ us2 ++ us3) -> good build_flags build_values u) -> (forall m, In m (ms ++ ms') -> plain m) ->
    ms <> [] -> us2 <> [] -> ms' <> [] ->
    build_command float_of e (typed_all us1 ++ ms ++ typed_all us2 ++ ms' ++ typed_all us3) w = (w, UsageError).
  Proof.
    intros G Pl N1 N2 N3. unfold build_command. rewrite (split_refused build_cli float_of build_made us1 ms us2 ms' us3); auto.
    - intros u Hu. eapply good_meant; [apply build_described|auto].
    - eapply proper_no_help; [apply build_described|apply (good_proper build_flags build_values _ G)].
  Qed.
End Abbreviations.
