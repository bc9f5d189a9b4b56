(** * ArgsEx: command lines that show the hypotheses met, and the witnesses of what fails *)

From Verif Require Import Py PyFacts Opener ListIndex Hashes ClientState Client ClientUtils Build Sync Explorer ExplorerMain
  Args ArgsSpec ArgsFacts ArgsRead ArgsScripts ArgsMain ArgsOther ArgsLaws.

Ltac words := intros ? Hin; cbn in Hin; repeat (destruct Hin as [<- | Hin]; [|]); try destruct Hin.
Ltac word := vm_compute; first [exact I | left; discriminate | right; reflexivity].
Ltac absent := let H := fresh in intro H; vm_compute in H; intuition discriminate.
Ltac member := apply in_strs_In; vm_compute; reflexivity.

(** -bv --tries 5 http://h/a /b -t3 --hash=md5 --delete *)
Definition some_uses : list use := [UFlags $"bv"; UNext $"--tries" $"5"].
Definition more_uses : list use := [UGlued "t"%char $"3"; UEq $"--hash" $"md5"; UFlag $"--delete"].
Definition some_maps : list str := [$"http://h/a"; $"/b"].
Lemma some_line : sync_line some_uses more_uses some_maps.
Proof.
  split.
  - words; cbn [good].
    + split; [discriminate|]. words; member.
    + split; [member|]. word.
    + split; [member|]. split; discriminate.
    + member.
    + member.
  - words; word.
Qed.
Lemma some_acceptable float_of : acceptable float_of sync_ints [$"--delay"] versions (some_uses ++ more_uses).
Proof.
  intros n v Hin. cbn in Hin.
  repeat (destruct Hin as [Hin | Hin]; [try discriminate|]); try contradiction;
    injection Hin as <- <-; repeat split; intro H; try (vm_compute; discriminate); exfalso; apply in_strs_In in H; vm_compute in H; discriminate.
Qed.
Lemma some_mode_said : one_mode sync_mode_of (some_uses ++ more_uses) Baseline.
Proof. split; [now left|]. vm_compute. intuition congruence. Qed.
Lemma some_read float_of E w :
  sync_command float_of E [$"-bv"; $"--tries"; $"5"; $"http://h/a"; $"/b"; $"-t3"; $"--hash=md5"; $"--delete"] w =
  resync_sync E (MkSync Baseline [$"http://h/a"; $"/b"] None None None None (Some [$"md5"]) false None None None false false false
    true false false None (Some 3) false true) w.
Proof. exact (sync_read float_of E w some_uses some_maps more_uses Baseline some_line (some_acceptable float_of) some_mode_said). Qed.

(** The same in another order and spelling: --delete --hash md5 http://h/a /b -v --tries 5 --baseline --verbose --tries=3 *)
Definition other_uses : list use := [UFlag $"--delete"; UNext $"--hash" $"md5"].
Definition further_uses : list use := [UFlag $"-v"; UNext $"--tries" $"5"; UFlag $"--baseline"; UFlag $"--verbose"; UEq $"--tries" $"3"].
Lemma other_line : sync_line other_uses further_uses some_maps.
Proof.
  split.
  - words; cbn [good]; try member; split; try member; [word|word].
  - words; word.
Qed.
Lemma other_same : say_the_same sync_groups (some_uses ++ more_uses) (other_uses ++ further_uses).
Proof. words; vm_compute; auto. Qed.

(** resync-build --write-resourcelist -v /a --outfile=f; resync-explorer --sitemap http://h/s --noauth *)
Definition build_uses : list use := [UFlag $"--write-resourcelist"; UFlag $"-v"].
Definition build_rest : list use := [UEq $"--outfile" $"f"].
Lemma some_build_line : build_line build_uses build_rest [$"/a"].
Proof. split; [words; member|words; word]. Qed.
Lemma some_build_acceptable float_of : acceptable float_of build_ints [] versions (build_uses ++ build_rest).
Proof.
  intros n v Hin. cbn in Hin. destruct Hin as [Hin|[Hin|[Hin|[]]]]; try discriminate. injection Hin as <- <-.
  repeat split; intro H; exfalso; apply in_strs_In in H; vm_compute in H; discriminate.
Qed.
Lemma some_build_mode : one_mode write_mode_of (build_uses ++ build_rest) WriteResourceList.
Proof. split; [now left|]. vm_compute. intuition congruence. Qed.
Definition explorer_uses : list use := [UNext $"--sitemap" $"http://h/s"; UFlag $"--noauth"].
Lemma some_explorer_line u : In u explorer_uses -> good explorer_flags explorer_values u.
Proof. revert u. words; cbn [good]; [split; [member|word]|member]. Qed.
Lemma some_explorer_acceptable float_of : acceptable float_of build_ints [$"--delay"] versions explorer_uses.
Proof.
  intros n v Hin. cbn in Hin. destruct Hin as [Hin|[Hin|[]]]; try discriminate. injection Hin as <- <-.
  repeat split; intro H; exfalso; apply in_strs_In in H; vm_compute in H; discriminate.
Qed.

(** ** Abbreviations *)

Definition only_name (names : list str) (p n : str) : bool :=
  startswith $"--" p && negb (str_eqb p $"--") && negb (existsb (ceqb "="%char) p) && negb (in_strs p names) && in_strs n names && startswith p n
  && forallb (fun n' => implb (startswith p n') (str_eqb n' n)) names.
Lemma only_abbreviates names p n : only_name names p n = true -> abbreviates names p n.
Proof.
  unfold only_name, abbreviates. rewrite !andb_true_iff, !negb_true_iff, forallb_forall.
  intros [[[[[[H1 H2] H3] H4] H5] H6] H7]. repeat split; auto.
  - intros ->. discriminate.
  - intro H. apply not_true_iff_false in H3. apply H3. apply existsb_exists. exists "="%char. split; auto.
  - intro H. apply in_strs_In in H. congruence.
  - now apply in_strs_In.
  - intros n' Hn' S. specialize (H7 n' Hn'). rewrite S in H7. cbn in H7. now apply str_eqb_eq.
Qed.
Lemma some_abbreviation : abbreviates (all_names sync_flags sync_values) $"--bas" $"--baseline".
Proof. apply only_abbreviates. vm_compute. reflexivity. Qed.
Lemma some_build_abbreviation : abbreviates (all_names build_flags build_values) $"--outf" $"--outfile".
Proof. apply only_abbreviates. vm_compute. reflexivity. Qed.
Lemma some_explorer_abbreviation : abbreviates (all_names explorer_flags explorer_values) $"--site" $"--sitemap".
Proof. apply only_abbreviates. vm_compute. reflexivity. Qed.
Lemma some_ambiguous : ambiguous (all_names sync_flags sync_values) $"--del".
Proof.
  repeat split; try discriminate.
  - absent.
  - intro H. apply in_strs_In in H. vm_compute in H. discriminate.
  - exists $"--delete", $"--delay". split; [discriminate|]. split; [member|]. split; [member|]. split; vm_compute; reflexivity.
Qed.
Lemma some_unknown : unknown_option (all_names sync_flags sync_values) $"--deleted".
Proof.
  split; [absent|]. left. repeat split; try discriminate.
  - absent.
  - intros n Hn.
    assert (forallb (fun n => negb (startswith $"--deleted" n)) (all_names sync_flags sync_values) = true) as K by (vm_compute; reflexivity).
    rewrite forallb_forall in K. now apply negb_true_iff, K.
Qed.

(** --change is the beginning of two names, of the same option. *)
Definition change_uses : list use := [UFlag $"-i"; UNext $"--changelist-uri" $"http://h/c"].
Lemma one_option_two_names : exists p n g, In g sync_groups /\ In n g /\
  startswith $"--" p = true /\ startswith p n = true /\ (forall n', In n' (all_names sync_flags sync_values) -> startswith p n' = true -> In n' g) /\
  forall float_of E w,
    sync_command float_of E [$"-i"; p; $"http://h/c"] w = (w, [], UsageError) /\
    sync_command float_of E [$"-i"; n; $"http://h/c"] w =
      resync_sync E (sync_meaning float_of Incremental [UFlag $"-i"; UNext n $"http://h/c"] []) w.
Proof.
  exists $"--change", $"--changelist-uri", [$"--changelist-uri"; $"--change-list-uri"].
  split; [apply group_in; vm_compute; reflexivity|]. split; [now left|]. split; [reflexivity|]. split; [reflexivity|]. split.
  - intros n Hn S.
    assert (forallb (fun n => implb (startswith $"--change" n) (in_strs n [$"--changelist-uri"; $"--change-list-uri"]))
      (all_names sync_flags sync_values) = true) as K by (vm_compute; reflexivity).
    rewrite forallb_forall in K. specialize (K n Hn). rewrite S in K. now apply in_strs_In.
  - intros float_of E w. split.
    + apply (sync_ambiguous float_of E w [$"-i"] $"--change" [$"http://h/c"]).
      * absent.
      * repeat split; try discriminate; [absent| |].
        -- intro H. apply in_strs_In in H. vm_compute in H. discriminate.
        -- exists $"--changelist-uri", $"--change-list-uri". split; [discriminate|]. split; [member|]. split; [member|]. split; vm_compute; reflexivity.
    + apply (sync_read float_of E w change_uses [] [] Incremental).
      * split; [words; cbn [good]; [member|split; [member|word]]|easy].
      * intros n v Hin. cbn in Hin. destruct Hin as [Hin|[Hin|[]]]; try discriminate. injection Hin as <- <-.
        repeat split; intro H; exfalso; apply in_strs_In in H; vm_compute in H; discriminate.
      * split; [now left|]. vm_compute. intuition congruence.
Qed.

(** ** Arguments in two places *)

Lemma arguments_in_two_places : forall float_of E w,
  sync_command float_of E [$"-b"; $"http://h/a"; $"-v"; $"/b"] w = (w, [], UsageError) /\
  sync_command float_of E [$"-b"; $"-v"; $"http://h/a"; $"/b"] w =
    resync_sync E (sync_meaning float_of Baseline [UFlag $"-b"; UFlag $"-v"] [$"http://h/a"; $"/b"]) w.
Proof.
  intros float_of E w. split.
  - apply (sync_split float_of E w [UFlag $"-b"] [$"http://h/a"] [UFlag $"-v"] [$"/b"] []); try discriminate; words; try member; word.
  - apply (sync_read float_of E w [UFlag $"-b"; UFlag $"-v"] [$"http://h/a"; $"/b"] [] Baseline).
    + split; [words; member|words; word].
    + intros n v Hin. cbn in Hin. destruct Hin as [Hin|[Hin|[]]]; discriminate.
    + split; [now left|]. vm_compute. intuition congruence.
Qed.
(** The same two arguments given to resync-build. *)
Lemma build_arguments_in_two_places : forall float_of e w,
  build_command float_of e [$"http://h/a"; $"--write-resourcelist"; $"/b"] w = (w, UsageError).
Proof.
  intros. apply (build_split float_of e w [] [$"http://h/a"] [UFlag $"--write-resourcelist"] [$"/b"] []); try discriminate; words; try member; word.
Qed.

(** ** Refused *)

Lemma no_mode_refused : sync_line [UFlag $"-v"] [] [$"http://h/a"; $"/b"] /\
  ~ (acceptable (fun _ => None) sync_ints [$"--delay"] versions ([UFlag $"-v"] ++ []) /\ exists m, one_mode sync_mode_of ([UFlag $"-v"] ++ []) m).
Proof.
  split.
  - split; [words; member|words; word].
  - intros [_ (m & [H _])]. destruct H.
Qed.
Lemma two_modes_refused : sync_line [UFlags $"bi"] [] [] /\
  ~ (acceptable (fun _ => None) sync_ints [$"--delay"] versions ([UFlags $"bi"] ++ []) /\ exists m, one_mode sync_mode_of ([UFlags $"bi"] ++ []) m).
Proof.
  split.
  - split; [|easy]. words. cbn [good]. split; [discriminate|]. words; member.
  - intros [_ (m & [_ H])]. assert (Baseline = m) as H1 by (apply H; vm_compute; auto).
    assert (Incremental = m) as H2 by (apply H; vm_compute; auto). congruence.
Qed.
Lemma bad_number_refused : build_line [UFlag $"-d"; UNext $"--max-sitemap-entries" $"many"] [] [] /\
  ~ (acceptable (fun _ => None) build_ints [] versions ([UFlag $"-d"; UNext $"--max-sitemap-entries" $"many"] ++ []) /\
     exists m, one_mode write_mode_of ([UFlag $"-d"; UNext $"--max-sitemap-entries" $"many"] ++ []) m).
Proof.
  split.
  - split; [words; cbn [good]; [member|split; [member|word]]|easy].
  - intros [A _]. destruct (A $"--max-sitemap-entries" $"many") as [H _]; [right; now left|]. apply H; [now left|]. vm_compute. reflexivity.
Qed.
Lemma bad_version_refused : (forall u, In u [UEq $"--spec-version" $"2"] -> good explorer_flags explorer_values u) /\
  ~ acceptable (fun _ => None) build_ints [$"--delay"] versions [UEq $"--spec-version" $"2"].
Proof.
  split; [words; member|]. intro A. destruct (A $"--spec-version" $"2") as (_ & _ & H); [now left|].
  destruct H as [H|H]; [now left| |]; vm_compute in H; discriminate.
Qed.
