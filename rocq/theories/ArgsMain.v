(** * ArgsMain: the command lines of the three scripts *)

From Verif Require Import Py PyFacts Opener ListIndex Hashes ClientState Client ClientUtils Build Sync Explorer ExplorerMain
  Args ArgsSpec ArgsFacts ArgsRead ArgsScripts.

Lemma sync_made : wellmade sync_cli = true. Proof. vm_compute. reflexivity. Qed.
Lemma build_made : wellmade build_cli = true. Proof. vm_compute. reflexivity. Qed.
Lemma explorer_made : wellmade explorer_cli = true. Proof. vm_compute. reflexivity. Qed.
Lemma sync_described : described sync_cli sync_flags sync_values sync_ints [$"--delay"] versions = true. Proof. vm_compute. reflexivity. Qed.
Lemma build_described : described build_cli build_flags build_values build_ints [] versions = true. Proof. vm_compute. reflexivity. Qed.
Lemma explorer_described : described explorer_cli explorer_flags explorer_values build_ints [$"--delay"] versions = true.
Proof. vm_compute. reflexivity. Qed.

Definition smeqb (x y : sync_mode) : bool :=
  match x, y with Baseline, Baseline | Incremental, Incremental | Audit, Audit | Parse, Parse => true | _, _ => false end.
Lemma smeqb_eq x y : smeqb x y = true <-> x = y.
Proof. destruct x, y; cbn; split; easy. Qed.
Definition wmeqb (x y : write_mode) : bool :=
  match x, y with
  | WriteResourceList, WriteResourceList | WriteChangeList, WriteChangeList | WriteCapabilityList, WriteCapabilityList
  | WriteDescription, WriteDescription | WriteResourceDump, WriteResourceDump | WriteChangeDump, WriteChangeDump => true
  | _, _ => false
  end.
Lemma wmeqb_eq x y : wmeqb x y = true <-> x = y.
Proof. destruct x, y; cbn; split; easy. Qed.
Lemma sync_agree : modes_agree sync_cli sync_mode_of smeqb = true. Proof. vm_compute. reflexivity. Qed.
Lemma build_agree : modes_agree build_cli write_mode_of wmeqb = true. Proof. vm_compute. reflexivity. Qed.

Ltac in_group H := apply in_strs_In in H; cbn [In] in H; repeat (destruct H as [<- |H]; [vm_compute; reflexivity|]); destruct H.
Ltac mode_names n := split;
  [ unfold sync_mode_of, write_mode_of; repeat (match goal with |- context [in_strs n ?N] => destruct (in_strs n N) eqn:? end); congruence
  | let H := fresh in intro H; in_group H ].

Lemma baseline_names n : sync_mode_of n = Some Baseline <-> in_strs n [$"--baseline"; $"-b"] = true.
Proof. mode_names n. Qed.
Lemma incremental_names n : sync_mode_of n = Some Incremental <-> in_strs n [$"--incremental"; $"--inc"; $"-i"] = true.
Proof. mode_names n. Qed.
Lemma audit_names n : sync_mode_of n = Some Audit <-> in_strs n [$"--audit"; $"-a"] = true.
Proof. mode_names n. Qed.
Lemma rl_names n : write_mode_of n = Some WriteResourceList <-> in_strs n [$"--write-resourcelist"; $"--write-resource-list"] = true.
Proof. mode_names n. Qed.
Lemma cl_names n : write_mode_of n = Some WriteChangeList <-> in_strs n [$"--write-changelist"; $"--write-change-list"] = true.
Proof. mode_names n. Qed.
Lemma rd_names n : write_mode_of n = Some WriteResourceDump <-> in_strs n [$"--write-resourcedump"; $"--write-resource-dump"; $"-d"] = true.
Proof. mode_names n. Qed.
Lemma cd_names n : write_mode_of n = Some WriteChangeDump <-> in_strs n [$"--write-changedump"; $"--write-change-dump"] = true.
Proof. mode_names n. Qed.
Lemma cap_names n : write_mode_of n = Some WriteCapabilityList <-> in_strs n capability_names = true.
Proof. mode_names n. Qed.

Section Scripts.
  Variable float_of : str -> option Z.

  (** ** resync-sync *)

  Lemma sync_meant m us maps a : one_mode sync_mode_of us m -> assigns sync_cli float_of (said_all us) = Some a ->
    sync_args_of a maps = sync_meaning float_of m us maps.
  Proof.
    intros O A. unfold sync_args_of, sync_meaning.
    rewrite (assigned_flag sync_cli float_of is_flag $"audit" [$"--audit"; $"-a"] us a ltac:(vm_compute; reflexivity) A).
    rewrite (assigned_flag sync_cli float_of is_flag $"baseline" [$"--baseline"; $"-b"] us a ltac:(vm_compute; reflexivity) A).
    rewrite (assigned_flag sync_cli float_of is_flag $"incremental" [$"--incremental"; $"--inc"; $"-i"] us a ltac:(vm_compute; reflexivity) A).
    rewrite (mode_is sync_mode_of smeqb smeqb_eq _ Audit us m audit_names O).
    rewrite (mode_is sync_mode_of smeqb smeqb_eq _ Baseline us m baseline_names O).
    rewrite (mode_is sync_mode_of smeqb smeqb_eq _ Incremental us m incremental_names O).
    rewrite (last_text_said sync_cli float_of $"sitemap" [$"--sitemap"] us a ltac:(vm_compute; reflexivity) A).
    rewrite (last_text_said sync_cli float_of $"capabilitylist" [$"--capabilitylist"; $"--capability-list"] us a ltac:(vm_compute; reflexivity) A).
    rewrite (last_text_said sync_cli float_of $"changelist_uri" [$"--changelist-uri"; $"--change-list-uri"] us a ltac:(vm_compute; reflexivity) A).
    rewrite (last_text_said sync_cli float_of $"from_datetime" [$"--from"] us a ltac:(vm_compute; reflexivity) A).
    rewrite (all_texts_said sync_cli float_of $"hash" [$"--hash"] us a ltac:(vm_compute; reflexivity) A).
    rewrite (assigned_flag sync_cli float_of is_flag $"checksum" [$"--checksum"] us a ltac:(vm_compute; reflexivity) A).
    rewrite (last_text_said sync_cli float_of $"access_token" [$"--access-token"] us a ltac:(vm_compute; reflexivity) A).
    rewrite (last_float_is sync_cli float_of $"delay" [$"--delay"] us a ltac:(vm_compute; reflexivity) A).
    rewrite (all_texts_said sync_cli float_of $"exclude" [$"--exclude"] us a ltac:(vm_compute; reflexivity) A).
    rewrite (assigned_flag sync_cli float_of is_flag $"multifile" [$"--multifile"; $"-m"] us a ltac:(vm_compute; reflexivity) A).
    rewrite (assigned_flag sync_cli float_of is_flag $"noauth" [$"--noauth"] us a ltac:(vm_compute; reflexivity) A).
    rewrite (assigned_flag sync_cli float_of is_flag $"strictauth" [$"--strictauth"] us a ltac:(vm_compute; reflexivity) A).
    rewrite (assigned_flag sync_cli float_of is_flag $"delete" [$"--delete"] us a ltac:(vm_compute; reflexivity) A).
    rewrite (assigned_flag sync_cli float_of is_flag $"dryrun" [$"--dryrun"; $"-n"] us a ltac:(vm_compute; reflexivity) A).
    rewrite (assigned_flag sync_cli float_of is_flag $"ignore_failures" [$"--ignore-failures"] us a ltac:(vm_compute; reflexivity) A).
    rewrite (last_int_is sync_cli float_of $"max_sitemap_entries" [$"--max-sitemap-entries"] us a ltac:(vm_compute; reflexivity) A).
    rewrite (last_int_is sync_cli float_of $"tries" [$"--tries"; $"-t"] us a ltac:(vm_compute; reflexivity) A).
    rewrite (last_text_said sync_cli float_of $"spec_version" [$"--spec-version"] us a ltac:(vm_compute; reflexivity) A).
    rewrite (assigned_flag sync_cli float_of is_flag $"verbose" [$"--verbose"; $"-v"] us a ltac:(vm_compute; reflexivity) A).
    destruct m; reflexivity.
  Qed.

  Lemma sync_parse_ok us1 ms us2 m : sync_line us1 us2 ms ->
    acceptable float_of sync_ints [$"--delay"] versions (us1 ++ us2) -> one_mode sync_mode_of (us1 ++ us2) m ->
    exists a, parse_args float_of sync_cli (typed_all us1 ++ ms ++ typed_all us2) = Read (a, ms) /\
      sync_args_of a ms = sync_meaning float_of m (us1 ++ us2) ms.
  Proof.
    intros [G Pl] Ac O.
    pose proof (good_proper sync_flags sync_values (us1 ++ us2) G) as Pr.
    destruct (proj2 (assigns_iff sync_cli float_of _ _ _ _ _ sync_described eq_refl _ Pr) Ac) as [a A].
    exists a. split; [|now apply sync_meant].
    apply (parse_ok sync_cli float_of sync_made); auto.
    - intros u Hu. eapply good_meant; [apply sync_described|auto].
    - eapply proper_no_help; [apply sync_described|exact Pr].
    - apply (consistent_modes sync_cli float_of sync_mode_of smeqb smeqb_eq sync_agree _ _ A).
      destruct O as [_ O]. intros x y Hx Hy. now rewrite (O x Hx), (O y Hy).
    - unfold ending_ok. apply negb_true_iff, andb_false_iff. right. apply negb_false_iff.
      apply (some_mode sync_cli float_of sync_mode_of smeqb sync_agree _ _ A). destruct O as [O _]. intro E. now rewrite E in O.
  Qed.
  Lemma sync_parse_bad us1 ms us2 : sync_line us1 us2 ms ->
    ~ (acceptable float_of sync_ints [$"--delay"] versions (us1 ++ us2) /\ exists m, one_mode sync_mode_of (us1 ++ us2) m) ->
    parse_args float_of sync_cli (typed_all us1 ++ ms ++ typed_all us2) = Refused.
  Proof.
    intros [G Pl] Bad.
    pose proof (good_proper sync_flags sync_values (us1 ++ us2) G) as Pr.
    apply (parse_bad sync_cli float_of sync_made); auto.
    - intros u Hu. eapply good_meant; [apply sync_described|auto].
    - eapply proper_no_help; [apply sync_described|exact Pr].
    - intros a A C. apply not_true_iff_false. intro E. apply Bad. split.
      + apply (proj1 (assigns_iff sync_cli float_of _ _ _ _ _ sync_described eq_refl _ Pr)). eauto.
      + unfold ending_ok in E. change (has_modes sync_cli) with true in E. cbn [andb] in E. rewrite negb_involutive in E.
        apply (some_mode sync_cli float_of sync_mode_of smeqb sync_agree _ _ A) in E.
        pose proof (proj1 (consistent_modes sync_cli float_of sync_mode_of smeqb smeqb_eq sync_agree _ _ A) C) as C'.
        destruct (modes_said sync_mode_of (us1 ++ us2)) as [|m l] eqn:El; [easy|]. exists m. unfold one_mode. rewrite El.
        split; [now left|]. intros m' Hm'. apply C'; auto. now left.
  Qed.

  Lemma sync_read E w us1 ms us2 m : sync_line us1 us2 ms ->
    acceptable float_of sync_ints [$"--delay"] versions (us1 ++ us2) -> one_mode sync_mode_of (us1 ++ us2) m ->
    sync_command float_of E (typed_all us1 ++ ms ++ typed_all us2) w = resync_sync E (sync_meaning float_of m (us1 ++ us2) ms) w.
  Proof.
    intros L Ac O. destruct (sync_parse_ok us1 ms us2 m L Ac O) as (a & H & M). unfold sync_command. rewrite H, M. reflexivity.
  Qed.
  Lemma sync_refused E w us1 ms us2 : sync_line us1 us2 ms ->
    ~ (acceptable float_of sync_ints [$"--delay"] versions (us1 ++ us2) /\ exists m, one_mode sync_mode_of (us1 ++ us2) m) ->
    sync_command float_of E (typed_all us1 ++ ms ++ typed_all us2) w = (w, [], UsageError).
  Proof. intros L B. unfold sync_command. rewrite (sync_parse_bad us1 ms us2 L B). reflexivity. Qed.

  (** ** resync-build *)

  Lemma build_meant m us maps a : (forall nv, In nv (said_all us) -> proper build_flags build_values nv) ->
    one_mode write_mode_of us m -> assigns build_cli float_of (said_all us) = Some a ->
    build_args_of a maps = build_meaning m us maps.
  Proof.
    intros Pr O A. unfold build_args_of, build_meaning.
    rewrite (assigned_flag build_cli float_of is_flag $"write_resourcelist" [$"--write-resourcelist"; $"--write-resource-list"] us a ltac:(vm_compute; reflexivity) A).
    rewrite (assigned_flag build_cli float_of is_flag $"write_resourcedump" [$"--write-resourcedump"; $"--write-resource-dump"; $"-d"] us a ltac:(vm_compute; reflexivity) A).
    rewrite (assigned_flag build_cli float_of is_flag $"write_changelist" [$"--write-changelist"; $"--write-change-list"] us a ltac:(vm_compute; reflexivity) A).
    rewrite (assigned_flag build_cli float_of is_flag $"write_changedump" [$"--write-changedump"; $"--write-change-dump"] us a ltac:(vm_compute; reflexivity) A).
    rewrite (last_text_said build_cli float_of $"write_capabilitylist" capability_names us a ltac:(vm_compute; reflexivity) A).
    rewrite (last_text_said build_cli float_of $"write_sourcedescription" description_names us a ltac:(vm_compute; reflexivity) A).
    rewrite (mode_is write_mode_of wmeqb wmeqb_eq _ WriteResourceList us m rl_names O).
    rewrite (mode_is write_mode_of wmeqb wmeqb_eq _ WriteResourceDump us m rd_names O).
    rewrite (mode_is write_mode_of wmeqb wmeqb_eq _ WriteChangeList us m cl_names O).
    rewrite (mode_is write_mode_of wmeqb wmeqb_eq _ WriteChangeDump us m cd_names O).
    match goal with |- Build.MkArgs ?x _ _ _ _ _ _ _ _ _ _ _ _ _ _ _ _ _ = _ => assert (x = write_mode_with m us) as -> end.
    { pose proof (mode_is write_mode_of wmeqb wmeqb_eq _ WriteCapabilityList us m cap_names O) as Mc.
      assert (is_said capability_names us = match last_said capability_names us with Some _ => true | None => false end) as Hc.
      { unfold is_said, last_said, values_said. clear -Pr. revert Pr. generalize (said_all us). intros l Pr.
        assert (forall k : list str, last (map Some k) None = None <-> k = []) as Lk.
        { intro k. destruct k as [|x k _] using rev_ind; [easy|]. rewrite map_app. cbn. rewrite last_last. split; [easy|].
          intro E. now apply app_eq_nil in E as [_ E]. }
        assert (existsb (fun nv => in_strs (fst nv) capability_names) l = false <->
          flat_map (fun nv => if in_strs (fst nv) capability_names then match snd nv with Some v => [v] | None => [] end else []) l = []) as Q.
        { induction l as [|[n v] l IH]; cbn [existsb flat_map fst snd]; [easy|].
          specialize (IH ltac:(intros; apply Pr; now right)). destruct (in_strs n capability_names) eqn:E; cbn [orb app]; auto.
          destruct v as [v|]; [easy|]. exfalso. pose proof (Pr (n, None) (or_introl eq_refl)) as Q. unfold proper in Q. cbn [fst snd] in Q.
          apply in_strs_In in E. assert (in_strs n build_flags = false) as Z.
          { cbn [In capability_names] in E. repeat destruct E as [<- |E]; vm_compute; try reflexivity. destruct E. }
          apply in_strs_false in Z. auto. }
        destruct (last _ None) eqn:El.
        - apply not_false_iff_true. intro X. apply Q, Lk in X. congruence.
        - apply Q, Lk, El. }
      rewrite Hc in Mc. destruct m; cbn [wmeqb write_mode_with] in *; auto; destruct (last_said capability_names us); auto; discriminate. }
    rewrite (last_text_said build_cli float_of $"outfile" [$"--outfile"] us a ltac:(vm_compute; reflexivity) A).
    rewrite (last_text_said build_cli float_of $"paths" [$"--paths"] us a ltac:(vm_compute; reflexivity) A).
    rewrite (last_text_said build_cli float_of $"reference" [$"--reference"] us a ltac:(vm_compute; reflexivity) A).
    rewrite (last_text_said build_cli float_of $"newreference" [$"--newreference"] us a ltac:(vm_compute; reflexivity) A).
    rewrite (all_texts_said build_cli float_of $"link" [$"--link"] us a ltac:(vm_compute; reflexivity) A).
    rewrite (last_text_said build_cli float_of $"describedby_link" [$"--describedby-link"] us a ltac:(vm_compute; reflexivity) A).
    rewrite (last_text_said build_cli float_of $"sourcedescription_link" [$"--sourcedescription-link"; $"--source-description-link"] us a ltac:(vm_compute; reflexivity) A).
    rewrite (last_text_said build_cli float_of $"capabilitylist_link" [$"--capabilitylist-link"; $"--capability-list-link"] us a ltac:(vm_compute; reflexivity) A).
    rewrite (all_texts_said build_cli float_of $"hash" [$"--hash"] us a ltac:(vm_compute; reflexivity) A).
    rewrite (assigned_flag build_cli float_of is_flag $"checksum" [$"--checksum"] us a ltac:(vm_compute; reflexivity) A).
    rewrite (all_texts_said build_cli float_of $"exclude" [$"--exclude"] us a ltac:(vm_compute; reflexivity) A).
    assert (match all_said [$"--exclude"] us with Some l => l | None => [] end = values_said [$"--exclude"] us) as ->
      by (unfold all_said; now destruct (values_said [$"--exclude"] us)).
    rewrite (assigned_flag build_cli float_of is_flag $"multifile" [$"--multifile"; $"-m"] us a ltac:(vm_compute; reflexivity) A).
    rewrite (last_int_is build_cli float_of $"max_sitemap_entries" [$"--max-sitemap-entries"] us a ltac:(vm_compute; reflexivity) A).
    rewrite (assigned_flag build_cli float_of is_flag $"empty" [$"--empty"] us a ltac:(vm_compute; reflexivity) A).
    rewrite (assigned_flag build_cli float_of is_flag $"warc" [$"--warc"] us a ltac:(vm_compute; reflexivity) A).
    rewrite (assigned_flag build_cli float_of is_flag $"verbose" [$"--verbose"; $"-v"] us a ltac:(vm_compute; reflexivity) A).
    reflexivity.
  Qed.

  Lemma build_read e w us1 ms us2 m : build_line us1 us2 ms ->
    acceptable float_of build_ints [] versions (us1 ++ us2) -> one_mode write_mode_of (us1 ++ us2) m ->
    build_command float_of e (typed_all us1 ++ ms ++ typed_all us2) w = resync_build e (build_meaning m (us1 ++ us2) ms) w.
  Proof.
    intros [G Pl] Ac O.
    pose proof (good_proper build_flags build_values (us1 ++ us2) G) as Pr.
    destruct (proj2 (assigns_iff build_cli float_of _ _ _ _ _ build_described eq_refl _ Pr) Ac) as [a A].
    unfold build_command. rewrite <- (build_meant m _ ms a Pr O A).
    rewrite (parse_ok build_cli float_of build_made us1 ms us2 a); auto.
    - intros u Hu. eapply good_meant; [apply build_described|auto].
    - eapply proper_no_help; [apply build_described|exact Pr].
    - apply (consistent_modes build_cli float_of write_mode_of wmeqb wmeqb_eq build_agree _ _ A).
      destruct O as [_ O]. intros x y Hx Hy. now rewrite (O x Hx), (O y Hy).
    - unfold ending_ok. apply negb_true_iff, andb_false_iff. right. apply negb_false_iff.
      apply (some_mode build_cli float_of write_mode_of wmeqb build_agree _ _ A). destruct O as [O _]. intro E. now rewrite E in O.
  Qed.
  Lemma build_refused e w us1 ms us2 : build_line us1 us2 ms ->
    ~ (acceptable float_of build_ints [] versions (us1 ++ us2) /\ exists m, one_mode write_mode_of (us1 ++ us2) m) ->
    build_command float_of e (typed_all us1 ++ ms ++ typed_all us2) w = (w, UsageError).
  Proof.
    intros [G Pl] Bad.
    pose proof (good_proper build_flags build_values (us1 ++ us2) G) as Pr.
    unfold build_command. rewrite (parse_bad build_cli float_of build_made); auto.
    - intros u Hu. eapply good_meant; [apply build_described|auto].
    - eapply proper_no_help; [apply build_described|exact Pr].
    - intros a A C. apply not_true_iff_false. intro E. apply Bad. split.
      + apply (proj1 (assigns_iff build_cli float_of _ _ _ _ _ build_described eq_refl _ Pr)). eauto.
      + unfold ending_ok in E. change (has_modes build_cli) with true in E. cbn [andb] in E. rewrite negb_involutive in E.
        apply (some_mode build_cli float_of write_mode_of wmeqb build_agree _ _ A) in E.
        pose proof (proj1 (consistent_modes build_cli float_of write_mode_of wmeqb wmeqb_eq build_agree _ _ A) C) as C'.
        destruct (modes_said write_mode_of (us1 ++ us2)) as [|m l] eqn:El; [easy|]. exists m. unfold one_mode. rewrite El.
        split; [now left|]. intros m' Hm'. apply C'; auto. now left.
  Qed.

  (** ** resync-explorer *)

  Lemma explorer_meant us a : assigns explorer_cli float_of (said_all us) = Some a -> explorer_args_of a = explorer_meaning float_of us.
  Proof.
    intro A. unfold explorer_args_of, explorer_meaning.
    rewrite (last_text_said explorer_cli float_of $"sitemap" [$"--sitemap"] us a ltac:(vm_compute; reflexivity) A).
    rewrite (all_texts_said explorer_cli float_of $"hash" [$"--hash"] us a ltac:(vm_compute; reflexivity) A).
    rewrite (assigned_flag explorer_cli float_of is_flag $"checksum" [$"--checksum"] us a ltac:(vm_compute; reflexivity) A).
    rewrite (last_text_said explorer_cli float_of $"access_token" [$"--access-token"] us a ltac:(vm_compute; reflexivity) A).
    rewrite (last_float_is explorer_cli float_of $"delay" [$"--delay"] us a ltac:(vm_compute; reflexivity) A).
    rewrite (all_texts_said explorer_cli float_of $"exclude" [$"--exclude"] us a ltac:(vm_compute; reflexivity) A).
    rewrite (assigned_flag explorer_cli float_of is_flag $"multifile" [$"--multifile"; $"-m"] us a ltac:(vm_compute; reflexivity) A).
    rewrite (assigned_flag explorer_cli float_of is_flag $"noauth" [$"--noauth"] us a ltac:(vm_compute; reflexivity) A).
    rewrite (last_int_is explorer_cli float_of $"max_sitemap_entries" [$"--max-sitemap-entries"] us a ltac:(vm_compute; reflexivity) A).
    reflexivity.
  Qed.
  Lemma explorer_no_modes a : forall l, assigns explorer_cli float_of l = Some a -> consistent a.
  Proof.
    intros l A x y Hx _ Mx _. exfalso.
    assert (o_mode (fst x) = false) as F; [|congruence]. clear y Mx. revert a A x Hx.
    induction l as [|[n v] l IH]; intros a; cbn [assigns]; [intros [= <-] ? []|].
    destruct (named explorer_cli n) as [o|] eqn:N; [|discriminate]. destruct (value_of float_of o v) as [z|]; [|discriminate].
    destruct (assigns explorer_cli float_of l) as [a'|]; [|discriminate]. intros [= <-] x [<- |Hx]; [|eauto].
    cbn. apply sget_in in N.
    assert (forallb (fun no => negb (o_mode (snd no))) (names_of explorer_cli) = true) as K by (vm_compute; reflexivity).
    rewrite forallb_forall in K. apply K in N. now apply negb_true_iff in N.
  Qed.
  Lemma explorer_read e inputs us : (forall u, In u us -> good explorer_flags explorer_values u) ->
    acceptable float_of build_ints [$"--delay"] versions us ->
    explorer_command float_of e (typed_all us) inputs = resync_explorer e (explorer_meaning float_of us) inputs.
  Proof.
    intros G Ac. pose proof (good_proper explorer_flags explorer_values us G) as Pr.
    destruct (proj2 (assigns_iff explorer_cli float_of _ _ _ _ _ explorer_described eq_refl _ Pr) Ac) as [a A].
    unfold explorer_command. rewrite <- (explorer_meant us a A).
    pose proof (parse_ok explorer_cli float_of explorer_made us [] [] a) as K. rewrite !app_nil_r in K. cbn [typed_all flat_map app] in K.
    rewrite K; auto; try easy.
    - intros u Hu. eapply good_meant; [apply explorer_described|auto].
    - eapply proper_no_help; [apply explorer_described|exact Pr].
    - eapply explorer_no_modes, A.
  Qed.
  Lemma explorer_refused e inputs us : (forall u, In u us -> good explorer_flags explorer_values u) ->
    ~ acceptable float_of build_ints [$"--delay"] versions us ->
    explorer_command float_of e (typed_all us) inputs = ([], UsageError).
  Proof.
    intros G Bad. pose proof (good_proper explorer_flags explorer_values us G) as Pr.
    unfold explorer_command.
    pose proof (parse_bad explorer_cli float_of explorer_made us [] []) as K. rewrite !app_nil_r in K. cbn [typed_all flat_map app] in K.
    rewrite K; auto; try easy.
    - intros u Hu. eapply good_meant; [apply explorer_described|auto].
    - eapply proper_no_help; [apply explorer_described|exact Pr].
    - intros a A. exfalso. apply Bad. apply (proj1 (assigns_iff explorer_cli float_of _ _ _ _ _ explorer_described eq_refl _ Pr)). eauto.
  Qed.
End Scripts.
