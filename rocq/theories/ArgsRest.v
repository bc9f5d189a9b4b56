(** * ArgsRest: command lines with -- *)

From Verif Require Import Py PyFacts Opener ListIndex Hashes ClientState Client ClientUtils Build Sync
  Args ArgsSpec ArgsFacts ArgsRead ArgsScripts ArgsMain.

Section Rest.
  Variables (P : parser) (float_of : str -> option Z).
  Hypothesis made : wellmade P = true.

  Lemma loop_dashes ms ws g :
    loop float_of P (map Plain ms ++ Dashes :: map Plain ws) g = loop float_of P (map Plain (ms ++ $"--" :: ws)) g.
  Proof. revert g. induction ms as [|m ms IH]; intro g; cbn [map app loop]; [reflexivity|apply IH]. Qed.

  Lemma remove_after ms ws : (forall m, In m ms -> plain m) -> remove_dashes (ms ++ $"--" :: ws) = ms ++ ws.
  Proof.
    induction ms as [|m ms IH]; intro H; [reflexivity|]. cbn [app remove_dashes].
    rewrite (proj2 (str_eqb_neq m $"--") (plain_not_dashes P made m (H m (or_introl eq_refl)))).
    rewrite IH; auto. intros; apply H; now right.
  Qed.

  Lemma takes_map l g g' : takes P float_of l g = Read g' -> g_map g' = g_map g.
  Proof.
    revert g. induction l as [|[n v] l IH]; intros g; cbn [ArgsFacts.takes].
    - now intros [= <-].
    - destruct (named P n); [|discriminate]. destruct (take float_of o v g) as [g1| |] eqn:E; cbn; try discriminate.
      intro H1. apply IH in H1. apply take_read in E as [x ->]. exact H1.
  Qed.

  Lemma loop_options us ws : (forall u, In u us -> meant P u) ->
    loop float_of P (words_all P us ++ ws) (start P) = (read g <- takes P float_of (said_all us) (start P) ;; loop float_of P ws g).
  Proof.
    intro H. destruct us as [|u us]; [reflexivity|]. rewrite (loop_uses P float_of made) by easy. reflexivity.
  Qed.

  (** The options are read as without the rest, and the rest is added to the arguments. *)
  Theorem parse_rest us ms ws : (forall u, In u us -> meant P u) -> (forall m, In m ms -> plain m) -> p_map P = true ->
    parse_args float_of P (typed_all us ++ ms ++ $"--" :: ws) =
    (read r <- parse_args float_of P (typed_all us) ;; Read (fst r, ms ++ ws)).
  Proof.
    intros H Hm Hp. unfold parse_args.
    rewrite (classify_uses P made) by assumption. rewrite (classify_plain P made) by assumption.
    assert (classify P (typed_all us) = Read (words_all P us)) as ->.
    { rewrite <- (app_nil_r (typed_all us)), (classify_uses P made) by assumption. cbn. now rewrite app_nil_r. }
    replace (classify P ($"--" :: ws)) with (Read (Dashes :: map Plain ws)) by reflexivity.
    cbn [rbind]. fold (start P).
    rewrite loop_options by assumption.
    rewrite <- (app_nil_r (words_all P us)) at 1. rewrite loop_options by assumption.
    destruct (takes P float_of (said_all us) (start P)) as [g| |] eqn:T; cbn [rbind]; auto.
    pose proof (takes_map _ _ _ T) as K. cbn [start g_map] in K. rewrite Hp in K.
    rewrite loop_dashes. rewrite <- (app_nil_r (map Plain _)).
    rewrite (loop_plain P float_of) by (try (now right); now destruct ms).
    cbn [loop rbind g_set g_extras g_map]. rewrite K. cbn [app].
    destruct (existsb o_mode (p_options P) && _); [reflexivity|].
    destruct (g_extras g); [reflexivity|]. cbn [rbind fst]. now rewrite remove_after.
  Qed.
End Rest.

Section Scripts.
  Variable float_of : str -> option Z.

  Lemma sync_rest E w us ms ws m : sync_line us [] ms ->
    acceptable float_of sync_ints [$"--delay"] versions us -> one_mode sync_mode_of us m ->
    sync_command float_of E (typed_all us ++ ms ++ $"--" :: ws) w = resync_sync E (sync_meaning float_of m us (ms ++ ws)) w.
  Proof.
    intros [G Pl] Ac O. rewrite app_nil_r in G.
    assert (sync_line us [] []) as L by (split; [now rewrite app_nil_r|easy]).
    pose proof (good_proper sync_flags sync_values us G) as Pr.
    destruct (proj2 (assigns_iff sync_cli float_of _ _ _ _ _ sync_described eq_refl _ Pr) Ac) as [a A].
    unfold sync_command. rewrite (parse_rest sync_cli float_of sync_made); auto.
    2:{ intros u Hu. eapply good_meant; [apply sync_described|auto]. }
    rewrite <- (sync_meant float_of m us (ms ++ ws) a O A).
    pose proof (parse_ok sync_cli float_of sync_made us [] [] a) as K. rewrite !app_nil_r in K. cbn [typed_all flat_map app] in K.
    rewrite K; auto; try easy.
    - intros u Hu. eapply good_meant; [apply sync_described|auto].
    - eapply proper_no_help; [apply sync_described|exact Pr].
    - apply (consistent_modes sync_cli float_of sync_mode_of smeqb smeqb_eq sync_agree _ _ A).
      destruct O as [_ O]. intros x y Hx Hy. now rewrite (O x Hx), (O y Hy).
    - unfold ending_ok. apply negb_true_iff, andb_false_iff. right. apply negb_false_iff.
      apply (some_mode sync_cli float_of sync_mode_of smeqb sync_agree _ _ A). destruct O as [O _]. intro X. now rewrite X in O.
  Qed.
  Lemma sync_rest_refused E w us ms ws : sync_line us [] ms ->
    ~ (acceptable float_of sync_ints [$"--delay"] versions us /\ exists m, one_mode sync_mode_of us m) ->
    sync_command float_of E (typed_all us ++ ms ++ $"--" :: ws) w = (w, [], UsageError).
  Proof.
    intros [G Pl] Bad. rewrite app_nil_r in G.
    unfold sync_command. rewrite (parse_rest sync_cli float_of sync_made); auto.
    2:{ intros u Hu. eapply good_meant; [apply sync_described|auto]. }
    pose proof (sync_parse_bad float_of us [] []) as K. rewrite !app_nil_r in K. cbn [typed_all flat_map app] in K.
    rewrite K; auto. split; [now rewrite app_nil_r|easy].
  Qed.

  Lemma build_rest_read e w us ms ws m : build_line us [] ms ->
    acceptable float_of build_ints [] versions us -> one_mode write_mode_of us m ->
    build_command float_of e (typed_all us ++ ms ++ $"--" :: ws) w = resync_build e (build_meaning m us (ms ++ ws)) w.
  Proof.
    intros [G Pl] Ac O. rewrite app_nil_r in G.
    pose proof (good_proper build_flags build_values us G) as Pr.
    destruct (proj2 (assigns_iff build_cli float_of _ _ _ _ _ build_described eq_refl _ Pr) Ac) as [a A].
    unfold build_command. rewrite (parse_rest build_cli float_of build_made); auto.
    2:{ intros u Hu. eapply good_meant; [apply build_described|auto]. }
    rewrite <- (build_meant float_of m us (ms ++ ws) a Pr O A).
    pose proof (parse_ok build_cli float_of build_made us [] [] a) as K. rewrite !app_nil_r in K. cbn [typed_all flat_map app] in K.
    rewrite K; auto; try easy.
    - intros u Hu. eapply good_meant; [apply build_described|auto].
    - eapply proper_no_help; [apply build_described|exact Pr].
    - apply (consistent_modes build_cli float_of write_mode_of wmeqb wmeqb_eq build_agree _ _ A).
      destruct O as [_ O]. intros x y Hx Hy. now rewrite (O x Hx), (O y Hy).
    - unfold ending_ok. apply negb_true_iff, andb_false_iff. right. apply negb_false_iff.
      apply (some_mode build_cli float_of write_mode_of wmeqb build_agree _ _ A). destruct O as [O _]. intro X. now rewrite X in O.
  Qed.
  Lemma build_rest_refused e w us ms ws : build_line us [] ms ->
    ~ (acceptable float_of build_ints [] versions us /\ exists m, one_mode write_mode_of us m) ->
    build_command float_of e (typed_all us ++ ms ++ $"--" :: ws) w = (w, UsageError).
  Proof.
    intros [G Pl] Bad. rewrite app_nil_r in G.
    pose proof (good_proper build_flags build_values us G) as Pr.
    unfold build_command. rewrite (parse_rest build_cli float_of build_made); auto.
    2:{ intros u Hu. eapply good_meant; [apply build_described|auto]. }
    destruct (parse_args float_of build_cli (typed_all us)) as [r| |] eqn:X; cbn [rbind]; auto; exfalso;
      revert X; pose proof (parse_bad build_cli float_of build_made us [] []) as K;
      rewrite !app_nil_r in K; cbn [typed_all flat_map app] in K; (rewrite K; [discriminate|..]); auto; try easy.
    all: try (intros u Hu; eapply good_meant; [apply build_described|auto]).
    all: try (eapply proper_no_help; [apply build_described|exact Pr]).
    all: intros a A C; apply not_true_iff_false; intro E; apply Bad; split;
      [apply (proj1 (assigns_iff build_cli float_of _ _ _ _ _ build_described eq_refl _ Pr)); eauto|];
      unfold ending_ok in E; change (has_modes build_cli) with true in E; cbn [andb] in E; rewrite negb_involutive in E;
      apply (some_mode build_cli float_of write_mode_of wmeqb build_agree _ _ A) in E;
      pose proof (proj1 (consistent_modes build_cli float_of write_mode_of wmeqb wmeqb_eq build_agree _ _ A) C) as C';
      destruct (modes_said write_mode_of us) as [|m l] eqn:El; [easy|]; exists m; unfold one_mode; rewrite El;
      (split; [now left|]); intros m' Hm'; apply C'; auto; now left.
  Qed.
End Scripts.
