(** * ArgsOther: abbreviations, unknown options and arguments in two places *)

From Verif Require Import Py PyFacts Opener ListIndex Hashes ClientState Client ClientUtils Build Sync Explorer ExplorerMain
  Args ArgsSpec ArgsFacts ArgsRead ArgsScripts ArgsMain.

Section Parser.
  Variables (P : parser) (float_of : str -> option Z) (names : list str).
  Hypothesis made : wellmade P = true.
  Hypothesis all : forall n, In n names <-> In n (map fst (names_of P)).

  Lemma named_iff n : (exists o, named P n = Some o) <-> In n names.
  Proof. rewrite all. apply sget_some_key. Qed.
  Lemma unnamed n : ~ In n names -> named P n = None.
  Proof. intro H. destruct (named P n) eqn:E; auto. exfalso. apply H. apply named_iff. eauto. Qed.
  Lemma form n : In n names -> name_form n.
  Proof. intro H. apply name_forms. apply (names_ok' P made). now apply all. Qed.

  Lemma filter_unique (l : list (str * opt)) (f : str -> bool) n o : NoDup (map fst l) -> sget n l = Some o -> f n = true ->
    (forall n', In n' (map fst l) -> f n' = true -> n' = n) -> filter (fun no => f (fst no)) l = [(n, o)].
  Proof.
    induction l as [|[n1 o1] l IH]; intros ND H Hf Hu; [discriminate|]. cbn [map fst] in *. inversion ND as [|? ? Hn ND']; subst.
    cbn [filter fst]. unfold sget in *. cbn [dget] in H. destruct (str_eqb_spec n n1) as [<-|Ne].
    - rewrite Hf. injection H as ->. f_equal. apply filter_none. intros [n2 o2] Hin. cbn.
      destruct (f n2) eqn:E; auto. exfalso. apply Hn. assert (In n2 (map fst l)) as I2 by (apply in_map_iff; now exists (n2, o2)).
      rewrite <- (Hu n2); auto. now right.
    - destruct (f n1) eqn:E; [exfalso; apply Ne; symmetry; apply Hu; auto; now left|].
      apply IH; auto. intros n' Hn'. apply Hu. now right.
  Qed.

  Lemma long_start p : startswith $"--" p = true -> p <> $"--" -> exists d r, p = "-"%char :: "-"%char :: d :: r.
  Proof.
    intros H N. apply startswith_spec in H as [t ->]. change $"--" with ["-"%char; "-"%char] in *. destruct t as [|d r]; [easy|].
    now exists d, r.
  Qed.

  (** An abbreviation is read as the name. *)
  Lemma abbreviation p n : abbreviates names p n ->
    parse_optional P p = parse_optional P n /\ p <> $"--" /\ n <> $"--" /\
    forall v, parse_optional P (p ++ "="%char :: v) = parse_optional P (n ++ "="%char :: v) /\
      p ++ "="%char :: v <> $"--" /\ n ++ "="%char :: v <> $"--".
  Proof.
    intros (H1 & H2 & H3 & H4 & H5 & H6 & H7).
    destruct (proj2 (named_iff n) H5) as [o No].
    destruct (word_name P made n o No) as [-> Nd].
    destruct (long_start p H1 H2) as (d & r & ->).
    assert (filter (fun no => startswith ("-"%char :: "-"%char :: d :: r) (fst no)) (names_of P) = [(n, o)]) as Fl.
    { apply (filter_unique (names_of P) (startswith ("-"%char :: "-"%char :: d :: r)) n o (names_nodup P made) No H6).
      intros n' Hn'. apply H7. now apply all. }
    repeat split; auto.
    - unfold parse_optional. rewrite (unnamed _ H4). cbn [List.length Nat.eqb].
      rewrite (proj2 (split1_none "="%char _) H3). unfold option_tuples. rewrite ceqb_refl, (proj2 (split1_none "="%char _) H3), Fl.
      reflexivity.
    - rewrite (proj1 (word_eq P made n o v No)). cbn [app]. unfold parse_optional.
      rewrite (has_eq_none P made ("-"%char :: "-"%char :: d :: r ++ "="%char :: v)) by (do 3 right; apply in_or_app; right; now left).
      cbn [List.length Nat.eqb].
      assert (split1 "="%char ("-"%char :: "-"%char :: d :: r ++ "="%char :: v) = Some ("-"%char :: "-"%char :: d :: r, v)) as Sp
        by (apply split1_spec; split; auto).
      rewrite Sp, (unnamed _ H4). cbn [option_map]. unfold option_tuples. rewrite ceqb_refl, Sp, Fl. reflexivity.
    - change $"--" with ["-"%char; "-"%char]. cbn. congruence.
    - apply (proj2 (word_eq P made n o v No)).
  Qed.

  Lemma classify_at pre x y post : ~ In $"--" pre -> x <> $"--" -> y <> $"--" -> parse_optional P x = parse_optional P y ->
    classify P (pre ++ x :: post) = classify P (pre ++ y :: post).
  Proof.
    intros H Hx Hy E. induction pre as [|s pre IH]; cbn [app classify].
    - rewrite (proj2 (str_eqb_neq _ _) Hx), (proj2 (str_eqb_neq _ _) Hy), E. reflexivity.
    - destruct (str_eqb_spec s $"--") as [->|N]; [exfalso; apply H; now left|]. rewrite IH by (intro; apply H; now right). reflexivity.
  Qed.
  Lemma parse_at pre x y post : ~ In $"--" pre -> x <> $"--" -> y <> $"--" -> parse_optional P x = parse_optional P y ->
    parse_args float_of P (pre ++ x :: post) = parse_args float_of P (pre ++ y :: post).
  Proof. intros. unfold parse_args. now rewrite (classify_at pre x y post). Qed.

  (** *** Refusals *)

  Lemma parse_optional_reads s : parse_optional P s <> Helped.
  Proof.
    unfold parse_optional. destruct s as [|c s]; [discriminate|].
    destruct c as [[] [] [] [] [] [] [] []]; try discriminate.
    destruct (named P _); [discriminate|]. destruct (Nat.eqb _ 1); [discriminate|].
    destruct (match split1 _ _ with Some _ => _ | None => _ end); [discriminate|].
    destruct (option_tuples P _) as [|? [|? ?]]; try discriminate.
    destruct (_ && _); [discriminate|]. destruct (has_char _ _); discriminate.
  Qed.
  Lemma classify_refused pre x post : ~ In $"--" pre -> x <> $"--" -> parse_optional P x = Refused -> classify P (pre ++ x :: post) = Refused.
  Proof.
    intros H Hx E. induction pre as [|s pre IH]; cbn [app classify].
    - now rewrite (proj2 (str_eqb_neq _ _) Hx), E.
    - destruct (str_eqb_spec s $"--") as [->|N]; [exfalso; apply H; now left|]. rewrite IH by (intro; apply H; now right).
      pose proof (parse_optional_reads s). destruct (parse_optional P s); cbn; auto. easy.
  Qed.

  Lemma ambiguous_word p : ambiguous names p -> parse_optional P p = Refused /\ p <> $"--".
  Proof.
    intros (H1 & H2 & H3 & H4 & n & n' & Ne & Hn & Hn' & Sn & Sn'). split; auto.
    destruct (long_start p H1 H2) as (d & r & ->). unfold parse_optional. rewrite (unnamed _ H4). cbn [List.length Nat.eqb].
    rewrite (proj2 (split1_none "="%char _) H3). unfold option_tuples. rewrite ceqb_refl, (proj2 (split1_none "="%char _) H3).
    apply all in Hn, Hn'. apply in_map_iff in Hn as ([? o] & E & Hn). cbn in E. subst. apply in_map_iff in Hn' as ([? o'] & E & Hn'). cbn in E. subst.
    assert (In (n, o) (filter (fun no => startswith ("-"%char :: "-"%char :: d :: r) (fst no)) (names_of P))) as F1 by (apply filter_In; auto).
    assert (In (n', o') (filter (fun no => startswith ("-"%char :: "-"%char :: d :: r) (fst no)) (names_of P))) as F2 by (apply filter_In; auto).
    destruct (filter _ (names_of P)) as [|x [|y l]]; [destruct F1| |reflexivity].
    destruct F1 as [->|[]], F2 as [F2|[]]. congruence.
  Qed.
  Lemma ambiguous_refused pre p post : ~ In $"--" pre -> ambiguous names p -> parse_args float_of P (pre ++ p :: post) = Refused.
  Proof.
    intros H A. destruct (ambiguous_word p A) as [E N]. unfold parse_args. now rewrite (classify_refused pre p post H N E).
  Qed.

  Lemma not_negative_letter c r : is_digit c = false -> c <> "."%char -> negative_number ("-"%char :: c :: r) = false.
  Proof.
    intros Hd Hp. unfold negative_number, cut_newline.
    assert (forall r, match split1 "."%char (c :: r) with
      | Some (a, b) => forallb is_digit a && negb (str_eqb b []) && forallb is_digit b
      | None => negb (str_eqb (c :: r) []) && forallb is_digit (c :: r) end = false) as K.
    { intro r'. destruct (split1 "."%char (c :: r')) as [[a b]|] eqn:E.
      - apply split1_spec in E as [E _]. destruct a as [|x a]; cbn in E; injection E as -> ->; [congruence|]. cbn. now rewrite Hd.
      - cbn. now rewrite Hd. }
    destruct (endswith [nl] _); [|apply K]. destruct r as [|d r]; [reflexivity|].
    change (removelast ("-"%char :: c :: d :: r)) with ("-"%char :: c :: removelast (d :: r)). apply K.
  Qed.
  Lemma unknown_word s : unknown_option names s -> parse_optional P s = Read Unknown /\ s <> $"--".
  Proof.
    intros [Sp [(H1 & H2 & H3 & H4)|(c & r & -> & H1 & H2 & H3 & H4)]].
    - split; auto. destruct (long_start s H1 H2) as (d & r & ->). unfold parse_optional.
      assert (forall o, named P ("-"%char :: "-"%char :: d :: r) <> Some o) as Nm.
      { intros o N. assert (In ("-"%char :: "-"%char :: d :: r) names) as I1 by (apply named_iff; eauto).
        apply H4 in I1. rewrite <- (app_nil_r ("-"%char :: "-"%char :: d :: r)) in I1 at 2. now rewrite startswith_app in I1. }
      destruct (named P _) as [o|]; [exfalso; now apply (Nm o)|]. cbn [List.length Nat.eqb].
      rewrite (proj2 (split1_none "="%char _) H3). unfold option_tuples. rewrite ceqb_refl, (proj2 (split1_none "="%char _) H3).
      rewrite filter_none.
      + cbn [map]. rewrite not_negative_letter by (reflexivity || discriminate). cbn [andb].
        now rewrite (proj2 (has_char_false " "%char _) Sp).
      + intros [n o] Hin. apply H4, all. apply in_map_iff. now exists (n, o).
    - assert (forall q, q <> [] -> named P (dash c ++ q) = None) as Nl by (intros [|d q] Hq; [easy|]; now apply (long_letter_none P made)).
      assert (named P (dash c) = None) as Nd by (now apply unnamed).
      split; [|unfold dash; cbn; change $"--" with ["-"%char; "-"%char]; congruence].
      assert (named P (dash c ++ r) = None) as Ns by (destruct r; [now rewrite app_nil_r|now apply Nl]).
      unfold dash in *. cbn [app] in *. unfold parse_optional. rewrite Ns. cbn [List.length Nat.eqb].
      assert ((match split1 "="%char ("-"%char :: c :: r) with
             | Some (n, v) => option_map (fun o => (o, n, Some ($"=", v))) (named P n) | None => None end) = None) as ->.
      { destruct (split1 "="%char ("-"%char :: c :: r)) as [[a b]|] eqn:E; auto.
        apply split1_spec in E as [E1 E2]. destruct a as [|a0 [|a1 [|a2 a]]]; cbn in E1; inversion E1; subst.
        - destruct (named P ["-"%char]) as [o|] eqn:N; auto. apply (named_form P made) in N. inversion N.
        - now rewrite Nd.
        - now rewrite (long_letter_none P made). }
      assert (option_tuples P ("-"%char :: c :: r) = []) as ->.
      { unfold option_tuples. destruct (ceqb c "-"%char) eqn:Ed; [apply ceqb_eq in Ed; congruence|].
        assert (forall n o, In (n, o) (names_of P) -> name_form n /\ n <> ["-"%char; c]) as A.
        { intros n o Hin. assert (In n names) as I1 by (apply all, in_map_iff; now exists (n, o)). split; [now apply form|].
          intros ->. now apply H4. }
        clear -A Ed. induction (names_of P) as [|[n o] l IH]; auto. cbn [flat_map fst snd].
        rewrite IH by (intros n' o' Hin; apply (A n' o'); now right). rewrite app_nil_r.
        destruct (A n o (or_introl eq_refl)) as [F N]. rewrite (proj2 (str_eqb_neq _ _) N).
        inversion F as [c' K1 K2 K3 K4 Ec|d' r' K1 Ec]; subst; unfold dash in *; cbn -[ceqb]; rewrite ceqb_refl; cbn [andb].
        - destruct (ceqb c c') eqn:E; auto. apply ceqb_eq in E. congruence.
        - now rewrite Ed. }
      rewrite not_negative_letter by assumption. cbn [andb]. now rewrite (proj2 (has_char_false " "%char _) Sp).
  Qed.

  Lemma take_extras o v g g' : take float_of o v g = Read g' -> g_extras g' = g_extras g.
  Proof. intro H. now destruct (take_read _ _ _ _ _ H) as [x ->]. Qed.
  Lemma take_all_extras os g g' : take_all float_of os g = Read g' -> g_extras g' = g_extras g.
  Proof.
    revert g. induction os as [|o os IH]; intros g; cbn [take_all]; [now intros [= <-]|].
    destruct (take float_of o None g) as [g1| |] eqn:E; cbn; try discriminate. intro H. rewrite (IH _ H). eapply take_extras, E.
  Qed.
  Lemma argument_extras s g : g_extras g = true -> g_extras (argument s g) = true.
  Proof. unfold argument. destruct (g_map g), (g_open g); auto. Qed.

  (** Extras remain, and an unknown option leaves one. *)
  Lemma loop_extras ws : forall g g', loop float_of P ws g = Read g' -> g_extras g = true \/ In Unknown ws -> g_extras g' = true.
  Proof.
    assert (forall k ws g g', (List.length ws <= k)%nat -> loop float_of P ws g = Read g' -> g_extras g = true \/ In Unknown ws -> g_extras g' = true) as K;
      [|intros g g'; apply (K (List.length ws)); auto]. clear ws.
    induction k as [|k IH]; intros ws g g' Hk.
    - destruct ws; [|cbn in Hk; lia]. cbn. intros [= <-] [H|[]]. exact H.
    - destruct ws as [|w ws].
      + cbn. intros [= <-] [H|[]]. exact H.
      + cbn in Hk. assert (List.length ws <= k)%nat as Hw by lia. destruct w as [|s| |f]; cbn [loop].
        * intros H D. apply (IH _ _ _ Hw H). destruct D as [D|[D|D]]; [left; now apply argument_extras|discriminate|auto].
        * intros H D. apply (IH _ _ _ Hw H). destruct D as [D|[D|D]]; [left; now apply argument_extras|discriminate|auto].
        * intros H D. apply (IH _ _ _ Hw H). left. reflexivity.
        * destruct (options_in P f) as [[os t]| |]; try discriminate.
          destruct t as [o v|o|].
          -- destruct (take_all float_of os (close g)) as [g1| |] eqn:E1; cbn [rbind]; try discriminate.
             destruct (take float_of o (Some v) g1) as [g2| |] eqn:E2; cbn [rbind]; try discriminate.
             intros H D. apply (IH _ _ _ Hw H). destruct D as [D|[D|D]]; [left|discriminate|auto].
             now rewrite (take_extras _ _ _ _ E2), (take_all_extras _ _ _ E1).
          -- destruct (takes_value o).
             ++ destruct ws as [|[|v| |f'] ws]; try discriminate.
                destruct (take_all float_of os (close g)) as [g1| |] eqn:E1; cbn [rbind]; try discriminate.
                destruct (take float_of o (Some v) g1) as [g2| |] eqn:E2; cbn [rbind]; try discriminate.
                intros H D. assert (List.length ws <= k)%nat as Hw' by (cbn in Hw; lia). apply (IH _ _ _ Hw' H). destruct D as [D|[D|[D|D]]]; [left|discriminate|discriminate|auto].
                now rewrite (take_extras _ _ _ _ E2), (take_all_extras _ _ _ E1).
             ++ destruct (take_all float_of os (close g)) as [g1| |] eqn:E1; cbn [rbind]; try discriminate.
                destruct (take float_of o None g1) as [g2| |] eqn:E2; cbn [rbind]; try discriminate.
                intros H D. apply (IH _ _ _ Hw H). destruct D as [D|[D|D]]; [left|discriminate|auto].
                now rewrite (take_extras _ _ _ _ E2), (take_all_extras _ _ _ E1).
          -- destruct (take_all float_of os (close g)) as [g1| |] eqn:E1; cbn [rbind]; try discriminate.
             intros H D. apply (IH _ _ _ Hw H). left. reflexivity.
  Qed.

  Lemma classify_unknown pre x post ws : ~ In $"--" pre -> x <> $"--" -> parse_optional P x = Read Unknown ->
    classify P (pre ++ x :: post) = Read ws -> In Unknown ws.
  Proof.
    intros H Hx E. revert ws. induction pre as [|s pre IH]; intros ws; cbn [app classify].
    - rewrite (proj2 (str_eqb_neq _ _) Hx), E. destruct (classify P post); cbn; try discriminate. intros [= <-]. now left.
    - destruct (str_eqb_spec s $"--") as [->|N]; [exfalso; apply H; now left|].
      destruct (parse_optional P s); cbn; try discriminate. destruct (classify P (pre ++ x :: post)) as [ws'| |]; cbn; try discriminate.
      intros [= <-]. right. apply IH; auto. intro; apply H; now right.
  Qed.
  Lemma unknown_refused pre s post : ~ In $"--" pre -> unknown_option names s ->
    parse_args float_of P (pre ++ s :: post) = Refused \/ parse_args float_of P (pre ++ s :: post) = Helped.
  Proof.
    intros H U. destruct (unknown_word s U) as [E N]. unfold parse_args.
    destruct (classify P (pre ++ s :: post)) as [ws| |] eqn:C; cbn [rbind]; auto.
    pose proof (classify_unknown pre s post ws H N E C) as I1.
    destruct (loop float_of P ws _) as [g| |] eqn:L; cbn [rbind]; auto.
    pose proof (loop_extras ws _ _ L (or_intror I1)) as X. rewrite X. destruct (_ && _); auto.
  Qed.

  (** *** Arguments in two places *)

  Lemma takes_map l g g' : takes P float_of l g = Read g' -> g_map g' = g_map g /\ g_open g' = g_open g.
  Proof.
    revert g. induction l as [|[n v] l IH]; intros g; cbn [takes].
    - intros [= <-]. auto.
    - destruct (named P n); [|discriminate]. destruct (take float_of o v g) as [g1| |] eqn:E; cbn; try discriminate.
      intro H1. apply IH in H1. apply take_read in E as [x ->]. exact H1.
  Qed.
  Lemma takes_not_helped l g : no_help P l -> takes P float_of l g <> Helped.
  Proof.
    revert g. induction l as [|[n v] l IH]; intros g Hh; cbn [takes]; [discriminate|].
    destruct (named P n) as [o|] eqn:N; [|discriminate].
    rewrite take_value by (eapply Hh; eauto; now left).
    destruct (value_of float_of o v); [|discriminate]. destruct (o_mode o && _); [discriminate|]. cbn [rbind].
    apply IH. intros ? ? ? ?; eapply Hh; right; eauto.
  Qed.
  Lemma classify_never l : classify P l <> Helped.
  Proof.
    induction l as [|s l IH]; cbn [classify]; [discriminate|]. destruct (str_eqb s $"--"); [discriminate|].
    pose proof (parse_optional_reads s). destruct (parse_optional P s); cbn; try easy. destruct (classify P l); cbn; easy.
  Qed.

  Lemma split_refused us1 ms us2 ms' us3 : p_map P = true ->
    (forall u, In u (us1 ++ us2 ++ us3) -> meant P u) -> no_help P (said_all (us1 ++ us2 ++ us3)) ->
    (forall m, In m (ms ++ ms') -> plain m) -> ms <> [] -> us2 <> [] -> ms' <> [] ->
    parse_args float_of P (typed_all us1 ++ ms ++ typed_all us2 ++ ms' ++ typed_all us3) = Refused.
  Proof.
    intros Hp H Hh Pl N1 N2 N3. unfold parse_args.
    rewrite (classify_uses P made) by (intros; apply H, in_or_app; auto).
    rewrite (classify_plain P made) by (intros; apply Pl, in_or_app; auto).
    rewrite (classify_uses P made us2) by (intros; apply H; apply in_or_app; right; apply in_or_app; auto).
    rewrite (classify_plain P made) by (intros; apply Pl, in_or_app; auto).
    rewrite <- (app_nil_r (typed_all us3)).
    rewrite (classify_uses P made us3) by (intros; apply H; apply in_or_app; right; apply in_or_app; auto).
    cbn [classify rbind]. rewrite app_nil_r, Hp.
    assert (forall us, (forall u, In u us -> In u (us1 ++ us2 ++ us3)) -> no_help P (said_all us)) as Hh'.
    { intros us Hus n v o Hin. apply (Hh n v o). unfold said_all in *. apply in_flat_map in Hin as (u & Hu & Hin).
      apply in_flat_map. exists u. auto. }
    assert (forall us ws g, (forall u, In u us -> In u (us1 ++ us2 ++ us3)) ->
      loop float_of P (words_all P us ++ ws) g = match us with [] => loop float_of P ws g | _ => read g <- takes P float_of (said_all us) (close g) ;; loop float_of P ws g end) as L.
    { intros us ws g Hus. destruct us as [|u us]; [reflexivity|]. apply (loop_uses P float_of made); [|easy]. intros; apply H; auto. }
    rewrite L by (intros; apply in_or_app; auto).
    assert (forall g1, g_map g1 = None -> (read g <- loop float_of P (map Plain ms ++ words_all P us2 ++ map Plain ms' ++ words_all P us3) g1 ;;
       (if existsb o_mode (p_options P) && negb (existsb (fun ov => o_mode (fst ov)) (g_set g)) then Refused
        else if g_extras g then Refused else Read (g_set g, remove_dashes (match g_map g with Some l => l | None => [] end)))) = Refused) as R.
    { intros g1 G1. rewrite loop_plain by (try assumption; now right). rewrite L by (intros; apply in_or_app; right; apply in_or_app; auto).
      destruct us2 as [|u us2]; [easy|].
      destruct (takes P float_of (said_all (u :: us2)) (close _)) as [g2| |] eqn:E2; cbn [rbind]; auto.
      2:{ exfalso. eapply takes_not_helped, E2. apply Hh'. intros; apply in_or_app; right; apply in_or_app; auto. }
      apply takes_map in E2 as [M2 O2]. cbn in M2, O2.
      destruct ms' as [|m' ms']; [easy|]. cbn [map app loop]. unfold argument. rewrite M2, O2.
      match goal with |- context [loop float_of P ?ws ?g] => destruct (loop float_of P ws g) as [g3| |] eqn:E3 end; cbn [rbind]; auto.
      - rewrite (loop_extras _ _ _ E3) by (left; reflexivity). destruct (_ && _); auto.
      - exfalso. revert E3. match goal with |- loop _ _ _ ?g = _ -> _ => generalize g end.
        clear -L Hh'. induction ms' as [|m ms' IH]; intro g; cbn [map app loop]; [|apply IH].
        rewrite <- (app_nil_r (words_all P us3)), L by (intros; apply in_or_app; right; apply in_or_app; auto).
        destruct us3 as [|u3 us3]; [discriminate|]. change (fun g0 => loop float_of P [] g0) with (fun g0 : progress => Read g0). rewrite rbind_read. apply takes_not_helped, Hh'.
        intros; apply in_or_app; right; apply in_or_app; auto. }
    destruct us1 as [|u us1]; [now apply R|].
    destruct (takes P float_of (said_all (u :: us1)) (close _)) as [g1| |] eqn:E1; cbn [rbind]; auto.
    - apply R. apply takes_map in E1 as [-> _]. reflexivity.
    - exfalso. eapply takes_not_helped, E1. apply Hh'. intros; apply in_or_app; auto.
  Qed.
End Parser.
