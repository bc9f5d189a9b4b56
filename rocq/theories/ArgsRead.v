(** * ArgsRead: what is read from a command line *)

From Verif Require Import Py PyFacts Args ArgsSpec ArgsFacts.

Section Parser.
  Variables (P : parser) (float_of : str -> option Z).
  Hypothesis made : wellmade P = true.
  Notation meant := (meant P).
  Notation takes := (takes P float_of).

  (** ** What taking comes to *)

  Definition value_of (o : opt) (v : option str) : option val :=
    match o_kind o, v with
    | Flag, _ => Some VTrue
    | Store t, Some s | Append t, Some s => get_value float_of t s
    | _, _ => None
    end.
  Fixpoint assigns (l : list (str * option str)) : option assignments :=
    match l with
    | [] => Some []
    | (n, v) :: l' =>
        match named P n with
        | Some o => match value_of o v, assigns l' with Some x, Some a => Some ((o, x) :: a) | _, _ => None end
        | None => None
        end
    end.
  Definition consistent (a : assignments) : Prop :=
    forall x y, In x a -> In y a -> o_mode (fst x) = true -> o_mode (fst y) = true -> o_dest (fst x) = o_dest (fst y).
  Definition no_help (l : list (str * option str)) : Prop := forall n v o, In (n, v) l -> named P n = Some o -> o_kind o <> Help.

  Lemma take_value o v g : o_kind o <> Help ->
    take float_of o v g =
    match value_of o v with
    | None => Refused
    | Some x =>
        if o_mode o && existsb (fun ov => o_mode (fst ov) && negb (str_eqb (o_dest (fst ov)) (o_dest o))) (g_set g)
        then Refused else Read (MkProgress (g_set g ++ [(o, x)]) (g_map g) (g_open g) (g_extras g))
    end.
  Proof.
    intro H. unfold take, value_of. destruct (o_kind o); try easy; destruct v; try reflexivity;
    destruct (get_value float_of t s); reflexivity.
  Qed.

  Lemma consistent_sub a b : (forall x, In x a -> In x b) -> consistent b -> consistent a.
  Proof. intros H C x y Hx Hy. apply C; auto. Qed.
  Lemma conflict_consistent o x a : consistent a ->
    (o_mode o && existsb (fun ov => o_mode (fst ov) && negb (str_eqb (o_dest (fst ov)) (o_dest o))) a = false <-> consistent (a ++ [(o, x)])).
  Proof.
    intro C. split.
    - intros H y z Hy Hz My Mz. apply in_app_or in Hy, Hz.
      assert (forall w, In w a -> o_mode (fst w) = true -> o_mode o = true -> o_dest (fst w) = o_dest o) as A.
      { intros w Hw Mw Mo. rewrite Mo in H. cbn in H. destruct (str_eqb_spec (o_dest (fst w)) (o_dest o)) as [|N]; auto.
        exfalso. rewrite <- not_true_iff_false in H. apply H. apply existsb_exists. exists w. split; auto.
        rewrite Mw. cbn. apply negb_true_iff, str_eqb_neq, N. }
      destruct Hy as [Hy|[<-|[]]], Hz as [Hz|[<-|[]]]; cbn [fst] in *; auto. symmetry. auto.
    - intro H. destruct (o_mode o) eqn:Mo; auto. cbn. destruct (existsb _ a) eqn:E; auto.
      apply existsb_exists in E as [w [Hw E]]. apply andb_true_iff in E as [Mw N]. apply negb_true_iff, str_eqb_neq in N.
      exfalso. apply N. change (o_dest o) with (o_dest (fst (o, x))). apply H; auto; apply in_or_app; [now left|right; now left].
  Qed.

  Lemma takes_ok l a g : no_help l -> assigns l = Some a -> consistent (g_set g ++ a) ->
    takes l g = Read (MkProgress (g_set g ++ a) (g_map g) (g_open g) (g_extras g)).
  Proof.
    revert a g. induction l as [|[n v] l IH]; intros a g Hh; cbn [assigns ArgsFacts.takes].
    - intros [= <-] _. rewrite app_nil_r. now destruct g.
    - destruct (named P n) as [o|] eqn:N; [|discriminate]. destruct (value_of o v) as [x|] eqn:V; [|discriminate].
      destruct (assigns l) as [a'|] eqn:A; [|discriminate]. intros [= <-] C.
      rewrite take_value by (eapply Hh; eauto; now left). rewrite V.
      assert (consistent (g_set g ++ [(o, x)])) as C1.
      { eapply consistent_sub, C. intros y Hy. apply in_app_or in Hy as [Hy|[<-|[]]]; apply in_or_app; auto. right. now left. }
      apply conflict_consistent in C1; [|eapply consistent_sub, C; intros y Hy; apply in_or_app; auto].
      rewrite C1. cbn [rbind]. rewrite (IH a' _ ltac:(intros ? ? ? ? ; eapply Hh; right; eauto) eq_refl); cbn [g_set g_map g_open g_extras].
      + now rewrite <- app_assoc.
      + now rewrite <- app_assoc.
  Qed.
  Lemma takes_bad l g : no_help l -> consistent (g_set g) ->
    (forall a, assigns l = Some a -> ~ consistent (g_set g ++ a)) -> takes l g = Refused.
  Proof.
    revert g. induction l as [|[n v] l IH]; intros g Hh C; cbn [assigns ArgsFacts.takes].
    - intros H. exfalso. apply (H [] eq_refl). now rewrite app_nil_r.
    - destruct (named P n) as [o|] eqn:N; auto. rewrite take_value by (eapply Hh; eauto; now left).
      destruct (value_of o v) as [x|] eqn:V; auto. destruct (o_mode o && _) eqn:M; auto. cbn [rbind]. intro H.
      apply IH; cbn [g_set].
      + intros ? ? ? ?; eapply Hh; right; eauto.
      + now apply conflict_consistent.
      + intros a A. rewrite <- app_assoc. apply H. now rewrite A.
  Qed.

  (** ** The whole command line *)

  Lemma loop_plain ms ws g : g_open g = true \/ g_map g = None -> ms <> [] ->
    loop float_of P (map Plain ms ++ ws) g =
    loop float_of P ws (MkProgress (g_set g) (Some (match g_map g with Some l => l | None => [] end ++ ms)) true (g_extras g)).
  Proof.
    revert g. induction ms as [|m ms IH]; intros g Hg Hne; [easy|]. cbn [map app loop].
    assert (argument m g = MkProgress (g_set g) (Some (match g_map g with Some l => l | None => [] end ++ [m])) true (g_extras g)) as ->.
    { unfold argument. destruct (g_map g); auto. destruct Hg as [->|Hg]; [auto|discriminate]. }
    destruct ms as [|m' ms]; [reflexivity|]. rewrite IH; [|now left|easy]. cbn. now rewrite <- app_assoc.
  Qed.

  Lemma plain_not_dashes m : plain m -> m <> $"--".
  Proof. intro H. now apply (word_plain P made m). Qed.
  Lemma remove_dashes_plain ms : (forall m, In m ms -> plain m) -> remove_dashes ms = ms.
  Proof.
    induction ms as [|m ms IH]; cbn; intro H; auto.
    rewrite (proj2 (str_eqb_neq m $"--") (plain_not_dashes m (H m (or_introl eq_refl)))). rewrite IH; auto.
  Qed.

  Definition start : progress := MkProgress [] (if p_map P then None else Some []) false false.
  Definition has_modes : bool := existsb o_mode (p_options P).

  (** The end of parse_args. *)
  Definition ending_ok (a : assignments) : bool := negb (has_modes && negb (existsb (fun ov => o_mode (fst ov)) a)).

  Lemma classify_line us1 ms us2 : (forall u, In u (us1 ++ us2) -> meant u) -> (forall m, In m ms -> plain m) ->
    classify P (typed_all us1 ++ ms ++ typed_all us2) = Read (words_all P us1 ++ map Plain ms ++ words_all P us2).
  Proof.
    intros H Hm. rewrite (classify_uses P made) by (intros; apply H, in_or_app; auto).
    rewrite (classify_plain P made) by assumption.
    assert (classify P (typed_all us2) = Read (words_all P us2)) as ->.
    { rewrite <- (app_nil_r (typed_all us2)), (classify_uses P made) by (intros; apply H, in_or_app; auto).
      cbn. now rewrite app_nil_r. }
    reflexivity.
  Qed.

  (** The loop over options, a run of arguments and options comes to taking all the options. *)
  Lemma loop_line us1 ms us2 : (forall u, In u (us1 ++ us2) -> meant u) -> (ms <> [] -> p_map P = true) ->
    (exists o, loop float_of P (words_all P us1 ++ map Plain ms ++ words_all P us2) start =
      read g <- takes (said_all (us1 ++ us2)) start ;; Read (MkProgress (g_set g) (if p_map P then match ms with [] => None | _ => Some ms end else Some []) o (g_extras g))).
  Proof.
    intros H Hp.
    assert (forall ws, loop float_of P (words_all P us1 ++ ws) start =
      (read g <- takes (said_all us1) start ;; loop float_of P ws g)) as L1.
    { intro ws. destruct us1 as [|u us1]; [reflexivity|].
      rewrite (loop_uses P float_of made) by (try easy; intros; apply H, in_or_app; auto). reflexivity. }
    assert (forall g, loop float_of P (words_all P us2) g =
      match us2 with [] => Read g | _ => takes (said_all us2) (close g) end) as L2.
    { intro g. destruct us2 as [|u us2]; [reflexivity|]. rewrite <- (app_nil_r (words_all P (u :: us2))).
      rewrite (loop_uses P float_of made) by (try easy; intros; apply H, in_or_app; auto). apply rbind_read. }
    assert (forall l g g', takes l g = Read g' -> g_map g' = g_map g /\ g_open g' = g_open g /\ g_extras g' = g_extras g) as K.
    { induction l as [|[n v] l IH]; intros g g'; cbn [ArgsFacts.takes].
      - intros [= <-]. auto.
      - destruct (named P n); [|discriminate]. destruct (take float_of o v g) as [g1| |] eqn:E; cbn; try discriminate.
        intro H1. apply IH in H1. apply take_read in E as [x ->]. exact H1. }
    assert (forall l g f, (forall g, g_set (f g) = g_set g) -> g_extras (f g) = g_extras g ->
      takes l (f g) = read g' <- takes l g ;; Read (MkProgress (g_set g') (g_map (f g)) (g_open (f g)) (g_extras g'))) as F.
    { intros l g f F1 F2. assert (exists m o, f g = MkProgress (g_set g) m o (g_extras g)) as (m & o & ->).
      { exists (g_map (f g)), (g_open (f g)). rewrite <- (F1 g), <- F2. now destruct (f g). }
      cbn [g_map g_open]. clear F1 F2 f. revert g. induction l as [|[n v] l IH]; intro g; cbn [ArgsFacts.takes]; [reflexivity|].
      destruct (named P n) as [o'|]; [|reflexivity].
      assert (take float_of o' v (MkProgress (g_set g) m o (g_extras g)) =
              read g' <- take float_of o' v g ;; Read (MkProgress (g_set g') m o (g_extras g'))) as ->.
      { unfold take. cbn [g_set g_map g_open g_extras]. destruct (o_kind o') as [|t|t|]; destruct v as [s|]; try reflexivity;
        try (destruct (get_value float_of t s)); try reflexivity; destruct (o_mode o' && existsb _ _); reflexivity. }
      destruct (take float_of o' v g) as [g1| |]; cbn [rbind]; auto. }
    rewrite L1.
    assert (takes (said_all (us1 ++ us2)) start = read g <- takes (said_all us1) start ;; takes (said_all us2) g) as ->
      by (unfold said_all; rewrite flat_map_app; apply takes_app).
    destruct (takes (said_all us1) start) as [g1| |] eqn:E1; cbn [rbind]; try now exists false.
    destruct (K _ _ _ E1) as (K1 & K2 & K3). cbn in K1, K2, K3.
    destruct ms as [|m ms].
    - cbn [map app]. rewrite L2.
      assert (exists o, (if p_map P then None else Some []) = g_map g1 /\ o = g_open g1) as [o [Em Eo]] by eauto.
      exists false. destruct us2 as [|u us2].
      + cbn. rewrite Em, <- K2. now destruct g1.
      + assert (close g1 = g1) as -> by (unfold close; destruct g1; cbn in *; now subst).
        destruct (takes (said_all (u :: us2)) g1) as [g2| |] eqn:E2; cbn [rbind]; auto.
        destruct (K _ _ _ E2) as (K4 & K5 & K6). rewrite Em, <- K4. rewrite <- K2, <- K5. now destruct g2.
    - rewrite (Hp ltac:(easy)) in *. rewrite loop_plain by (try easy; right; exact K1). rewrite K1. cbn [app]. rewrite L2.
      destruct us2 as [|u us2].
      + exists true. cbn. reflexivity.
      + exists false. unfold close. cbn [g_set g_map g_extras].
        rewrite (F _ g1 (fun g => MkProgress (g_set g) (Some (m :: ms)) false (g_extras g))) by reflexivity. reflexivity.
  Qed.

  Lemma takes_extras l g g' : takes l g = Read g' -> g_extras g' = g_extras g.
  Proof.
    revert g. induction l as [|[n v] l IH]; intros g; cbn [ArgsFacts.takes].
    - now intros [= <-].
    - destruct (named P n); [|discriminate]. destruct (take float_of o v g) as [g1| |] eqn:E; cbn; try discriminate.
      intro H1. apply IH in H1. apply take_read in E as [x ->]. exact H1.
  Qed.

  Theorem parse_ok us1 ms us2 a :
    (forall u, In u (us1 ++ us2) -> meant u) -> (forall m, In m ms -> plain m) -> (ms <> [] -> p_map P = true) ->
    no_help (said_all (us1 ++ us2)) ->
    assigns (said_all (us1 ++ us2)) = Some a -> consistent a -> ending_ok a = true ->
    parse_args float_of P (typed_all us1 ++ ms ++ typed_all us2) = Read (a, ms).
  Proof.
    intros H Hm Hp Hh A C E. unfold parse_args. rewrite classify_line by assumption. cbn [rbind].
    destruct (loop_line us1 ms us2 H Hp) as [o L]. fold start. rewrite L.
    rewrite (takes_ok _ a start Hh A) by exact C. cbn [rbind g_set g_extras g_map app start].
    fold has_modes. apply negb_true_iff in E. rewrite E.
    do 2 f_equal. destruct ms as [|m ms]; [now destruct (p_map P)|]. rewrite (Hp ltac:(easy)). now apply remove_dashes_plain.
  Qed.
  Theorem parse_bad us1 ms us2 :
    (forall u, In u (us1 ++ us2) -> meant u) -> (forall m, In m ms -> plain m) -> (ms <> [] -> p_map P = true) ->
    no_help (said_all (us1 ++ us2)) ->
    (forall a, assigns (said_all (us1 ++ us2)) = Some a -> consistent a -> ending_ok a = false) ->
    parse_args float_of P (typed_all us1 ++ ms ++ typed_all us2) = Refused.
  Proof.
    intros H Hm Hp Hh B. unfold parse_args. rewrite classify_line by assumption. cbn [rbind].
    destruct (loop_line us1 ms us2 H Hp) as [o L]. fold start. rewrite L.
    destruct (takes (said_all (us1 ++ us2)) start) as [g| |] eqn:E; cbn [rbind]; auto.
    - assert (exists a, assigns (said_all (us1 ++ us2)) = Some a /\ consistent a) as (a & A & C).
      { destruct (assigns (said_all (us1 ++ us2))) as [a|] eqn:A.
        - exists a. split; auto. destruct (existsb (fun x => existsb (fun y => o_mode (fst x) && o_mode (fst y) &&
            negb (str_eqb (o_dest (fst x)) (o_dest (fst y)))) a) a) eqn:X.
          + exfalso. apply existsb_exists in X as (x & Hx & X). apply existsb_exists in X as (y & Hy & X).
            apply andb_true_iff in X as [X N]. apply andb_true_iff in X as [X1 X2]. apply negb_true_iff, str_eqb_neq in N.
            rewrite takes_bad in E; [discriminate|exact Hh|intros ? ? []|]. intros a' A' C. rewrite A in A'. injection A' as <-.
            apply N. now apply C.
          + intros x y Hx Hy Mx My. destruct (str_eqb_spec (o_dest (fst x)) (o_dest (fst y))) as [|N]; auto. exfalso.
            rewrite <- not_true_iff_false in X. apply X. apply existsb_exists. exists x. split; auto.
            apply existsb_exists. exists y. split; auto. rewrite Mx, My. cbn. apply negb_true_iff, str_eqb_neq, N.
        - rewrite takes_bad in E; [discriminate|exact Hh|intros ? ? []|]. intros a' A'. congruence. }
      pose proof (B a A C) as B'. rewrite (takes_ok _ a start Hh A C) in E. injection E as <-. cbn.
      fold has_modes. unfold ending_ok in B'. apply negb_false_iff in B'. now rewrite B'.
    - exfalso. clear -E Hh. revert E. generalize start. intro g. revert g.
      induction (said_all (us1 ++ us2)) as [|[n v] l IH]; intro g; cbn [ArgsFacts.takes]; [discriminate|].
      destruct (named P n) as [o|] eqn:N; [|discriminate].
      rewrite take_value by (eapply Hh; eauto; now left).
      destruct (value_of o v); [|discriminate]. destruct (o_mode o && _); [discriminate|]. cbn [rbind].
      apply IH. intros ? ? ? ?; eapply Hh; right; eauto.
  Qed.
End Parser.
