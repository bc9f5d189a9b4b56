(** * ArgsFacts: how command lines are read *)

From Verif Require Import Py PyFacts Args ArgsSpec.

(** ** Parsers whose names are told apart *)

(** A name is a dash and a letter, or two dashes and a word; there is no '=' in it. *)
Definition name_ok (n : str) : bool :=
  match n with
  | c0 :: c1 :: r =>
      ceqb c0 "-"%char && negb (has_char "="%char n) && negb (is_digit c1) && negb (ceqb c1 "."%char) &&
      (if ceqb c1 "-"%char then negb (str_eqb r []) else str_eqb r [])
  | _ => false
  end.
Fixpoint distinct (l : list str) : bool :=
  match l with [] => true | s :: l' => negb (in_strs s l') && distinct l' end.
Definition wellmade (P : parser) : bool :=
  forallb name_ok (map fst (names_of P)) && distinct (map fst (names_of P)).

Lemma distinct_NoDup l : distinct l = true -> NoDup l.
Proof.
  induction l as [|s l IH]; cbn; intro H; constructor; apply andb_true_iff in H as [H1 H2]; auto.
  apply negb_true_iff in H1. now apply in_strs_false.
Qed.

Section Parser.
  Variables (P : parser) (float_of : str -> option Z).
  Hypothesis made : wellmade P = true.

  Lemma names_ok n o : named P n = Some o -> name_ok n = true.
  Proof.
    intro H. apply sget_in in H. pose proof made as M. apply andb_true_iff in M as [M _].
    rewrite forallb_forall in M. apply M. apply in_map_iff. now exists (n, o).
  Qed.
  Lemma names_ok' n : In n (map fst (names_of P)) -> name_ok n = true.
  Proof. pose proof made as M. apply andb_true_iff in M as [M _]. rewrite forallb_forall in M. apply M. Qed.
  Lemma names_nodup : NoDup (map fst (names_of P)).
  Proof. pose proof made as M. apply andb_true_iff in M as [_ M]. now apply distinct_NoDup. Qed.

  Inductive name_form : str -> Prop :=
  | Letter c : c <> "-"%char -> c <> "="%char -> is_digit c = false -> c <> "."%char -> name_form (dash c)
  | Long d r : ~ In "="%char ("-"%char :: "-"%char :: d :: r) -> name_form ("-"%char :: "-"%char :: d :: r).
  Lemma name_forms n : name_ok n = true -> name_form n.
  Proof.
    destruct n as [|c0 [|c1 r]]; cbn -[has_char is_digit]; try discriminate.
    rewrite !andb_true_iff, !negb_true_iff. intros [[[[E0 E1] E2] E3] E4]. apply ceqb_eq in E0. subst.
    apply has_char_false in E1. apply ceqb_neq in E3. destruct (ceqb c1 "-"%char) eqn:E.
    - apply ceqb_eq in E. subst. destruct r as [|d r]; [discriminate|]. now constructor.
    - apply ceqb_neq in E. apply str_eqb_eq in E4. subst. constructor; auto. intro; subst. apply E1. cbn; auto.
  Qed.
  Lemma named_form n o : named P n = Some o -> name_form n.
  Proof. intro H. eapply name_forms, names_ok, H. Qed.
  Lemma name_no_eq n : name_form n -> ~ In "="%char n.
  Proof.
    destruct 1 as [c H1 H2 _ _|]; auto. cbn. intros [A|[A|A]]; [discriminate|congruence|easy].
  Qed.

  Lemma not_negative : has_negative P = false.
  Proof.
    unfold has_negative. destruct (existsb _ _) eqn:E; auto. apply existsb_exists in E as [[n o] [Hin E]]. cbn in E.
    assert (name_form n) as F by (apply name_forms, names_ok', in_map_iff; now exists (n, o)).
    exfalso. revert E. unfold negative_number, cut_newline.
    destruct F as [c H1 H2 H3 H4|d r _].
    - unfold dash. change (endswith [nl] ["-"%char; c]) with (ceqb nl c && true). destruct (ceqb nl c && true) eqn:E1.
      + cbn. discriminate.
      + cbn -[is_digit]. destruct (ceqb c "."%char) eqn:E2; [apply ceqb_eq in E2; congruence|]. cbn -[is_digit]. rewrite H3. discriminate.
    - destruct (endswith [nl] _).
      + change (removelast ("-"%char :: "-"%char :: d :: r)) with ("-"%char :: "-"%char :: removelast (d :: r)).
        cbn -[is_digit removelast]. destruct (split1 "."%char (removelast (d :: r))) as [[a b]|]; cbn; discriminate.
      + cbn -[is_digit]. destruct (if ceqb d "."%char then _ else _) as [[a b]|]; cbn; discriminate.
  Qed.

  Lemma has_eq_none s : In "="%char s -> named P s = None.
  Proof.
    intro H. destruct (named P s) as [o|] eqn:E; auto. exfalso. eapply name_no_eq, H. eapply named_form, E.
  Qed.
  Lemma long_letter_none c d r : c <> "-"%char -> named P ("-"%char :: c :: d :: r) = None.
  Proof.
    intro H. destruct (named P _) as [o|] eqn:E; auto. apply named_form in E. inversion E; subst; easy.
  Qed.

  Lemma filter_none {A} (f : A -> bool) l : (forall x, In x l -> f x = false) -> filter f l = [].
  Proof.
    induction l as [|x l IH]; cbn; intro H; auto. rewrite (H x); auto.
  Qed.

  (** ** Words *)

  Lemma word_name n o : named P n = Some o -> parse_optional P n = Read (Known (o, n, None)) /\ n <> $"--".
  Proof.
    intro H. pose proof (named_form _ _ H) as F. unfold parse_optional.
    destruct F as [c H1 H2 H3 H4|d r H1]; unfold dash in *; rewrite H; split; auto; vm_compute; congruence.
  Qed.

  Lemma word_eq n o v : named P n = Some o ->
    parse_optional P (n ++ "="%char :: v) = Read (Known (o, n, Some ($"=", v))) /\ n ++ "="%char :: v <> $"--".
  Proof.
    intro H. pose proof (named_form _ _ H) as F.
    assert (named P (n ++ "="%char :: v) = None) as N by (apply has_eq_none, in_or_app; right; now left).
    assert (split1 "="%char (n ++ "="%char :: v) = Some (n, v)) as Sp by (apply split1_spec; split; auto; now apply name_no_eq).
    unfold parse_optional.
    destruct F as [c H1 H2 H3 H4|d r H1]; unfold dash in *; cbn [app] in *; rewrite N, Sp, H; (split; [reflexivity|change ($"--") with ["-"%char; "-"%char]; congruence]).
  Qed.

  Lemma tuples_letter c o v : v <> [] -> named P (dash c) = Some o ->
    option_tuples P (dash c ++ v) = [(o, dash c, Some ([], v))].
  Proof.
    intros Hv H. pose proof (named_form _ _ H) as F. inversion F as [c' H1 H2 H3 H4 Ec|]; subst c'.
    destruct v as [|d r]; [easy|]. unfold dash. cbn [app option_tuples].
    destruct (ceqb c "-"%char) eqn:E; [apply ceqb_eq in E; congruence|].
    pose proof names_nodup as ND. unfold named in H.
    assert (forall n, In n (map fst (names_of P)) -> name_ok n = true) as OK by exact names_ok'.
    induction (names_of P) as [|[n o'] l IH]; [discriminate|].
    cbn [map fst] in *. inversion ND as [|? ? Hn ND']; subst.
    cbn [flat_map fst snd]. unfold sget in *. cbn [dget] in H. fold (dash c) in *.
    rewrite (str_eqb_sym (dash c) n) in H. destruct (str_eqb n (dash c)) eqn:E'.
    - injection H as ->. apply str_eqb_eq in E'. subst n. cbn [app]. f_equal.
      clear -Hn OK H1. induction l as [|[n o'] l IH]; auto. cbn [flat_map fst snd map] in *.
      destruct (str_eqb n (dash c)) eqn:E1.
      + exfalso. apply Hn. apply str_eqb_eq in E1. now left.
      + pose proof (name_forms n (OK n (or_intror (or_introl eq_refl)))) as Fn.
        assert (startswith ("-"%char :: c :: d :: r) n = false) as ->.
        { inversion Fn as [c'|d' r']; subst; cbn; [now rewrite !andb_false_r|].
          destruct (ceqb c "-"%char) eqn:E; auto. apply ceqb_eq in E. congruence. }
        apply IH; [|intro; apply Hn; now right]. intros m Hm. apply OK. destruct Hm; [now left|right; now right].
    - pose proof (name_forms n (OK n (or_introl eq_refl))) as Fn.
      assert (startswith ("-"%char :: c :: d :: r) n = false) as ->.
      { inversion Fn as [c'|d' r']; subst; cbn; [now rewrite !andb_false_r|].
        destruct (ceqb c "-"%char) eqn:E2; auto. apply ceqb_eq in E2. congruence. }
      apply IH; auto. intros m Hm. apply OK. now right.
  Qed.

  Lemma word_glued c o v : named P (dash c) = Some o -> v <> [] -> hd_error v <> Some "="%char ->
    parse_optional P (dash c ++ v) = Read (Known (o, dash c, Some ([], v))) /\ dash c ++ v <> $"--".
  Proof.
    intros H Hv Hh. pose proof (named_form _ _ H) as F. inversion F as [c' H1 H2 H3 H4 Ec|]; subst c'.
    pose proof (tuples_letter c o v Hv H) as T.
    destruct v as [|d r]; [easy|]. unfold dash in *. cbn [app] in *. unfold parse_optional.
    rewrite long_letter_none by assumption. cbn [List.length Nat.eqb]. split; [|vm_compute; congruence].
    assert ((match split1 "="%char ("-"%char :: c :: d :: r) with
             | Some (n, v) => option_map (fun o => (o, n, Some ($"=", v))) (named P n) | None => None end) = None) as ->.
    { destruct (split1 "="%char ("-"%char :: c :: d :: r)) as [[a b]|] eqn:E; auto.
      apply split1_spec in E as [E1 E2]. destruct a as [|a0 [|a1 [|a2 a]]]; cbn in E1; inversion E1; subst; try easy.
      now rewrite long_letter_none. }
    now rewrite T.
  Qed.

  Lemma digits_no_eq s : forallb is_digit s = true -> ~ In "="%char s.
  Proof. intros H Hin. rewrite forallb_forall in H. apply H in Hin. discriminate. Qed.
  Lemma word_plain v : plain v -> parse_optional P v = Read (Plain v) /\ v <> $"--".
  Proof.
    destruct v as [|c [|d r]]; intro H.
    - split; auto. discriminate.
    - split; [|vm_compute; congruence]. unfold parse_optional. destruct (ceqb c "-"%char) eqn:E.
      + apply ceqb_eq in E. subst. destruct (named P ["-"%char]) as [o|] eqn:N; auto. apply named_form in N. inversion N.
      + destruct c as [[] [] [] [] [] [] [] []]; try reflexivity. discriminate.
    - unfold plain in H. destruct (ceqb c "-"%char) eqn:E.
      + apply ceqb_eq in E. subst. destruct H as [H|H]; [easy|].
        assert (is_digit d = true) as Hd by (cbn in H; now apply andb_true_iff in H).
        assert (d <> "-"%char) as Hd' by (intro; subst; discriminate).
        split; [|vm_compute; congruence]. unfold parse_optional.
        assert (forall o, named P ("-"%char :: d :: r) = Some o -> False) as N.
        { intros o N. apply named_form in N. inversion N; subst; congruence. }
        destruct (named P _) as [o|]; [exfalso; now apply (N o)|]. cbn [List.length Nat.eqb].
        assert (split1 "="%char ("-"%char :: d :: r) = None) as ->.
        { apply split1_none. intros [A|A]; [discriminate|]. now apply digits_no_eq in A. }
        assert (option_tuples P ("-"%char :: d :: r) = []) as ->.
        { unfold option_tuples. destruct (ceqb d "-"%char) eqn:Ed; [apply ceqb_eq in Ed; congruence|].
          assert (forall n o, In (n, o) (names_of P) -> name_form n) as A.
          { intros n o Hin. apply name_forms, names_ok', in_map_iff. now exists (n, o). }
          clear -A Ed Hd. induction (names_of P) as [|[n o] l IH]; auto. cbn [flat_map fst snd].
          rewrite IH by (intros n' o' Hin; apply (A n' o'); now right). rewrite app_nil_r.
          destruct (A n o (or_introl eq_refl)) as [c H1 H2 H3 H4|d' r' H1].
          - unfold dash. cbn -[ceqb]. rewrite !ceqb_refl. destruct (ceqb c d) eqn:E; [apply ceqb_eq in E; congruence|].
            destruct (ceqb d c) eqn:E'; [apply ceqb_eq in E'; subst; congruence|]. reflexivity.
          - cbn -[ceqb]. rewrite !ceqb_refl, Ed. destruct (ceqb "-"%char d); reflexivity. }
        rewrite not_negative. cbn [negb]. rewrite andb_true_r.
        assert (negative_number ("-"%char :: d :: r) = true) as ->; auto.
        unfold negative_number, cut_newline.
        assert (endswith [nl] ("-"%char :: d :: r) = false) as ->.
        { destruct (endswith [nl] _) eqn:En; auto. apply endswith_spec in En as [t Et]. exfalso.
          assert (In nl ("-"%char :: d :: r)) as Hin by (rewrite Et; apply in_or_app; right; now left).
          destruct Hin as [A|A]; [discriminate|]. rewrite forallb_forall in H. apply H in A. discriminate. }
        assert (split1 "."%char (d :: r) = None) as ->.
        { apply split1_none. intro A. rewrite forallb_forall in H. apply H in A. discriminate. }
        exact H.
      + split; [|intro A; vm_compute in A; injection A as -> _; discriminate].
        unfold parse_optional. destruct c as [[] [] [] [] [] [] [] []]; try reflexivity. discriminate.
  Qed.

  (** ** One use of an option *)

  (** The use is of options of the parser, with or without value as they want it. *)
  Definition meant (u : use) : Prop :=
    match u with
    | UFlag n => exists o, named P n = Some o /\ o_kind o = Flag
    | UFlags l => l <> [] /\ forall c, In c l -> exists o, named P (dash c) = Some o /\ o_kind o = Flag
    | UNext n v => (exists o, named P n = Some o /\ takes_value o = true) /\ plain v
    | UEq n v => exists o, named P n = Some o /\ takes_value o = true
    | UGlued c v => (exists o, named P (dash c) = Some o /\ takes_value o = true) /\ v <> [] /\ hd_error v <> Some "="%char
    end.

  (** Taking what is said, one after the other. *)
  Fixpoint takes (l : list (str * option str)) (g : progress) : reading progress :=
    match l with
    | [] => Read g
    | (n, v) :: l' =>
        match named P n with
        | Some o => read g <- take float_of o v g ;; takes l' g
        | None => Refused
        end
    end.
  Lemma takes_app l l' g : takes (l ++ l') g = (read g <- takes l g ;; takes l' g).
  Proof.
    revert g; induction l as [|[n v] l IH]; cbn; intro g; auto. destruct (named P n); auto.
    destruct (take float_of o v g); cbn; auto.
  Qed.
  Lemma rbind_assoc {A B C} (x : reading A) (f : A -> reading B) (h : B -> reading C) :
    rbind (rbind x f) h = rbind x (fun a => rbind (f a) h).
  Proof. now destruct x. Qed.
  Lemma rbind_read {A} (x : reading A) : rbind x (fun a => Read a) = x.
  Proof. now destruct x. Qed.

  (** The words of a use. *)
  Definition words (u : use) : list word :=
    match u with
    | UFlag n => match named P n with Some o => [Known (o, n, None)] | None => [] end
    | UFlags [] => []
    | UFlags [c] => match named P (dash c) with Some o => [Known (o, dash c, None)] | None => [] end
    | UFlags (c :: l) => match named P (dash c) with Some o => [Known (o, dash c, Some ([], l))] | None => [] end
    | UNext n v => match named P n with Some o => [Known (o, n, None); Plain v] | None => [] end
    | UEq n v => match named P n with Some o => [Known (o, n, Some ($"=", v))] | None => [] end
    | UGlued c v => match named P (dash c) with Some o => [Known (o, dash c, Some ([], v))] | None => [] end
    end.

  Lemma classify_one s w l : parse_optional P s = Read w /\ s <> $"--" ->
    classify P (s :: l) = (read ws <- classify P l ;; Read (w :: ws)).
  Proof.
    intros [H N]. cbn [classify]. rewrite (proj2 (str_eqb_neq s $"--") N), H. reflexivity.
  Qed.

  Lemma classify_use u l : meant u -> classify P (typed u ++ l) = (read ws <- classify P l ;; Read (words u ++ ws)).
  Proof.
    destruct u as [n|cs|n v|n v|c v]; cbn [meant typed words app].
    - intros (o & H & _). rewrite H, (classify_one n _ _ (word_name n o H)). reflexivity.
    - intros [Hne H]. destruct cs as [|c cs]; [easy|]. destruct (H c (or_introl eq_refl)) as (o & Ho & _). rewrite Ho.
      destruct cs as [|d cs].
      + rewrite (classify_one _ _ _ (word_name (dash c) o Ho)). reflexivity.
      + change ("-"%char :: c :: d :: cs) with (dash c ++ d :: cs).
        rewrite (classify_one _ _ _ (word_glued c o (d :: cs) Ho ltac:(easy) ltac:(
          cbn; intros [= ->]; destruct (H "="%char) as (o' & Ho' & _); [right; now left|];
          eapply name_no_eq; [eapply named_form, Ho'|right; now left]))). reflexivity.
    - intros [(o & H & _) Hv]. rewrite H, (classify_one n _ _ (word_name n o H)), (classify_one v _ _ (word_plain v Hv)), rbind_assoc.
      reflexivity.
    - intros (o & H & _). rewrite H, (classify_one _ _ _ (word_eq n o v H)). reflexivity.
    - intros ((o & H & _) & Hv & Hh). rewrite H, (classify_one _ _ _ (word_glued c o v H Hv Hh)). reflexivity.
  Qed.

  Lemma take_read o v g g' : take float_of o v g = Read g' ->
    exists x, g' = MkProgress (g_set g ++ [(o, x)]) (g_map g) (g_open g) (g_extras g).
  Proof.
    unfold take. destruct (match o_kind o with Flag => Some VTrue | _ => _ end) as [x|]; destruct (o_kind o); try discriminate;
    (destruct (o_mode o && existsb _ _); [discriminate|]); intros [= <-]; now exists x.
  Qed.
  Lemma take_closed o v g g' : take float_of o v g = Read g' -> g_open g = false -> close g' = g' /\ g_open g' = false.
  Proof. intros H Hg. destruct (take_read _ _ _ _ H) as [x ->]. unfold close. cbn. now rewrite Hg. Qed.

  Lemma cluster_flags c cs o : named P (dash c) = Some o -> o_kind o = Flag ->
    (forall d, In d cs -> exists o, named P (dash d) = Some o /\ o_kind o = Flag) -> cs <> [] ->
    exists os o', cluster P o false [] cs = Read (os, FromNext o') /\ o_kind o' = Flag /\
      forall g, (read g <- take_all float_of os g ;; take float_of o' None g) = takes (map (fun c => (dash c, None)) (c :: cs)) g.
  Proof.
    revert c o. induction cs as [|d cs IH]; intros c o Ho Hk Hcs Hne; [easy|].
    destruct (Hcs d (or_introl eq_refl)) as (o1 & Ho1 & Hk1).
    pose proof (named_form _ _ Ho1) as F. inversion F as [c' H1 H2 H3 H4 Ec|]; subst c'.
    assert (forall e, cluster P o false [] (d :: e) =
      match e with
      | [] => Read ([o], FromNext o1)
      | c' :: e'' => read (os, t) <- (if ceqb c' "="%char then cluster P o1 false $"=" e'' else cluster P o1 false [] e) ;; Read (o :: os, t)
      end) as Cl.
    { intro e. cbn [cluster]. unfold takes_value. rewrite Hk. cbn [str_eqb negb orb].
      destruct (ceqb d "-"%char) eqn:E; [apply ceqb_eq in E; congruence|]. fold (dash d). rewrite Ho1. reflexivity. }
    rewrite Cl. destruct cs as [|d' cs].
    - exists [o], o1. repeat split; auto. intro g. cbn [map takes take_all]. rewrite Ho, Ho1, rbind_assoc.
      destruct (take float_of o None g); cbn; auto. symmetry. apply rbind_read.
    - destruct (ceqb d' "="%char) eqn:E.
      { apply ceqb_eq in E. subst. destruct (Hcs "="%char) as (o' & Ho' & _); [right; now left|].
        apply named_form in Ho'. inversion Ho'; congruence. }
      destruct (IH d o1 Ho1 Hk1) as (os & o' & E1 & E2 & E3); [intros x Hx; apply Hcs; now right|easy|].
      rewrite E1. exists (o :: os), o'. repeat split; auto. intro g.
      change (map (fun c0 => (dash c0, None)) (c :: d :: d' :: cs)) with ((dash c, @None str) :: map (fun c0 => (dash c0, None)) (d :: d' :: cs)).
      cbn [takes take_all]. rewrite Ho, rbind_assoc. destruct (take float_of o None g); cbn [rbind]; auto.
  Qed.

  Lemma loop_use u ws g : meant u -> loop float_of P (words u ++ ws) g = (read g <- takes (said u) (close g) ;; loop float_of P ws g).
  Proof.
    destruct u as [n|cs|n v|n v|c v]; cbn [meant words said].
    - intros (o & H & Hk). cbn [takes]. rewrite H. cbn [app loop options_in]. unfold takes_value. rewrite Hk. cbn [take_all rbind].
      rewrite rbind_assoc. destruct (take float_of o None (close g)); reflexivity.
    - intros [Hne H]. destruct cs as [|c cs]; [easy|]. destruct (H c (or_introl eq_refl)) as (o & Ho & Hk). rewrite Ho.
      destruct cs as [|d cs].
      + cbn [map takes]. rewrite Ho. cbn [app loop options_in]. unfold takes_value. rewrite Hk. cbn [take_all rbind].
        rewrite rbind_assoc. destruct (take float_of o None (close g)); reflexivity.
      + pose proof (named_form _ _ Ho) as F. inversion F as [c' H1 H2 H3 H4 Ec|]; subst c'.
        destruct (cluster_flags c (d :: cs) o Ho Hk) as (os & o' & E1 & E2 & E3); [intros x Hx; apply H; now right|easy|].
        rewrite <- E3. cbn [app loop options_in].
        assert (startswith $"--" (dash c) = false) as ->.
        { change (startswith $"--" (dash c)) with (true && (ceqb "-"%char c && true)). rewrite andb_true_r. cbn [andb].
          apply ceqb_neq. congruence. }
        rewrite E1. unfold takes_value. rewrite E2. rewrite rbind_assoc. reflexivity.
    - intros [(o & H & Hk) Hv]. cbn [takes]. rewrite H. cbn [app loop options_in]. rewrite Hk. cbn [take_all rbind].
      rewrite rbind_assoc. destruct (take float_of o (Some v) (close g)); reflexivity.
    - intros (o & H & Hk). cbn [takes]. rewrite H. cbn [app loop options_in].
      assert (cluster P o (startswith $"--" n) $"=" v = Read ([], WithValue o v)) as -> by (destruct v; cbn [cluster]; now rewrite Hk).
      cbn [take_all rbind]. rewrite rbind_assoc. destruct (take float_of o (Some v) (close g)); reflexivity.
    - intros ((o & H & Hk) & Hv & Hh). cbn [takes]. rewrite H. cbn [app loop options_in].
      assert (cluster P o (startswith $"--" (dash c)) [] v = Read ([], WithValue o v)) as -> by (destruct v; cbn [cluster]; now rewrite Hk).
      cbn [take_all rbind]. rewrite rbind_assoc. destruct (take float_of o (Some v) (close g)); reflexivity.
  Qed.

  Lemma said_one u : meant u -> said u <> [].
  Proof. destruct u as [n|[|c cs]|n v|n v|c v]; cbn; try easy. Qed.
  Lemma takes_closed l g g' : takes l g = Read g' -> g_open g = false -> close g' = g' /\ g_open g' = false.
  Proof.
    revert g. induction l as [|[n v] l IH]; intros g; cbn [takes].
    - intros [= <-] H. unfold close. destruct g; cbn in *; now rewrite H.
    - destruct (named P n) as [o|]; [|discriminate]. destruct (take float_of o v g) as [g1| |] eqn:E; cbn; try discriminate.
      intros H1 H2. apply (IH g1 H1). eapply take_closed; eauto.
  Qed.

  (** ** Several uses *)

  Definition words_all (us : list use) : list word := flat_map words us.
  Lemma classify_uses us l : (forall u, In u us -> meant u) ->
    classify P (typed_all us ++ l) = (read ws <- classify P l ;; Read (words_all us ++ ws)).
  Proof.
    intro H. induction us as [|u us IH]; cbn [typed_all words_all flat_map app].
    - symmetry. apply rbind_read.
    - rewrite <- app_assoc, classify_use by (apply H; now left). unfold typed_all in IH. rewrite IH by (intros; apply H; now right).
      rewrite rbind_assoc. destruct (classify P l); cbn; auto. unfold words_all. now rewrite app_assoc.
  Qed.
  Lemma classify_plain ms l : (forall m, In m ms -> plain m) ->
    classify P (ms ++ l) = (read ws <- classify P l ;; Read (map Plain ms ++ ws)).
  Proof.
    intro H. induction ms as [|m ms IH]; cbn [app map].
    - symmetry. apply rbind_read.
    - rewrite (classify_one m _ _ (word_plain m (H m (or_introl eq_refl)))), IH by (intros; apply H; now right).
      rewrite rbind_assoc. destruct (classify P l); reflexivity.
  Qed.

  Lemma loop_uses us ws g : (forall u, In u us -> meant u) -> us <> [] ->
    loop float_of P (words_all us ++ ws) g = (read g <- takes (said_all us) (close g) ;; loop float_of P ws g).
  Proof.
    intros H Hne. revert g. induction us as [|u us IH]; intro g; [easy|].
    unfold words_all, said_all. cbn [flat_map]. rewrite <- app_assoc, loop_use, takes_app, rbind_assoc by (apply H; now left).
    destruct (takes (said u) (close g)) as [g1| |] eqn:E; cbn [rbind]; auto.
    destruct us as [|u' us]; [reflexivity|].
    destruct (takes_closed _ _ _ E eq_refl) as [C1 C2].
    unfold words_all, said_all in IH. rewrite IH, C1; auto; try easy. intros; apply H; now right.
  Qed.
End Parser.
