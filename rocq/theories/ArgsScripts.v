(** * ArgsScripts: what the scripts go by, from their command lines *)

From Verif Require Import Py PyFacts Build Sync ExplorerMain Args ArgsSpec ArgsFacts ArgsRead.

(** ** The options of a parser against their description *)

Definition is_text (o : opt) : bool :=
  match o_kind o with Store Text | Append Text | Store (OneOf _) => true | _ => false end.
Definition is_one (o : opt) : bool := match o_kind o with Store Text | Store (OneOf _) => true | _ => false end.
Definition is_many (o : opt) : bool := match o_kind o with Append Text => true | _ => false end.
Definition is_int (o : opt) : bool := match o_kind o with Store Integer => true | _ => false end.
Definition is_float (o : opt) : bool := match o_kind o with Store Floating => true | _ => false end.
Definition is_version (o : opt) : bool :=
  match o_kind o with Store (OneOf [a; b]) => str_eqb a $"1.0" && str_eqb b $"1.1" | _ => false end.
Definition is_flag (o : opt) : bool := match o_kind o with Flag => true | _ => false end.
Definition is_help (o : opt) : bool := match o_kind o with Help => true | _ => false end.
Definition is_free (o : opt) : bool := match o_kind o with Store Text | Append Text => true | _ => false end.

(** The names without and with values, and of which type. *)
Definition described (P : parser) (flags values ints floats versions : list str) : bool :=
  forallb (fun n => match named P n with Some o => is_flag o | None => false end) flags &&
  forallb (fun n => match named P n with
                    | Some o => if in_strs n ints then is_int o else if in_strs n floats then is_float o
                                else if in_strs n versions then is_version o else is_free o
                    | None => false
                    end) values.
Definition dest_is (P : parser) (test : opt -> bool) (d : str) (N : list str) : bool :=
  forallb (fun no => Bool.eqb (str_eqb (o_dest (snd no)) d) (in_strs (fst no) N) && (negb (in_strs (fst no) N) || test (snd no)))
    (names_of P).

Section Parser.
  Variables (P : parser) (float_of : str -> option Z) (flags values ints floats versions : list str).
  Hypothesis made : wellmade P = true.
  Hypothesis desc : described P flags values ints floats versions = true.

  Lemma flag_named n : In n flags -> exists o, named P n = Some o /\ o_kind o = Flag.
  Proof.
    intro H. apply andb_true_iff in desc as [D _]. rewrite forallb_forall in D. apply D in H.
    destruct (named P n) as [o|]; [|discriminate]. exists o. split; auto. unfold is_flag in H. destruct (o_kind o); easy.
  Qed.
  Lemma value_named n : In n values -> exists o, named P n = Some o /\
    (if in_strs n ints then is_int o else if in_strs n floats then is_float o
     else if in_strs n versions then is_version o else is_free o) = true.
  Proof.
    intro H. apply andb_true_iff in desc as [_ D]. rewrite forallb_forall in D. apply D in H.
    destruct (named P n) as [o|]; [|discriminate]. now exists o.
  Qed.
  Lemma value_takes n : In n values -> exists o, named P n = Some o /\ takes_value o = true.
  Proof.
    intro H. destruct (value_named n H) as (o & N & K). exists o. split; auto. unfold takes_value.
    destruct (in_strs n ints), (in_strs n floats), (in_strs n versions); unfold is_int, is_float, is_version, is_free in K;
    destruct (o_kind o); easy.
  Qed.

  Lemma good_meant u : good flags values u -> meant P u.
  Proof.
    destruct u as [n|cs|n v|n v|c v]; cbn.
    - apply flag_named.
    - intros [H1 H2]. split; auto. intros c Hc. now apply flag_named, H2.
    - intros [H1 H2]. split; auto. now apply value_takes.
    - apply value_takes.
    - intros (H1 & H2 & H3). split; auto. now apply value_takes.
  Qed.

  (** What is said is of the options described. *)
  Definition proper (nv : str * option str) : Prop :=
    match snd nv with None => In (fst nv) flags | Some _ => In (fst nv) values end.
  Lemma good_proper us : (forall u, In u us -> good flags values u) -> forall nv, In nv (said_all us) -> proper nv.
  Proof.
    intros H nv Hin. unfold said_all in Hin. apply in_flat_map in Hin as (u & Hu & Hin). apply H in Hu.
    destruct u as [n|cs|n v|n v|c v]; cbn in Hu, Hin.
    - destruct Hin as [<-|[]]. exact Hu.
    - apply in_map_iff in Hin as (c & <- & Hc). now apply Hu.
    - destruct Hin as [<-|[]]. apply Hu.
    - destruct Hin as [<-|[]]. apply Hu.
    - destruct Hin as [<-|[]]. apply Hu.
  Qed.

  Lemma proper_no_help l : (forall nv, In nv l -> proper nv) -> no_help P l.
  Proof.
    intros H n v o Hin N. apply H in Hin. unfold proper in Hin. cbn in Hin. destruct v as [v|].
    - destruct (value_takes n Hin) as (o' & N' & K). rewrite N in N'. injection N' as <-. intro E. unfold takes_value in K.
      rewrite E in K. discriminate.
    - destruct (flag_named n Hin) as (o' & N' & K). rewrite N in N'. injection N' as <-. congruence.
  Qed.

  Definition values_ok (l : list (str * option str)) : Prop :=
    forall n v, In (n, Some v) l ->
      (In n ints -> parse_int v <> None) /\ (In n floats -> float_of v <> None) /\ (In n versions -> v = $"1.0" \/ v = $"1.1").
  Definition apart : bool :=
    forallb (fun n => negb (in_strs n floats) && negb (in_strs n versions)) ints && forallb (fun n => negb (in_strs n versions)) floats.
  Hypothesis Hapart : apart = true.

  Lemma assigns_iff l : (forall nv, In nv l -> proper nv) -> ((exists a, assigns P float_of l = Some a) <-> values_ok l).
  Proof.
    assert (forall n v, In n values -> (exists o x, named P n = Some o /\ value_of float_of o (Some v) = Some x) <->
      (In n ints -> parse_int v <> None) /\ (In n floats -> float_of v <> None) /\ (In n versions -> v = $"1.0" \/ v = $"1.1")) as One.
    { intros n v Hn. destruct (value_named n Hn) as (o & N & K).
      pose proof Hapart as Ap. unfold apart in Ap. rewrite andb_true_iff, !forallb_forall in Ap. destruct Ap as [A1 A2].
      assert ((exists o x, named P n = Some o /\ value_of float_of o (Some v) = Some x) <-> value_of float_of o (Some v) <> None) as ->.
      { split.
        - intros (o' & x & N' & V). rewrite N in N'. injection N' as <-. congruence.
        - intro V. destruct (value_of float_of o (Some v)) as [x|] eqn:E; [|easy]. eauto. }
      destruct (in_strs n ints) eqn:E1.
      - apply in_strs_In in E1. pose proof (A1 n E1) as B. apply andb_true_iff in B as [B1 B2].
        apply negb_true_iff, in_strs_false in B1. apply negb_true_iff, in_strs_false in B2.
        unfold value_of. unfold is_int in K. destruct (o_kind o) as [|[]| |]; try discriminate. cbn.
        destruct (parse_int v); cbn; split; try easy.
        + intros (H & _). now specialize (H E1).
      - apply in_strs_false in E1. destruct (in_strs n floats) eqn:E2.
        + apply in_strs_In in E2. pose proof (A2 n E2) as B. apply negb_true_iff, in_strs_false in B.
          unfold value_of. unfold is_float in K. destruct (o_kind o) as [|[]| |]; try discriminate. cbn.
          destruct (float_of v); cbn; split; try easy.
          * intros (_ & H & _). now specialize (H E2).
        + apply in_strs_false in E2. destruct (in_strs n versions) eqn:E3.
          * apply in_strs_In in E3. unfold value_of. unfold is_version in K.
            destruct (o_kind o) as [|t| |]; try discriminate. destruct t as [| | |ch]; try discriminate.
            destruct ch as [|x [|y [|? ?]]]; try discriminate.
            apply andb_true_iff in K as [K1 K2]. apply str_eqb_eq in K1, K2. subst. cbn [get_value].
            destruct (in_strs v _) eqn:E4.
            -- apply in_strs_In in E4. split; [|easy]. intros _. repeat split; try easy. intros _.
               destruct E4 as [E4|[E4|[]]]; auto.
            -- apply in_strs_false in E4. split; [easy|]. intros (_ & _ & H). exfalso. apply E4.
               destruct (H E3) as [-> | ->]; [left|right; left]; auto.
          * apply in_strs_false in E3. unfold value_of. unfold is_free in K.
            destruct (o_kind o) as [|[]|[]|]; try discriminate; cbn; split; try easy. }
    induction l as [|[n v] l IH]; intro Pr.
    - cbn. split; [intros _ ? ? []|eauto].
    - assert (forall nv, In nv l -> proper nv) as Pr' by (intros; apply Pr; now right).
      specialize (IH Pr'). pose proof (Pr (n, v) (or_introl eq_refl)) as P0. unfold proper in P0. cbn in P0. cbn [assigns].
      assert (values_ok ((n, v) :: l) <-> match v with Some s => (In n ints -> parse_int s <> None) /\ (In n floats -> float_of s <> None) /\
        (In n versions -> s = $"1.0" \/ s = $"1.1") | None => True end /\ values_ok l) as ->.
      { split.
        - intro H. split; [|intros n' v' Hin; apply H; now right]. destruct v as [s|]; auto. apply H. now left.
        - intros [H1 H2] n' v' [E|Hin]; [injection E as -> ->; exact H1|now apply H2]. }
      destruct v as [s|].
      + rewrite <- (One n s P0), <- IH. split.
        * intros (a & E). destruct (named P n) as [o|] eqn:N; [|discriminate].
          destruct (value_of float_of o (Some s)) as [x|] eqn:V; [|discriminate]. destruct (assigns P float_of l); [|discriminate]. eauto 6.
        * intros ((o & x & -> & ->) & (a & ->)). eauto.
      + destruct (flag_named n P0) as (o & -> & K). unfold value_of. rewrite K. rewrite <- IH. split.
        * intros (a & E). destruct (assigns P float_of l); [|discriminate]. eauto.
        * intros (_ & a & ->). eauto.
  Qed.
End Parser.

(** ** What is assigned *)

Section Assigned.
  Variables (P : parser) (float_of : str -> option Z).

  Lemma dest_in test d N n o : dest_is P test d N = true -> named P n = Some o ->
    str_eqb (o_dest o) d = in_strs n N /\ (in_strs n N = true -> test o = true).
  Proof.
    intros H Nm. apply sget_in in Nm. unfold dest_is in H. rewrite forallb_forall in H. apply H in Nm. cbn in Nm.
    apply andb_true_iff in Nm as [E T]. apply Bool.eqb_prop in E. split; auto. intro I. rewrite I in T. exact T.
  Qed.

  Lemma assigned_flag test d N us a : dest_is P test d N = true -> assigns P float_of (said_all us) = Some a ->
    is_set d a = is_said N us.
  Proof.
    intro D. unfold is_set, is_said, assigned. rewrite map_length. revert a. generalize (said_all us). intro l.
    induction l as [|[n v] l IH]; intros a; cbn [assigns].
    - now intros [= <-].
    - destruct (named P n) as [o|] eqn:Nm; [|discriminate]. destruct (value_of float_of o v) as [x|]; [|discriminate].
      destruct (assigns P float_of l) as [a'|]; [|discriminate]. intros [= <-]. cbn [filter fst existsb].
      rewrite (proj1 (dest_in _ _ _ _ _ D Nm)). destruct (in_strs n N); cbn [orb]; auto.
  Qed.

  Lemma assigned_texts d N us a : dest_is P is_text d N = true -> assigns P float_of (said_all us) = Some a ->
    assigned d a = map VText (values_said N us).
  Proof.
    intro D. unfold values_said, assigned. revert a. generalize (said_all us). intro l.
    induction l as [|[n v] l IH]; intros a; cbn [assigns].
    - now intros [= <-].
    - destruct (named P n) as [o|] eqn:Nm; [|discriminate]. destruct (value_of float_of o v) as [x|] eqn:V; [|discriminate].
      destruct (assigns P float_of l) as [a'|]; [|discriminate]. intros [= <-]. cbn [filter fst flat_map snd].
      destruct (dest_in _ _ _ _ _ D Nm) as [-> T]. destruct (in_strs n N); cbn [map snd app]; auto.
      specialize (T eq_refl). unfold value_of in V. unfold is_text in T.
      destruct (o_kind o) as [|[]|[]|]; try discriminate; destruct v as [s|]; try discriminate; cbn [get_value] in V.
      + injection V as <-. cbn. f_equal. auto.
      + destruct (in_strs s choices); [|discriminate]. injection V as <-. cbn. f_equal. auto.
      + injection V as <-. cbn. f_equal. auto.
  Qed.
  Lemma assigned_ints d N us a : dest_is P is_int d N = true -> assigns P float_of (said_all us) = Some a ->
    exists zs, assigned d a = map VInt zs /\ map parse_int (values_said N us) = map Some zs.
  Proof.
    intro D. unfold values_said, assigned. revert a. generalize (said_all us). intro l.
    induction l as [|[n v] l IH]; intros a; cbn [assigns].
    - intros [= <-]. now exists [].
    - destruct (named P n) as [o|] eqn:Nm; [|discriminate]. destruct (value_of float_of o v) as [x|] eqn:V; [|discriminate].
      destruct (assigns P float_of l) as [a'|]; [|discriminate]. intros [= <-]. cbn [filter fst flat_map snd].
      destruct (dest_in _ _ _ _ _ D Nm) as [-> T]. destruct (IH a' eq_refl) as (zs & E1 & E2).
      destruct (in_strs n N); cbn [map snd app]; [|now exists zs].
      specialize (T eq_refl). unfold value_of in V. unfold is_int in T.
      destruct (o_kind o) as [|[]| |]; try discriminate; destruct v as [s|]; try discriminate; cbn [get_value] in V.
      destruct (parse_int s) as [z|] eqn:Ez; [|discriminate]. injection V as <-. exists (z :: zs). cbn. rewrite Ez, E1. split; auto. f_equal. exact E2.
  Qed.
  Lemma assigned_floats d N us a : dest_is P is_float d N = true -> assigns P float_of (said_all us) = Some a ->
    exists zs, assigned d a = map VFloat zs /\ map float_of (values_said N us) = map Some zs.
  Proof.
    intro D. unfold values_said, assigned. revert a. generalize (said_all us). intro l.
    induction l as [|[n v] l IH]; intros a; cbn [assigns].
    - intros [= <-]. now exists [].
    - destruct (named P n) as [o|] eqn:Nm; [|discriminate]. destruct (value_of float_of o v) as [x|] eqn:V; [|discriminate].
      destruct (assigns P float_of l) as [a'|]; [|discriminate]. intros [= <-]. cbn [filter fst flat_map snd].
      destruct (dest_in _ _ _ _ _ D Nm) as [-> T]. destruct (IH a' eq_refl) as (zs & E1 & E2).
      destruct (in_strs n N); cbn [map snd app]; [|now exists zs].
      specialize (T eq_refl). unfold value_of in V. unfold is_float in T.
      destruct (o_kind o) as [|[]| |]; try discriminate; destruct v as [s|]; try discriminate; cbn [get_value] in V.
      destruct (float_of s) as [z|] eqn:Ez; [|discriminate]. injection V as <-. exists (z :: zs). cbn. rewrite Ez, E1. split; auto. f_equal. exact E2.
  Qed.

  Lemma last_rev {A} (l : list A) : match rev l with v :: _ => Some v | [] => None end = last (map Some l) None.
  Proof.
    induction l as [|x l IH] using rev_ind; auto. rewrite rev_app_distr, map_app. cbn. symmetry. apply last_last.
  Qed.
  Lemma last_map {A B} (f : A -> B) (l : list A) : last (map Some (map f l)) None = option_map f (last (map Some l) None).
  Proof.
    induction l as [|x l IH] using rev_ind; auto. rewrite !map_app. cbn. now rewrite !last_last.
  Qed.

  Lemma dest_weaken (test test' : opt -> bool) d N : (forall o, test o = true -> test' o = true) -> dest_is P test d N = true -> dest_is P test' d N = true.
  Proof.
    intros H. unfold dest_is. rewrite !forallb_forall. intros D x Hx. specialize (D x Hx). apply andb_true_iff in D as [D1 D2].
    rewrite D1. cbn [andb]. apply orb_true_iff in D2 as [-> | D2]; [reflexivity|]. now rewrite (H _ D2), orb_true_r.
  Qed.
  Lemma one_text o : is_one o = true -> is_text o = true.
  Proof. unfold is_one, is_text. now destruct (o_kind o) as [|[]|[]|]. Qed.
  Lemma many_text o : is_many o = true -> is_text o = true.
  Proof. unfold is_many, is_text. now destruct (o_kind o) as [|[]|[]|]. Qed.
  Lemma no_list test d N us a : (forall o, test o = true -> match o_kind o with Append _ => false | _ => true end = true) ->
    dest_is P test d N = true -> assigns P float_of (said_all us) = Some a -> is_list d a = false.
  Proof.
    intros H D. unfold is_list. revert a. generalize (said_all us). intro l. induction l as [|[n v] l IH]; intros a; cbn [assigns].
    - now intros [= <-].
    - destruct (named P n) as [o|] eqn:Nm; [|discriminate]. destruct (value_of float_of o v) as [x|]; [|discriminate].
      destruct (assigns P float_of l) as [a'|]; [|discriminate]. intros [= <-]. cbn [existsb fst]. rewrite (IH a' eq_refl), orb_false_r.
      destruct (dest_in _ _ _ _ _ D Nm) as [-> T]. destruct (in_strs n N); auto. specialize (H o (T eq_refl)). now destruct (o_kind o).
  Qed.
  Lemma a_list d N us a : dest_is P is_many d N = true -> assigns P float_of (said_all us) = Some a -> assigned d a <> [] -> is_list d a = true.
  Proof.
    intros D. unfold is_list, assigned. revert a. generalize (said_all us). intro l. induction l as [|[n v] l IH]; intros a; cbn [assigns].
    - now intros [= <-].
    - destruct (named P n) as [o|] eqn:Nm; [|discriminate]. destruct (value_of float_of o v) as [x|]; [|discriminate].
      destruct (assigns P float_of l) as [a'|]; [|discriminate]. intros [= <-]. cbn [existsb fst filter].
      destruct (dest_in _ _ _ _ _ D Nm) as [-> T]. destruct (in_strs n N).
      + intros _. specialize (T eq_refl). unfold is_many in T. now destruct (o_kind o) as [| |[]|].
      + cbn [andb orb]. auto.
  Qed.

  Lemma last_text_said d N us a : dest_is P is_one d N = true -> assigns P float_of (said_all us) = Some a ->
    last_text d a = last_said N us.
  Proof.
    intros D A. unfold last_text, last_set. rewrite (no_list is_one d N us a) by (auto; intro o; unfold is_one; now destruct (o_kind o)).
    rewrite (assigned_texts d N us a (dest_weaken _ _ _ _ one_text D) A), last_rev, last_map. unfold last_said.
    destruct (last _ None); reflexivity.
  Qed.
  Lemma all_texts_said d N us a : dest_is P is_many d N = true -> assigns P float_of (said_all us) = Some a ->
    all_texts d a = all_said N us.
  Proof.
    intros D A. pose proof (a_list d N us a D A) as L. unfold all_texts, all_said.
    rewrite (assigned_texts d N us a (dest_weaken _ _ _ _ many_text D) A) in *. destruct (values_said N us) as [|s l]; auto.
    cbn [map] in *. rewrite L by discriminate. cbn [flat_map app]. do 2 f_equal. clear. induction l as [|t l IH]; auto. cbn. now rewrite IH.
  Qed.
  Lemma last_of_some {A} (f : str -> option A) l zs : map f l = map Some zs ->
    match last (map Some l) None with Some v => f v | None => None end = last (map Some zs) None.
  Proof.
    revert zs. induction l as [|s l IH] using rev_ind; intros zs; rewrite ?map_app; cbn.
    - destruct zs; [reflexivity|discriminate].
    - destruct zs as [|z zs _] using rev_ind; rewrite ?map_app; cbn.
      + intro H. apply (f_equal (@List.length _)) in H. rewrite app_length in H. cbn in H. rewrite Nat.add_comm in H. discriminate.
      + intro H. apply app_inj_tail in H as [_ H]. now rewrite !last_last.
  Qed.
  Lemma last_int_is d N us a : dest_is P is_int d N = true -> assigns P float_of (said_all us) = Some a ->
    last_int d a = last_int_said N us.
  Proof.
    intros D A. destruct (assigned_ints d N us a D A) as (zs & E1 & E2). unfold last_int, last_set.
    rewrite (no_list is_int d N us a) by (auto; intro o; unfold is_int; now destruct (o_kind o)). rewrite E1, last_rev, last_map.
    unfold last_int_said, last_said. rewrite (last_of_some parse_int _ _ E2). destruct (last (map Some zs) None); reflexivity.
  Qed.
  Lemma last_float_is d N us a : dest_is P is_float d N = true -> assigns P float_of (said_all us) = Some a ->
    last_float d a = match last_said N us with Some v => float_of v | None => None end.
  Proof.
    intros D A. destruct (assigned_floats d N us a D A) as (zs & E1 & E2). unfold last_float, last_set.
    rewrite (no_list is_float d N us a) by (auto; intro o; unfold is_float; now destruct (o_kind o)). rewrite E1, last_rev, last_map.
    unfold last_said. rewrite (last_of_some float_of _ _ E2). destruct (last (map Some zs) None); reflexivity.
  Qed.
End Assigned.

(** ** Modes *)

Section Modes.
  Context {M : Type}.
  Variables (P : parser) (float_of : str -> option Z) (mode_of : str -> option M) (meqb : M -> M -> bool).
  Hypothesis meqb_eq : forall x y, meqb x y = true <-> x = y.
  (** The options of the group are those that stand for a mode, and they agree on when it is the same. *)
  Definition modes_agree : bool :=
    forallb (fun no => Bool.eqb (o_mode (snd no)) (match mode_of (fst no) with Some _ => true | None => false end) &&
      forallb (fun no' => match mode_of (fst no), mode_of (fst no') with
                          | Some m, Some m' => Bool.eqb (meqb m m') (str_eqb (o_dest (snd no)) (o_dest (snd no')))
                          | _, _ => true
                          end) (names_of P)) (names_of P).
  Hypothesis agree : modes_agree = true.

  Lemma mode_option n o : named P n = Some o -> o_mode o = match mode_of n with Some _ => true | None => false end.
  Proof.
    intro H. apply sget_in in H. pose proof agree as A. unfold modes_agree in A. rewrite forallb_forall in A.
    apply A in H. cbn in H. apply andb_true_iff in H as [H _]. now apply Bool.eqb_prop.
  Qed.
  Lemma mode_dest n o n' o' m m' : named P n = Some o -> named P n' = Some o' -> mode_of n = Some m -> mode_of n' = Some m' ->
    (m = m' <-> o_dest o = o_dest o').
  Proof.
    intros H H' E E'. apply sget_in in H, H'. pose proof agree as A. unfold modes_agree in A. rewrite forallb_forall in A.
    apply A in H. cbn in H. apply andb_true_iff in H as [_ H]. rewrite forallb_forall in H. apply H in H'. cbn in H'.
    rewrite E, E' in H'. apply Bool.eqb_prop in H'. rewrite <- meqb_eq, <- str_eqb_eq, H'. reflexivity.
  Qed.

  (** The mode options assigned, in order, are the modes said. *)
  Lemma modes_assigned us a : assigns P float_of (said_all us) = Some a ->
    exists l, modes_said mode_of us = map fst l /\ filter (fun ov => o_mode (fst ov)) a = map snd l /\
      forall m ov, In (m, ov) l -> exists n, mode_of n = Some m /\ named P n = Some (fst ov).
  Proof.
    unfold modes_said. revert a. generalize (said_all us). intro l.
    induction l as [|[n v] l IH]; intros a; cbn [assigns].
    - intros [= <-]. exists []. repeat split; intros ? ? [].
    - destruct (named P n) as [o|] eqn:Nm; [|discriminate]. destruct (value_of float_of o v) as [x|]; [|discriminate].
      destruct (assigns P float_of l) as [a'|]; [|discriminate]. intros [= <-]. destruct (IH a' eq_refl) as (k & E1 & E2 & E3).
      cbn [flat_map filter fst]. rewrite (mode_option n o Nm). destruct (mode_of n) as [m|] eqn:E; [|exists k; auto].
      exists ((m, (o, x)) :: k). cbn. rewrite E1, E2. repeat split; auto.
      intros m' ov [H|H]; [injection H as <- <-; eauto|eauto].
  Qed.

  Lemma consistent_modes us a : assigns P float_of (said_all us) = Some a ->
    (consistent a <-> forall m m', In m (modes_said mode_of us) -> In m' (modes_said mode_of us) -> m = m').
  Proof.
    intro A. destruct (modes_assigned us a A) as (l & E1 & E2 & E3). split.
    - intros C m m' Hm Hm'. rewrite E1 in Hm, Hm'. apply in_map_iff in Hm as ([? x] & <- & Hm). apply in_map_iff in Hm' as ([? y] & <- & Hm').
      destruct (E3 _ _ Hm) as (n & N1 & N2). destruct (E3 _ _ Hm') as (n' & N1' & N2'). cbn.
      apply (mode_dest _ _ _ _ _ _ N2 N2' N1 N1').
      assert (In x (filter (fun ov => o_mode (fst ov)) a)) as Fx by (rewrite E2; apply in_map_iff; eexists; split; [|exact Hm]; auto).
      assert (In y (filter (fun ov => o_mode (fst ov)) a)) as Fy by (rewrite E2; apply in_map_iff; eexists; split; [|exact Hm']; auto).
      apply filter_In in Fx as [Fx Mx]. apply filter_In in Fy as [Fy My]. now apply C.
    - intros H x y Hx Hy Mx My.
      assert (forall z, In z a -> o_mode (fst z) = true -> exists m, In (m, z) l) as K.
      { intros z Hz Mz. assert (In z (map snd l)) as Z by (rewrite <- E2; apply filter_In; auto).
        apply in_map_iff in Z as ([m z'] & <- & Z). now exists m. }
      destruct (K x Hx Mx) as (m & Hm). destruct (K y Hy My) as (m' & Hm').
      destruct (E3 _ _ Hm) as (n & N1 & N2). destruct (E3 _ _ Hm') as (n' & N1' & N2').
      apply (mode_dest _ _ _ _ _ _ N2 N2' N1 N1'). apply H; rewrite E1; apply in_map_iff; [now exists (m, x)|now exists (m', y)].
  Qed.
  Lemma some_mode us a : assigns P float_of (said_all us) = Some a ->
    (existsb (fun ov => o_mode (fst ov)) a = true <-> modes_said mode_of us <> []).
  Proof.
    intro A. destruct (modes_assigned us a A) as (l & E1 & E2 & _).
    assert (existsb (fun ov => o_mode (fst ov)) a = true <-> filter (fun ov => o_mode (fst ov)) a <> []) as ->.
    { rewrite existsb_exists. split.
      - intros (x & Hx & Mx) E. assert (In x []) as []. rewrite <- E. now apply filter_In.
      - intro H. destruct (filter _ a) as [|x k] eqn:E; [easy|]. exists x.
        apply (proj1 (filter_In (fun ov : opt * val => o_mode (fst ov)) x a)). rewrite E. now left. }
    rewrite E1, E2. destruct l; cbn; split; easy.
  Qed.

  (** The names of a mode are said just if it is the one. *)
  Lemma mode_is N m0 us m : (forall n, mode_of n = Some m0 <-> in_strs n N = true) -> one_mode mode_of us m ->
    is_said N us = meqb m m0.
  Proof.
    intros HN [H1 H2].
    assert (is_said N us = true <-> In m0 (modes_said mode_of us)) as E.
    { unfold is_said, modes_said. rewrite existsb_exists, in_flat_map. split.
      - intros (nv & Hin & E). exists nv. split; auto. apply HN in E. rewrite E. now left.
      - intros (nv & Hin & E). exists nv. split; auto. apply HN. destruct (mode_of (fst nv)); [|easy]. destruct E as [->|[]]. auto. }
    destruct (meqb m m0) eqn:Em.
    - apply meqb_eq in Em. subst. now apply E.
    - apply not_true_iff_false. intro X. apply E, H2 in X. subst. rewrite (proj2 (meqb_eq m m) eq_refl) in Em. discriminate.
  Qed.
End Modes.
