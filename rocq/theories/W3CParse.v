(** * W3CParse: the value of every W3C datetime string *)

From Verif Require Import Py PyFacts Float64 Float64Facts Regex RegexFacts W3C W3CSpec W3CCal W3CFacts.

(** ** The fraction pattern *)

Definition hms (h mi s : str) : str := h ++ $":" ++ mi ++ $":" ++ s.
Definition no_nl (s : str) : Prop := ~ In nl s.

Lemma forallb_no_nl s : forallb (cls_match true [CSingle nl]) s = true <-> no_nl s.
Proof.
  unfold no_nl. rewrite forallb_forall. split.
  - intros H I. apply H in I. discriminate I.
  - intros H x I. rewrite cls_dot, negb_true_iff. destruct (ceqb nl x) eqn:E; auto.
    apply ceqb_eq in E. subst. contradiction.
Qed.
Lemma forallb_digits s : forallb (cls_match false [CDigit false]) s = forallb is_digit s.
Proof. induction s as [|a s IH]; cbn [forallb]; [auto|]. now rewrite cls_digit, IH. Qed.

Definition frac_caps (g1 f g3 : str) : list (nat * str) :=
  let c := dset Nat.eqb 2%nat ($"." ++ f) (dset Nat.eqb 1%nat g1 []) in
  match g3 with [] => c | _ => dset Nat.eqb 3%nat g3 c end.

Lemma R_frac_inv w k c :
  R re_frac 0 [] w k c ->
  exists u h mi s f g3,
    digits 2 h /\ digits 2 mi /\ digits 2 s /\ no_nl u /\ some_digits f /\ tail_ok k /\
    match g3 with [] => True | x :: X => is_digit x = false /\ no_nl X end /\
    w = (u ++ hms h mi s) ++ $"." ++ f ++ g3 /\
    c = frac_caps (u ++ hms h mi s) f g3.
Proof.
  unfold re_frac. intros H. rinv; cls_clean; cbn [app] in *; cls_clean; rewrite ?app_nil_r.
  - eexists _, [_; _], [_; _], [_; _], (_ :: _), (_ :: _).
    repeat match goal with |- _ /\ _ => split end; [| | | | | | | |reflexivity|reflexivity];
      auto using mk_digits2; try (apply forallb_no_nl; assumption); try easy.
    split; [easy|]. cbn [forallb]. rewrite forallb_digits in *. now apply andb_true_iff.
  - eexists _, [_; _], [_; _], [_; _], (_ :: _), [].
    repeat match goal with |- _ /\ _ => split end; [| | | | | | |rewrite app_nil_r; reflexivity|reflexivity];
      auto using mk_digits2; try (apply forallb_no_nl; assumption); try easy.
    split; [easy|]. cbn [forallb]. rewrite forallb_digits in *. now apply andb_true_iff.
Qed.

Lemma R_frac_intro u h mi s f g3 k :
  digits 2 h -> digits 2 mi -> digits 2 s -> no_nl u -> some_digits f -> tail_ok k ->
  match g3 with [] => True | x :: X => is_digit x = false /\ no_nl X end ->
  R re_frac 0 [] ((u ++ hms h mi s) ++ $"." ++ f ++ g3) k (frac_caps (u ++ hms h mi s) f g3).
Proof.
  intros D1 D2 D3 U [F0 F] K G. unfold re_frac.
  apply (R_cat_intro _ _ _ _ _ _ _ (u ++ hms h mi s) ($"." ++ f ++ g3)
           (dset Nat.eqb 1%nat (u ++ hms h mi s) [])); [reflexivity| |].
  - eapply R_grp_intro; [|reflexivity].
    apply (R_cat_intro _ _ _ _ _ _ _ u (hms h mi s) []); [reflexivity| |].
    + apply R_star_cls_iff. split; auto. now apply forallb_no_nl.
    + expl_body. unfold hms, lit. cbn [list_ascii_of_string app].
      eapply (R_cat_intro _ _ _ _ _ _ _ [_;_] _ []); [reflexivity|rbuild|].
      eapply (R_cat_intro _ _ _ _ _ _ _ [_] _ []); [reflexivity|rbuild|].
      eapply (R_cat_intro _ _ _ _ _ _ _ [_;_] _ []); [reflexivity|rbuild|].
      rbuild.
  - apply (R_cat_intro _ _ _ _ _ _ _ ($"." ++ f) g3
           (dset Nat.eqb 2%nat ($"." ++ f) (dset Nat.eqb 1%nat (u ++ hms h mi s) []))); [now rewrite app_assoc| |].
    + destruct f as [|a f]; [easy|]. cbn [forallb] in F. apply andb_true_iff in F as [Fa Ff].
      eapply R_grp_intro; [|reflexivity]. unfold lit. cbn [list_ascii_of_string app]. rbuild.
      apply R_star_cls_iff. split; auto. now rewrite forallb_digits.
    + eapply (R_cat_intro _ _ _ _ _ _ _ g3 []); [now rewrite app_nil_r| |apply R_eos_iff; auto].
      destruct g3 as [|x X].
      * apply R_altr. constructor.
      * destruct G as [G1 G2]. apply R_altl. eapply R_grp_intro; [|reflexivity].
        eapply (R_cat_intro _ _ _ _ _ _ _ [x] X); [reflexivity| |].
        -- constructor. now rewrite cls_not_digit, G1.
        -- apply R_star_cls_iff. split; auto. now apply forallb_no_nl.
Qed.

Lemma cut_no_dot s : ~ In "."%char s -> cut_fraction s = (s, 0).
Proof.
  intros N. unfold cut_fraction. rewrite (proj2 (re_match_none _ _)); auto.
  intros w k c -> H. apply R_frac_inv in H as (u & h & mi & s & f & g3 & _ & _ & _ & _ & _ & _ & _ & -> & _).
  apply N. rewrite !in_app_iff. left; right; left. left; auto.
Qed.

Lemma digit_not_in c f : is_digit c = false -> forallb is_digit f = true -> ~ In c f.
Proof. intros C F I. rewrite forallb_forall in F. apply F in I. congruence. Qed.

Lemma cut_fraction_value u h mi s f x X k :
  digits 2 h -> digits 2 mi -> digits 2 s -> no_nl u -> some_digits f -> tail_ok k ->
  is_digit x = false -> no_nl (x :: X) ->
  ~ In "."%char u -> ~ In "."%char (x :: X) ->
  cut_fraction ((u ++ hms h mi s) ++ $"." ++ f ++ (x :: X) ++ k) =
  ((u ++ hms h mi s) ++ x :: X, parse_fraction ($"." ++ f)).
Proof.
  intros D1 D2 D3 U F K Dx NX Du DX.
  assert (NXX : no_nl X) by (intros I; apply NX; now right).
  unfold cut_fraction.
  rewrite (re_match_unique re_frac _ ((u ++ hms h mi s) ++ $"." ++ f ++ (x :: X)) k
    (frac_caps (u ++ hms h mi s) f (x :: X))).
  - unfold group, frac_caps. rewrite (cap_get_set 3), (cap_get_other 2 3), (cap_get_set 2), (cap_get_other 1 3), (cap_get_other 1 2), (cap_get_set 1) by lia. reflexivity.
  - now rewrite <- !app_assoc.
  - apply R_frac_intro; auto.
  - intros w' k' c' E H.
    apply R_frac_inv in H as (u' & h' & mi' & s' & f' & g3 & D1' & D2' & D3' & U' & [F0' F'] & K' & G & -> & ->).
    destruct F as [F0 F].
    assert (E2 : u ++ hms h mi s = u' ++ hms h' mi' s' /\ f ++ (x :: X) ++ k = f' ++ g3 ++ k').
    { apply (split_at_char _ _ _ _ "."%char).
      - repeat rewrite <- app_assoc in E. repeat rewrite <- app_assoc. exact E.
      - rewrite in_app_iff. intros [I|I]; [contradiction|].
        expl_body. unfold hms, lit in I. cbn [list_ascii_of_string app In] in I.
        repeat destruct I as [I|I]; subst; try discriminate; easy.
      - rewrite !in_app_iff. intros [I|[I|I]]; [|contradiction|].
        + eapply digit_not_in; [| |exact I]; auto.
        + destruct K as [->| ->]; [easy|]. destruct I as [I|[]]. discriminate I. }
    destruct E2 as [<- E2].
    assert (E3 : f = f' /\ (x :: X) = g3).
    { destruct g3 as [|x' X'].
      - destruct K' as [->| ->]; cbn [app] in E2.
        + exfalso. rewrite app_nil_r in E2. eapply (digit_not_in x f'); auto. rewrite <- E2.
          apply in_app_iff; right; left; auto.
        + apply (split_at_nondigit _ _ _ _ nl []) in E2 as (-> & -> & _); auto.
          exfalso. apply NX. left; auto.
      - destruct G as [G1 G2]. cbn [app] in E2.
        apply split_at_nondigit in E2 as (-> & -> & E2); auto. split; auto. f_equal.
        destruct K as [->| ->], K' as [->| ->]; rewrite ?app_nil_r in E2; auto.
        + exfalso. apply NXX. rewrite E2. apply in_app_iff; right; left; auto.
        + exfalso. apply G2. rewrite <- E2. apply in_app_iff; right; left; auto.
        + now apply app_inj_tail in E2. }
    destruct E3 as [-> ->]. auto.
Qed.

(** ** The value of every string of the grammar *)

Definition frac_val (sec : option (str * option str)) : Z :=
  match sec with
  | Some (_, Some f) => float_of_ratio (digits_val f) (10 ^ Z.of_nat (List.length f))
  | _ => 0
  end.
Definition sec_digits (sec : option (str * option str)) : option str :=
  match sec with None => None | Some (s, _) => Some s end.

Lemma zone_no_dot z : zone_digits z -> ~ In "."%char (zone_str z).
Proof.
  intros Z. expl_zone z; expl_body; unfold zone_str, lit; cbn [list_ascii_of_string app In];
  intros I; repeat destruct I as [I|I]; subst; easy.
Qed.
Lemma zone_shape z : zone_digits z -> exists x X, zone_str z = x :: X /\ is_digit x = false /\ no_nl (x :: X).
Proof.
  intros Z. unfold no_nl. expl_zone z; expl_body; unfold zone_str, lit; cbn [list_ascii_of_string app];
  eexists _, _; (split; [reflexivity|]); split; auto;
  intros I; repeat destruct I as [I|I]; subst; easy.
Qed.

Theorem str_to_datetime_value y mo d h mi sec z k :
  date_digits y mo d -> time_digits h mi sec -> zone_digits z -> tail_ok k ->
  str_to_datetime (full_str y mo d h mi sec z ++ k) =
  raw_value y mo d h mi (sec_digits sec) z (frac_val sec).
Proof.
  intros (D1 & D2 & D3) (D4 & D5 & D6) Z K.
  assert (EX : expand_date (full_str y mo d h mi sec z ++ k) = full_str y mo d h mi sec z ++ k).
  { unfold full_str. rewrite <- !app_assoc. now apply expand_full. }
  assert (NE : full_str y mo d h mi sec z ++ k <> []).
  { unfold full_str, date_str. expl_body. discriminate. }
  unfold str_to_datetime. rewrite EX.
  destruct (full_str y mo d h mi sec z ++ k) as [|a0 s0] eqn:E0; [easy|]. rewrite <- E0. clear EX NE E0 a0 s0.
  assert (BZ : body_digits y mo d h mi (sec_digits sec)).
  { unfold body_digits. do 5 (split; [assumption|]). destruct sec as [[s [f|]]|]; cbn; tauto. }
  destruct sec as [[s [f|]]|].
  - destruct D6 as [D6 F]. destruct (zone_shape z Z) as (x & X & EZ & Dx & NX).
    assert (E1 : full_str y mo d h mi (Some (s, Some f)) z ++ k =
            ((date_str y mo d ++ $"T") ++ hms h mi s) ++ $"." ++ f ++ zone_str z ++ k).
    { unfold full_str, time_str, hms. now rewrite <- !app_assoc. }
    rewrite E1, EZ, cut_fraction_value; auto.
    + rewrite <- EZ. cbn [sec_digits frac_val].
      rewrite <- (parse_full_value _ _ _ _ _ _ _ []); auto; [|left; auto].
      unfold body_str, date_str, hms. now rewrite <- !app_assoc, !app_nil_r.
    + clear -D1 D2 D3. expl_body. intros I. unfold date_str, lit in I.
      cbn [list_ascii_of_string app In] in I. repeat destruct I as [I|I]; subst; easy.
    + clear -D1 D2 D3. expl_body. intros I. unfold date_str, lit in I.
      cbn [list_ascii_of_string app In] in I. repeat destruct I as [I|I]; subst; easy.
    + rewrite <- EZ. now apply zone_no_dot.
  - rewrite cut_no_dot.
    + cbn [frac_val]. rewrite <- (parse_full_value _ _ _ _ _ _ _ k); auto.
      unfold full_str, body_str, date_str, time_str, sec_digits. now rewrite <- !app_assoc.
    + unfold full_str. repeat rewrite <- app_assoc. rewrite !in_app_iff.
      intros [I|[I|[I|[I|I]]]].
      4: now apply zone_no_dot in I.
      4: destruct K as [->| ->]; [easy|destruct I as [I|[]]; discriminate I].
      all: expl_body; unfold date_str, time_str, lit in I;
        cbn [list_ascii_of_string app In] in I; repeat destruct I as [I|I]; subst; easy.
  - rewrite cut_no_dot.
    + cbn [frac_val]. rewrite <- (parse_full_value _ _ _ _ _ _ _ k); auto.
      unfold full_str, body_str, date_str, time_str, sec_digits. now rewrite <- !app_assoc.
    + unfold full_str. repeat rewrite <- app_assoc. rewrite !in_app_iff.
      intros [I|[I|[I|[I|I]]]].
      4: now apply zone_no_dot in I.
      4: destruct K as [->| ->]; [easy|destruct I as [I|[]]; discriminate I].
      all: expl_body; unfold date_str, time_str, lit in I;
        cbn [list_ascii_of_string app In] in I; repeat destruct I as [I|I]; subst; easy.
Qed.

(** ** Exactly the existing datetimes are accepted *)

Lemma raw_value_ok y mo d h mi s z frac t :
  raw_value y mo d h mi s z frac = Ok t <->
  real_date (digits_val y) (digits_val mo) (digits_val d) /\
  real_time (digits_val h) (digits_val mi) (match s with None => 0 | Some s => digits_val s end) /\
  real_zone z /\
  t = fadd ((timegm (digits_val y) (digits_val mo) (digits_val d) (digits_val h) (digits_val mi)
                     (match s with None => 0 | Some s => digits_val s end) + zone_offset z) * SEC) frac.
Proof.
  unfold raw_value.
  destruct (valid_date _ _ _) eqn:VD; [apply valid_date_spec in VD|].
  - destruct (valid_time _ _ _) eqn:VT; [apply valid_time_spec in VT|].
    + cbn [andb].
      destruct (match z with Zulu => true | Plus hh mm | Minus hh mm => _ end) eqn:VZ.
      * assert (real_zone z).
        { destruct z as [|hh mm|hh mm]; cbn; auto; apply andb_true_iff in VZ as [V1 V2];
          apply Z.leb_le in V1, V2; auto. }
        split; [intros H'; inversion H'; auto|intros (_ & _ & _ & ->); auto].
      * split; [easy|]. intros (_ & _ & RZ & _). exfalso.
        destruct z as [|hh mm|hh mm]; cbn in *; [easy| |]; destruct RZ as [Z1 Z2]; apply Z.leb_le in Z1, Z2;
        rewrite Z1, Z2 in VZ; easy.
    + cbn [andb]. split; [easy|]. intros (_ & RT & _). apply valid_time_spec in RT. congruence.
  - cbn [andb]. split; [easy|]. intros (RD & _). apply valid_date_spec in RD. congruence.
Qed.

Lemma raw_value_err y mo d h mi s z frac e :
  raw_value y mo d h mi s z frac = Err e -> e = ValueError.
Proof.
  unfold raw_value. destruct (_ && _); [|congruence].
  destruct (match z with Zulu => true | Plus hh mm | Minus hh mm => _ end); congruence.
Qed.

Lemma parse_full_err s frac e : parse_full s frac = Err e -> e = ValueError.
Proof.
  unfold parse_full, dateutil_timegm. destruct (re_match re_full s) as [m|]; [|congruence].
  destruct (_ && _); cbn [bind]; [|congruence].
  destruct (str_eqb _ _); [congruence|]. destruct (_ || _); congruence.
Qed.

Lemma str_to_datetime_err s e : str_to_datetime s = Err e -> e = ValueError.
Proof.
  unfold str_to_datetime. destruct s as [|a s]; [congruence|].
  destruct (cut_fraction _). apply parse_full_err.
Qed.


Lemma bare_value y mo d : date_digits y mo d ->
  (let '(s', frac) := cut_fraction (date_str y mo d ++ $"T00:00:00Z") in parse_full s' frac) =
  raw_value y mo d $"00" $"00" (Some $"00") Zulu 0.
Proof.
  intros D.
  pose proof (str_to_datetime_value y mo d $"00" $"00" (Some ($"00", None)) Zulu []) as V.
  rewrite app_nil_r in V. cbn [sec_digits frac_val] in V. rewrite <- V; auto.
  - destruct D as (D1 & D2 & D3). unfold str_to_datetime.
    change (full_str y mo d $"00" $"00" (Some ($"00", None)) Zulu) with (date_str y mo d ++ $"T" ++ $"00:00:00Z").
    rewrite expand_full by auto. destruct (date_str y mo d ++ $"T" ++ $"00:00:00Z") eqn:E.
    + expl_body. discriminate E.
    + rewrite <- E. reflexivity.
  - repeat split; reflexivity.
  - exact I.
  - left; auto.
Qed.

Lemma str_to_datetime_y y : digits 4 y ->
  str_to_datetime y = raw_value y $"01" $"01" $"00" $"00" (Some $"00") Zulu 0.
Proof.
  intros D. rewrite <- bare_value.
  - unfold str_to_datetime. rewrite expand_y by auto. destruct y; [now destruct D|reflexivity].
  - repeat split; auto; apply D.
Qed.
Lemma str_to_datetime_ym y mo : digits 4 y -> digits 2 mo ->
  str_to_datetime (y ++ $"-" ++ mo) = raw_value y mo $"01" $"00" $"00" (Some $"00") Zulu 0.
Proof.
  intros D D'. rewrite <- bare_value.
  - unfold str_to_datetime. rewrite expand_ym by auto. destruct (y ++ _) eqn:E; [|reflexivity].
    expl_body. discriminate E.
  - split; auto. split; auto. now split.
Qed.
Lemma str_to_datetime_ymd y mo d : date_digits y mo d ->
  str_to_datetime (date_str y mo d) = raw_value y mo d $"00" $"00" (Some $"00") Zulu 0.
Proof.
  intros D. rewrite <- bare_value by auto. destruct D as (D1 & D2 & D3).
  unfold str_to_datetime. rewrite expand_ymd by auto. destruct (date_str y mo d) eqn:E; [|reflexivity].
  expl_body. discriminate E.
Qed.

Lemma real_time_0 : real_time (digits_val $"00") (digits_val $"00") (digits_val $"00").
Proof. vm_compute. intuition discriminate. Qed.

Theorem accepts_all s : w3c_datetime s -> exists t, str_to_datetime s = Ok t.
Proof.
  intros [(y & mo & d & D & RD & C)|(y & mo & d & h & mi & sec & z & -> & D & T & Z & RD & RT & RZ)].
  - assert (exists t, raw_value y mo d $"00" $"00" (Some $"00") Zulu 0 = Ok t) as [t Et].
    { eexists. apply raw_value_ok. split; [assumption|]. split; [apply real_time_0|]. split; [exact I|]. reflexivity. }
    exists t. destruct D as (D1 & D2 & D3).
    destruct C as [(-> & -> & ->)|[(-> & ->)| ->]].
    + now rewrite str_to_datetime_y.
    + now rewrite str_to_datetime_ym.
    + rewrite str_to_datetime_ymd; auto. repeat split; auto; apply D1 || apply D2 || apply D3.
  - pose proof (str_to_datetime_value y mo d h mi sec z [] D T Z (or_introl eq_refl)) as V.
    rewrite app_nil_r in V. rewrite V. eexists. apply raw_value_ok.
    split; [assumption|]. split; [|split; [assumption|reflexivity]].
    destruct sec as [[? ?]|]; assumption.
Qed.

Lemma raw_value_full y mo d h mi sec z t :
  date_digits y mo d -> time_digits h mi sec -> zone_digits z ->
  raw_value y mo d h mi (sec_digits sec) z (frac_val sec) = Ok t ->
  full_datetime (full_str y mo d h mi sec z).
Proof.
  intros D T Z H. apply raw_value_ok in H as (RD & RT & RZ & _).
  exists y, mo, d, h, mi, sec, z. do 5 (split; [auto|]). split; auto.
  destruct sec as [[? ?]|]; assumption.
Qed.

(** Where a body with seconds can end. *)
Lemma hms_position u h mi s g3 y mo d h' mi' sec z k :
  body_digits y mo d h' mi' sec -> zone_digits z -> tail_ok k ->
  digits 2 h -> digits 2 mi -> digits 2 s ->
  u ++ hms h mi s ++ g3 = body_str y mo d h' mi' sec ++ zone_str z ++ k ->
  u = date_str y mo d ++ $"T" /\ h = h' /\ mi = mi' /\ sec = Some s /\ g3 = zone_str z ++ k.
Proof.
  intros B Z K D1 D2 D3 E.
  destruct sec as [s'|]; expl_zone z; destruct K as [->| ->]; expl_body;
    unfold body_str, zone_str, hms, lit in E; cbn [list_ascii_of_string app] in E;
    do 26 (try (destruct u as [|? u]; cbn [app] in E;
      [injection E; clear E; intros; subst; (discriminate || (repeat split; reflexivity))|
       first [discriminate E|injection E; clear E; intros E ?; subst]])).
  all: destruct u; discriminate E.
Qed.

Theorem accepts_only s t : str_to_datetime s = Ok t ->
  w3c_datetime s \/ exists s', s = s' ++ [nl] /\ full_datetime s'.
Proof.
  intros H. pose proof H as H0. unfold str_to_datetime in H.
  destruct s as [|a0 s0]; [easy|]. set (s := a0 :: s0) in *. clearbody s.
  destruct (re_match re_date s) as [m|] eqn:E.
  - apply re_match_sound in E as (w & k & c & -> & -> & E).
    apply R_date_inv in E as (K & E).
    destruct K as [->| ->].
    + rewrite app_nil_r in *. left; left.
      destruct E as [(y & D & -> & ->)|[(y & mo & D & D' & -> & ->)|(y & mo & d & D & D' & D'' & -> & ->)]].
      * rewrite str_to_datetime_y in H0 by auto. apply raw_value_ok in H0 as (RD & _).
        exists y, $"01", $"01". repeat split; auto; apply D || apply RD.
      * rewrite str_to_datetime_ym in H0 by auto. apply raw_value_ok in H0 as (RD & _).
        exists y, mo, $"01". split; [repeat split; auto; apply D || apply D'|]. split; auto.
      * rewrite str_to_datetime_ymd in H0 by (split; auto). apply raw_value_ok in H0 as (RD & _).
        exists y, mo, d. split; [repeat split; auto; apply D || apply D' || apply D''|]. split; auto.
    + exfalso.
      assert (exists w' X, expand_date (w ++ [nl]) = w ++ nl :: X /\ ~ In "."%char (w ++ nl :: X) /\
        (exists y, digits 4 y /\ (w = y \/ (exists mo, digits 2 mo /\ w = y ++ $"-" ++ mo) \/
          exists mo d, digits 2 mo /\ digits 2 d /\ w = date_str y mo d)) /\ w' = X) as (w' & X & EX & ND & SH & _).
      { assert (NL : forall l, forallb (fun c => negb (ceqb "."%char c)) l = true -> ~ In "."%char l).
        { intros l L I. rewrite forallb_forall in L. apply L in I. discriminate I. }
        assert (DD : forall x, is_digit x = true -> negb (ceqb "."%char x) = true).
        { intros x X. destruct (ceqb "."%char x) eqn:Q; auto. apply ceqb_eq in Q. subst. discriminate X. }
        unfold expand_date.
        destruct E as [(y & D & -> & ->)|[(y & mo & D & D' & -> & ->)|(y & mo & d & D & D' & D'' & -> & ->)]].
        - rewrite (re_match_unique re_date (y ++ [nl]) y [nl] []).
          + rewrite cap_get_nil. exists ($"-01-01T00:00:00Z"), ($"-01-01T00:00:00Z").
            split; [rewrite <- !app_assoc; reflexivity|]. split; [|eauto].
            apply NL. expl_body. unfold date_str, lit. cbn [list_ascii_of_string app forallb].
            repeat match goal with H : is_digit ?x = true |- _ => rewrite ?(DD x H); clear H end. reflexivity.
          + reflexivity.
          + apply R_date_y; auto. now right.
          + intros ? ? ? EE R'. apply R_date_inv in R' as (K & [(y' & D' & -> & ->)|[(y' & mo' & D1 & D2 & -> & ->)|
      (y' & mo' & d' & D1 & D2 & D3 & -> & ->)]]); expl_body; unfold date_str, lit in *; cbn [list_ascii_of_string app] in *;
      destruct K as [->| ->]; inj_all; auto; discriminate.
        - rewrite (re_match_unique re_date ((y ++ $"-" ++ mo) ++ [nl]) (y ++ $"-" ++ mo) [nl] (dset Nat.eqb 1%nat ($"-" ++ mo) [])).
          + rewrite cap_get_set, cap_get_other, cap_get_nil by lia.
            exists ($"-01T00:00:00Z"), ($"-01T00:00:00Z").
            split; [rewrite <- !app_assoc; reflexivity|]. split; [|eauto 10].
            apply NL. expl_body. unfold date_str, lit. cbn [list_ascii_of_string app forallb].
            repeat match goal with H : is_digit ?x = true |- _ => rewrite ?(DD x H); clear H end. reflexivity.
          + reflexivity.
          + apply R_date_ym; auto. now right.
          + intros ? ? ? EE R'. apply R_date_inv in R' as (K & [(y' & D'' & -> & ->)|[(y' & mo' & D1 & D2 & -> & ->)|
      (y' & mo' & d' & D1 & D2 & D3 & -> & ->)]]); expl_body; unfold date_str, lit in *; cbn [list_ascii_of_string app] in *;
      destruct K as [->| ->]; inj_all; auto; discriminate.
        - rewrite (re_match_unique re_date (date_str y mo d ++ [nl]) (date_str y mo d) [nl]
     (dset Nat.eqb 1%nat ($"-" ++ mo ++ $"-" ++ d) (dset Nat.eqb 2%nat ($"-" ++ d) []))).
          + rewrite cap_get_set, cap_get_other, cap_get_set by lia.
            exists ($"T00:00:00Z"), ($"T00:00:00Z").
            split; [rewrite <- !app_assoc; reflexivity|]. split; [|split; auto; exists y; split; auto; right; right; eauto].
            apply NL. expl_body. unfold date_str, lit. cbn [list_ascii_of_string app forallb].
            repeat match goal with H : is_digit ?x = true |- _ => rewrite ?(DD x H); clear H end. reflexivity.
          + reflexivity.
          + apply R_date_ymd; auto. now right.
          + intros ? ? ? EE R'. apply R_date_inv in R' as (K & [(y' & D3 & -> & ->)|[(y' & mo' & D1 & D2 & -> & ->)|
      (y' & mo' & d' & D1 & D2 & D3 & -> & ->)]]); expl_body; unfold date_str, lit in *; cbn [list_ascii_of_string app] in *;
      destruct K as [->| ->]; inj_all; auto; discriminate. }
      rewrite EX, cut_no_dot in H by auto. apply parse_full_ok in H as (y & mo & d & h & mi & sec & z & k & B & Z & K & E2).
      destruct SH as (y' & D' & [->|[(mo' & M' & ->)|(mo' & d' & M' & DD' & ->)]]); expl_body;
        unfold body_str, date_str, lit in E2; cbn [list_ascii_of_string app] in E2; inj_all; discriminate.
  - unfold expand_date in H. rewrite E in H.
    unfold cut_fraction in H. destruct (re_match re_frac s) as [m|] eqn:F.
    + apply re_match_sound in F as (w & k & c & -> & -> & F).
      apply R_frac_inv in F as (u & h & mi & s & f & g3 & D1 & D2 & D3 & U & Fd & K & G & -> & ->).
      set (st := MSt _ _ _) in H.
      assert (G1 : group 1 st = u ++ hms h mi s).
      { unfold group, st, frac_caps. destruct g3.
        - now rewrite (cap_get_other 1 2), (cap_get_set 1) by lia.
        - now rewrite (cap_get_other 1 3), (cap_get_other 1 2), (cap_get_set 1) by lia. }
      assert (G3 : group 3 st = g3).
      { unfold group, st, frac_caps. destruct g3.
        - now rewrite (cap_get_other 3 2), (cap_get_other 3 1) by lia.
        - now rewrite (cap_get_set 3). }
      rewrite G1, G3 in H. clear G1 G3. clearbody st.
      apply parse_full_ok in H as (y & mo & d & h' & mi' & sec & z & k' & B & Z & K' & E2).
      rewrite <- app_assoc in E2. eapply hms_position in E2; eauto.
      destruct E2 as (-> & -> & -> & -> & ->).
      assert (k' = []) as ->.
      { destruct K' as [->| ->]; auto. exfalso. destruct (zone_shape z Z) as (x & X & EZ & Dx & NX).
        rewrite EZ in G. cbn [app] in G. destruct G as [_ G]. apply G. apply in_app_iff; right; left; auto. }
      rewrite app_nil_r in *.
      assert (ES : ((date_str y mo d ++ $"T") ++ hms h' mi' s) ++ $"." ++ f ++ zone_str z
        = full_str y mo d h' mi' (Some (s, Some f)) z).
      { unfold full_str, time_str, hms. now rewrite <- !app_assoc. }
      rewrite ES in *.
      destruct B as (B1 & B2 & B3 & _).
      rewrite str_to_datetime_value in H0; auto; [|split; auto|split; auto].
      apply raw_value_full in H0; auto; [|split; auto|split; auto].
      destruct K as [->| ->]; [left; right; now rewrite app_nil_r|right; eauto].
    + apply parse_full_ok in H as (y & mo & d & h & mi & sec & z & k & B & Z & K & ->).
      destruct B as (B1 & B2 & B3 & B4 & B5 & B6).
      assert (ES : body_str y mo d h mi sec ++ zone_str z ++ k =
        full_str y mo d h mi (match sec with None => None | Some s => Some (s, None) end) z ++ k).
      { unfold full_str, time_str, body_str, date_str. destruct sec; now rewrite <- !app_assoc. }
      rewrite ES in *.
      rewrite str_to_datetime_value in H0; auto; [|split; auto|split; auto; split; auto; now destruct sec].
      apply raw_value_full in H0; auto; [|split; auto|split; auto; split; auto; now destruct sec].
      destruct K as [->| ->]; [left; right; now rewrite app_nil_r|right; eauto].
Qed.
