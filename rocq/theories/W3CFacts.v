(** * W3CFacts: reading and rejecting W3C datetimes *)

From Verif Require Import Py PyFacts Float64 Float64Facts Regex RegexFacts W3C W3CSpec W3CCal.

(** ** Strings *)

Lemma split_at_char {A} (P P' X X' : list A) c :
  P ++ c :: X = P' ++ c :: X' -> ~ In c P -> ~ In c X -> P = P' /\ X = X'.
Proof.
  revert P'; induction P as [|a P IH]; intros [|b P'] E NP NX; cbn in E.
  - injection E as ->. auto.
  - injection E as <- ->. exfalso. apply NX. apply in_app_iff. right; left; auto.
  - injection E as -> E. exfalso. apply NP. left; auto.
  - injection E as <- E. apply IH in E as [-> ->]; auto. intros H; apply NP; right; auto.
Qed.

Lemma split_at_nondigit f g x X y Y :
  f ++ x :: X = g ++ y :: Y ->
  forallb is_digit f = true -> forallb is_digit g = true -> is_digit x = false -> is_digit y = false ->
  f = g /\ x = y /\ X = Y.
Proof.
  revert g; induction f as [|a f IH]; intros [|b g] E F G HX HY; cbn in *.
  - injection E as -> ->. auto.
  - injection E as -> E. apply andb_true_iff in G as [G _]. congruence.
  - injection E as -> E. apply andb_true_iff in F as [F _]. congruence.
  - injection E as -> E. apply andb_true_iff in F as [F1 F2], G as [G1 G2].
    destruct (IH g E F2 G2 HX HY) as (-> & -> & ->). auto.
Qed.

Lemma digits2 s : digits 2 s -> exists a b, s = [a; b] /\ is_digit a = true /\ is_digit b = true.
Proof.
  intros [L D]. destruct s as [|a [|b [|]]]; try discriminate L.
  cbn in D. rewrite !andb_true_iff in D. exists a, b. tauto.
Qed.
Lemma digits4 s : digits 4 s -> exists a b c d, s = [a; b; c; d] /\
  is_digit a = true /\ is_digit b = true /\ is_digit c = true /\ is_digit d = true.
Proof.
  intros [L D]. destruct s as [|a [|b [|c [|d [|]]]]]; try discriminate L.
  cbn in D. rewrite !andb_true_iff in D. exists a, b, c, d. tauto.
Qed.
Lemma mk_digits2 a b : is_digit a = true -> is_digit b = true -> digits 2 [a; b].
Proof. intros A B. split; auto. cbn. now rewrite A, B. Qed.
Lemma mk_digits4 a b c d : is_digit a = true -> is_digit b = true -> is_digit c = true ->
  is_digit d = true -> digits 4 [a; b; c; d].
Proof. intros A B C D. split; auto. cbn. now rewrite A, B, C, D. Qed.

(** Contradiction between a character being a digit and being a punctuation mark. *)
Ltac cls_clean :=
  repeat match goal with
  | H : cls_match false [CDigit false] _ = true |- _ => rewrite cls_digit in H
  | H : cls_match true [CDigit false] _ = true |- _ => rewrite cls_not_digit, negb_true_iff in H
  | H : cls_match false [CSingle _] _ = true |- _ => rewrite cls_single, ceqb_eq in H; try subst
  end.
Ltac inj_all :=
  repeat match goal with
  | H : _ :: _ = _ :: _ |- _ => injection H; clear H; intros; try subst
  | H : [] = _ :: _ |- _ => discriminate H
  | H : _ :: _ = [] |- _ => discriminate H
  | H : is_digit _ = true |- _ => discriminate H
  | H : is_digit _ = false |- _ => discriminate H
  end.

(** ** The full pattern *)

Definition tail_ok (k : str) : Prop := k = [] \/ k = [nl].

Definition body_str (y mo d h mi : str) (s : option str) : str :=
  y ++ $"-" ++ mo ++ $"-" ++ d ++ $"T" ++ h ++ $":" ++ mi ++
  match s with None => [] | Some s => $":" ++ s end.
Definition body_digits (y mo d h mi : str) (s : option str) : Prop :=
  digits 4 y /\ digits 2 mo /\ digits 2 d /\ digits 2 h /\ digits 2 mi /\
  match s with None => True | Some s => digits 2 s end.

(** The groups after matching a body and a zone. *)
Definition full_caps (b : str) (s : option str) (z : zone) : list (nat * str) :=
  let c := [] in
  let c := match s with None => c | Some s => dset Nat.eqb 2%nat ($":" ++ s) c end in
  let c := dset Nat.eqb 1%nat b c in
  match z with
  | Zulu => dset Nat.eqb 3%nat $"Z" c
  | Plus hh mm => dset Nat.eqb 3%nat (zone_str z)
      (dset Nat.eqb 6%nat mm (dset Nat.eqb 5%nat hh (dset Nat.eqb 4%nat $"+" c)))
  | Minus hh mm => dset Nat.eqb 3%nat (zone_str z)
      (dset Nat.eqb 6%nat mm (dset Nat.eqb 5%nat hh (dset Nat.eqb 4%nat $"-" c)))
  end.

Lemma cls_sign x : cls_match false [CSingle "+"; CSingle "-"] x = true -> x = "+"%char \/ x = "-"%char.
Proof.
  unfold cls_match. cbn [existsb citem_match]. rewrite orb_false_r, xorb_false_l, orb_true_iff, !ceqb_eq.
  intros [H|H]; auto.
Qed.

Lemma R_full_inv w k c :
  R re_full 0 [] w k c ->
  exists y mo d h mi s z,
    body_digits y mo d h mi s /\ zone_digits z /\ tail_ok k /\
    w = body_str y mo d h mi s ++ zone_str z /\ c = full_caps (body_str y mo d h mi s) s z.
Proof.
  unfold re_full. intros H.
  assert (F : forall y mo d h mi s z, tail_ok k -> body_digits y mo d h mi s -> zone_digits z ->
    w = body_str y mo d h mi s ++ zone_str z -> c = full_caps (body_str y mo d h mi s) s z ->
    exists y mo d h mi s z,
    body_digits y mo d h mi s /\ zone_digits z /\ tail_ok k /\
    w = body_str y mo d h mi s ++ zone_str z /\ c = full_caps (body_str y mo d h mi s) s z)
    by (intros; eauto 15).
  rinv; cls_clean; cbn [app] in *; cls_clean.
  all: try match goal with H : cls_match _ _ _ = true |- _ => apply cls_sign in H as [->| ->] end.
  all: (first [
    eapply (F [_; _; _; _] [_; _] [_; _] [_; _] [_; _] (Some [_; _]) Zulu); [assumption| | |reflexivity|reflexivity] |
    eapply (F [_; _; _; _] [_; _] [_; _] [_; _] [_; _] (Some [_; _]) (Plus [_; _] [_; _])); [assumption| | |reflexivity|reflexivity] |
    eapply (F [_; _; _; _] [_; _] [_; _] [_; _] [_; _] (Some [_; _]) (Minus [_; _] [_; _])); [assumption| | |reflexivity|reflexivity] |
    eapply (F [_; _; _; _] [_; _] [_; _] [_; _] [_; _] None Zulu); [assumption| | |reflexivity|reflexivity] |
    eapply (F [_; _; _; _] [_; _] [_; _] [_; _] [_; _] None (Plus [_; _] [_; _])); [assumption| | |reflexivity|reflexivity] |
    eapply (F [_; _; _; _] [_; _] [_; _] [_; _] [_; _] None (Minus [_; _] [_; _])); [assumption| | |reflexivity|reflexivity] ]);
    unfold body_digits; cbn [zone_digits]; auto 10 using mk_digits2, mk_digits4.
Qed.

Ltac rbuild :=
  lazymatch goal with
  | |- R Eps _ _ _ _ _ => apply R_eps
  | |- R (Cls _ _) _ _ _ _ _ => apply R_cls; try (rewrite cls_digit; assumption); try reflexivity
  | |- R Eos _ _ _ _ _ => apply R_eos_iff; auto
  | |- R (Grp _ _) _ _ _ _ _ => eapply R_grp_intro; [rbuild|reflexivity]
  | |- R (Cat (Cls _ _) _) _ _ (?x :: ?w) _ _ =>
      eapply (R_cat_intro _ _ _ _ (x :: w) _ _ [x] w); [reflexivity|rbuild|rbuild]
  | |- _ => idtac
  end.

Lemma R_full_intro y mo d h mi s z k :
  body_digits y mo d h mi s -> zone_digits z -> tail_ok k ->
  R re_full 0 [] (body_str y mo d h mi s ++ zone_str z) k (full_caps (body_str y mo d h mi s) s z).
Proof.
  intros (D1 & D2 & D3 & D4 & D5 & D6) Z K.
  apply digits4 in D1 as (y1 & y2 & y3 & y4 & -> & ? & ? & ? & ?).
  apply digits2 in D2 as (m1 & m2 & -> & ? & ?).
  apply digits2 in D3 as (d1 & d2 & -> & ? & ?).
  apply digits2 in D4 as (h1 & h2 & -> & ? & ?).
  apply digits2 in D5 as (i1 & i2 & -> & ? & ?).
  unfold re_full.
  apply (R_cat_intro _ _ _ _ _ _ _ _ (zone_str z)
     (dset Nat.eqb 1%nat (body_str [y1; y2; y3; y4] [m1; m2] [d1; d2] [h1; h2] [i1; i2] s)
        (match s with None => [] | Some s => dset Nat.eqb 2%nat ($":" ++ s) [] end)) eq_refl).
  - destruct s as [s|]; [apply digits2 in D6 as (s1 & s2 & -> & ? & ?)|];
      unfold body_str; cbn [app lit Ascii.eqb list_ascii_of_string]; unfold lit; cbn [list_ascii_of_string app];
      eapply R_grp_intro; [rbuild| |rbuild|].
    + apply R_altl. rbuild.
    + reflexivity.
    + apply R_altr. rbuild.
    + reflexivity.
  - eapply (R_cat_intro _ _ _ _ _ _ _ (zone_str z) [] (full_caps _ s z)); [now rewrite app_nil_r| |].
    + destruct z as [|hh mm|hh mm].
      * eapply R_grp_intro; [apply R_altl; apply R_cls; reflexivity|reflexivity].
      * destruct Z as [Z1 Z2]. apply digits2 in Z1 as (a & b & -> & ? & ?), Z2 as (a' & b' & -> & ? & ?).
        eapply (R_grp_intro _ _ _ _ _ _ (dset Nat.eqb 6%nat [a'; b'] (dset Nat.eqb 5%nat [a; b]
          (dset Nat.eqb 4%nat $"+" _)))); [apply R_altr|reflexivity].
        eapply (R_cat_intro _ _ _ _ _ _ _ $"+"); [reflexivity|rbuild|].
        eapply (R_cat_intro _ _ _ _ _ _ _ [a; b]); [reflexivity|rbuild|].
        eapply (R_cat_intro _ _ _ _ _ _ _ $":"); [reflexivity|rbuild|]. rbuild.
      * destruct Z as [Z1 Z2]. apply digits2 in Z1 as (a & b & -> & ? & ?), Z2 as (a' & b' & -> & ? & ?).
        eapply (R_grp_intro _ _ _ _ _ _ (dset Nat.eqb 6%nat [a'; b'] (dset Nat.eqb 5%nat [a; b]
          (dset Nat.eqb 4%nat $"-" _)))); [apply R_altr|reflexivity].
        eapply (R_cat_intro _ _ _ _ _ _ _ $"-"); [reflexivity|rbuild|].
        eapply (R_cat_intro _ _ _ _ _ _ _ [a; b]); [reflexivity|rbuild|].
        eapply (R_cat_intro _ _ _ _ _ _ _ $":"); [reflexivity|rbuild|]. rbuild.
    + apply R_eos_iff. destruct z, s; auto.
Qed.

Ltac expl_body :=
  repeat match goal with
  | H : body_digits _ _ _ _ _ _ |- _ => destruct H as (? & ? & ? & ? & ? & ?)
  | H : digits 4 _ |- _ => apply digits4 in H as (? & ? & ? & ? & -> & ? & ? & ? & ?)
  | H : digits 2 _ |- _ => apply digits2 in H as (? & ? & -> & ? & ?)
  end.
Ltac expl_zone z :=
  destruct z as [|? ?|? ?]; cbn [zone_digits] in *;
  repeat match goal with H : digits 2 _ /\ digits 2 _ |- _ => destruct H end.

Lemma body_zone_unique y mo d h mi s z k y' mo' d' h' mi' s' z' k' :
  body_digits y mo d h mi s -> zone_digits z -> tail_ok k ->
  body_digits y' mo' d' h' mi' s' -> zone_digits z' -> tail_ok k' ->
  body_str y mo d h mi s ++ zone_str z ++ k = body_str y' mo' d' h' mi' s' ++ zone_str z' ++ k' ->
  y = y' /\ mo = mo' /\ d = d' /\ h = h' /\ mi = mi' /\ s = s' /\ z = z' /\ k = k'.
Proof.
  intros B Z K B' Z' K' E.
  destruct s as [s|], s' as [s'|]; expl_body; expl_zone z; expl_zone z'; expl_body;
    unfold body_str, zone_str, lit in E; cbn [list_ascii_of_string app] in E;
    injection E; clear E; intros; subst; try discriminate; auto 10;
    destruct K as [->| ->], K' as [->| ->]; inj_all; try discriminate; auto 10.
Qed.

Lemma re_full_match y mo d h mi s z k :
  body_digits y mo d h mi s -> zone_digits z -> tail_ok k ->
  re_match re_full (body_str y mo d h mi s ++ zone_str z ++ k) =
  Some (MSt (List.length (body_str y mo d h mi s ++ zone_str z)) k
          (full_caps (body_str y mo d h mi s) s z)).
Proof.
  intros B Z K. apply re_match_unique.
  - now rewrite app_assoc.
  - now apply R_full_intro.
  - intros w' k' c' E H.
    apply R_full_inv in H as (y' & mo' & d' & h' & mi' & s' & z' & B' & Z' & K' & -> & ->).
    rewrite <- app_assoc in E.
    apply body_zone_unique in E as (-> & -> & -> & -> & -> & -> & -> & ->); auto.
Qed.

Definition raw_value y mo d h mi s z frac : res Z :=
  if valid_date (digits_val y) (digits_val mo) (digits_val d) &&
     valid_time (digits_val h) (digits_val mi) (match s with None => 0 | Some s => digits_val s end) then
    if match z with Zulu => true | Plus hh mm | Minus hh mm => (digits_val hh <=? 23) && (digits_val mm <=? 59) end
    then Ok (fadd ((timegm (digits_val y) (digits_val mo) (digits_val d) (digits_val h) (digits_val mi)
                     (match s with None => 0 | Some s => digits_val s end) + zone_offset z) * SEC) frac)
    else Err ValueError
  else Err ValueError.

Lemma parse_full_value y mo d h mi s z k frac :
  body_digits y mo d h mi s -> zone_digits z -> tail_ok k ->
  parse_full (body_str y mo d h mi s ++ zone_str z ++ k) frac = raw_value y mo d h mi s z frac.
Proof.
  intros B Z K. unfold parse_full. rewrite re_full_match by auto.
  set (st := MSt _ _ _).
  assert (G1 : group 1 st = body_str y mo d h mi s).
  { unfold group, st, full_caps. destruct z; rewrite ?cap_get_other by lia; now rewrite cap_get_set. }
  assert (G3 : group 3 st = zone_str z).
  { unfold group, st, full_caps. destruct z; now rewrite cap_get_set. }
  rewrite G1, G3.
  assert (T : dateutil_timegm (body_str y mo d h mi s ++ $"Z") =
     if valid_date (digits_val y) (digits_val mo) (digits_val d) &&
        valid_time (digits_val h) (digits_val mi) (match s with None => 0 | Some s => digits_val s end)
     then Ok (timegm (digits_val y) (digits_val mo) (digits_val d) (digits_val h) (digits_val mi)
                     (match s with None => 0 | Some s => digits_val s end))
     else Err ValueError).
  { clear st G1 G3. destruct s as [s|]; expl_body; reflexivity. }
  rewrite T. unfold raw_value.
  destruct (valid_date _ _ _ && valid_time _ _ _); [|reflexivity]. cbn [bind].
  destruct z as [|hh mm|hh mm].
  - change (str_eqb (zone_str Zulu) $"Z") with true. cbn [zone_offset]. now rewrite Z.add_0_r.
  - assert (G5 : group 5 st = hh).
    { unfold group, st, full_caps. rewrite !cap_get_other by lia. now rewrite cap_get_set. }
    assert (G6 : group 6 st = mm).
    { unfold group, st, full_caps. rewrite !cap_get_other by lia. now rewrite cap_get_set. }
    assert (G4 : group 4 st = $"+").
    { unfold group, st, full_caps. rewrite !cap_get_other by lia. now rewrite cap_get_set. }
    rewrite G4, G5, G6. change (str_eqb (zone_str (Plus hh mm)) $"Z") with false.
    change (str_eqb $"+" $"-") with false. cbn [zone_offset].
    rewrite !Z.ltb_antisym. destruct (digits_val hh <=? 23), (digits_val mm <=? 59); reflexivity.
  - assert (G5 : group 5 st = hh).
    { unfold group, st, full_caps. rewrite !cap_get_other by lia. now rewrite cap_get_set. }
    assert (G6 : group 6 st = mm).
    { unfold group, st, full_caps. rewrite !cap_get_other by lia. now rewrite cap_get_set. }
    assert (G4 : group 4 st = $"-").
    { unfold group, st, full_caps. rewrite !cap_get_other by lia. now rewrite cap_get_set. }
    rewrite G4, G5, G6. change (str_eqb (zone_str (Minus hh mm)) $"Z") with false.
    change (str_eqb $"-" $"-") with true. cbn [zone_offset].
    rewrite !Z.ltb_antisym. destruct (digits_val hh <=? 23), (digits_val mm <=? 59); reflexivity.
Qed.

Lemma parse_full_ok s frac t :
  parse_full s frac = Ok t ->
  exists y mo d h mi sec z k, body_digits y mo d h mi sec /\ zone_digits z /\ tail_ok k /\
    s = body_str y mo d h mi sec ++ zone_str z ++ k.
Proof.
  intros H. unfold parse_full in H. destruct (re_match re_full s) as [m|] eqn:E; [|easy].
  apply re_match_sound in E as (w & k & c & -> & _ & E).
  apply R_full_inv in E as (y & mo & d & h & mi & sec & z & B & Z & K & -> & _).
  exists y, mo, d, h, mi, sec, z, k. rewrite <- app_assoc. auto.
Qed.

(** ** Bare dates *)

Lemma R_date_inv w k c :
  R re_date 0 [] w k c ->
  tail_ok k /\
  ((exists y, digits 4 y /\ w = y /\ c = []) \/
   (exists y mo, digits 4 y /\ digits 2 mo /\ w = y ++ $"-" ++ mo /\
        c = dset Nat.eqb 1%nat ($"-" ++ mo) []) \/
   (exists y mo d, digits 4 y /\ digits 2 mo /\ digits 2 d /\ w = date_str y mo d /\
        c = dset Nat.eqb 1%nat ($"-" ++ mo ++ $"-" ++ d) (dset Nat.eqb 2%nat ($"-" ++ d) []))).
Proof.
  unfold re_date. intros H. rinv; cls_clean; cbn [app] in *; cls_clean; (split; [assumption|]).
  - right; right. eexists [_; _; _; _], [_; _], [_; _].
    repeat match goal with |- _ /\ _ => split end; [| | |reflexivity|reflexivity];
    auto using mk_digits2, mk_digits4.
  - right; left. eexists [_; _; _; _], [_; _].
    repeat match goal with |- _ /\ _ => split end; [| |reflexivity|reflexivity];
    auto using mk_digits2, mk_digits4.
  - left. eexists [_; _; _; _].
    repeat match goal with |- _ /\ _ => split end; [|reflexivity|reflexivity];
    auto using mk_digits2, mk_digits4.
Qed.

Lemma R_date_y y k : digits 4 y -> tail_ok k -> R re_date 0 [] y k [].
Proof.
  intros D K. expl_body. unfold re_date. rbuild.
  eapply (R_cat_intro _ _ _ _ _ _ _ [] []); [reflexivity|apply R_altr; rbuild|].
  apply R_eos_iff; auto.
Qed.
Lemma R_date_ym y mo k : digits 4 y -> digits 2 mo -> tail_ok k ->
  R re_date 0 [] (y ++ $"-" ++ mo) k (dset Nat.eqb 1%nat ($"-" ++ mo) []).
Proof.
  intros D D' K. expl_body. unfold re_date, lit. cbn [list_ascii_of_string app]. rbuild.
  eapply (R_cat_intro _ _ _ _ _ _ _ ["-"%char; _; _] []); [reflexivity|apply R_altl; rbuild|].
  - apply R_altr. rbuild.
  - apply R_eos_iff; auto.
Qed.
Lemma R_date_ymd y mo d k : digits 4 y -> digits 2 mo -> digits 2 d -> tail_ok k ->
  R re_date 0 [] (date_str y mo d) k
    (dset Nat.eqb 1%nat ($"-" ++ mo ++ $"-" ++ d) (dset Nat.eqb 2%nat ($"-" ++ d) [])).
Proof.
  intros D D' D'' K. expl_body. unfold date_str, re_date, lit. cbn [list_ascii_of_string app]. rbuild.
  eapply (R_cat_intro _ _ _ _ _ _ _ ["-"%char; _; _; _; _; _] []); [reflexivity|apply R_altl; rbuild|].
  - apply R_altl. rbuild.
  - apply R_eos_iff; auto.
Qed.

Lemma expand_y y : digits 4 y -> expand_date y = date_str y $"01" $"01" ++ $"T00:00:00Z".
Proof.
  intros D. unfold expand_date.
  rewrite (re_match_unique re_date y y [] []).
  - rewrite !cap_get_nil. unfold date_str. rewrite <- !app_assoc. reflexivity.
  - now rewrite app_nil_r.
  - apply R_date_y; auto. now left.
  - intros w' k' c' E H. apply R_date_inv in H as (K & [(y' & D' & -> & ->)|[(y' & mo' & D1 & D2 & -> & ->)|
      (y' & mo' & d' & D1 & D2 & D3 & -> & ->)]]); expl_body; unfold date_str, lit in *; cbn [list_ascii_of_string app] in *;
      destruct K as [->| ->]; inj_all; auto.
Qed.
Lemma expand_ym y mo : digits 4 y -> digits 2 mo ->
  expand_date (y ++ $"-" ++ mo) = date_str y mo $"01" ++ $"T00:00:00Z".
Proof.
  intros D D'. unfold expand_date.
  rewrite (re_match_unique re_date (y ++ $"-" ++ mo) (y ++ $"-" ++ mo) [] (dset Nat.eqb 1%nat ($"-" ++ mo) [])).
  - rewrite cap_get_set, cap_get_other by lia. rewrite cap_get_nil. unfold date_str. rewrite <- !app_assoc. reflexivity.
  - now rewrite app_nil_r.
  - apply R_date_ym; auto. now left.
  - intros w' k' c' E H. apply R_date_inv in H as (K & [(y' & D1 & -> & ->)|[(y' & mo' & D1 & D2 & -> & ->)|
      (y' & mo' & d' & D1 & D2 & D3 & -> & ->)]]); expl_body; unfold date_str, lit in *; cbn [list_ascii_of_string app] in *;
      destruct K as [->| ->]; inj_all; auto.
Qed.
Lemma expand_ymd y mo d : digits 4 y -> digits 2 mo -> digits 2 d ->
  expand_date (date_str y mo d) = date_str y mo d ++ $"T00:00:00Z".
Proof.
  intros D D' D''. unfold expand_date.
  rewrite (re_match_unique re_date (date_str y mo d) (date_str y mo d) []
     (dset Nat.eqb 1%nat ($"-" ++ mo ++ $"-" ++ d) (dset Nat.eqb 2%nat ($"-" ++ d) []))).
  - rewrite cap_get_set, cap_get_other by lia. rewrite cap_get_set. reflexivity.
  - now rewrite app_nil_r.
  - apply R_date_ymd; auto. now left.
  - intros w' k' c' E H. apply R_date_inv in H as (K & [(y' & D1 & -> & ->)|[(y' & mo' & D1 & D2 & -> & ->)|
      (y' & mo' & d' & D1 & D2 & D3 & -> & ->)]]); expl_body; unfold date_str, lit in *; cbn [list_ascii_of_string app] in *;
      destruct K as [->| ->]; inj_all; auto.
Qed.

(** A full datetime is not taken for a date. *)
Lemma expand_full y mo d rest : digits 4 y -> digits 2 mo -> digits 2 d ->
  expand_date (date_str y mo d ++ $"T" ++ rest) = date_str y mo d ++ $"T" ++ rest.
Proof.
  intros D D' D''. unfold expand_date.
  rewrite (proj2 (re_match_none _ _)); auto.
  intros w' k' c' E H. apply R_date_inv in H as (K & [(y' & D1 & -> & ->)|[(y' & mo' & D1 & D2 & -> & ->)|
      (y' & mo' & d' & D1 & D2 & D3 & -> & ->)]]); expl_body; unfold date_str, lit in *; cbn [list_ascii_of_string app] in *;
      destruct K as [->| ->]; inj_all; discriminate.
Qed.
