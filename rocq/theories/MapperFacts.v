(** * MapperFacts: proofs about mapper.py *)

From Verif Require Import Py PyFacts Regex RegexFacts Url OsPath UrlFacts Mapper MapperSpec.

(** ** The pattern of a mapping *)

Definition base_item (c : ascii) : re := if ceqb c "." then dot else chr c.

Lemma plain_cons c s : plain (c :: s) <-> ~ In c $"^$*+?{}[]\|()" /\ plain s.
Proof.
  unfold plain. split.
  - intros H; split; [apply H; now left|]. intros x I; apply H; now right.
  - intros [A B] x [<-|I]; auto.
Qed.

Lemma normal_plain c st : ~ In c $"^$*+?{}[]\|()" ->
  normal_char st c = Go (PSt MNormal (push (base_item c) (p_frame st)) (p_stack st) (p_next st)).
Proof.
  intros H. unfold normal_char, base_item.
  assert (N : forall x, In x $"^$*+?{}[]\|()" -> ceqb c x = false).
  { intros x I. apply ceqb_neq. intros ->. auto. }
  rewrite (N "("%char), (N ")"%char), (N "|"%char), (N "^"%char), (N "$"%char), (N "\"%char), (N "["%char), (N "{"%char)
    by (vm_compute; auto 20).
  assert (is_quant c = false) as ->.
  { unfold is_quant. apply has_char_false. intros I. apply H. unfold lit in *. cbn in I |- *. intuition. }
  destruct (ceqb c "."); reflexivity.
Qed.

Lemma parse_plain b : plain b -> forall s f stk n,
  parse_loop (PSt MNormal f stk n) (b ++ s) =
  parse_loop (PSt MNormal (Frame (f_id f) (f_alts f) (rev (map base_item b) ++ f_cur f)) stk n) s.
Proof.
  induction b as [|c b IH]; intros P s f stk n.
  - cbn. destruct f; reflexivity.
  - apply plain_cons in P as [Pc P]. cbn [app parse_loop]. unfold parse_char. cbn [p_mode].
    rewrite normal_plain by auto. cbn [p_frame p_stack p_next]. rewrite IH by auto.
    cbn [push f_id f_alts f_cur map rev]. now rewrite <- app_assoc.
Qed.

Definition tail_re : re := Cat (opt (Grp 1 (Cat (chr "/") (Star dot)))) Eos.

Lemma compile_base b : plain b ->
  compile (b ++ $"(/.*)?$") =
  Ok (cats (map base_item b ++ [opt (Grp 1 (Cat (chr "/") (Star dot))); Eos])).
Proof.
  intros P. unfold compile, re_parse, parse_start. rewrite parse_plain by auto.
  cbn [f_id f_alts f_cur app]. rewrite app_nil_r.
  assert (H : forall l, parse_loop (PSt MNormal (Frame 0 [] l) [] 1) $"(/.*)?$" =
    POk (cats (rev (Eos :: opt (Grp 1 (Cat (chr "/") (Star dot))) :: l)))) by (intros l; vm_compute; reflexivity).
  rewrite H. cbn [rev]. rewrite <- app_assoc. now rewrite rev_involutive.
Qed.

Lemma base_item_R c p g w k g' :
  R (base_item c) p g w k g' <-> (exists y, w = [y] /\ if ceqb c "." then y <> nl else y = c) /\ g' = g.
Proof.
  unfold base_item, dot, chr. destruct (ceqb c "."); rewrite R_cls_iff.
  - split; [intros (x & -> & E & ->)|intros ((x & -> & E) & ->)].
    + rewrite cls_dot in E. apply negb_true_iff, ceqb_neq in E. split; eauto.
    + exists x. rewrite cls_dot. repeat split; auto. apply negb_true_iff, ceqb_neq. congruence.
  - split; [intros (x & -> & E & ->)|intros ((x & -> & ->) & ->)].
    + rewrite cls_single in E. apply ceqb_eq in E. split; eauto.
    + exists c. rewrite cls_single. repeat split; auto. apply ceqb_refl.
Qed.

Lemma R_cats_base b t : t <> [] -> forall p g w k g',
  R (cats (map base_item b ++ t)) p g w k g' <->
  exists w1 w2, w = w1 ++ w2 /\ like b w1 /\ R (cats t) (p + List.length w1) g w2 k g'.
Proof.
  intros NE. induction b as [|c b IH]; intros p g w k g'; cbn [map app].
  - split.
    + intros H. exists [], w. repeat split; [constructor|]. cbn. now rewrite Nat.add_0_r.
    + intros (w1 & w2 & -> & L & H). inversion L; subst. cbn in *. now rewrite Nat.add_0_r in H.
  - assert (cats (base_item c :: map base_item b ++ t) = Cat (base_item c) (cats (map base_item b ++ t))) as ->.
    { cbn [cats]. destruct (map base_item b ++ t) eqn:E; auto. apply app_eq_nil in E as [_ ->]. easy. }
    rewrite R_cat_iff. split.
    + intros (w1 & w2 & c1 & -> & H1 & H2). apply base_item_R in H1 as [(y & -> & Y) ->].
      apply IH in H2 as (v1 & v2 & -> & L & H2). exists (y :: v1), v2. repeat split.
      * constructor; auto.
      * cbn in *. now replace (p + S (List.length v1))%nat with (p + 1 + List.length v1)%nat by lia.
    + intros (w1 & w2 & -> & L & H). inversion L; subst. exists [y], (l' ++ w2), g. repeat split.
      * apply base_item_R. eauto.
      * apply IH. exists l', w2. repeat split; auto. cbn in *.
        now replace (p + 1 + List.length l')%nat with (p + S (List.length l'))%nat by lia.
Qed.

Lemma R_tail p g w k g' :
  R (cats [opt (Grp 1 (Cat (chr "/") (Star dot))); Eos]) p g w k g' <->
  (k = [] \/ k = [nl]) /\
  ((w = [] /\ g' = g) \/ (exists x, w = "/"%char :: x /\ ~ In nl x /\ g' = dset Nat.eqb 1%nat w g)).
Proof.
  cbn [cats]. unfold opt, chr, dot. split.
  - intros H. rewrite R_cat_iff in H. destruct H as (w1 & w2 & c1 & -> & H1 & H2).
    apply R_eos_iff in H2 as (-> & -> & K). split; auto. rewrite app_nil_r.
    apply R_alt_iff in H1 as [H1|H1].
    + right. apply R_grp_iff in H1 as (c2 & H1 & ->). apply R_cat_iff in H1 as (v1 & v2 & c3 & -> & H1 & H2).
      apply R_cls_iff in H1 as (y & -> & E & ->). rewrite cls_single in E. apply ceqb_eq in E as <-.
      apply R_star_cls_iff in H2 as (F & ->). exists v2. repeat split; auto.
      intros I. rewrite forallb_forall in F. apply F in I. now rewrite cls_dot in I.
    + apply R_eps_iff in H1 as [-> ->]. auto.
  - intros (K & [[-> ->]|(x & -> & N & ->)]).
    + apply (R_cat_intro _ _ _ _ _ _ _ [] [] g); auto.
      * apply R_alt_iff. right. apply R_eps_iff. auto.
      * apply R_eos_iff. auto.
    + apply (R_cat_intro _ _ _ _ _ _ _ ("/"%char :: x) [] (dset Nat.eqb 1%nat ("/"%char :: x) g)); auto.
      * now rewrite app_nil_r.
      * apply R_alt_iff. left. apply R_grp_iff. exists g. split; auto.
        apply (R_cat_intro _ _ _ _ _ _ _ ["/"%char] x g); auto.
        -- apply R_cls_iff. exists "/"%char. now rewrite cls_single, ceqb_refl.
        -- apply R_star_cls_iff. split; auto. apply forallb_forall. intros y I. rewrite cls_dot.
           apply negb_true_iff, ceqb_neq. intros <-. auto.
      * apply R_eos_iff. auto.
Qed.

Lemma like_length b w : like b w -> List.length w = List.length b.
Proof. induction 1; cbn; auto. Qed.

Lemma app_same_length {A} (a b c d : list A) : List.length a = List.length c -> a ++ b = c ++ d -> a = c /\ b = d.
Proof.
  revert c; induction a as [|x a IH]; destruct c as [|y c]; cbn; intros L E; try discriminate; auto.
  injection E as -> E. injection L as L. destruct (IH c L E). subst; auto.
Qed.

Definition rel_of (rest : str) : str := match rest with [] => $"/" | _ => rest end.

Lemma map_base_applies b d s w rest : plain b -> one_line s ->
  s = w ++ rest -> like b w -> (rest = [] \/ exists x, rest = "/"%char :: x) ->
  map_base b d s = Ok (Some (d ++ rel_of rest)).
Proof.
  intros P N E L Hr. unfold map_base. rewrite compile_base by auto. cbn [bind].
  set (r := cats _).
  assert (Nr : ~ In nl rest) by (intros I; apply N; rewrite E; apply in_app_iff; auto).
  assert (M : exists g, R r 0 [] s [] g /\ (rest = [] -> g = []) /\ (forall x, rest = "/"%char :: x -> g = [(1%nat, rest)])).
  { unfold r. destruct Hr as [->|(x & ->)].
    - exists []. repeat split; [|easy]. apply R_cats_base; [easy|]. exists w, []. repeat split; auto.
      apply R_tail. auto.
    - exists [(1%nat, "/"%char :: x)]. repeat split; [|easy]. apply R_cats_base; [easy|].
      exists w, ("/"%char :: x). repeat split; auto. apply R_tail. split; auto. right. exists x. repeat split; auto.
      intros I. apply Nr. now right. }
  destruct M as (g & M & G1 & G2).
  rewrite (re_match_unique r s s [] g); [| now rewrite app_nil_r | auto |].
  - destruct Hr as [->|(x & ->)]; cbn [rel_of].
    + rewrite G1 by auto. reflexivity.
    + rewrite (G2 x) by auto. reflexivity.
  - intros w' k' c' E' H'. unfold r in H'. apply R_cats_base in H' as (w1 & w2 & -> & L' & H'); [|easy].
    apply R_tail in H' as (K & H').
    assert (k' = []) as -> . { destruct K as [K|K]; auto. exfalso. apply N. rewrite E', K. rewrite !in_app_iff. cbn. auto. }
    rewrite app_nil_r in E'. split; auto.
    rewrite E in E'. apply app_same_length in E' as [-> ->]; [|rewrite (like_length b w), (like_length b w1); auto].
    destruct H' as [[-> ->]|(x & -> & _ & ->)].
    + now rewrite G1.
    + now rewrite (G2 x).
Qed.

Lemma map_base_none b d s : plain b -> ~ applies b s -> one_line s -> map_base b d s = Ok None.
Proof.
  intros P NA N. unfold map_base. rewrite compile_base by auto. cbn [bind].
  destruct (re_match _ s) as [st|] eqn:E; auto. exfalso.
  apply re_match_sound in E as (w & k & c & -> & _ & H).
  apply R_cats_base in H as (w1 & w2 & -> & L & H); [|easy]. apply R_tail in H as (K & H).
  assert (k = []) as ->.
  { destruct K as [K|K]; auto. exfalso. apply N. rewrite K, !in_app_iff. cbn. auto. }
  apply NA. exists w1, w2. rewrite app_nil_r. repeat split; auto.
  destruct H as [[-> _]|(x & -> & _)]; eauto.
Qed.

Lemma map_base_exact b d s : plain b -> one_line s ->
  (forall out, map_base b d s = Ok (Some out) <->
     exists w rest, s = w ++ rest /\ like b w /\
       ((rest = [] /\ out = d ++ $"/") \/ (exists x, rest = "/"%char :: x /\ out = d ++ rest))).
Proof.
  intros P N out. split.
  - intros H.
    assert (DN : applies b s \/ ~ applies b s).
    { unfold map_base in H. rewrite compile_base in H by auto. cbn [bind] in H.
      destruct (re_match _ s) as [st|] eqn:E; [|discriminate]. left.
      apply re_match_sound in E as (w & k & c & E & _ & H').
      apply R_cats_base in H' as (w1 & w2 & -> & L & H'); [|easy]. apply R_tail in H' as (K & H').
      assert (k = []) as ->.
      { destruct K as [K|K]; auto. exfalso. apply N. rewrite E, K, !in_app_iff. cbn. auto. }
      exists w1, w2. rewrite app_nil_r in E. repeat split; auto.
      destruct H' as [[-> _]|(x & -> & _)]; eauto. }
    destruct DN as [(w & rest & E & L & Hr)|NA].
    + rewrite (map_base_applies b d s w rest) in H by auto. injection H as <-.
      exists w, rest. repeat split; auto. destruct Hr as [->|(x & ->)]; cbn [rel_of]; eauto.
    + rewrite map_base_none in H by auto. discriminate.
  - intros (w & rest & E & L & Hr).
    rewrite (map_base_applies b d s w rest); auto.
    + destruct Hr as [[-> ->]|(x & -> & ->)]; auto.
    + destruct Hr as [[-> ->]|(x & -> & ->)]; eauto.
Qed.

Lemma like_self b : one_line b -> like b b.
Proof.
  unfold one_line. induction b as [|c b IH]; intros N; [constructor|]. constructor.
  - destruct (ceqb c "."); auto. intros ->. apply N. now left.
  - apply IH. intros I; apply N; now right.
Qed.
Lemma like_literal b w : literal b -> like b w -> w = b.
Proof.
  intros [_ N] H. induction H; auto. f_equal.
  - destruct (ceqb x ".") eqn:E; auto. exfalso. apply N. apply ceqb_eq in E. now left.
  - apply IHForall2. intros I; apply N; now right.
Qed.

Lemma strip_prefix_spec b u r : strip_prefix b u = Some r <-> u = b ++ r.
Proof.
  revert u; induction b as [|x b IH]; intros u; cbn.
  - split; [intros [= ->]; auto|intros ->; auto].
  - destruct u as [|y u]; [easy|]. destruct (ceqb x y) eqn:E.
    + apply ceqb_eq in E as ->. rewrite IH. split; [intros ->; auto|intros [= ->]; auto].
    + apply ceqb_neq in E. split; [easy|]. intros [= ? _]. congruence.
Qed.

Lemma one_line_app a b : one_line (a ++ b) <-> one_line a /\ one_line b.
Proof. unfold one_line. rewrite in_app_iff. tauto. Qed.

Lemma map_base_literal b d u : literal b -> one_line u -> map_base b d u = Ok (spec_map b d u).
Proof.
  intros L N. unfold spec_map. destruct (strip_prefix b u) as [rest|] eqn:E.
  - apply strip_prefix_spec in E. destruct (proj1 (one_line_app b rest) (eq_ind _ one_line N _ E)) as [Nb Nr].
    destruct rest as [|c rest].
    + rewrite (map_base_applies b d u b []); auto; [apply L|now apply like_self].
    + destruct (ceqb c "/") eqn:C.
      * apply ceqb_eq in C as ->. rewrite (map_base_applies b d u b ("/"%char :: rest)); auto; [apply L|now apply like_self|eauto].
      * apply map_base_none; auto; [apply L|]. intros (w & r & E' & Lk & Hr).
        apply (like_literal b w L) in Lk as ->. rewrite E in E'. apply app_inv_head in E'.
        apply ceqb_neq in C. destruct Hr as [->|(x & ->)]; congruence.
  - apply map_base_none; auto; [apply L|]. intros (w & r & E' & Lk & Hr).
    apply (like_literal b w L) in Lk as ->. apply strip_prefix_spec in E'. congruence.
Qed.

Lemma map_base_inside b d rest : plain b -> one_line (b ++ rest) ->
  (rest = [] \/ exists x, rest = "/"%char :: x) ->
  map_base b d (b ++ rest) = Ok (spec_map b d (b ++ rest)).
Proof.
  intros P N Hr. rewrite (map_base_applies b d (b ++ rest) b rest); auto.
  - unfold spec_map. assert (strip_prefix b (b ++ rest) = Some rest) as -> by now apply strip_prefix_spec.
    destruct Hr as [->|(x & ->)]; reflexivity.
  - apply like_self. now apply one_line_app in N.
Qed.

(** ** Round trips *)

Lemma like_path_prefix_disjoint a b s : literal a -> literal b ->
  ~ path_prefix a b -> ~ path_prefix b a -> applies a s -> applies b s -> False.
Proof.
  intros La Lb Nab Nba (w & r & -> & L1 & H1) (w' & r' & E & L2 & H2).
  apply (like_literal a w La) in L1 as ->. apply (like_literal b w' Lb) in L2 as ->.
  destruct (app_eq_app _ _ _ _ E) as (l & [[-> E2]|[-> E2]]).
  - apply Nba. destruct l as [|c l].
    + left. now rewrite app_nil_r.
    + right. exists l. destruct H2 as [->|(x & ->)]; [discriminate|]. cbn in E2. injection E2 as <- _. reflexivity.
  - apply Nab. destruct l as [|c l].
    + left. now rewrite app_nil_r.
    + right. exists l. destruct H1 as [->|(x & ->)]; [discriminate|]. cbn in E2. injection E2 as <- _. reflexivity.
Qed.

Lemma applies_below b x : one_line b -> applies b (b ++ $"/" ++ x).
Proof.
  intros N. exists b, ($"/" ++ x). repeat split; auto; [now apply like_self|]. right. now exists x.
Qed.

Lemma round_trip_gen (f : smap -> str * str) (g : list smap -> str -> res str) :
  (forall ms u, g ms u = match ms with
     | [] => Err MapperError
     | m :: ms' => let* r := map_base (fst (f m)) (snd (f m)) u in
                   match r with Some p => Ok p | None => g ms' u end end) ->
  forall ms i m x,
  nth_error ms i = Some m ->
  (forall k, In k ms -> plain (fst (f k))) ->
  (forall j k, (j < i)%nat -> nth_error ms j = Some k -> ~ applies (fst (f k)) (fst (f m) ++ $"/" ++ x)) ->
  one_line (fst (f m) ++ $"/" ++ x) ->
  g ms (fst (f m) ++ $"/" ++ x) = Ok (snd (f m) ++ $"/" ++ x).
Proof.
  intros G ms. induction ms as [|k ms IH]; intros i m x E P D N; [destruct i; discriminate|].
  rewrite G. destruct i as [|i].
  - cbn in E. injection E as ->.
    rewrite (map_base_applies (fst (f m)) (snd (f m)) _ (fst (f m)) ($"/" ++ x)); auto.
    + apply P; now left.
    + apply like_self. now apply one_line_app in N.
    + right. now exists x.
  - cbn in E. rewrite map_base_none; auto.
    + cbn [bind]. apply (IH i); auto.
      * intros k' I. apply P. now right.
      * intros j k' J Ek. apply (D (S j)); [lia|auto].
    + apply P. now left.
    + apply (D O k); [lia|auto].
Qed.

Lemma src_to_dst_below ms i m x :
  nth_error ms i = Some m -> (forall k, In k ms -> plain (src_uri k)) ->
  (forall j k, (j < i)%nat -> nth_error ms j = Some k -> ~ applies (src_uri k) (src_uri m ++ $"/" ++ x)) ->
  one_line (src_uri m ++ $"/" ++ x) ->
  src_to_dst ms (src_uri m ++ $"/" ++ x) = Ok (dst_path m ++ $"/" ++ x).
Proof.
  apply (round_trip_gen (fun m => (src_uri m, dst_path m)) src_to_dst).
  intros [|k ks] u; reflexivity.
Qed.
Lemma dst_to_src_below ms i m x :
  nth_error ms i = Some m -> (forall k, In k ms -> plain (dst_path k)) ->
  (forall j k, (j < i)%nat -> nth_error ms j = Some k -> ~ applies (dst_path k) (dst_path m ++ $"/" ++ x)) ->
  one_line (dst_path m ++ $"/" ++ x) ->
  dst_to_src ms (dst_path m ++ $"/" ++ x) = Ok (src_uri m ++ $"/" ++ x).
Proof.
  apply (round_trip_gen (fun m => (dst_path m, src_uri m)) dst_to_src).
  intros [|k ks] u; reflexivity.
Qed.

Lemma single_round_trip m x :
  plain (src_uri m) -> plain (dst_path m) ->
  one_line (src_uri m) -> one_line (dst_path m) -> one_line x ->
  src_to_dst [m] (src_uri m ++ $"/" ++ x) = Ok (dst_path m ++ $"/" ++ x) /\
  dst_to_src [m] (dst_path m ++ $"/" ++ x) = Ok (src_uri m ++ $"/" ++ x).
Proof.
  intros P1 P2 N1 N2 N3.
  assert (one_line $"/") as NS. { unfold one_line. vm_compute. intuition discriminate. }
  split.
  - apply (src_to_dst_below [m] 0); auto; [intros k [<-|[]]; auto|intros j k J; lia|].
    rewrite !one_line_app. auto.
  - apply (dst_to_src_below [m] 0); auto; [intros k [<-|[]]; auto|intros j k J; lia|].
    rewrite !one_line_app. auto.
Qed.

Lemma multi_round_trip ms m x :
  In m ms ->
  (forall k, In k ms -> literal (src_uri k) /\ literal (dst_path k) /\ one_line (src_uri k) /\ one_line (dst_path k)) ->
  (forall i j a b, i <> j -> nth_error ms i = Some a -> nth_error ms j = Some b ->
     ~ path_prefix (src_uri a) (src_uri b) /\ ~ path_prefix (dst_path a) (dst_path b)) ->
  one_line x ->
  src_to_dst ms (src_uri m ++ $"/" ++ x) = Ok (dst_path m ++ $"/" ++ x) /\
  dst_to_src ms (dst_path m ++ $"/" ++ x) = Ok (src_uri m ++ $"/" ++ x).
Proof.
  intros I L D N. apply In_nth_error in I as (i & E).
  assert (one_line $"/") as NS. { unfold one_line. vm_compute. intuition discriminate. }
  destruct (L m (nth_error_In _ _ E)) as (L1 & L2 & N1 & N2).
  split.
  - apply (src_to_dst_below ms i); auto; [intros k Ik; apply (L k Ik)| |rewrite !one_line_app; auto].
    intros j k J Ek A. destruct (L k (nth_error_In _ _ Ek)) as (K1 & K2 & _).
    eapply (like_path_prefix_disjoint (src_uri k) (src_uri m)); eauto.
    + apply (D j i k m); auto; lia.
    + apply (D i j m k); auto; lia.
    + now apply applies_below.
  - apply (dst_to_src_below ms i); auto; [intros k Ik; apply (L k Ik)| |rewrite !one_line_app; auto].
    intros j k J Ek A. destruct (L k (nth_error_In _ _ Ek)) as (K1 & K2 & _).
    eapply (like_path_prefix_disjoint (dst_path k) (dst_path m)); eauto.
    + apply (D j i k m); auto; lia.
    + apply (D i j m k); auto; lia.
    + now apply applies_below.
Qed.

(** With dots: no two bases may claim the same string. *)
Lemma multi_round_trip_plain ms m x :
  In m ms ->
  (forall k, In k ms -> plain (src_uri k) /\ plain (dst_path k) /\ one_line (src_uri k) /\ one_line (dst_path k)) ->
  (forall i j a b s, i <> j -> nth_error ms i = Some a -> nth_error ms j = Some b ->
     ~ (applies (src_uri a) s /\ applies (src_uri b) s) /\
     ~ (applies (dst_path a) s /\ applies (dst_path b) s)) ->
  one_line x ->
  src_to_dst ms (src_uri m ++ $"/" ++ x) = Ok (dst_path m ++ $"/" ++ x) /\
  dst_to_src ms (dst_path m ++ $"/" ++ x) = Ok (src_uri m ++ $"/" ++ x).
Proof.
  intros I L D N. apply In_nth_error in I as (i & E).
  assert (one_line $"/") as NS. { unfold one_line. vm_compute. intuition discriminate. }
  destruct (L m (nth_error_In _ _ E)) as (L1 & L2 & N1 & N2).
  split.
  - apply (src_to_dst_below ms i); auto; [intros k Ik; apply (L k Ik)| |rewrite !one_line_app; auto].
    intros j k J Ek A. assert (JI : j <> i) by lia.
    apply (proj1 (D j i k m (src_uri m ++ $"/" ++ x) JI Ek E)). split; [exact A|]. now apply applies_below.
  - apply (dst_to_src_below ms i); auto; [intros k Ik; apply (L k Ik)| |rewrite !one_line_app; auto].
    intros j k J Ek A. assert (JI : j <> i) by lia.
    apply (proj2 (D j i k m (dst_path m ++ $"/" ++ x) JI Ek E)). split; [exact A|]. now apply applies_below.
Qed.

(** ** Wildcards *)

Lemma src_to_dst_outside :
  exists m u p, src_uri m = $"http://example.org/data" /\ src_to_dst [m] u = Ok p /\ u = $"http://example-org/data/x" /\ p = $"/tmp/x".
Proof.
  exists (MkMap $"http://example.org/data" $"/tmp"), $"http://example-org/data/x", $"/tmp/x".
  repeat split; vm_compute; reflexivity.
Qed.

Lemma src_to_dst_plain_agrees ms u p :
  (forall k, In k ms -> plain (src_uri k)) -> one_line u -> src_to_dst ms u = Ok p ->
  exists m w rest, In m ms /\ u = w ++ rest /\ like (src_uri m) w /\
    ((rest = [] /\ p = dst_path m ++ $"/") \/ (exists x, rest = "/"%char :: x /\ p = dst_path m ++ rest)).
Proof.
  intros P N. induction ms as [|m ms IH]; cbn [src_to_dst]; [easy|].
  destruct (map_src_to_dst m u) as [[q|]|e] eqn:E; cbn [bind]; [| |easy].
  - intros [= ->]. unfold map_src_to_dst in E. apply map_base_exact in E as (w & rest & A & B & C); auto.
    + exists m, w, rest. repeat split; auto. now left.
    + apply P. now left.
  - intros H. destruct IH as (m' & w & rest & I & X); auto; [intros k I; apply P; now right|].
    exists m', w, rest. split; [now right|auto].
Qed.

(** ** Trailing slashes *)

Definition dot_states := fix go (p : nat) (s : str) (c : list (nat * str)) : list mst :=
  match s with
  | [] => [MSt p [] c]
  | x :: s' => go (S p) s' c ++ [MSt p (x :: s') c]
  end.

Lemma star_cls_states neg items : forall s fuel p c,
  (List.length s <= fuel)%nat -> forallb (cls_match neg items) s = true ->
  star_loop (run (Cls neg items)) fuel (MSt p s c) = dot_states p s c.
Proof.
  induction s as [|x s IH]; intros fuel p c L F.
  - destruct fuel; reflexivity.
  - destruct fuel as [|fuel]; [cbn in L; lia|]. cbn [forallb] in F. apply andb_true_iff in F as [Fx F].
    cbn [star_loop run m_rest]. rewrite Fx. cbn [flat_map m_pos]. rewrite app_nil_r.
    destruct (Nat.eqb_spec (S p) p); [lia|]. rewrite IH by (auto; cbn in L; lia). reflexivity.
Qed.

Lemma dot_states_snoc q z p c : exists l,
  dot_states p (q ++ [z]) c =
  MSt (p + S (List.length q)) [] c :: MSt (p + List.length q) [z] c :: l.
Proof.
  revert p; induction q as [|x q IH]; intros p.
  - exists []. cbn. now rewrite Nat.add_0_r, Nat.add_1_r.
  - destruct (IH (S p)) as (l & E). cbn [app dot_states]. rewrite E. eexists. cbn [app]. f_equal; [f_equal; cbn; lia|].
    f_equal. f_equal. cbn; lia.
Qed.

Lemma firstn_app_exact {A} (q l : list A) : firstn (List.length q) (q ++ l) = q.
Proof. rewrite firstn_app, Nat.sub_diag, firstn_all. cbn. apply app_nil_r. Qed.

Lemma one_line_dots s : one_line s -> forallb (cls_match true [CSingle nl]) s = true.
Proof.
  intros N. apply forallb_forall. intros c I. rewrite cls_dot. apply negb_true_iff, ceqb_neq. intros <-. auto.
Qed.

Lemma strip_slash_re : re_const $"(.*)/+$" =
  Cat (Grp 1 (Star (Cls true [CSingle nl])))
    (Cat (Cat (Cls false [CSingle "/"%char]) (Star (Cls false [CSingle "/"%char]))) Eos).
Proof. reflexivity. Qed.

Lemma run_cat a b st : run (Cat a b) st = flat_map (run b) (run a st).
Proof. reflexivity. Qed.
Lemma run_star a st : run (Star a) st = star_loop (run a) (List.length (m_rest st)) st.
Proof. reflexivity. Qed.
Lemma run_grp n a st : run (Grp n a) st =
  map (fun st' => MSt (m_pos st') (m_rest st')
         (dset Nat.eqb n (firstn (m_pos st' - m_pos st) (m_rest st)) (m_caps st'))) (run a st).
Proof. reflexivity. Qed.

Lemma strip_one_slash q : one_line q -> strip_trailing_slashes (q ++ $"/") = q.
Proof.
  intros N. unfold strip_trailing_slashes. rewrite strip_slash_re. unfold re_match.
  assert (one_line (q ++ $"/")) as N'.
  { apply one_line_app. split; auto. unfold one_line. vm_compute. intuition discriminate. }
  rewrite run_cat, run_grp, run_star.
  rewrite star_cls_states by (cbn [m_rest]; auto using one_line_dots).
  destruct (dot_states_snoc q "/"%char 0 []) as (l & E).
  change (q ++ $"/") with (q ++ ["/"%char]) in *. cbn [m_rest]. rewrite E.
  cbn [map flat_map m_rest m_pos m_caps]. rewrite !Nat.add_0_l, !Nat.sub_0_r.
  rewrite firstn_app_exact. set (r2 := Cat _ Eos).
  assert (run r2 (MSt (S (List.length q)) [] (dset Nat.eqb 1%nat (firstn (S (List.length q)) (q ++ ["/"%char])) [])) = []) as -> by reflexivity.
  assert (run r2 (MSt (List.length q) ["/"%char] (dset Nat.eqb 1%nat q [])) =
          [MSt (S (List.length q)) [] (dset Nat.eqb 1%nat q [])]) as -> by reflexivity.
  reflexivity.
Qed.

Lemma strip_no_slash p : one_line p -> (forall q, p <> q ++ $"/") -> strip_trailing_slashes p = p.
Proof.
  intros N H. unfold strip_trailing_slashes. rewrite strip_slash_re.
  destruct (re_match _ p) as [st|] eqn:E; auto. exfalso.
  apply re_match_sound in E as (w & k & c & -> & _ & HR).
  apply R_cat_iff in HR as (w1 & w2 & c1 & -> & _ & HR).
  apply R_cat_iff in HR as (w3 & w4 & c2 & -> & H3 & H4).
  apply R_eos_iff in H4 as (-> & _ & K).
  assert (k = []) as ->.
  { destruct K as [K|K]; auto. exfalso. apply N. rewrite K, !in_app_iff. cbn. auto. }
  apply R_cat_iff in H3 as (w5 & w6 & c3 & -> & H5 & H6).
  apply R_cls_iff in H5 as (y & -> & Y & _). rewrite cls_single in Y. apply ceqb_eq in Y as <-.
  apply R_star_cls_iff in H6 as (F & _).
  destruct w6 as [|z w6] using rev_ind.
  - apply (H w1). now rewrite !app_nil_r.
  - rewrite forallb_app in F. apply andb_true_iff in F as [_ F]. cbn [forallb] in F.
    rewrite cls_single, andb_true_r in F. apply ceqb_eq in F as <-.
    apply (H (w1 ++ ["/"%char] ++ w6)). rewrite !app_nil_r, <- !app_assoc. reflexivity.
Qed.

Lemma strip_idempotent_fails : exists p, strip_trailing_slashes p = $"http://example.org/" /\ p = $"http://example.org//".
Proof. exists $"http://example.org//". split; vm_compute; reflexivity. Qed.
