(** * ListIndexFacts: chunks, names and numbers of component sitemaps *)

From Verif Require Import Py PyFacts Float64 Float64Facts Regex RegexFacts Mapper Resource ResourceSpec Container
  Xml Sitemap SitemapSpec Opener ListIndex ListIndexSpec.

Lemma zlen_app {A} (a b : list A) : zlen (a ++ b) = zlen a + zlen b.
Proof. unfold zlen. rewrite app_length. lia. Qed.
Lemma zlen_cons {A} (a : A) b : zlen (a :: b) = 1 + zlen b.
Proof. unfold zlen. cbn [List.length]. lia. Qed.
Lemma zlen_nil {A} : zlen (@nil A) = 0. Proof. reflexivity. Qed.
Lemma zlen_nonneg {A} (l : list A) : 0 <= zlen l. Proof. unfold zlen. lia. Qed.

(** ** Chunks *)

Lemma take_chunk_spec max it : forall n c rest, take_chunk max n it = (c, rest) ->
  it = c ++ rest
  /\ (rest <> [] -> n + zlen c = Z.max max (n + 1))
  /\ (it <> [] -> c <> []) /\ n + zlen c <= Z.max max (n + 1).
Proof.
  induction it as [|r it IH]; intros n c rest E; cbn [take_chunk] in E.
  - injection E as <- <-. rewrite zlen_nil. repeat split; try congruence; lia.
  - destruct (Z.leb_spec max (n + 1)).
    + injection E as <- <-. rewrite zlen_cons, zlen_nil. repeat split; try congruence; lia.
    + destruct (take_chunk max (n + 1) it) as [c' rest'] eqn:E'. injection E as <- <-.
      destruct (IH _ _ _ E') as (I1 & I2 & I3 & I4). rewrite zlen_cons. split; [|split; [|split]].
      * cbn. congruence.
      * intros N. specialize (I2 N). lia.
      * discriminate.
      * destruct it as [|x it]; [|lia]. cbn in E'. injection E' as <- <-. rewrite zlen_nil in *. lia.
Qed.

Definition opt_list {A} (o : option A) : list A := match o with Some r => [r] | None => [] end.

Lemma get_chunk_spec max first it c nxt it' : get_chunk max first it = (c, nxt, it') ->
  opt_list first ++ it = c ++ opt_list nxt ++ it'
  /\ (nxt = None -> it' = [])
  /\ (nxt <> None -> zlen c = Z.max max (zlen (opt_list first) + 1))
  /\ (c = [] -> first = None /\ it = [])
  /\ zlen c <= Z.max max (zlen (opt_list first) + 1).
Proof.
  unfold get_chunk. change (match first with Some r => [r] | None => [] end) with (opt_list first).
  destruct (take_chunk max (zlen (opt_list first)) it) as [c' rest] eqn:E. intros G.
  destruct (take_chunk_spec _ _ _ _ _ E) as (I1 & I2 & I3 & I4).
  destruct rest as [|r rest]; injection G as <- <- <-; cbn [opt_list app]; rewrite zlen_app.
  - rewrite app_nil_r in *. subst it. split; [reflexivity|]. split; [reflexivity|]. split; [congruence|]. split; [|lia].
    intros [H1 H2]%app_eq_nil. subst. split; [now destruct first|reflexivity].
  - subst it. rewrite <- app_assoc. split; [reflexivity|]. split; [discriminate|]. split; [|split; [|lia]].
    + intros _. apply I2. discriminate.
    + intros [H1 H2]%app_eq_nil. subst. exfalso. apply I3; [|reflexivity]. discriminate.
Qed.

Lemma all_chunks_spec f : forall max first it, (List.length (opt_list first ++ it) < f)%nat ->
  List.concat (all_chunks f max first it) = opt_list first ++ it
  /\ (forall c, In c (all_chunks f max first it) -> c <> []).
Proof.
  induction f as [|f IH]; intros max first it L; [lia|]. cbn [all_chunks].
  destruct (get_chunk max first it) as [[c nxt] it'] eqn:E.
  destruct (get_chunk_spec _ _ _ _ _ _ E) as (I1 & I2 & I3 & I4 & I5).
  destruct c as [|r c].
  - destruct (I4 eq_refl) as [-> ->]. split; [reflexivity|contradiction].
  - destruct (IH max nxt it') as [J1 J2].
    + rewrite I1, app_length in L. cbn [List.length] in L. lia.
    + split.
      * cbn [List.concat]. rewrite J1, I1. reflexivity.
      * intros x [<-|I]; [discriminate|auto].
Qed.

(** The size of the chunks. *)
Lemma all_chunks_sizes f : forall max first it, (List.length (opt_list first ++ it) < f)%nat ->
  2 <= max -> split_by max (all_chunks f max first it).
Proof.
  induction f as [|f IH]; intros max first it L M; [lia|]. cbn [all_chunks].
  destruct (get_chunk max first it) as [[c nxt] it'] eqn:E.
  destruct (get_chunk_spec _ _ _ _ _ _ E) as (I1 & I2 & I3 & I4 & I5).
  destruct c as [|r c]; [split; [contradiction|intros [|i]; discriminate]|].
  assert (B : zlen (opt_list first) <= 1) by (destruct first; cbn; lia).
  assert (L' : (List.length (opt_list nxt ++ it') < f)%nat).
  { rewrite I1, app_length in L. cbn [List.length] in L. lia. }
  destruct (IH max nxt it' L' M) as [J1 J2]. split.
  - intros p [<-|I]; [|auto]. rewrite zlen_cons in *. pose proof (zlen_nonneg c). lia.
  - intros [|i] p N S; cbn [nth_error] in N.
    + injection N as <-. rewrite I3; [lia|]. intros ->. rewrite (I2 eq_refl) in *.
      destruct f; [cbn in L'; lia|]. cbn in S. lia.
    + apply (J2 i p N). cbn [List.length] in S. lia.
Qed.

(** All chunks of the loop, the first one included. *)
Lemma first_chunk max items c nxt it : get_chunk max None items = (c, nxt, it) -> c <> [] ->
  c :: all_chunks (S (List.length items)) max nxt it = all_chunks (S (S (List.length items))) max None items.
Proof. intros E N. cbn [all_chunks]. rewrite E. now destruct c. Qed.

Lemma zlen_0 {A} (l : list A) : zlen l = 0 -> l = [].
Proof. destruct l; [reflexivity|]. rewrite zlen_cons. pose proof (zlen_nonneg l). lia. Qed.

Lemma get_chunk_next max items c nxt it : get_chunk max None items = (c, nxt, it) ->
  (nxt = None <-> zlen items <= Z.max max 1).
Proof.
  intros E. destruct (get_chunk_spec _ _ _ _ _ _ E) as (I1 & I2 & I3 & I4 & I5). cbn [opt_list app] in *.
  change (zlen []) with 0 in *. destruct nxt as [r|].
  - split; [discriminate|]. rewrite I1, zlen_app, (I3 ltac:(discriminate)). cbn [opt_list app]. rewrite zlen_cons.
    pose proof (zlen_nonneg it). lia.
  - rewrite (I2 eq_refl) in I1. rewrite !app_nil_r in I1. split; [|reflexivity]. intros _. rewrite I1. lia.
Qed.

(** ** Names *)

Definition part_prefix (basename : str) : str :=
  if endswith $".xml" basename then firstn (List.length basename - 4) basename else basename.
Lemma part_name_eq b n : part_name b n = part_prefix b ++ print_pad 5 n ++ $".xml".
Proof. reflexivity. Qed.

Lemma part_prefix_cases b :
  (b = part_prefix b ++ $".xml") \/ (part_prefix b = b /\ endswith $".xml" b = false).
Proof.
  unfold part_prefix. destruct (endswith $".xml" b) eqn:E; [left|right; auto].
  apply endswith_spec in E as (t & ->). rewrite app_length. change (List.length $".xml") with 4%nat.
  rewrite Nat.add_sub, firstn_app, Nat.sub_diag, firstn_all. cbn [firstn]. now rewrite app_nil_r.
Qed.

Lemma print_pad_length k n : (k <= List.length (print_pad k n))%nat.
Proof. unfold print_pad. rewrite fixed_digits_length. lia. Qed.
Lemma print_pad_inj k a b : 0 <= a -> 0 <= b -> print_pad k a = print_pad k b -> a = b.
Proof. intros A B E. rewrite <- (digits_val_print_pad k a A), <- (digits_val_print_pad k b B). now rewrite E. Qed.

Lemma part_name_inj b m n : 0 <= m -> 0 <= n -> part_name b m = part_name b n -> m = n.
Proof.
  intros M N E. rewrite !part_name_eq in E. apply app_inv_head, app_inv_tail in E. now apply print_pad_inj in E.
Qed.

Lemma part_name_not_base b n : part_name b n <> b.
Proof.
  intros E. apply (f_equal (@List.length ascii)) in E. rewrite part_name_eq, !app_length in E.
  pose proof (print_pad_length 5 n). change (List.length $".xml") with 4%nat in E.
  destruct (part_prefix_cases b) as [H0|[H0 _]].
  - apply (f_equal (@List.length ascii)) in H0. rewrite app_length in H0. change (List.length $".xml") with 4%nat in H0. lia.
  - rewrite H0 in E. lia.
Qed.

Lemma print_pad_digit k n c : In c (print_pad k n) -> is_digit c = true.
Proof. unfold print_pad. intros I. pose proof (fixed_digits_digits (Nat.max k (ndigits n)) n) as F.
  rewrite forallb_forall in F. auto. Qed.

Lemma part_prefix_In b c : In c (part_prefix b) -> In c b.
Proof.
  intros I. destruct (part_prefix_cases b) as [H|[H _]]; [rewrite H; apply in_or_app; auto|congruence].
Qed.

Lemma part_name_In b n c : In c (part_name b n) -> In c b \/ is_digit c = true \/ In c $".xml".
Proof.
  rewrite part_name_eq. intros [I|[I|I]%in_app_or]%in_app_or; [left|right; left|right; right]; auto.
  - now apply part_prefix_In.
  - eapply print_pad_digit, I.
Qed.

Lemma last_char {A} (a : list A) x q c : a ++ [x] = q ++ [c] -> c = x.
Proof. intros E. now apply app_inj_tail in E as [_ E]. Qed.

Lemma plain_path_part b n : plain_path b -> plain_path (part_name b n).
Proof.
  intros ((c & rest & E & N) & P & H & _). split; [|split; [|split]].
  - rewrite part_name_eq. destruct (part_prefix_cases b) as [D|[D _]].
    + destruct (part_prefix b) as [|x [|y q]].
      * exfalso. rewrite E in D. discriminate D.
      * rewrite E in D. injection D as <- D. pose proof (print_pad_digit 5 n) as DG. pose proof (print_pad_length 5 n) as L.
        destruct (print_pad 5 n) as [|d ds]; [cbn in L; lia|]. exists d, (ds ++ $".xml"). split; [reflexivity|].
        intros ->. now specialize (DG "/"%char (or_introl eq_refl)).
      * rewrite E in D. injection D as <- <- D. eexists _, _. split; [reflexivity|exact N].
    + rewrite D, E. eexists _, _. split; [reflexivity|exact N].
  - intros [I|[I|I]]%part_name_In; [auto|discriminate|]. vm_compute in I. intuition discriminate.
  - intros [I|[I|I]]%part_name_In; [auto|discriminate|]. vm_compute in I. intuition discriminate.
  - intros q x. rewrite part_name_eq. change $".xml" with ($".xm" ++ ["l"%char]). rewrite !app_assoc.
    intros Q. apply last_char in Q as ->. reflexivity.
Qed.

(** ** Kinds of URI *)

Lemma cls_word x : cls_match false [CWord false] x = is_word x.
Proof. unfold cls_match. cbn [existsb citem_match]. destruct (is_word x); reflexivity. Qed.

Lemma re_match_dec r s (P : Prop) :
  (forall w k c, s = w ++ k -> R r 0 [] w k c -> P) ->
  (P -> exists w k c, s = w ++ k /\ R r 0 [] w k c) ->
  (re_match r s <> None <-> P).
Proof.
  intros A B. split.
  - intros N. destruct (re_match r s) eqn:E; [|congruence].
    destruct (re_match_sound _ _ _ E) as (w & k & c & H1 & _ & H2). exact (A w k c H1 H2).
  - intros (w & k & c & -> & H)%B. destruct (re_match_some _ _ _ _ H) as (st & ->). discriminate.
Qed.

Lemma file_re u : re_match (re_const $"file:") u <> None <-> startswith $"file:" u = true.
Proof.
  apply re_match_dec.
  - intros w k c -> H. vm_compute in H. rinv. rewrite ?cls_single in *.
    repeat match goal with E : ceqb _ _ = true |- _ => apply Ascii.eqb_eq in E; subst end. reflexivity.
  - intros (t & ->)%startswith_spec. exists $"file:", t, []. split; [reflexivity|].
    change (re_const $"file:") with (clss (map (fun c => (false, [CSingle c])) $"file:")).
    apply R_clss_iff. split; [|reflexivity]. repeat constructor.
Qed.

Lemma scheme34_re u : re_match (re_const $"\w{3,4}:") u <> None <->
  scheme_of_length 3 u \/ scheme_of_length 4 u.
Proof.
  apply re_match_dec.
  - intros w k c -> H. vm_compute in H. rinv; rewrite ?cls_single, ?cls_word in *;
    repeat match goal with E : ceqb _ _ = true |- _ => apply Ascii.eqb_eq in E; subst end; cbn [app].
    + right. eexists [_; _; _; _], k. split; [reflexivity|]. split; [reflexivity|]. auto.
    + left. eexists [_; _; _], k. split; [reflexivity|]. split; [reflexivity|]. auto.
  - intros [(w & rest & -> & L & F)|(w & rest & -> & L & F)].
    + destruct w as [|a [|b [|c [|]]]]; try discriminate L.
      exists ([a; b; c] ++ $":"), rest, []. split; [reflexivity|].
      inversion F as [|? ? Fa F1]; subst; inversion F1 as [|? ? Fb F2]; subst; inversion F2 as [|? ? Fc F3]; subst.
      eapply R_cat_intro; [reflexivity| |now apply R_cls_iff; eexists; rewrite cls_single; eauto].
      eapply (R_cat_intro _ _ _ _ [a; b; c] _ _ [a]); [reflexivity| |].
      { apply R_cls_iff. eexists. rewrite cls_word. eauto. }
      eapply (R_cat_intro _ _ _ _ [b; c] _ _ [b]); [reflexivity| |].
      { apply R_cls_iff. eexists. rewrite cls_word. eauto. }
      eapply (R_cat_intro _ _ _ _ [c] _ _ [c]); [reflexivity| |].
      { apply R_cls_iff. eexists. rewrite cls_word. eauto. }
      apply R_alt_iff. right. now apply R_eps_iff.
    + destruct w as [|a [|b [|c [|d [|]]]]]; try discriminate L.
      exists ([a; b; c; d] ++ $":"), rest, []. split; [reflexivity|].
      inversion F as [|? ? Fa F1]; subst; inversion F1 as [|? ? Fb F2]; subst; inversion F2 as [|? ? Fc F3]; subst;
        inversion F3 as [|? ? Fd F4]; subst.
      eapply R_cat_intro; [reflexivity| |now apply R_cls_iff; eexists; rewrite cls_single; eauto].
      eapply (R_cat_intro _ _ _ _ [a; b; c; d] _ _ [a]); [reflexivity| |].
      { apply R_cls_iff. eexists. rewrite cls_word. eauto. }
      eapply (R_cat_intro _ _ _ _ [b; c; d] _ _ [b]); [reflexivity| |].
      { apply R_cls_iff. eexists. rewrite cls_word. eauto. }
      eapply (R_cat_intro _ _ _ _ [c; d] _ _ [c]); [reflexivity| |].
      { apply R_cls_iff. eexists. rewrite cls_word. eauto. }
      apply R_alt_iff. left. eapply (R_cat_intro _ _ _ _ [d] _ _ [d]); [reflexivity| |].
      { apply R_cls_iff. eexists. rewrite cls_word. eauto. }
      now apply R_eps_iff.
Qed.

Lemma is_file_uri_iff u : is_file_uri u = true <->
  startswith $"file:" u = true \/ ~ (scheme_of_length 3 u \/ scheme_of_length 4 u).
Proof.
  rewrite <- file_re, <- scheme34_re. unfold is_file_uri.
  destruct (re_match (re_const $"file:") u); [split; [left; discriminate|reflexivity]|].
  destruct (re_match (re_const $"\w{3,4}:") u); split; auto; try discriminate.
  - intros [N|N]; [congruence|exfalso; apply N; discriminate].
Qed.

Lemma is_file_uri_http x : is_file_uri ($"http:" ++ x) = false.
Proof. reflexivity. Qed.
Lemma is_file_uri_slash x : is_file_uri ("/"%char :: x) = true.
Proof. reflexivity. Qed.

(** ** Numbers of parts *)

(** The division of floating point numbers and the rounding up give the exact result. *)
Lemma float_ceil_div_exact n m : 0 < m < n -> n < 2 ^ 53 -> float_ceil_div n m = - ((- n) / m).
Proof.
  intros H B. pose proof SEC_pos as SP. unfold float_ceil_div, float_of_ratio, rnd.
  set (e := ulp_exp (n * SEC) m).
  assert (E0 : 0 <= e) by apply ulp_exp_nonneg.
  assert (Q0 : 0 <= n * SEC / m) by (apply Z.div_pos; nia).
  assert (Q1 : n * SEC / m < 2 ^ (53 + 1074)).
  { apply Z.div_lt_upper_bound; [lia|]. rewrite Z.pow_add_r by lia. fold SEC. nia. }
  assert (E1 : e <= 1074).
  { unfold e, ulp_exp. apply Z.max_lub; [lia|]. rewrite Z.abs_eq by nia.
    destruct (Z.eq_dec (n * SEC / m) 0) as [->|]; [cbn; lia|].
    assert (Z.log2 (n * SEC / m) < 53 + 1074) by (apply Z.log2_lt_pow2; lia). lia. }
  assert (E2 : m * 2 ^ e < 2 * SEC).
  { destruct (Z.eq_dec e 0) as [->|].
    - assert (2 ^ 53 <= SEC) by (unfold SEC; apply Z.pow_le_mono_r; lia). change (2 ^ 0) with 1. lia.
    - assert (L : e = Z.log2 (n * SEC / m) - 52).
      { unfold e, ulp_exp in *. rewrite Z.abs_eq in * by nia. lia. }
      assert (P : 0 < n * SEC / m).
      { destruct (Z.eq_dec (n * SEC / m) 0) as [Z0|]; [|lia]. rewrite Z0 in L. cbn in L. lia. }
      destruct (Z.log2_spec _ P) as [L1 _].
      assert (2 ^ e * 2 ^ 52 <= n * SEC / m).
      { rewrite <- Z.pow_add_r by lia. replace (e + 52) with (Z.log2 (n * SEC / m)) by lia. exact L1. }
      assert (m * (n * SEC / m) <= n * SEC) by (apply Z.mul_div_le; lia).
      assert (m * (2 ^ e * 2 ^ 52) <= n * SEC) by nia.
      change (2 ^ 53) with (2 * 2 ^ 52) in B. set (X := m * 2 ^ e) in *.
      assert (X * 2 ^ 52 <= n * SEC) by (unfold X; lia).
      assert (n * SEC < 2 * 2 ^ 52 * SEC) by nia. change (2 ^ 52) with 4503599627370496 in *. nia. }
  pose proof (pow2_pos e E0) as EP.
  set (c := - (- n / m)).
  assert (C : (c - 1) * m < n <= c * m).
  { unfold c. pose proof (Z.div_mod (- n) m ltac:(lia)). pose proof (Z.mod_pos_bound (- n) m ltac:(lia)). nia. }
  destruct (pow2_divide e 1074 ltac:(lia)) as [z Z1]. fold SEC in Z1.
  set (x := rne (n * SEC) (m * 2 ^ e)).
  assert (UB : x * 2 ^ e <= c * SEC).
  { rewrite Z1. rewrite Z.mul_assoc. apply Z.mul_le_mono_nonneg_r; [lia|].
    apply rne_le; [nia|]. rewrite Z1. nia. }
  assert (LB : (c - 1) * SEC < x * 2 ^ e).
  { pose proof (rne_near (n * SEC) (m * 2 ^ e) ltac:(nia)) as N. fold x in N.
    assert (m * ((c - 1) * SEC) < m * (x * 2 ^ e)); [|nia].
    assert (n * SEC >= ((c - 1) * m + 1) * SEC) by nia. nia. }
  assert (- (x * 2 ^ e) / SEC = - c); [|lia].
  symmetry. apply Z.div_unique with (c * SEC - x * 2 ^ e); [left|]; lia.
Qed.

Lemma ceil_div_bounds n m : 0 < m -> let c := - ((- n) / m) in (c - 1) * m < n <= c * m.
Proof.
  intros H c. unfold c. pose proof (Z.div_mod (- n) m ltac:(lia)). pose proof (Z.mod_pos_bound (- n) m ltac:(lia)). nia.
Qed.

(** ** Opening plain paths *)

Lemma strip_ws_id c s d : is_space c = false -> is_space d = false -> strip_ws (c :: s ++ [d]) = c :: s ++ [d].
Proof.
  intros C D. unfold strip_ws. rewrite C.
  replace (rev (c :: s ++ [d])) with (d :: rev (c :: s)).
  2:{ cbn [rev]. rewrite rev_app_distr. reflexivity. }
  rewrite D. cbn [rev]. rewrite !rev_app_distr, rev_involutive. reflexivity.
Qed.

Lemma unquote_id p : ~ In "%"%char p -> unquote p = Ok p.
Proof.
  induction p as [|c p IH]; [reflexivity|]. intros N.
  assert (E : unquote (c :: p) = let* t := unquote p in Ok (c :: t)).
  { destruct (Ascii.eqb_spec c "%"%char) as [->|D]; [exfalso; apply N; now left|].
    destruct c as [[] [] [] [] [] [] [] []]; try reflexivity. now exfalso. }
  rewrite E, IH; [reflexivity|]. intros I. apply N. now right.
Qed.

Lemma rsplit1_none c s : ~ In c s -> rsplit1 c s = None.
Proof.
  induction s as [|x s IH]; [reflexivity|]. intros N. cbn [rsplit1]. rewrite IH by (intros I; apply N; now right).
  destruct (ceqb x c) eqn:E; [|reflexivity]. apply Ascii.eqb_eq in E. subst. exfalso. apply N. now left.
Qed.

Lemma plain_path_open fs web p : plain_path p ->
  open_uri fs web p = match sget p fs with Some f => Ok (f_data f) | None => Err IOError end.
Proof.
  intros ((c & rest & E & N) & P & H & S).
  assert (W : with_scheme p = $"file:" ++ p).
  { unfold with_scheme. destruct (re_match (re_const $"\w+:") p) eqn:M; [exfalso|reflexivity].
    rewrite E in M. vm_compute in M. discriminate. }
  unfold open_uri. rewrite W. unfold url_target.
  assert (U : unwrap ($"file:" ++ p) = $"file:" ++ p).
  { unfold unwrap. destruct (@exists_last _ p) as (q & d & Q); [rewrite E; discriminate|].
    assert (X : strip_ws ($"file:" ++ p) = $"file:" ++ p).
    { rewrite Q, app_assoc. change ($"file:" ++ q) with ("f"%char :: ($"ile:" ++ q)). rewrite <- app_comm_cons.
      apply strip_ws_id; [reflexivity|]. now apply (S q d). }
    rewrite X. reflexivity. }
  rewrite U. unfold strip_tag. rewrite rsplit1_none.
  2:{ intros I. apply in_app_or in I as [I|I]; [|contradiction]. vm_compute in I. intuition discriminate. }
  assert (T : split_type ($"file:" ++ p) = Some ($"file", p)) by reflexivity.
  rewrite T. cbn [str_eqb]. change (str_eqb $"file" $"file") with true. cbv iota.
  assert (SH : split_host p = (None, p)).
  { unfold split_host. rewrite E. replace (startswith $"//" ("/"%char :: c :: rest)) with false; [reflexivity|].
    symmetry. change $"//" with ["/"; "/"]%char. cbn [startswith]. destruct (ceqb "/" c) eqn:D; [|reflexivity].
    apply Ascii.eqb_eq in D. congruence. }
  rewrite SH. cbv iota beta. rewrite unquote_id by assumption. reflexivity.
Qed.
