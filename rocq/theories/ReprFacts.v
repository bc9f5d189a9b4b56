(** * Proofs about texts of resources *)

From Verif Require Import Py PyFacts Resource Repr ReprSpec ExplorerFacts StatusLine.
From Coq Require Import Lia.

(** ** Strings *)

Definition hex_of (c : ascii) : N := let n := N_of_ascii c in if (n <? 58)%N then (n - 48)%N else (n - 87)%N.
Definition unescape (s : str) : option (ascii * str) :=
  match s with
  | [] => None
  | c :: s =>
      if ceqb c backslash then
        match s with
        | [] => None
        | d :: s =>
            if ceqb d "t" then Some (ascii_of_N 9, s) else if ceqb d "n" then Some (ascii_of_N 10, s)
            else if ceqb d "r" then Some (ascii_of_N 13, s)
            else if ceqb d "x" then match s with a :: b :: s => Some (ascii_of_N (hex_of a * 16 + hex_of b), s) | _ => None end
            else Some (d, s)
        end
      else Some (c, s)
  end.
Lemma unescape_char q c s : q = squote \/ q = dquote -> unescape (repr_char q c ++ s) = Some (c, s).
Proof. intros [-> | ->]; destruct c as [[] [] [] [] [] [] [] []]; reflexivity. Qed.
Lemma repr_char_head q c : q = squote \/ q = dquote -> exists h t, repr_char q c = h :: t /\ h <> q.
Proof. intros [-> | ->]; destruct c as [[] [] [] [] [] [] [] []]; do 2 eexists; (split; [reflexivity|discriminate]). Qed.
Lemma chars_inj q : q = squote \/ q = dquote -> forall s s' u u', flat_map (repr_char q) s ++ q :: u = flat_map (repr_char q) s' ++ q :: u' ->
  s = s' /\ u = u'.
Proof.
  intros Q. induction s as [|c s IH]; intros [|c' s'] u u'; cbn [flat_map app].
  - now intros [= ->].
  - destruct (repr_char_head q c' Q) as (h & t & -> & N). intros [= E _]. congruence.
  - destruct (repr_char_head q c Q) as (h & t & -> & N). intros [= E _]. congruence.
  - rewrite <- !app_assoc. intro E. apply (f_equal unescape) in E. rewrite !unescape_char in E by auto. injection E as -> E.
    destruct (IH _ _ _ E) as [-> ->]. auto.
Qed.
Lemma repr_str_inj s s' u u' : repr_str s ++ u = repr_str s' ++ u' -> s = s' /\ u = u'.
Proof.
  unfold repr_str. cbv zeta. set (q := if _ && _ then dquote else squote). set (q' := if existsb _ s' && _ then dquote else squote).
  assert (Q : q = squote \/ q = dquote) by (unfold q; destruct (_ && _); auto). cbn [app]. intros [= <- E].
  rewrite <- !app_assoc in E. now apply (chars_inj q Q).
Qed.
Lemma repr_str_head s : exists h t, repr_str s = h :: t /\ (h = squote \/ h = dquote).
Proof. unfold repr_str. do 2 eexists. split; [reflexivity|]. destruct (_ && _); auto. Qed.

(** ** Texts one after the other *)

Definition ends (s : str) : Prop := s = [] \/ exists c t, s = c :: t /\ (c = ","%char \/ c = "]"%char \/ c = "}"%char).
Definition code {X} (f : X -> str) (x : X) : Prop := forall y u u', ends u -> ends u' -> f x ++ u = f y ++ u' -> x = y /\ u = u'.
Definition begins {X} (f : X -> str) : Prop := forall x, exists h t, f x = h :: t /\ h <> "]"%char /\ h <> "}"%char.

Lemma comma_ends s : ends ($", " ++ s).
Proof. right. exists ","%char, (" "%char :: s). auto. Qed.
Lemma joined {X} (f : X -> str) c : begins f -> c = "]"%char \/ c = "}"%char -> forall l, (forall x, In x l -> code f x) -> forall l' s s',
  join $", " (map f l) ++ c :: s = join $", " (map f l') ++ c :: s' -> l = l' /\ s = s'.
Proof.
  intros B C. assert (E0 : forall s, ends (c :: s)) by (intro s; right; exists c, s; tauto).
  assert (NE : forall x l u s, join $", " (map f (x :: l)) ++ u <> c :: s).
  { intros x l u s. destruct (B x) as (h & t & E & N1 & N2). cbn [map join]. destruct (map f l); rewrite E; cbn; intros [= -> _]; destruct C; subst; auto. }
  induction l as [|x l IH]; intros F l' s s'.
  - destruct l' as [|y l']; cbn [map join app]; [now intros [= ->]|]. intro E. symmetry in E. now apply NE in E.
  - destruct l' as [|y l']; [intro E; now apply NE in E|].
    destruct l as [|x2 l], l' as [|y2 l']; cbn [map join].
    + intro E. destruct (F x (or_introl eq_refl) y _ _ (E0 _) (E0 _) E) as [-> [= ->]]. auto.
    + rewrite <- !app_assoc. intro E. destruct (F x (or_introl eq_refl) y _ _ (E0 _) (comma_ends _) E) as [_ E']. exfalso. injection E' as E' _. now destruct C; subst.
    + rewrite <- !app_assoc. intro E. destruct (F x (or_introl eq_refl) y _ _ (comma_ends _) (E0 _) E) as [_ E']. exfalso. injection E' as E' _. now destruct C; subst.
    + rewrite <- !app_assoc. intro E. destruct (F x (or_introl eq_refl) y _ _ (comma_ends _) (comma_ends _) E) as [-> E'].
      apply app_inv_head in E'. destruct (IH (fun z Hz => F z (or_intror Hz)) (y2 :: l') s s' E') as [-> ->]. auto.
Qed.

(** A word of such characters goes up to the end. *)
Lemma word_ends w w' u u' : forallb float_char w = true -> forallb float_char w' = true -> ends u -> ends u' -> w ++ u = w' ++ u' -> w = w' /\ u = u'.
Proof.
  assert (X : forall c t, ends (c :: t) -> float_char c = false).
  { intros c t [H|(d & t' & [= <- <-] & [-> | [-> | ->]])]; [discriminate| | |]; reflexivity. }
  revert w'. induction w as [|c w IH]; intros [|c' w'] W W' U U'; cbn [app].
  - auto.
  - intros ->. cbn in W'. apply andb_true_iff in W' as [W' _]. now rewrite (X _ _ U) in W'.
  - intros <-. cbn in W. apply andb_true_iff in W as [W _]. now rewrite (X _ _ U') in W.
  - cbn in W, W'. apply andb_true_iff in W as [_ W], W' as [_ W']. intros [= -> E]. destruct (IH w' W W' U U' E) as [-> ->]. auto.
Qed.

(** ** Values *)

Section Floats.
  Variable f : Z -> str.
  Hypothesis F : float_texts f.

  Lemma print_int_word n : forallb float_char (print_int n) = true /\ print_int n <> [].
  Proof.
    split.
    - apply forallb_forall. intros c H. destruct (is_digit c) eqn:D; unfold float_char; [now rewrite D|].
      destruct (ascii_dec c "-"%char) as [->|N]; [reflexivity|]. now destruct (int_chars c n D N).
    - intro E. pose proof (parse_print_int n) as P. rewrite E in P. discriminate.
  Qed.
  Fixpoint vsize (v : pyval) : nat :=
    match v with
    | VList l => S (fold_right (fun x n => vsize x + n) 0 l)
    | VDict d => S (fold_right (fun x n => vsize (snd x) + n) 0 d)
    | _ => 1
    end%nat.
  Lemma py_begins : begins (py_repr f).
  Proof.
    assert (W : forall w, forallb float_char w = true -> w <> [] -> exists h t, w = h :: t /\ h <> "]"%char /\ h <> "}"%char).
    { intros [|h t] H N; [easy|]. cbn in H. apply andb_true_iff in H as [H _]. exists h, t. repeat split; intros ->; discriminate. }
    intros [s|n|t| |l|d]; cbn [py_repr].
    - destruct (repr_str_head s) as (h & t & E & [-> | ->]); do 2 eexists; (split; [exact E|split; discriminate]).
    - apply W; apply print_int_word.
    - apply W; apply F.
    - do 2 eexists; (split; [reflexivity|split; discriminate]).
    - do 2 eexists; (split; [reflexivity|split; discriminate]).
    - do 2 eexists; (split; [reflexivity|split; discriminate]).
  Qed.
  Definition entry (kv : str * pyval) : str := repr_str (fst kv) ++ $": " ++ py_repr f (snd kv).
  Lemma entry_begins : begins entry.
  Proof.
    intros [k v]. unfold entry. cbn [fst snd]. destruct (repr_str_head k) as (h & t & E & H). rewrite E. cbn [app].
    do 2 eexists. split; [reflexivity|]. destruct H as [-> | ->]; split; discriminate.
  Qed.
  Lemma entry_code k v : code (py_repr f) v -> code entry (k, v).
  Proof.
    intros C [k' v'] u u' U U'. unfold entry. cbn [fst snd]. rewrite <- !app_assoc. intro E. apply repr_str_inj in E as [-> E].
    apply app_inv_head in E. destruct (C v' u u' U U' E) as [-> ->]. auto.
  Qed.
  Definition word_of (v : pyval) : bool := match v with VInt _ | VFloat _ => true | _ => false end.
  Lemma word_text v : word_of v = true -> forallb float_char (py_repr f v) = true.
  Proof. destruct v; try discriminate; intros _; [apply print_int_word|apply F]. Qed.
  Lemma word_head v c s : word_of v = true -> float_char c = false -> forall u, py_repr f v ++ u <> c :: s.
  Proof.
    intros W C u E. pose proof (word_text v W) as T. destruct (py_begins v) as (h & t & H & _). rewrite H in *. cbn in E, T. injection E as -> _.
    now rewrite C in T.
  Qed.
  Lemma other_head v : word_of v = false -> exists c s, py_repr f v = c :: s /\ float_char c = false.
  Proof.
    destruct v as [s|n|t| |l|d]; intros W; try discriminate; cbn [py_repr].
    - destruct (repr_str_head s) as (h & t & E & [-> | ->]); do 2 eexists; (split; [exact E|reflexivity]).
    - do 2 eexists; split; reflexivity.
    - do 2 eexists; split; reflexivity.
    - do 2 eexists; split; reflexivity.
  Qed.
  Lemma fold_in {X} (g : X -> nat) x l : In x l -> (g x <= fold_right (fun y n => g y + n) 0 l)%nat.
  Proof. induction l as [|y l IH]; cbn; [easy|]. intros [->|H]; [lia|]. specialize (IH H). lia. Qed.

  Lemma value_code n : forall v, (vsize v <= n)%nat -> code (py_repr f) v.
  Proof.
    induction n as [|n IH]; intros v S; [destruct v; cbn in S; lia|]. intros w u u' U U' E.
    destruct (word_of v) eqn:Wv, (word_of w) eqn:Ww.
    - destruct (word_ends _ _ u u' (word_text v Wv) (word_text w Ww) U U' E) as [E1 ->]. split; auto.
      destruct v, w; try discriminate; cbn [py_repr] in E1.
      + f_equal. now apply print_int_inj.
      + symmetry in E1. now apply F in E1.
      + now apply F in E1.
      + f_equal. now apply F.
    - destruct (other_head w Ww) as (c & s & H & C). rewrite H in E. now apply (word_head v c _ Wv C) in E.
    - destruct (other_head v Wv) as (c & s & H & C). rewrite H in E. symmetry in E. now apply (word_head w c _ Ww C) in E.
    - destruct v as [s|m|t| |l|d], w as [s'|m'|t'| |l'|d']; try discriminate; cbn [py_repr] in E.
      + apply repr_str_inj in E as [-> ->]. auto.
      + destruct (repr_str_head s) as (h & t & H & Q). rewrite H in E. injection E as E _. subst h. destruct Q; discriminate.
      + destruct (repr_str_head s) as (h & t & H & Q). rewrite H in E. injection E as E _. subst h. destruct Q; discriminate.
      + destruct (repr_str_head s) as (h & t & H & Q). rewrite H in E. injection E as E _. subst h. destruct Q; discriminate.
      + destruct (repr_str_head s') as (h & t & H & Q). rewrite H in E. injection E as E _. subst h. destruct Q; discriminate.
      + apply app_inv_head in E. auto.
      + destruct (repr_str_head s') as (h & t & H & Q). rewrite H in E. injection E as E _. subst h. destruct Q; discriminate.
      + rewrite <- !app_assoc in E. apply app_inv_head in E. apply (joined (py_repr f) "]"%char py_begins) in E as [-> ->]; auto.
        intros x Hx. apply IH. cbn in S. pose proof (fold_in vsize x l Hx). lia.
      + destruct (repr_str_head s') as (h & t & H & Q). rewrite H in E. injection E as E _. subst h. destruct Q; discriminate.
      + rewrite <- !app_assoc in E. apply app_inv_head in E. apply (joined entry "}"%char entry_begins) in E as [-> ->]; auto.
        intros [k x] Hx. apply entry_code, IH. cbn in S. pose proof (fold_in (fun y => vsize (snd y)) (k, x) d Hx). cbn in *. lia.
  Qed.
  Lemma repr_inj v w : py_repr f v = py_repr f w -> v = w.
  Proof.
    intro E. apply (value_code (vsize v) v (le_n _) w [] []); try (now left). now rewrite E.
  Qed.

  (** ** Resources *)

  Definition given_slots (l : list (str * option pyval)) : list (str * pyval) :=
    flat_map (fun av => match snd av with Some v => [(fst av, v)] | None => [] end) l.
  Lemma repr_is_dict r x : resource_repr f r x = py_repr f (VDict (given_slots (slots r x))).
  Proof.
    unfold resource_repr. cbn [py_repr]. do 3 f_equal. generalize (slots r x). induction l as [|[k [v|]] l IH]; [reflexivity| |exact IH].
    exact (f_equal (cons (entry (k, v))) IH).
  Qed.
  Lemma given_in k v l : In (k, v) (given_slots l) -> In k (map fst l).
  Proof. unfold given_slots. intro H. apply in_flat_map in H as ([k' [v'|]] & I & J); cbn in J; [|easy]. destruct J as [[= -> ->]|[]]. now apply (in_map fst) in I. Qed.
  Lemma given_inj l : forall l', NoDup (map fst l) -> map fst l = map fst l' -> given_slots l = given_slots l' -> l = l'.
  Proof.
    induction l as [|[k o] l IH]; intros [|[k' o'] l'] N M E; try discriminate; auto. cbn in N, M. inversion N as [|? ? N1 N2]; subst. injection M as <- M.
    destruct o as [v|], o' as [v'|]; cbn in E.
    - injection E as -> E. f_equal. auto.
    - exfalso. apply N1. rewrite M. apply (given_in k v). unfold given_slots. rewrite <- E. now left.
    - exfalso. apply N1. apply (given_in k v'). unfold given_slots. rewrite E. now left.
    - f_equal. auto.
  Qed.
  Lemma of_pv_inj a b : of_pv a = of_pv b -> a = b.
  Proof. destruct a, b; cbn; congruence. Qed.
  Lemma map_inj {X Y} (g : X -> Y) : (forall a b, g a = g b -> a = b) -> forall l l', map g l = map g l' -> l = l'.
  Proof. intros G. induction l as [|a l IH]; intros [|b l']; cbn; try discriminate; auto. intros [= A B]. f_equal; auto. Qed.
  Lemma of_link_inj a b : of_link a = of_link b -> a = b.
  Proof. unfold of_link. intros [= E]. revert E. apply map_inj. intros [k v] [k' v']. cbn. intros [= -> E]. f_equal. now apply of_pv_inj. Qed.
  Lemma some_inj {X Y} (g : X -> Y) : (forall a b, g a = g b -> a = b) -> forall o o', option_map g o = option_map g o' -> o = o'.
  Proof. intros G [a|] [b|]; cbn; try discriminate; auto. intros [= E]. f_equal. auto. Qed.
  Lemma links_inj (a b : list link) : VList (map of_link a) = VList (map of_link b) -> a = b.
  Proof. intros [= E]. revert E. apply map_inj, of_link_inj. Qed.
  Lemma unambiguous r r' x x' : resource_repr f r x = resource_repr f r' x' -> same_slots r r' /\ x = x'.
  Proof.
    rewrite !repr_is_dict. intro E. apply repr_inj in E. apply (f_equal (fun v => match v with VDict d => d | _ => [] end)) in E.
    change (given_slots (slots r x) = given_slots (slots r' x')) in E. apply given_inj in E; [| |reflexivity].
    - assert (A : forall k, option_map snd (nth_error (slots r x) k) = option_map snd (nth_error (slots r' x') k)) by now rewrite E.
      assert (B : forall k o o', option_map snd (nth_error (slots r x) k) = Some o -> option_map snd (nth_error (slots r' x') k) = Some o' -> o = o').
      { intros k o o' H H'. specialize (A k). congruence. }
      assert (Si : forall a b, VStr a = VStr b -> a = b) by congruence. assert (Fi : forall a b, VFloat a = VFloat b -> a = b) by congruence.
      assert (Ii : forall a b, VInt a = VInt b -> a = b) by congruence. assert (Di : forall a b, VDict a = VDict b -> a = b) by congruence.
      unfold same_slots.
      assert (U : Some (r_uri r) = Some (r_uri r')) by (apply (some_inj VStr Si), (B 0%nat); reflexivity). injection U as U.
      repeat split; auto.
      + apply (some_inj _ Fi), (B 1%nat); reflexivity.
      + apply (some_inj _ Ii), (B 2%nat); reflexivity.
      + apply (some_inj _ Si), (B 3%nat); reflexivity.
      + apply (some_inj _ Si), (B 4%nat); reflexivity.
      + apply (some_inj _ Si), (B 5%nat); reflexivity.
      + apply (some_inj _ Si), (B 6%nat); reflexivity.
      + apply (some_inj _ Si), (B 7%nat); reflexivity.
      + apply (some_inj _ Fi), (B 8%nat); reflexivity.
      + apply (some_inj _ Si), (B 9%nat); reflexivity.
      + apply (some_inj _ links_inj), (B 10%nat); reflexivity.
      + apply (some_inj _ Di), (B 11%nat); reflexivity.
    - unfold slots. cbn [map fst]. repeat (constructor; [intro H; repeat (destruct H as [H|H]; [now vm_compute in H|]); exact H|]). constructor.
  Qed.
End Floats.

(** Texts like those of floats. *)
Definition point_floats (t : Z) : str := print_int t ++ $".".
Lemma point_floats_ok : float_texts point_floats.
Proof.
  unfold point_floats. split.
  - intros t t' E. apply app_inv_tail in E. now apply print_int_inj.
  - intro t. destruct (print_int_word t) as [W N]. repeat split.
    + destruct (print_int t); [easy|discriminate].
    + rewrite forallb_app, W. reflexivity.
    + intros n E. apply (int_chars "."%char n); [reflexivity|discriminate|]. rewrite <- E. apply in_or_app. right. now left.
Qed.
