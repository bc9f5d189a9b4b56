(** * TextFacts: what can be told from the text of a resource *)

From Verif Require Import Py PyFacts W3C Resource Opener ListIndex ListIndexFacts Hashes ClientState Client Build StatusLine TextSpec.

Lemma no_space_app a b : no_space a -> no_space b -> no_space (a ++ b).
Proof. intros A B I. apply in_app_or in I as [I|I]; [apply A|apply B]; exact I. Qed.
Lemma no_space_cons c a : c <> " "%char -> no_space a -> no_space (c :: a).
Proof. intros C A [I|I]; [now apply C|now apply A]. Qed.
Lemma no_space_pad k n : no_space (print_pad k n).
Proof. intro I. apply print_pad_digit in I. discriminate. Qed.
Lemma pad_starts k n : (0 < k)%nat -> exists c s, print_pad k n = c :: s /\ is_digit c = true.
Proof.
  intro K. destruct (print_pad k n) as [|c s] eqn:E.
  - exfalso. pose proof (f_equal (@List.length ascii) E) as L. unfold print_pad in L.
    assert (forall j m, List.length (fixed_digits j m) = j) as F
      by (induction j; intro m; cbn; auto; rewrite app_length, IHj; cbn; lia).
    rewrite F in L. cbn in L. lia.
  - exists c, s. split; auto. apply (print_pad_digit k n). rewrite E. now left.
Qed.
Lemma date_text t s : datetime_to_str false t = Ok s -> no_space s /\ exists c s', s = c :: s' /\ is_digit c = true.
Proof.
  unfold datetime_to_str. destruct (split_timestamp _) as [secs us]. unfold isoformat.
  destruct (_ && _); [|discriminate]. destruct (ord2ymd _) as [[y m] d]. intros [= <-]. split.
  - apply no_space_app; [|cbv; intuition discriminate]. destruct (us =? 0);
      repeat match goal with
        | |- no_space (_ ++ _) => apply no_space_app
        | |- no_space (print_pad _ _) => apply no_space_pad
        | |- no_space (_ :: _) => apply no_space_cons; [discriminate|]
        | |- no_space [] => exact (fun I => I)
        end.
  - destruct (pad_starts 4 y) as (c & s & E & D); [lia|]. rewrite E. cbn [app]. eauto.
Qed.

Definition date_or_none (o : option str) : Prop := match o with None => True | Some s => exists t, datetime_to_str false t = Ok s end.
Lemma get_dt_text t o : get_dt t = Ok o -> date_or_none o.
Proof.
  unfold get_dt, date_or_none. destruct t as [t|]; [|now intros [= <-]].
  destruct (datetime_to_str false t) eqn:E; cbn [bind]; [|discriminate]. intros [= <-]. exists t. exact E.
Qed.
Lemma date_spaceless o : date_or_none o -> no_space (str_or_none o).
Proof.
  unfold date_or_none, str_or_none. destruct o; [intros [t H]; apply date_text in H; apply H|].
  intros _. cbv. intuition discriminate.
Qed.
Lemma date_same o o' : date_or_none o -> date_or_none o' -> str_or_none o = str_or_none o' -> o = o'.
Proof.
  unfold date_or_none, str_or_none. destruct o as [s|], o' as [s'|]; [|..|reflexivity].
  - now intros _ _ ->.
  - intros [t H] _ ->. apply date_text in H as [_ (c & x & [= <- <-] & D)]. discriminate.
  - intros _ [t H] <-. apply date_text in H as [_ (c & x & [= <- <-] & D)]. discriminate.
Qed.

Definition length_text (o : option Z) : str := match o with Some n => print_int n | None => $"None" end.
Lemma length_spaceless o : no_space (length_text o).
Proof. destruct o; [apply int_chars; [reflexivity|discriminate]|cbv; intuition discriminate]. Qed.
Lemma length_same o o' : length_text o = length_text o' -> o = o'.
Proof.
  destruct o as [n|], o' as [n'|]; cbn [length_text]; auto; intro E.
  - pose proof (parse_print_int n) as A. rewrite E, parse_print_int in A. congruence.
  - exfalso. pose proof (parse_print_int n) as A. rewrite E in A. vm_compute in A. discriminate.
  - exfalso. pose proof (parse_print_int n') as A. rewrite <- E in A. vm_compute in A. discriminate.
Qed.

Definition rest_text (change : list str) (path : option str) : str :=
  match change ++ match path with Some p => [p] | None => [] end with
  | [] => $" ]"
  | l => $" | " ++ join $" | " l ++ $" ]"
  end.
Lemma rest_starts change path : exists x, rest_text change path = " "%char :: x.
Proof. unfold rest_text. destruct (change ++ _); eexists; cbn [app]; reflexivity. Qed.

Lemma text_parts r s : resource_str r = Ok s -> exists lastmod change,
  get_dt (r_timestamp r) = Ok lastmod /\
  match r_change r with
  | None => change = []
  | Some ch => exists dt, get_dt (r_ts_datetime r) = Ok dt /\ change = [ch ++ match dt with Some s => $" @ " ++ s | None => [] end]
  end /\
  s = $"[ " ++ r_uri r ++ $" | " ++ str_or_none lastmod ++ $" | " ++ length_text (r_length r) ++ $" | "
      ++ str_or_none (digest_shown r) ++ rest_text change (r_path r).
Proof.
  unfold resource_str. destruct (get_dt (r_timestamp r)) as [lastmod|] eqn:G; cbn [bind]; [|discriminate]. intro H.
  assert (forall change, Ok s = Ok ($"[ " ++ join $" | " ([r_uri r; str_or_none lastmod; length_text (r_length r);
      match r_md5 r with Some (x :: s) => x :: s | _ => match r_sha1 r with Some (x :: s) => x :: s | _ => str_or_none (r_sha256 r) end end]
      ++ change ++ match r_path r with Some p => [p] | None => [] end) ++ $" ]") ->
    s = $"[ " ++ r_uri r ++ $" | " ++ str_or_none lastmod ++ $" | " ++ length_text (r_length r) ++ $" | "
      ++ str_or_none (digest_shown r) ++ rest_text change (r_path r)) as K.
  { intros change [= ->]. unfold rest_text.
    assert (match r_md5 r with Some (x :: s) => x :: s | _ => match r_sha1 r with Some (x :: s) => x :: s | _ => str_or_none (r_sha256 r) end end
            = str_or_none (digest_shown r)) as ->.
    { unfold digest_shown. destruct (r_md5 r) as [[|]|], (r_sha1 r) as [[|]|]; reflexivity. }
    destruct (change ++ _) as [|x l]; cbn [app join]; repeat first [rewrite <- app_assoc | progress cbn [app]]; reflexivity. }
  destruct (r_change r) as [ch|].
  - destruct (get_dt (r_ts_datetime r)) as [dt|] eqn:D; cbn [bind] in H; [|discriminate].
    exists lastmod, [ch ++ match dt with Some s => $" @ " ++ s | None => [] end]. split; auto. split; [eauto|]. apply K. symmetry. exact H.
  - cbn [bind] in H. exists lastmod, []. split; [auto|]. split; [auto|]. apply K. symmetry. exact H.
Qed.

Lemma digest_one r d : digest_shown r = Some d -> In (Some d) [r_md5 r; r_sha1 r; r_sha256 r].
Proof.
  unfold digest_shown. cbn [In].
  destruct (r_md5 r) as [[|c m]|], (r_sha1 r) as [[|c' m']|]; intro E; rewrite <- ?E; auto.
Qed.
Lemma digest_spaceless r : spaceless r -> no_space (str_or_none (digest_shown r)).
Proof.
  intros [_ S]. destruct (digest_shown r) as [d|] eqn:E; [|cbv; intuition discriminate].
  apply (S d). now apply digest_one.
Qed.
Lemma digest_not_none r d : spaceless r -> digest_shown r = Some d -> d <> $"None".
Proof. intros [_ S] E. apply (S d). now apply digest_one. Qed.

Lemma same_parts r r' s : spaceless r -> spaceless r' -> resource_str r = Ok s -> resource_str r' = Ok s ->
  r_uri r = r_uri r' /\ get_dt (r_timestamp r) = get_dt (r_timestamp r') /\ r_length r = r_length r' /\ digest_shown r = digest_shown r'
  /\ exists change change',
    match r_change r with
    | None => change = []
    | Some ch => exists dt, get_dt (r_ts_datetime r) = Ok dt /\ change = [ch ++ match dt with Some s => $" @ " ++ s | None => [] end]
    end /\
    match r_change r' with
    | None => change' = []
    | Some ch => exists dt, get_dt (r_ts_datetime r') = Ok dt /\ change' = [ch ++ match dt with Some s => $" @ " ++ s | None => [] end]
    end /\
    rest_text change (r_path r) = rest_text change' (r_path r').
Proof.
  intros S S' H H'. apply text_parts in H as (l & c & G & C & ->). apply text_parts in H' as (l' & c' & G' & C' & E).
  pose proof (get_dt_text _ _ G) as D. pose proof (get_dt_text _ _ G') as D'.
  apply app_inv_head in E. cbn [app] in E.
  apply before_char in E as [E1 E]; [|exact (proj1 S)|exact (proj1 S')]. injection E as E.
  apply before_char in E as [E2 E]; try now apply date_spaceless. injection E as E.
  apply before_char in E as [E3 E]; try apply length_spaceless. injection E as E.
  destruct (rest_starts c (r_path r)) as [x X], (rest_starts c' (r_path r')) as [x' X']. rewrite X, X' in E.
  apply before_char in E as [E4 E]; try now apply digest_spaceless.
  repeat split.
  - auto.
  - rewrite G, G'. f_equal. now apply date_same.
  - now apply length_same.
  - destruct (digest_shown r) as [d|] eqn:P, (digest_shown r') as [d'|] eqn:P'; cbn [str_or_none] in E4; subst; auto.
    + now destruct (digest_not_none r _ S P).
    + now destruct (digest_not_none r' _ S' P').
  - exists c, c'. split; [exact C|]. split; [exact C'|]. rewrite X, X'. now f_equal.
Qed.

Lemma same_version r r' s : spaceless r -> spaceless r' -> resource_str r = Ok s -> resource_str r' = Ok s ->
  r_uri r = r_uri r' /\ get_dt (r_timestamp r) = get_dt (r_timestamp r') /\ r_length r = r_length r' /\ digest_shown r = digest_shown r'.
Proof. intros. destruct (same_parts r r' s) as (A & B & C & D & _); auto. Qed.

Lemma change_date ch dt ch' dt' : no_space ch -> no_space ch' -> date_or_none dt -> date_or_none dt' ->
  ch ++ match dt with Some s => $" @ " ++ s | None => [] end ++ $" ]" =
  ch' ++ match dt' with Some s => $" @ " ++ s | None => [] end ++ $" ]" -> ch = ch' /\ dt = dt'.
Proof.
  intros N N' D D' E. destruct dt as [d|], dt' as [d'|]; cbn [app] in E; apply before_char in E as [-> E]; auto; split; auto.
  - injection E as E. f_equal. now apply before_char in E as [E _]; [|apply (date_spaceless (Some d))|apply (date_spaceless (Some d'))].
  - discriminate.
  - discriminate.
Qed.

Lemma same_change r r' s : spaceless r -> spaceless r' -> resource_str r = Ok s -> resource_str r' = Ok s ->
  r_path r = None -> r_path r' = None ->
  (forall ch, r_change r = Some ch -> no_space ch) -> (forall ch, r_change r' = Some ch -> no_space ch) ->
  r_change r = r_change r' /\ (r_change r <> None -> get_dt (r_ts_datetime r) = get_dt (r_ts_datetime r')).
Proof.
  intros S S' H H' P P' N N'. destruct (same_parts r r' s) as (_ & _ & _ & _ & c & c' & C & C' & E); auto.
  rewrite P, P' in E. unfold rest_text in E. rewrite !app_nil_r in E.
  destruct (r_change r) as [ch|], (r_change r') as [ch'|].
  - destruct C as (dt & G & ->), C' as (dt' & G' & ->). cbn [join] in E. apply app_inv_head in E. rewrite <- !app_assoc in E.
    apply change_date in E as [-> ->]; auto; [|eapply get_dt_text; eassumption|eapply get_dt_text; eassumption].
    split; auto. congruence.
  - destruct C as (dt & G & ->). subst. discriminate.
  - destruct C' as (dt & G & ->). subst. discriminate.
  - split; [reflexivity|congruence].
Qed.
