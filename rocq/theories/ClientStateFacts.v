From Verif Require Import Py PyFacts Float64 ClientState ClientStateSpec.

(** ** Characters *)

Lemma all_chars (P : ascii -> bool) :
  forallb (fun n => P (ascii_of_nat n)) (seq 0 256) = true -> forall c, P c = true.
Proof.
  intros H c. rewrite forallb_forall in H.
  specialize (H (nat_of_ascii c)). rewrite ascii_nat_embedding in H. apply H.
  apply in_seq. pose proof (nat_ascii_bounded c). lia.
Qed.

Lemma number_char_facts c : number_char c ->
  is_space c = false /\ c <> nl /\ c <> "%"%char.
Proof.
  intros [D | I].
  - split; [now apply is_digit_not_space|].
    split; intros ->; discriminate D.
  - repeat (destruct I as [<- | I]; [split; [reflexivity | split; discriminate]|]). destruct I.
Qed.

Lemma word_char_facts c : is_word c = true ->
  is_space c = false /\ c <> nl /\ c <> "["%char /\ c <> "#"%char /\ c <> ";"%char
  /\ c <> "="%char /\ c <> ":"%char.
Proof.
  intros W.
  assert (E := all_chars (fun c => negb (is_word c) || negb (is_space c)) ltac:(vm_compute; reflexivity) c).
  cbn beta in E. rewrite W in E. cbn in E. apply negb_true_iff in E. split; [exact E|].
  repeat split; intros ->; discriminate W.
Qed.

Lemma lower_word c : is_word c = true -> is_word (lower_c c) = true.
Proof.
  intros W.
  assert (E := all_chars (fun c => negb (is_word c) || is_word (lower_c c)) ltac:(vm_compute; reflexivity) c).
  cbn beta in E. now rewrite W in E.
Qed.
Lemma lower_idem c : lower_c (lower_c c) = lower_c c.
Proof.
  apply ceqb_eq.
  exact (all_chars (fun c => ceqb (lower_c (lower_c c)) (lower_c c)) ltac:(vm_compute; reflexivity) c).
Qed.

Definition name_char (c : ascii) : Prop := is_word c = true /\ lower_c c = c.
Definition site_name (site : str) : str := lower (config_site_to_name site).

Lemma site_name_chars site : Forall name_char (site_name site).
Proof.
  unfold site_name, lower, config_site_to_name. rewrite map_map.
  apply Forall_forall. intros x H. apply in_map_iff in H as [c [<- _]].
  destruct (is_word c) eqn:W.
  - split; [now apply lower_word | apply lower_idem].
  - split; reflexivity.
Qed.
Lemma site_name_nonempty site : site <> [] -> site_name site <> [].
Proof. destruct site; [congruence | discriminate]. Qed.
Lemma lower_name n : Forall name_char n -> lower n = n.
Proof. induction 1 as [|c n [_ H] _ IH]; [reflexivity|]. cbn. unfold lower in IH. now rewrite H, IH. Qed.

(** ** Whitespace *)

Lemma drop_space_stop c s : is_space c = false -> drop_space (c :: s) = c :: s.
Proof. intros H. cbn. now rewrite H. Qed.
Lemma strip_ws_drop s : strip_ws s = rev (drop_space (rev (drop_space s))).
Proof. reflexivity. Qed.
Lemma strip_ws_ends a m b : is_space a = false -> is_space b = false ->
  strip_ws (a :: m ++ [b]) = a :: m ++ [b].
Proof.
  intros A B. rewrite strip_ws_drop, (drop_space_stop a) by exact A.
  change (rev (a :: m ++ [b])) with (rev (m ++ [b]) ++ [a]).
  rewrite rev_app_distr. cbn [rev app]. rewrite (drop_space_stop b) by exact B.
  cbn [rev]. rewrite rev_app_distr. cbn. rewrite rev_involutive. reflexivity.
Qed.
Lemma rstrip_ws_end m b : is_space b = false -> rstrip_ws (m ++ [b]) = m ++ [b].
Proof.
  intros B. unfold rstrip_ws. rewrite rev_app_distr. cbn [rev app].
  rewrite drop_space_stop by exact B. cbn [rev]. now rewrite rev_involutive.
Qed.
Lemma rstrip_ws_space m c : is_space c = true -> rstrip_ws (m ++ [c]) = rstrip_ws m.
Proof. intros H. unfold rstrip_ws. rewrite rev_app_distr. cbn. now rewrite H. Qed.

(** ** Options as the code writes them *)

Definition name_ok (n : str) : Prop := n <> [] /\ Forall name_char n.
(** A value may be empty: see what a killed process leaves in StateCut.v. *)
Definition value_ok (v : str) : Prop := Forall number_char v.
Definition opts_ok (o : list (str * str)) : Prop :=
  NoDup (dkeys o) /\ Forall (fun p => name_ok (fst p) /\ value_ok (snd p)) o.

Lemma name_split n : name_ok n -> exists c n', n = c :: n' /\ name_char c /\ Forall name_char n'.
Proof. intros [N F]. destruct F as [|c n' H F]; [congruence | eauto]. Qed.
Lemma value_last v : value_ok v -> v = [] \/ exists v' c, v = v' ++ [c] /\ number_char c /\ Forall number_char v'.
Proof.
  intros F. destruct v as [|x v]; [now left|right]. destruct (exists_last (l := x :: v)) as [v' [c E]]; [discriminate|]. rewrite E in *.
  apply Forall_app in F as [F G]. inversion G as [|? ? H _]; subst. eauto.
Qed.
Lemma name_no_nl n : Forall name_char n -> ~ In nl n.
Proof.
  intros F H. rewrite Forall_forall in F. apply F in H as [H _].
  apply word_char_facts in H as (_ & H & _). congruence.
Qed.
Lemma value_no_nl v : Forall number_char v -> ~ In nl v.
Proof.
  intros F H. rewrite Forall_forall in F. apply F in H.
  apply number_char_facts in H as (_ & H & _). congruence.
Qed.
Lemma value_indent v : Forall number_char v -> indent_value v = v.
Proof. intros F. unfold indent_value. rewrite split_on_no by now apply value_no_nl. reflexivity. Qed.

Definition opt_line (p : str * str) : str := fst p ++ $" = " ++ snd p.

Lemma lit_eq : $" = " = [" "%char; "="%char; " "%char].
Proof. reflexivity. Qed.

Lemma split_name n rest : Forall name_char n -> split_delim (n ++ [" "; "="]%char ++ rest) = Some (n ++ [" "%char], rest).
Proof.
  induction n as [|x l IH]; intros F; [reflexivity|].
  inversion F as [|? ? [X _] F']; subst.
  destruct (word_char_facts x X) as (_ & _ & _ & _ & _ & A & B).
  cbn [app split_delim]. apply ceqb_neq in A, B. rewrite A, B. cbn [orb].
  cbn [app] in IH. now rewrite IH.
Qed.
Lemma name_strip n : name_ok n -> rstrip_ws (n ++ [" "%char]) = n.
Proof.
  intros [NE N]. rewrite (rstrip_ws_space _ " "%char) by reflexivity.
  destruct (exists_last NE) as [m [x ->]].
  assert (X : is_space x = false).
  { apply Forall_app in N as [_ N]. inversion N as [|? ? [W _] _]; subst. now apply word_char_facts in W. }
  now apply rstrip_ws_end.
Qed.
Lemma value_strip v : value_ok v -> strip_ws (" "%char :: v) = v.
Proof.
  intros V. rewrite strip_ws_drop. cbn [drop_space]. change (is_space " ") with true. cbn iota.
  destruct (value_last v V) as [->|(v' & d & -> & D & V')]; [reflexivity|].
  destruct (number_char_facts d D) as (T1 & T2 & _).
  assert (L : drop_space (v' ++ [d]) = v' ++ [d]).
  { destruct v' as [|y v'']; cbn [app].
    - now apply drop_space_stop.
    - apply drop_space_stop. inversion V' as [|? ? Y _]; subst. now apply number_char_facts in Y. }
  rewrite L. exact (rstrip_ws_end v' d T1).
Qed.
Lemma opt_line_strip p : name_ok (fst p) -> value_ok (snd p) ->
  indent_of (opt_line p) = O
  /\ ~ In nl (opt_line p) /\ header_of (strip_ws (opt_line p)) = None
  /\ (exists c t, strip_ws (opt_line p) = c :: t /\ c <> "#"%char /\ c <> ";"%char)
  /\ option_of (strip_ws (opt_line p)) = Some (fst p, snd p).
Proof.
  destruct p as [n v]. cbn [fst snd]. intros N V. unfold opt_line. cbn [fst snd]. rewrite lit_eq.
  destruct (name_split n N) as (c & n' & En & C & N').
  destruct C as [C LC].
  destruct (word_char_facts c C) as (S1 & S2 & S3 & S4 & S5 & S6 & S7).
  assert (E : exists w, strip_ws (n ++ [" "; "="; " "]%char ++ v) = n ++ [" "; "="]%char ++ w /\ strip_ws w = v).
  { destruct (value_last v V) as [->|(v' & d & -> & D & V')].
    - exists []. split; [|reflexivity]. rewrite strip_ws_drop, En. cbn [app]. rewrite (drop_space_stop c) by exact S1.
      change (c :: n' ++ [" "; "="; " "]%char) with ((c :: n') ++ [" "; "="; " "]%char).
      replace ((c :: n') ++ [" "; "="; " "]%char) with (((c :: n') ++ [" "; "="]%char) ++ [" "%char]) by (rewrite <- app_assoc; reflexivity).
      rewrite rev_app_distr. cbn [rev app drop_space]. change (is_space " ") with true. cbn iota.
      rewrite (rev_app_distr n'). cbn [rev app]. rewrite drop_space_stop by reflexivity.
      cbn [rev]. rewrite rev_app_distr, rev_involutive, <- !app_assoc. reflexivity.
    - exists (" "%char :: v' ++ [d]). split; [|now apply value_strip]. destruct (number_char_facts d D) as (T1 & T2 & _).
      rewrite En. replace ((c :: n') ++ [" "; "="; " "]%char ++ v' ++ [d]) with (c :: (n' ++ [" "; "="; " "]%char ++ v') ++ [d]) by (cbn; now rewrite <- app_assoc).
      rewrite strip_ws_ends by assumption. cbn. now rewrite <- app_assoc. }
  destruct E as (w & E & W). rewrite E.
  split; [rewrite En; cbn; now rewrite S1|].
  split.
  { rewrite !in_app_iff. intros [H|[H|H]].
    - revert H. apply name_no_nl. now destruct N.
    - repeat (destruct H as [H|H]; [discriminate H|]). destruct H.
    - revert H. now apply value_no_nl. }
  split.
  { rewrite En. cbn. destruct c as [[] [] [] [] [] [] [] []]; try reflexivity. now contradiction S3. }
  split; [rewrite En; exists c; eexists; split; [reflexivity | now split]|].
  unfold option_of. rewrite split_name by apply N. rewrite name_strip by exact N. now rewrite W.
Qed.

(** ** Reading what was written *)

Lemma split_lines ls : Forall (fun l : str => ~ In nl l) ls ->
  file_lines (List.concat (map (fun l => l ++ [nl]) ls)) = ls.
Proof.
  intros F.
  assert (E : split_on nl (List.concat (map (fun l => l ++ [nl]) ls)) = ls ++ [[]]).
  { induction F as [|l ls H F IH]; [reflexivity|].
    cbn [map List.concat]. rewrite <- app_assoc. cbn [app].
    rewrite split_on_app by exact H. now rewrite IH. }
  unfold file_lines. rewrite E, last_last, removelast_last. reflexivity.
Qed.

Lemma section_lines name o : Forall (fun p => value_ok (snd p)) o ->
  section_text name o
  = List.concat (map (fun l => l ++ [nl]) (($"[" ++ name ++ $"]") :: map opt_line o ++ [[]])).
Proof.
  intros F. unfold section_text. cbn [map List.concat]. rewrite <- !app_assoc. do 4 f_equal.
  rewrite map_app, concat_app. cbn [map List.concat app]. f_equal.
  induction F as [|p o V F IH]; [reflexivity|].
  cbn [map List.concat]. rewrite IH, value_indent by exact V. unfold opt_line.
  rewrite <- !app_assoc. reflexivity.
Qed.

(** The state after the header and the options [d]. *)
Definition lines_of (d : list (str * str)) : list (str * list str) :=
  map (fun p => (fst p, [snd p])) d.
Definition after (d : list (str * str)) : reading :=
  MkReading [] [(INCREMENTAL, lines_of d)] (Some INCREMENTAL)
    (match rev d with [] => None | p :: _ => Some (fst p) end) O
    (rev (map (fun p => (INCREMENTAL, fst p)) d)) false.

Lemma read_header :
  read_line ($"[" ++ INCREMENTAL ++ $"]") (MkReading [] [] None None O [] false) = Ok (after []).
Proof. vm_compute. reflexivity. Qed.

Lemma in_pairs_false s n d : ~ In n (dkeys d) ->
  in_pairs (s, n) (rev (map (fun p : str * str => (s, fst p)) d)) = false.
Proof.
  intros H. unfold in_pairs. apply not_true_iff_false. intros E.
  apply existsb_exists in E as [q [Q E]]. apply in_rev in Q.
  apply in_map_iff in Q as [p [<- P]]. apply andb_true_iff in E as [_ E]. cbn in E.
  apply str_eqb_eq in E as ->. apply H. now apply in_map.
Qed.

Lemma section_INC d sec opt ind seen bad :
  section_of (MkReading [] [(INCREMENTAL, d)] sec opt ind seen bad) INCREMENTAL = d.
Proof. reflexivity. Qed.
Lemma set_section_INC d d' sec opt ind seen bad :
  set_section (MkReading [] [(INCREMENTAL, d)] sec opt ind seen bad) INCREMENTAL d'
  = MkReading [] [(INCREMENTAL, d')] sec opt ind seen bad.
Proof. reflexivity. Qed.

Lemma sset_lines d n v : ~ In n (dkeys d) ->
  sset n [v] (lines_of d) = lines_of (d ++ [(n, v)]).
Proof.
  intros H. unfold lines_of. rewrite map_app. apply sset_fresh.
  unfold dkeys. rewrite map_map. exact H.
Qed.

(** A line that gives an option. *)
Definition line_for (l : str) (p : str * str) : Prop :=
  indent_of l = O /\ header_of (strip_ws l) = None
  /\ (exists c t, strip_ws l = c :: t /\ c <> "#"%char /\ c <> ";"%char)
  /\ option_of (strip_ws l) = Some (fst p, snd p).
Lemma opt_line_for p : name_ok (fst p) -> value_ok (snd p) -> line_for (opt_line p) p.
Proof. intros N V. destruct (opt_line_strip p N V) as (A & _ & B). split; [exact A|exact B]. Qed.
Lemma read_line_for l d p : name_ok (fst p) -> line_for l p ->
  ~ In (fst p) (dkeys d) ->
  read_line l (after d) = Ok (after (d ++ [p])).
Proof.
  intros N (I & H & (c & t & E & C1 & C2) & HO) U.
  assert (R : read_entry (strip_ws l)
     (MkReading [] [(INCREMENTAL, lines_of d)] (Some INCREMENTAL) (g_option (after d)) O
        (g_seen (after d)) false) = Ok (after (d ++ [p]))).
  { unfold read_entry. rewrite H. cbn [g_section]. rewrite HO.
    rewrite (lower_name (fst p)) by apply N.
    cbn [g_seen after]. rewrite (in_pairs_false INCREMENTAL (fst p) d U).
    cbv zeta. cbn [g_defaults g_sections g_indent g_bad].
    rewrite section_INC, set_section_INC, sset_lines by exact U.
    destruct (name_split _ N) as (x & n' & En & _ & _).
    unfold after. rewrite rev_app_distr, map_app, rev_app_distr. cbn [rev app map].
    destruct p as [n v]. cbn [fst snd] in *. rewrite En. reflexivity. }
  unfold read_line. cbv zeta. rewrite E. apply ceqb_neq in C1, C2. rewrite C1, C2. cbn [orb].
  rewrite <- E, I. cbn [g_section after g_option g_indent g_defaults g_sections g_bad].
  change (g_option (after d)) with (match rev d with [] => None | p :: _ => Some (fst p) end) in R.
  destruct (match rev d with [] => None | q :: _ => Some (fst q) end) as [[|y ys]|]; exact R.
Qed.
Lemma read_option d p : name_ok (fst p) -> value_ok (snd p) ->
  ~ In (fst p) (dkeys d) -> Forall (fun p => name_ok (fst p)) d ->
  read_line (opt_line p) (after d) = Ok (after (d ++ [p])).
Proof. intros N V U _. apply read_line_for; [exact N|now apply opt_line_for|exact U]. Qed.

Lemma read_options o : forall d, NoDup (dkeys (d ++ o)) ->
  Forall (fun p => name_ok (fst p) /\ value_ok (snd p)) o ->
  Forall (fun p => name_ok (fst p)) d ->
  read_lines (map opt_line o ++ [[]]) (after d)
  = Ok (append_line (after (d ++ o)) []).
Proof.
  induction o as [|p o IH]; intros d ND F D.
  - rewrite app_nil_r. reflexivity.
  - inversion F as [|? ? [N V] F']; subst.
    cbn [map app read_lines].
    assert (U : ~ In (fst p) (dkeys d)).
    { unfold dkeys in *. rewrite map_app in ND. cbn in ND. apply NoDup_remove_2 in ND.
      intros H. apply ND. apply in_or_app. now left. }
    rewrite read_option by assumption. cbn [bind].
    rewrite IH.
    + now rewrite <- app_assoc.
    + now rewrite <- app_assoc.
    + exact F'.
    + apply Forall_app. split; [exact D | repeat constructor; apply N].
Qed.

Lemma join_one v : value_ok v -> join_value [v] = v /\ join_value [v; []] = v.
Proof.
  intros V. destruct (value_last v V) as [->|(v' & d & -> & D & _)]; [split; reflexivity|].
  apply number_char_facts in D as (D & _). unfold join_value. split.
  - cbn [join]. now apply rstrip_ws_end.
  - cbn [join app]. rewrite rstrip_ws_space by reflexivity. now apply rstrip_ws_end.
Qed.

Lemma join_lines o : Forall (fun p => value_ok (snd p)) o -> join_values (lines_of o) = o.
Proof.
  induction 1 as [|p o V F IH]; [reflexivity|].
  unfold join_values, lines_of in *. cbn [map fst snd]. rewrite IH.
  destruct (join_one _ V) as [-> _]. now destruct p.
Qed.

Lemma sset_last d n v v' : ~ In n (dkeys d) ->
  sset n v' (d ++ [(n, v)]) = d ++ [(n, v')] :> list (str * list str).
Proof.
  induction d as [|[k x] d IH]; intros H; cbn.
  - now rewrite str_eqb_refl.
  - cbn in H. destruct (str_eqb_spec n k) as [->|Q]; [tauto|].
    rewrite IH; [reflexivity | tauto].
Qed.

Lemma sget_end d n (v : list str) : ~ In n (dkeys d) -> sget n (d ++ [(n, v)]) = Some v.
Proof.
  induction d as [|[k x] d IH]; intros H; cbn.
  - now rewrite str_eqb_refl.
  - cbn in H. destruct (str_eqb_spec n k) as [->|Q]; [tauto|]. apply IH. tauto.
Qed.

Lemma join_blank o : opts_ok o ->
  exists ls, append_line (after o) []
    = MkReading [] [(INCREMENTAL, ls)] (Some INCREMENTAL) (g_option (after o)) O (g_seen (after o)) false
  /\ join_values ls = o.
Proof.
  intros [ND F].
  assert (FV : Forall (fun p => value_ok (snd p)) o) by (eapply Forall_impl; [|exact F]; cbn; tauto).
  destruct (rev o) as [|p r] eqn:R.
  - assert (o = []) as -> by (apply (f_equal (@rev _)) in R; now rewrite rev_involutive in R).
    exists []. split; reflexivity.
  - assert (E : o = rev r ++ [p]).
    { apply (f_equal (@rev _)) in R. rewrite rev_involutive in R. cbn in R. exact R. }
    set (d := rev r) in *. clearbody d. subst o.
    apply Forall_app in F as [Fd Fp]. inversion Fp as [|? ? [N V] _]; subst.
    destruct (name_split _ N) as (c & n' & En & _).
    assert (U : ~ In (fst p) (dkeys d)).
    { unfold dkeys in *. rewrite map_app in ND. cbn in ND. apply NoDup_remove_2 in ND.
      now rewrite app_nil_r in ND. }
    exists (lines_of d ++ [(fst p, [snd p; []])]). split.
    + unfold append_line, after. rewrite rev_app_distr. cbn [rev app].
      cbn [g_section g_option]. rewrite En. rewrite <- En.
      rewrite section_INC.
      assert (G : sget (fst p) (lines_of (d ++ [p])) = Some [snd p]).
      { unfold lines_of. rewrite map_app. cbn [map].
        apply sget_end. unfold dkeys. rewrite map_map. exact U. }
      rewrite G. cbn [app].
      assert (LA : lines_of (d ++ [p]) = lines_of d ++ [(fst p, [snd p])])
        by (unfold lines_of; now rewrite map_app).
      rewrite LA, sset_last; [reflexivity|]. unfold dkeys, lines_of. rewrite map_map. exact U.
    + apply Forall_app in FV as [FVd _].
      unfold join_values. rewrite map_app. cbn [map fst snd].
      fold (join_values (lines_of d)). rewrite join_lines by exact FVd.
      destruct (join_one _ V) as [_ ->]. now destruct p.
Qed.

Lemma ini_round o : opts_ok o ->
  ini_read (ini_text (MkIni [] [(INCREMENTAL, o)])) = Ok (MkIni [] [(INCREMENTAL, o)]).
Proof.
  intros OK. destruct (join_blank o OK) as (ls & A & J). destruct OK as [ND F].
  unfold ini_text. cbn [i_defaults i_sections map List.concat app fst snd]. rewrite app_nil_r.
  unfold ini_read. rewrite section_lines by (eapply Forall_impl; [|exact F]; cbn; tauto).
  rewrite split_lines.
  - cbn [read_lines]. rewrite read_header. cbn [bind].
    rewrite (read_options o []) by (try exact ND; try exact F; constructor).
    cbn [app]. rewrite A. cbn [bind g_bad g_defaults g_sections map fst snd].
    rewrite J. reflexivity.
  - constructor.
    + vm_compute. intuition discriminate.
    + apply Forall_app. split; [|repeat constructor; tauto].
      apply Forall_forall. intros l H. apply in_map_iff in H as [p [<- P]].
      rewrite Forall_forall in F. destruct (F p P) as [N V].
      now destruct (opt_line_strip p N V) as (_ & H & _).
Qed.

(** ** The status file of a program *)

Definition holds (f : option str) (o : list (str * str)) : Prop :=
  opts_ok o /\ ((f = None /\ o = []) \/ f = Some (ini_text (MkIni [] [(INCREMENTAL, o)]))).

Lemma holds_read f o : holds f o ->
  exists i, ini_of_file f = Ok i /\ i_defaults i = []
  /\ (match sget INCREMENTAL (i_sections i) with Some o => o | None => [] end) = o
  /\ forall o', sset INCREMENTAL o' (i_sections i) = [(INCREMENTAL, o')].
Proof.
  intros [OK [[-> ->] | ->]].
  - exists (MkIni [] []). repeat split; reflexivity.
  - exists (MkIni [] [(INCREMENTAL, o)]). cbn [ini_of_file]. rewrite ini_round by exact OK.
    repeat split; reflexivity.
Qed.

Lemma opts_set o n v : opts_ok o -> name_ok n -> value_ok v -> opts_ok (sset n v o).
Proof.
  intros [ND F] N V. split; [now apply NoDup_sset|].
  clear ND. induction F as [|[k x] o [A B] F IH]; cbn.
  - repeat constructor; cbn; (apply N || apply V).
  - destruct (str_eqb_spec n k) as [<-|Q].
    + constructor; [cbn; tauto | exact F].
    + constructor; [cbn in *; tauto | exact IH].
Qed.
Lemma opts_del o n : opts_ok o -> opts_ok (sdel n o).
Proof.
  intros [ND F]. split; [now apply NoDup_sdel|].
  clear ND. induction F as [|[k x] o A F IH]; cbn; [constructor|].
  destruct (str_eqb_spec n k) as [<-|Q]; [exact F | now constructor].
Qed.

Definition update (F : float_text) (o : list (str * str)) (site : str) (ts : option Z) :=
  match ts with
  | None => sdel (site_name site) o
  | Some t => sset (site_name site) (show_float F t) o
  end.

Definition time_ok (ts : option Z) : Prop := match ts with Some t => is_double t | None => True end.

Lemma set_state_holds F f o site ts : python_floats F -> holds f o -> site <> [] -> time_ok ts ->
  exists f', set_state F f site ts = (f', None) /\ holds f' (update F o site ts)
  /\ state_text F f site ts = Ok (ini_text (MkIni [] [(INCREMENTAL, update F o site ts)])).
Proof.
  intros PF H NE T. destruct (holds_read f o H) as (i & R & D & O & S).
  assert (E : state_text F f site ts = Ok (ini_text (MkIni [] [(INCREMENTAL, update F o site ts)]))).
  { unfold state_text. rewrite R. cbn [bind]. rewrite O, D, S. reflexivity. }
  exists (Some (ini_text (MkIni [] [(INCREMENTAL, update F o site ts)]))).
  unfold set_state. rewrite E. split; [reflexivity|]. split; [|reflexivity].
  split; [|now right].
  destruct H as [OK _]. destruct ts as [t|]; cbn.
  - destruct (PF t T) as (_ & V1 & V2).
    apply opts_set; [exact OK | | exact V2].
    split; [now apply site_name_nonempty | apply site_name_chars].
  - now apply opts_del.
Qed.

Lemma value_no_percent v : Forall number_char v -> has_char "%" v = false.
Proof.
  intros F. apply has_char_false. intros H. rewrite Forall_forall in F. apply F in H.
  apply number_char_facts in H as (_ & _ & H). congruence.
Qed.

Lemma get_state_holds F f o site : holds f o ->
  get_state F f site =
  match sget (site_name site) o with
  | None => Ok None
  | Some v => match read_float F v with Some t => Ok (Some t) | None => Err ValueError end
  end.
Proof.
  intros H. destruct (holds_read f o H) as (i & R & D & O & _).
  unfold get_state. rewrite R. cbn [bind]. unfold ini_get. rewrite D.
  fold (site_name site).
  destruct (sget INCREMENTAL (i_sections i)) as [o'|] eqn:G.
  - subst o'. destruct (sget (site_name site) o) as [v|] eqn:V; cbn [bind].
    + destruct H as [[_ F'] _]. apply sget_in in V. rewrite Forall_forall in F'.
      apply F' in V as [_ V]. cbn in V. rewrite (value_no_percent v V). reflexivity.
    + reflexivity.
  - subst o. reflexivity.
Qed.

(** ** Names *)

Lemma word_dec c : letter_or_digit c \/ ~ letter_or_digit c.
Proof.
  unfold letter_or_digit. destruct (is_word c); [|right; now intros [H _]].
  destruct (ascii_dec c "_") as [->|N]; [right | left]; tauto.
Qed.

Lemma name_char_eq a b :
  lower_c (if is_word a then a else "_"%char) = lower_c (if is_word b then b else "_"%char)
  <-> same_char a b.
Proof.
  assert (W : forall c, letter_or_digit c -> lower_c c <> "_"%char).
  { intros c [H N].
    assert (E := all_chars (fun c => negb (is_word c) || ceqb c "_" || negb (ceqb (lower_c c) "_"))
                   ltac:(vm_compute; reflexivity) c).
    cbn beta in E. rewrite H in E. apply ceqb_neq in N. rewrite N in E. cbn in E.
    apply negb_true_iff, ceqb_neq in E. exact E. }
  assert (U : forall c, ~ letter_or_digit c -> lower_c (if is_word c then c else "_"%char) = "_"%char).
  { intros c H. destruct (is_word c) eqn:Wc; [|reflexivity].
    destruct (ascii_dec c "_") as [->|N]; [reflexivity|]. contradiction H. now split. }
  assert (L : forall c, letter_or_digit c -> (if is_word c then c else "_"%char) = c).
  { intros c [H _]. now rewrite H. }
  split.
  - intros E. destruct (word_dec a) as [A|A], (word_dec b) as [B|B].
    + rewrite (L a A), (L b B) in E. now constructor.
    + rewrite (L a A), (U b B) in E. now apply W in A.
    + rewrite (L b B), (U a A) in E. symmetry in E. now apply W in B.
    + now apply same_other.
  - intros [x y A B E | x y A B].
    + now rewrite (L x A), (L y B).
    + now rewrite (U x A), (U y B).
Qed.

Lemma site_name_eq a b : site_name a = site_name b <-> same_name a b.
Proof.
  unfold same_name, site_name, lower, config_site_to_name. rewrite !map_map. revert b.
  induction a as [|x a IH]; intros [|y b]; cbn [map].
  - split; [constructor | reflexivity].
  - split; [discriminate | intros H; inversion H].
  - split; [discriminate | intros H; inversion H].
  - split.
    + intros H. injection H as H1 H2. constructor; [now apply name_char_eq | now apply IH].
    + intros H. inversion H as [|? ? ? ? H1 H2]; subst. f_equal; [now apply name_char_eq | now apply IH].
Qed.
Lemma site_name_ne a b : ~ same_name a b -> site_name a <> site_name b.
Proof. intros H E. apply H. now apply site_name_eq. Qed.

(** ** Histories *)

Lemma file_after_snoc F calls c : file_after F (calls ++ [c]) = fst (do_call F (file_after F calls) c).
Proof. unfold file_after. now rewrite fold_left_app. Qed.

Lemma do_call_ts F f c : exists ts, do_call F f c = set_state F f (site_of c) ts
  /\ ts = match c with Store _ t => Some t | Forget _ => None end
  /\ (call_ok c -> site_of c <> [] /\ time_ok ts).
Proof. destruct c; cbn; eexists; (split; [reflexivity | split; [reflexivity|]]); unfold call_ok; cbn; tauto. Qed.

Lemma history_holds F calls : python_floats F -> Forall call_ok calls ->
  exists o, holds (file_after F calls) o
  /\ (forall site v, remembers site calls v ->
        match sget (site_name site) o with
        | None => v = None
        | Some x => exists t, v = Some t /\ read_float F x = Some t
        end)
  /\ (forall site, exists v, remembers site calls v).
Proof.
  intros PF. induction calls as [|c calls IH] using rev_ind; intros OK.
  - exists []. split; [split; [repeat constructor | now left]|]. split.
    + intros site v R. inversion R as [| cs s t _ E | cs s _ E | cs c v' _ _ E]; [reflexivity|..];
        now destruct cs.
    + intros site. exists None. constructor.
  - apply Forall_app in OK as [OK C]. inversion C as [|? ? C' _]; subst.
    destruct (IH OK) as (o & H & R & T). clear IH.
    destruct (do_call_ts F (file_after F calls) c) as (ts & D & Ets & OKc).
    destruct (OKc C') as [NE TO].
    destruct (set_state_holds F _ o (site_of c) ts PF H NE TO) as (f' & S & H' & _).
    exists (update F o (site_of c) ts). rewrite file_after_snoc, D, S. split; [exact H'|].
    assert (ND : NoDup (dkeys o)) by apply H.
    split.
    + intros site v M.
      assert (K : (same_name (site_of c) site /\ v = match c with Store _ t => Some t | _ => None end)
                  \/ (~ same_name (site_of c) site /\ remembers site calls v)).
      { inversion M as [E | cs s t SN E | cs s SN E | cs c2 v' SN M' E].
        - now destruct calls.
        - apply app_inj_tail in E as [_ <-]. left. now split.
        - apply app_inj_tail in E as [_ <-]. left. now split.
        - apply app_inj_tail in E as [<- <-]. right. now split. }
      destruct K as [[SN ->] | [SN M']].
      * apply site_name_eq in SN. unfold update. subst ts. rewrite SN.
        destruct c as [s t | s]; cbn [site_of].
        -- rewrite sget_sset_eq. exists t. split; [reflexivity|].
           destruct (PF t) as [P _]; [apply TO | exact P].
        -- now rewrite sget_sdel_eq.
      * apply site_name_ne in SN. apply R in M'. unfold update. subst ts.
        destruct c as [s t | s]; cbn [site_of] in *.
        -- rewrite sget_sset_ne by congruence. exact M'.
        -- rewrite sget_sdel_ne by congruence. exact M'.
    + intros site.
      destruct (str_eq_dec (site_name (site_of c)) (site_name site)) as [E|N].
      * apply site_name_eq in E. destruct c as [s t|s]; [exists (Some t) | exists None]; now constructor.
      * destruct (T site) as [v M]. exists v. constructor; [|exact M].
        intros SN. apply N. now apply site_name_eq.
Qed.

Lemma state_history F calls site : python_floats F -> Forall call_ok calls ->
  forall v, get_state F (file_after F calls) site = Ok v <-> remembers site calls v.
Proof.
  intros PF OK. destruct (history_holds F calls PF OK) as (o & H & R & T).
  assert (G : forall v, remembers site calls v -> get_state F (file_after F calls) site = Ok v).
  { intros v M. rewrite (get_state_holds F _ o site H). apply R in M.
    destruct (sget (site_name site) o) as [x|].
    - destruct M as (t & -> & ->). reflexivity.
    - now subst. }
  intros v. split; [|apply G].
  intros E. destruct (T site) as [v' M]. apply G in M as E'. rewrite E in E'. injection E' as ->. exact M.
Qed.

Lemma history_no_error F calls c : python_floats F -> Forall call_ok (calls ++ [c]) ->
  snd (do_call F (file_after F calls) c) = None.
Proof.
  intros PF OK. apply Forall_app in OK as [OK C]. inversion C as [|? ? C' _]; subst.
  destruct (history_holds F calls PF OK) as (o & H & _).
  destruct (do_call_ts F (file_after F calls) c) as (ts & D & _ & OKc).
  destruct (OKc C') as [NE TO].
  destruct (set_state_holds F _ o (site_of c) ts PF H NE TO) as (f' & S & _). now rewrite D, S.
Qed.

Lemma crash_empties F calls c : python_floats F -> Forall call_ok (calls ++ [c]) ->
  exists f, In f (set_state_crash F (file_after F calls) (site_of c)
                   (match c with Store _ t => Some t | Forget _ => None end))
  /\ forall site, get_state F f site = Ok None.
Proof.
  intros PF OK. apply Forall_app in OK as [OK C]. inversion C as [|? ? C' _]; subst.
  destruct (history_holds F calls PF OK) as (o & H & _).
  destruct (do_call_ts F (file_after F calls) c) as (ts & D & Ets & OKc).
  destruct (OKc C') as [NE TO].
  destruct (set_state_holds F _ o (site_of c) ts PF H NE TO) as (f' & _ & _ & E).
  exists (Some []). split; [|reflexivity].
  rewrite <- Ets. unfold set_state_crash. rewrite E. right. cbn [seq map]. left. reflexivity.
Qed.

(** ** An instance: integers of units in decimal, or of 2^1064 units with a point after them *)

Definition show_units (t : Z) : str :=
  let q := Z.shiftr t 1064 in if Z.shiftl q 1064 =? t then print_int q ++ $"." else print_int t.
Definition read_units (s : str) : option Z :=
  match rev s with
  | c :: r => if ceqb c "."%char then option_map (fun q => Z.shiftl q 1064) (parse_int (rev r)) else parse_int s
  | [] => None
  end.
Definition unit_floats : float_text := MkFloatText show_units read_units.
Lemma print_int_chars t : print_int t <> [] /\ Forall number_char (print_int t) /\ ~ In "."%char (print_int t).
Proof.
  assert (D : forall n, Forall number_char (print_nat n)).
  { intros n. apply Forall_forall. intros c H. left. exact (chars_are (print_nat_digits n) c H). }
  assert (D' : forall n, ~ In "."%char (print_nat n)).
  { intros n H. pose proof (chars_are (print_nat_digits n) _ H) as X. vm_compute in X. discriminate. }
  unfold print_int. destruct (t <? 0).
  - split; [discriminate|]. split; [constructor; [right; vm_compute; tauto | apply D]|]. intros [H|H]; [discriminate|eapply D'; eauto].
  - split; [apply print_nat_nonempty | split; [apply D|apply D']].
Qed.
Lemma read_point s : read_units (s ++ $".") = option_map (fun q => Z.shiftl q 1064) (parse_int s).
Proof. unfold read_units. change $"." with ["."%char]. rewrite rev_app_distr. cbn [rev app ceqb]. change (ceqb "." ".") with true. cbv iota. now rewrite rev_involutive. Qed.
Lemma read_no_point s : s <> [] -> ~ In "."%char s -> read_units s = parse_int s.
Proof.
  intros NE H. unfold read_units. destruct (rev s) as [|c r] eqn:E.
  - exfalso. apply NE. rewrite <- (rev_involutive s), E. reflexivity.
  - destruct (ceqb c "."%char) eqn:C; auto. apply ceqb_eq in C as ->. exfalso. apply H, in_rev. rewrite E. now left.
Qed.
Lemma unit_floats_ok : python_floats unit_floats.
Proof.
  intros t _. cbn [read_float show_float unit_floats]. unfold show_units.
  destruct (Z.eqb_spec (Z.shiftl (Z.shiftr t 1064) 1064) t) as [E|E].
  - destruct (print_int_chars (Z.shiftr t 1064)) as (N & F & _). split; [rewrite read_point, parse_print_int; unfold option_map; now rewrite E|].
    split; [destruct (print_int _); discriminate|]. apply Forall_app. split; [exact F|]. constructor; [right; vm_compute; tauto|constructor].
  - destruct (print_int_chars t) as (N & F & P). rewrite read_no_point by assumption. split; [apply parse_print_int|]. now split.
Qed.

(** ** Witnesses *)

(** A list of timestamps for two sites that share a name. *)
Definition site_a : str := $"http://example.org/data-1/resourcelist.xml".
Definition site_b : str := $"http://example.org/data/1/resourcelist.xml".
Definition site_c : str := $"http://example.com/resourcelist.xml".
Definition calls_ab : list call := [Store site_a 1234567; Store site_c 77; Store site_b 99].

Lemma calls_ok_ab : Forall call_ok calls_ab.
Proof. repeat (apply Forall_cons; [split; [discriminate | vm_compute; reflexivity]|]). apply Forall_nil. Qed.

Lemma collision : get_state unit_floats (file_after unit_floats calls_ab) site_a = Ok (Some 99).
Proof. vm_compute. reflexivity. Qed.
Lemma remembered_a : remembers_exactly site_a calls_ab (Some 1234567).
Proof.
  change calls_ab with (([] ++ [Store site_a 1234567]) ++ [Store site_c 77] ++ [Store site_b 99]).
  rewrite app_assoc. apply remx_other; [vm_compute; congruence|].
  apply remx_other; [vm_compute; congruence|]. apply remx_store.
Qed.

(** A crash after three digits of the timestamp. *)
Lemma crash_wrong :
  let f := file_after unit_floats [Store site_c 5] in
  let f' := Some (firstn 55 match fst (set_state unit_floats f site_c (Some 1234567)) with
                            | Some t => t | None => [] end) in
  In f' (set_state_crash unit_floats f site_c (Some 1234567))
  /\ get_state unit_floats f' site_c = Ok (Some 123).
Proof.
  cbv zeta. split; [|vm_compute; reflexivity].
  vm_compute. tauto.
Qed.

Lemma sites_share : exists F calls site t,
  python_floats F /\ Forall call_ok calls
  /\ remembers_exactly site calls (Some t)
  /\ get_state F (file_after F calls) site <> Ok (Some t).
Proof.
  exists unit_floats, calls_ab, site_a, 1234567.
  split; [exact unit_floats_ok|]. split; [exact calls_ok_ab|]. split; [exact remembered_a|].
  rewrite collision. discriminate.
Qed.

Lemma crash_wrong_time : exists F calls site t f t',
  python_floats F /\ Forall call_ok (calls ++ [Store site t])
  /\ In f (set_state_crash F (file_after F calls) site (Some t))
  /\ get_state F f site = Ok (Some t')
  /\ t' <> t /\ get_state F (file_after F calls) site <> Ok (Some t').
Proof.
  refine (ex_intro _ unit_floats (ex_intro _ [Store site_c 5] (ex_intro _ site_c (ex_intro _ 1234567
    (ex_intro _ _ (ex_intro _ 123 (conj unit_floats_ok (conj _ (conj (proj1 crash_wrong)
      (conj (proj2 crash_wrong) (conj _ _))))))))))).
  - repeat (apply Forall_cons; [split; [discriminate | vm_compute; reflexivity]|]). apply Forall_nil.
  - discriminate.
  - vm_compute. discriminate.
Qed.

Lemma empty_site : exists F t,
  python_floats F /\ is_double t
  /\ forall site, get_state F (fst (set_state F None [] (Some t))) site = Err ConfigError.
Proof.
  exists unit_floats, 7. split; [exact unit_floats_ok|]. split; [vm_compute; reflexivity|].
  intros site. unfold get_state.
  assert (E : ini_of_file (fst (set_state unit_floats None [] (Some 7))) = Err ConfigError)
    by (vm_compute; reflexivity).
  rewrite E. reflexivity.
Qed.
