(** * StateCut: status files that a killed process leaves *)

From Verif Require Import Py PyFacts Float64 ClientState ClientStateSpec ClientStateFacts.

(** ** Texts that are cut short *)

Definition with_ends (ls : list str) : str := List.concat (map (fun l => l ++ [nl]) ls).

Lemma cut_lines ls : forall n, exists k part,
  firstn n (with_ends ls) = with_ends (firstn k ls) ++ part
  /\ (k <= List.length ls)%nat /\ (part = [] \/ exists rest, nth_error ls k = Some (part ++ rest)).
Proof.
  induction ls as [|l ls IH]; intros n.
  - exists O, []. rewrite firstn_nil. auto.
  - change (with_ends (l :: ls)) with ((l ++ [nl]) ++ with_ends ls).
    destruct (Nat.leb_spec n (List.length l)) as [L|L].
    + exists O, (firstn n l). split; [|split; [lia|right; exists (skipn n l); cbn; now rewrite firstn_skipn]].
      cbn [firstn]. change (with_ends []) with (@nil ascii). cbn [app]. rewrite <- app_assoc, firstn_app.
      replace (n - List.length l)%nat with O by lia. cbn [firstn]. apply app_nil_r.
    + destruct (IH (n - List.length (l ++ [nl]))%nat) as (k & part & E & K & P).
      exists (S k), part. split; [|split; [cbn; lia|exact P]].
      rewrite firstn_app, E. cbn [firstn]. change (with_ends (l :: firstn k ls)) with ((l ++ [nl]) ++ with_ends (firstn k ls)).
      rewrite firstn_all2 by (rewrite app_length; cbn; lia). apply app_assoc.
Qed.
Lemma lines_and_part ls part : Forall (fun l : str => ~ In nl l) ls -> ~ In nl part -> part <> [] ->
  file_lines (with_ends ls ++ part) = ls ++ [part].
Proof.
  intros F NP NE.
  assert (E : split_on nl (with_ends ls ++ part) = ls ++ [part]).
  { induction F as [|l ls H F IH].
    - change (with_ends [] ++ part) with part. now rewrite split_on_no.
    - change (with_ends (l :: ls)) with ((l ++ [nl]) ++ with_ends ls). rewrite <- !app_assoc. cbn [app].
      rewrite split_on_app by exact H. now rewrite IH. }
  unfold file_lines. rewrite E, last_last. destruct part; [congruence|reflexivity].
Qed.

(** ** What is read from them *)

(** The file is read as the options o. *)
Definition reads_as (f : option str) (o : list (str * str)) : Prop :=
  opts_ok o /\ exists i, ini_of_file f = Ok i /\ i_defaults i = []
    /\ (match sget INCREMENTAL (i_sections i) with Some o => o | None => [] end) = o
    /\ forall o', sset INCREMENTAL o' (i_sections i) = [(INCREMENTAL, o')].
(** The last option may be cut short, and options after it may be missing. *)
Inductive cut_of : list (str * str) -> list (str * str) -> Prop :=
| cut_none a b : cut_of a (a ++ b)
| cut_one a n v rest b : cut_of (a ++ [(n, v)]) (a ++ (n, v ++ rest) :: b).

Lemma NoDup_first {A} (a b : list A) : NoDup (a ++ b) -> NoDup a.
Proof.
  induction a as [|x a IH]; cbn; [constructor|]. intros H. inversion H; subst. constructor; [rewrite in_app_iff in *; tauto|auto].
Qed.
Lemma opts_cut o' o : cut_of o' o -> opts_ok o -> opts_ok o'.
Proof.
  intros [a b|a n v rest b] [ND F]; unfold dkeys in ND; rewrite map_app in ND; apply Forall_app in F as [F G].
  - split; [|exact F]. apply NoDup_first in ND. exact ND.
  - inversion G as [|? ? [N V] G']; subst. cbn in N, V. split.
    + unfold dkeys. rewrite map_app. cbn in ND |- *. apply NoDup_remove in ND as [ND NI]. rewrite in_app_iff in NI.
      apply NoDup_first in ND. clear -ND NI. induction (map fst a) as [|x l IH]; cbn; [repeat constructor; tauto|].
      inversion ND; subst. constructor; [rewrite in_app_iff; cbn in *; intuition congruence|]. apply IH; cbn in *; tauto.
    + apply Forall_app. split; [exact F|]. repeat constructor; [apply N|apply N|]. cbn. apply Forall_app in V. apply V.
Qed.

Lemma read_start o k : opts_ok o -> (k <= List.length o)%nat -> forall part,
  read_lines (($"[" ++ INCREMENTAL ++ $"]") :: map opt_line (firstn k o) ++ part) (MkReading [] [] None None O [] false)
  = read_lines part (after (firstn k o)).
Proof.
  intros OK K part. cbn [read_lines]. rewrite read_header. cbn [bind].
  assert (H : forall o d, opts_ok (d ++ o) -> read_lines (map opt_line o ++ part) (after d) = read_lines part (after (d ++ o))).
  { clear. induction o as [|p o IH]; intros d OK; [now rewrite app_nil_r|]. cbn [map app read_lines].
    pose proof OK as [ND F]. apply Forall_app in F as [Fd F]. inversion F as [|? ? [N V] F']; subst.
    rewrite read_option; [|exact N|exact V| |].
    - cbn [bind]. rewrite IH; rewrite <- app_assoc; [reflexivity|exact OK].
    - unfold dkeys in *. rewrite map_app in ND. cbn in ND. apply NoDup_remove_2 in ND. rewrite in_app_iff in ND. tauto.
    - eapply Forall_impl; [|exact Fd]. cbn. tauto. }
  apply (H (firstn k o) []). cbn [app]. eapply opts_cut; [|exact OK]. rewrite <- (firstn_skipn k o) at 2. constructor.
Qed.
Lemma after_read o : opts_ok o -> forall text, read_lines (file_lines text) (MkReading [] [] None None O [] false) = Ok (after o) ->
  reads_as (Some text) o.
Proof.
  intros OK text R. split; [exact OK|]. exists (MkIni [] [(INCREMENTAL, o)]). split.
  - cbn [ini_of_file]. unfold ini_read. rewrite R. cbn [bind after g_bad g_defaults g_sections map fst snd].
    rewrite join_lines; [reflexivity|]. destruct OK as [_ F]. eapply Forall_impl; [|exact F]. cbn. tauto.
  - repeat split; reflexivity.
Qed.

(** A part of a line for an option. *)
Lemma prefix_app (a b c d : str) : a ++ b = c ++ d -> (exists x, c = a ++ x) \/ exists x, a = c ++ x /\ x <> [] /\ d = x ++ b.
Proof.
  intros E. apply app_eq_app in E as (l & [[-> ->]|[-> ->]]); [|left; now exists l].
  destruct l as [|x l]; [left; exists []; now rewrite !app_nil_r|]. right. exists (x :: l). repeat split. discriminate.
Qed.
Lemma no_delim n : Forall name_char n -> split_delim n = None /\ split_delim (n ++ [" "%char]) = None.
Proof.
  induction 1 as [|x l [X _] F [IH IH']]; [split; reflexivity|].
  destruct (word_char_facts x X) as (_ & _ & _ & _ & _ & A & B).
  cbn [app split_delim]. apply ceqb_neq in A, B. rewrite A, B. cbn [orb]. now rewrite IH, IH'.
Qed.
Lemma name_line n : name_ok n -> strip_ws n = n /\ strip_ws (n ++ [" "%char]) = n.
Proof.
  intros N. pose proof (name_strip n N) as S. destruct (name_split n N) as (c & n' & En & [C _] & _).
  destruct (word_char_facts c C) as (S1 & _). rewrite !strip_ws_drop.
  assert (D : forall x, drop_space (n ++ x) = n ++ x) by (intros x; rewrite En; now apply drop_space_stop).
  rewrite D. rewrite <- (app_nil_r n) at 1. rewrite D, app_nil_r. split; [|exact S].
  destruct N as [NE N]. destruct (exists_last NE) as [m [x ->]]. apply (rstrip_ws_end m x).
  apply Forall_app in N as [_ N]. inversion N as [|? ? [W _] _]; subst. now apply word_char_facts in W.
Qed.
Lemma part_line p part rest : name_ok (fst p) -> value_ok (snd p) -> opt_line p = part ++ rest -> part <> [] ->
  (strip_ws part <> [] /\ indent_of part = O /\ header_of (strip_ws part) = None
   /\ (exists c t, strip_ws part = c :: t /\ c <> "#"%char /\ c <> ";"%char) /\ option_of (strip_ws part) = None)
  \/ exists v r, snd p = v ++ r /\ line_for part (fst p, v).
Proof.
  destruct p as [n v]. cbn [fst snd]. unfold opt_line. cbn [fst snd]. intros N V E NE. symmetry in E.
  assert (K : forall m, name_ok m -> forall l, strip_ws l = m -> indent_of l = O -> 
     strip_ws l <> [] /\ indent_of l = O /\ header_of (strip_ws l) = None
     /\ (exists c t, strip_ws l = c :: t /\ c <> "#"%char /\ c <> ";"%char) /\ option_of (strip_ws l) = None).
  { intros m M l S I. rewrite S. destruct (name_split m M) as (c & n' & -> & [C _] & N').
    destruct (word_char_facts c C) as (S1 & S2 & S3 & S4 & S5 & S6 & S7).
    split; [discriminate|]. split; [exact I|]. split; [cbn; destruct c as [[] [] [] [] [] [] [] []]; try reflexivity; now contradiction S3|].
    split; [eauto|]. unfold option_of. now rewrite (proj1 (no_delim _ (proj2 M))). }
  assert (I0 : forall m x, name_ok m -> indent_of (m ++ x) = O).
  { intros m x M. destruct (name_split m M) as (c & n' & -> & [C _] & _). destruct (word_char_facts c C) as (S1 & _). cbn. now rewrite S1. }
  apply prefix_app in E as [(x & ->)|(x & -> & NX & E)].
  - (* in the name *)
    left. assert (name_ok part) as M by (split; [exact NE|]; destruct N as [_ N]; apply Forall_app in N; apply N).
    apply (K part M part); [apply (name_line part M)|]. rewrite <- (app_nil_r part). now apply I0.
  - rewrite lit_eq in E. symmetry in E. change [" "; "="; " "]%char with ([" "%char] ++ ["="; " "]%char) in E. rewrite <- app_assoc in E.
    apply prefix_app in E as [(y & Q)|(y & -> & NY & E)].
    + (* the blank *)
      left. destruct x as [|c x]; [congruence|]. injection Q as <- Q. destruct x; [|discriminate].
      apply (K n N); [apply (name_line n N)|now apply I0].
    + (* the delimiter is there *)
      right. destruct y as [|d y]; [congruence|]. cbn [app] in E. injection E as <- E.
      assert (exists v' r, v = v' ++ r /\ (y = [] /\ v' = [] \/ y = " "%char :: v')) as (v' & r & Ev & Y).
      { destruct y as [|d y]; [exists [], v; auto|]. cbn [app] in E. injection E as <- E. exists y, rest. auto. }
      exists v', r. split; [exact Ev|].
      assert (value_ok v') as V' by (unfold value_ok in *; rewrite Ev in V; apply Forall_app in V; apply V).
      destruct Y as [[-> ->]| ->].
      * change ([" "%char] ++ ["="%char]) with [" "; "="]%char.
        assert (S : strip_ws (n ++ [" "; "="]%char) = n ++ [" "; "="]%char).
        { destruct (name_split n N) as (c & n' & En & [C _] & _). destruct (word_char_facts c C) as (S1 & _). rewrite En.
          change ((c :: n') ++ [" "; "="]%char) with (c :: (n' ++ [" "; "="]%char)).
          replace (n' ++ [" "; "="]%char) with ((n' ++ [" "%char]) ++ ["="%char]) by (now rewrite <- app_assoc).
          now apply strip_ws_ends. }
        unfold line_for. rewrite S. split; [now apply I0|].
        destruct (name_split n N) as (c & n' & En & [C _] & _). destruct (word_char_facts c C) as (S1 & S2 & S3 & S4 & S5 & _).
        split; [rewrite En; cbn; destruct c as [[] [] [] [] [] [] [] []]; try reflexivity; now contradiction S3|].
        split; [rewrite En; cbn; eauto|]. unfold option_of.
        rewrite <- (app_nil_r [" "; "="]%char), (split_name n []) by apply N. rewrite name_strip by exact N. reflexivity.
      * apply (opt_line_for (n, v') N V').
Qed.
Lemma part_bad d l : (strip_ws l <> [] /\ indent_of l = O /\ header_of (strip_ws l) = None
   /\ (exists c t, strip_ws l = c :: t /\ c <> "#"%char /\ c <> ";"%char) /\ option_of (strip_ws l) = None) ->
  exists g, read_line l (after d) = Ok g /\ g_bad g = true.
Proof.
  intros (_ & I & H & (c & t & E & C1 & C2) & HO).
  assert (R : exists g, read_entry (strip_ws l)
     (MkReading [] [(INCREMENTAL, lines_of d)] (Some INCREMENTAL) (g_option (after d)) O
        (g_seen (after d)) false) = Ok g /\ g_bad g = true).
  { unfold read_entry. rewrite H. cbn [g_section]. rewrite HO. eauto. }
  unfold read_line. cbv zeta. rewrite E. apply ceqb_neq in C1, C2. rewrite C1, C2. cbn [orb].
  rewrite <- E, I. cbn [g_section after g_option g_indent g_defaults g_sections g_bad].
  change (g_option (after d)) with (match rev d with [] => None | p :: _ => Some (fst p) end) in R.
  destruct (match rev d with [] => None | q :: _ => Some (fst q) end) as [[|y ys]|]; exact R.
Qed.

Definition header : str := $"[" ++ INCREMENTAL ++ $"]".
Lemma header_part part rest : header = part ++ rest -> part <> [] ->
  part = header \/ read_lines [part] (MkReading [] [] None None O [] false) = Err ConfigError.
Proof.
  intros E NE. assert (P : part = firstn (List.length part) header) by (rewrite E, firstn_app, Nat.sub_diag; cbn; now rewrite app_nil_r, firstn_all).
  assert (L : (List.length part <= 13)%nat) by (apply (f_equal (@List.length _)) in E; rewrite app_length in E; change (List.length header) with 13%nat in E; lia).
  rewrite P. generalize (List.length part) L P NE. clear. intros m L P NE.
  do 14 (destruct m as [|m]; [first [exfalso; apply NE; rewrite P; reflexivity | right; vm_compute; reflexivity | left; vm_compute; reflexivity]|]). lia.
Qed.

(** The text of a status file, cut short anywhere, cannot be read, or is read as options
    that are cut short. *)
Lemma prefix_reads o n : opts_ok o ->
  let f := Some (firstn n (ini_text (MkIni [] [(INCREMENTAL, o)]))) in
  ini_of_file f = Err ConfigError \/ exists o', reads_as f o' /\ cut_of o' o.
Proof.
  intros OK f. pose proof OK as [ND F].
  assert (T : ini_text (MkIni [] [(INCREMENTAL, o)]) = with_ends (header :: map opt_line o ++ [[]])).
  { unfold ini_text. cbn [i_defaults i_sections map List.concat app fst snd]. rewrite app_nil_r.
    apply section_lines. eapply Forall_impl; [|exact F]. cbn. tauto. }
  assert (NL : Forall (fun l : str => ~ In nl l) (header :: map opt_line o ++ [[]])).
  { constructor; [vm_compute; intuition discriminate|]. apply Forall_app. split; [|repeat constructor; tauto].
    apply Forall_forall. intros l H. apply in_map_iff in H as [p [<- P]].
    rewrite Forall_forall in F. destruct (F p P) as [N V]. now destruct (opt_line_strip p N V) as (_ & H & _). }
  unfold f. rewrite T. destruct (cut_lines (header :: map opt_line o ++ [[]]) n) as (k & part & E & K & P).
  assert (NK : Forall (fun l : str => ~ In nl l) (firstn k (header :: map opt_line o ++ [[]]))).
  { rewrite <- (firstn_skipn k) in NL. apply Forall_app in NL. apply NL. }
  assert (NP : ~ In nl part).
  { destruct P as [->|(rest & P)]; [intros []|]. apply nth_error_In in P. rewrite Forall_forall in NL. apply NL in P.
    rewrite in_app_iff in P. tauto. }
  rewrite E. destruct k as [|k].
  - cbn [firstn] in *. change (with_ends [] ++ part) with part. destruct P as [->|(rest & P)].
    + right. exists []. split; [|exact (cut_none [] o)]. split; [split; constructor|]. exists (MkIni [] []). repeat split; reflexivity.
    + cbn [nth_error] in P. injection P as P. destruct part as [|c part].
      { right. exists []. split; [|exact (cut_none [] o)]. split; [split; constructor|]. exists (MkIni [] []). repeat split; reflexivity. }
      assert (FL : file_lines (c :: part) = [c :: part]) by (apply (lines_and_part [] (c :: part)); [constructor|exact NP|discriminate]).
      destruct (header_part _ _ P ltac:(discriminate)) as [H|H].
      * right. exists []. split; [|exact (cut_none [] o)]. apply after_read; [split; constructor|]. rewrite FL, H.
        cbn [read_lines]. unfold header. rewrite read_header. reflexivity.
      * left. cbn [ini_of_file]. unfold ini_read. now rewrite FL, H.
  - cbn [firstn] in *. cbn in K. rewrite app_length, map_length in K. cbn in K.
    destruct (Nat.leb_spec k (List.length o)) as [KO|KO].
    + assert (FK : firstn k (map opt_line o ++ [[]]) = map opt_line (firstn k o)).
      { rewrite firstn_app, map_length. replace (k - List.length o)%nat with O by lia. cbn [firstn]. rewrite app_nil_r. apply firstn_map. }
      rewrite FK in *.
      assert (CK : cut_of (firstn k o) o) by (rewrite <- (firstn_skipn k o) at 2; constructor).
      destruct part as [|c part].
      { right. exists (firstn k o). split; [|exact CK]. rewrite app_nil_r. apply after_read; [exact (opts_cut _ _ CK OK)|].
        unfold with_ends. rewrite split_lines by exact NK. unfold header.
        pose proof (read_start o k OK KO []) as RS. rewrite app_nil_r in RS. rewrite RS. reflexivity. }
      destruct P as [P|(rest & P)]; [discriminate|]. cbn [nth_error] in P.
      assert (FL : file_lines (with_ends (header :: map opt_line (firstn k o)) ++ c :: part) = header :: map opt_line (firstn k o) ++ [c :: part])
        by (apply lines_and_part; [exact NK|exact NP|discriminate]).
      assert (exists p, nth_error o k = Some p /\ opt_line p = (c :: part) ++ rest) as (p & Ip & Ep).
      { destruct (Nat.ltb_spec k (List.length o)) as [L|L].
        - rewrite nth_error_app1 in P by (now rewrite map_length). rewrite nth_error_map in P. destruct (nth_error o k) as [p|]; [|discriminate].
          injection P as P. eauto.
        - rewrite nth_error_app2 in P by (now rewrite map_length). rewrite map_length in P. replace (k - List.length o)%nat with O in P by lia. discriminate. }
      assert (SP : o = firstn k o ++ p :: skipn (S k) o).
      { clear -Ip. revert o Ip. induction k as [|k IH]; intros [|q o] Ip; try discriminate; cbn in Ip.
        - injection Ip as ->. reflexivity.
        - cbn [firstn app skipn]. f_equal. now apply IH. }
      assert (N : name_ok (fst p) /\ value_ok (snd p)) by (rewrite Forall_forall in F; apply F; eapply nth_error_In; exact Ip).
      destruct N as [N V]. destruct (part_line p (c :: part) rest N V Ep ltac:(discriminate)) as [B|(v & r & Ev & LF)].
      * left. cbn [ini_of_file]. unfold ini_read. rewrite FL. unfold header. rewrite read_start by assumption.
        destruct (part_bad (firstn k o) _ B) as (g & R & G). cbn [read_lines]. rewrite R. cbn [bind]. now rewrite G.
      * right. exists (firstn k o ++ [(fst p, v)]).
        assert (C : cut_of (firstn k o ++ [(fst p, v)]) o).
        { rewrite SP at 2. replace p with (fst p, v ++ r) at 2 by (rewrite <- Ev; now destruct p). constructor. }
        split; [|exact C]. apply after_read; [exact (opts_cut _ _ C OK)|]. rewrite FL. unfold header. rewrite read_start by assumption.
        cbn [read_lines]. rewrite (read_line_for _ _ (fst p, v) N LF); [reflexivity|].
        cbn [fst]. rewrite SP in ND. unfold dkeys in *. rewrite map_app in ND. cbn in ND. apply NoDup_remove_2 in ND. rewrite in_app_iff in ND. tauto.
    + right. exists o. split; [|rewrite <- (app_nil_r o) at 2; constructor].
      assert (k = S (List.length o)) as -> by lia.
      assert (part = []) as ->.
      { destruct P as [->|(rest & P)]; [reflexivity|]. exfalso.
        change (nth_error (map opt_line o ++ [[]]) (S (List.length o)) = Some (part ++ rest)) in P.
        assert (nth_error (map opt_line o ++ [[]]) (S (List.length o)) <> None) as Q by (rewrite P; discriminate).
        apply nth_error_Some in Q. rewrite app_length, map_length in Q. cbn in Q. lia. }
      rewrite app_nil_r, firstn_all2 by (rewrite app_length, map_length; cbn; lia). rewrite <- T.
      split; [exact OK|]. exists (MkIni [] [(INCREMENTAL, o)]). cbn [ini_of_file]. rewrite ini_round by exact OK. repeat split; reflexivity.
Qed.

(** ** Calls on such files *)

Lemma holds_reads f o : holds f o -> reads_as f o.
Proof. intros H. split; [apply H|exact (holds_read f o H)]. Qed.
Lemma set_state_reads F f o site ts : python_floats F -> reads_as f o -> site <> [] -> time_ok ts ->
  exists f', set_state F f site ts = (f', None) /\ holds f' (update F o site ts)
  /\ state_text F f site ts = Ok (ini_text (MkIni [] [(INCREMENTAL, update F o site ts)])).
Proof.
  intros PF (OK & i & R & D & O & S) NE T.
  assert (E : state_text F f site ts = Ok (ini_text (MkIni [] [(INCREMENTAL, update F o site ts)]))).
  { unfold state_text. rewrite R. cbn [bind]. rewrite O, D, S. reflexivity. }
  exists (Some (ini_text (MkIni [] [(INCREMENTAL, update F o site ts)]))).
  unfold set_state. rewrite E. split; [reflexivity|]. split; [|reflexivity].
  split; [|now right].
  destruct ts as [t|]; cbn.
  - destruct (PF t T) as (_ & V1 & V2).
    apply opts_set; [exact OK | | exact V2].
    split; [now apply site_name_nonempty | apply site_name_chars].
  - now apply opts_del.
Qed.
Lemma get_state_reads F f o site : reads_as f o ->
  get_state F f site =
  match sget (site_name site) o with
  | None => Ok None
  | Some v => match read_float F v with Some t => Ok (Some t) | None => Err ValueError end
  end.
Proof.
  intros (OK & i & R & D & O & _).
  unfold get_state. rewrite R. cbn [bind]. unfold ini_get. rewrite D.
  fold (site_name site).
  destruct (sget INCREMENTAL (i_sections i)) as [o'|] eqn:G.
  - subst o'. destruct (sget (site_name site) o) as [v|] eqn:V; cbn [bind].
    + destruct OK as [_ F']. apply sget_in in V. rewrite Forall_forall in F'.
      apply F' in V as [_ V]. cbn in V. rewrite (value_no_percent v V). reflexivity.
    + reflexivity.
  - subst o. reflexivity.
Qed.
Lemma call_is F f c : do_call F f c = set_state F f (site_of c) (time_of c).
Proof. now destruct c. Qed.
Lemma call_fine c : call_ok c -> site_of c <> [] /\ time_ok (time_of c).
Proof. intros [A B]. split; [exact A|]. now destruct c. Qed.

(** What a file may be read as. *)
Lemma crash_reads F f o c f' : python_floats F -> call_ok c -> reads_as f o ->
  In f' (set_state_crash F f (site_of c) (time_of c)) -> f' <> f ->
  ini_of_file f' = Err ConfigError \/ exists o', reads_as f' o' /\ cut_of o' (update F o (site_of c) (time_of c)).
Proof.
  intros PF C R I NE. destruct (call_fine c C) as [N T].
  destruct (set_state_reads F f o _ _ PF R N T) as (f1 & _ & [OK _] & E).
  unfold set_state_crash in I. rewrite E in I. destruct I as [I|I]; [congruence|].
  apply in_map_iff in I as (n & <- & _). now apply prefix_reads.
Qed.
Lemma broken_call F f c : ini_of_file f = Err ConfigError ->
  fst (do_call F f c) = f /\ forall f', In f' (set_state_crash F f (site_of c) (time_of c)) -> f' = f.
Proof.
  intros E. assert (S : state_text F f (site_of c) (time_of c) = Err ConfigError) by (unfold state_text; now rewrite E).
  rewrite call_is. unfold set_state, set_state_crash. rewrite S. split; [reflexivity|]. intros f' [I|[]]. now symmetry.
Qed.
Lemma left_reads F f calls : python_floats F -> Forall call_ok calls -> left_by F f calls ->
  ini_of_file f = Err ConfigError \/ exists o, reads_as f o.
Proof.
  intros PF OK L. induction L as [|f calls c L IH|f calls c f' L IH I NE].
  - right. exists []. apply holds_reads. split; [repeat constructor|now left].
  - apply Forall_app in OK as [OK C]. inversion C as [|? ? C' _]; subst.
    destruct (IH OK) as [B|(o & R)]; [left; now rewrite (proj1 (broken_call F f c B))|right].
    destruct (call_fine c C') as [N T]. destruct (set_state_reads F f o _ _ PF R N T) as (f1 & S & H & _).
    exists (update F o (site_of c) (time_of c)). rewrite call_is, S. now apply holds_reads.
  - apply Forall_app in OK as [OK C]. inversion C as [|? ? C' _]; subst.
    destruct (IH OK) as [B|(o & R)]; [now apply (broken_call F f c B) in I|].
    destruct (crash_reads F f o c f' PF C' R I NE) as [B|(o' & R' & _)]; eauto.
Qed.
(** After a call the time is there, unless the file could not be read. *)
Lemma left_stored F f calls site t f' e : python_floats F -> Forall call_ok (calls ++ [Store site t]) -> left_by F f calls ->
  set_state F f site (Some t) = (f', e) -> (e = None /\ get_state F f' site = Ok (Some t)) \/ (e <> None /\ f' = f).
Proof.
  intros PF OK L S. apply Forall_app in OK as [OK C]. inversion C as [|? ? C' _]; subst.
  destruct (left_reads F f calls PF OK L) as [B|(o & R)].
  - right. unfold set_state, state_text in S. rewrite B in S. cbn [bind] in S. injection S as <- <-. split; [discriminate|reflexivity].
  - left. destruct (call_fine _ C') as [N T]. destruct (set_state_reads F f o site (Some t) PF R N T) as (f1 & S1 & H & _).
    rewrite S in S1. injection S1 as <- ->. split; [reflexivity|]. rewrite (get_state_reads F f' _ site (holds_reads _ _ H)). cbn [update].
    rewrite sget_sset_eq. destruct (PF t) as [P _]; [apply T|]. now rewrite P.
Qed.

(** ** Times *)

Lemma sget_cut o' o n v : cut_of o' o -> NoDup (dkeys o) -> sget n o' = Some v -> exists rest, sget n o = Some (v ++ rest).
Proof.
  intros [a b|a k x rest b] ND G; rewrite sget_app.
  - rewrite G. exists []. now rewrite app_nil_r.
  - rewrite sget_app in G. destruct (sget n a) as [y|] eqn:A; [injection G as ->; exists []; now rewrite app_nil_r|].
    cbn in G |- *. destruct (str_eqb n k); [|discriminate]. injection G as <-. eauto.
Qed.
Definition good (c : call) : Prop := call_ok c /\ since_1970 c.
Lemma left_values F f calls : python_floats F -> Forall good calls -> left_by F f calls ->
  ini_of_file f = Err ConfigError \/ exists o, reads_as f o /\ forall site v, sget (site_name site) o = Some v ->
    exists t rest, remembers site calls (Some t) /\ is_double t /\ SEC <= t /\ show_float F t = v ++ rest.
Proof.
  intros PF OK L. induction L as [|f calls c L IH|f calls c f' L IH I NE].
  - right. exists []. split; [apply holds_reads; split; [repeat constructor|now left]|discriminate].
  - apply Forall_app in OK as [OK C]. inversion C as [|? ? [C' C1] _]; subst.
    destruct (IH OK) as [B|(o & R & V)]; [left; now rewrite (proj1 (broken_call F f c B))|right].
    destruct (call_fine c C') as [N T]. destruct (set_state_reads F f o _ _ PF R N T) as (f1 & S & H & _).
    exists (update F o (site_of c) (time_of c)). rewrite call_is, S. split; [now apply holds_reads|].
    intros site v G. destruct (str_eq_dec (site_name (site_of c)) (site_name site)) as [E|NE].
    + destruct c as [s t|s]; cbn [site_of time_of update] in *; rewrite <- E in G.
      * rewrite sget_sset_eq in G. injection G as <-. exists t, []. rewrite app_nil_r. split; [apply rem_store, site_name_eq, E|].
        split; [apply T|]. split; [exact C1|reflexivity].
      * rewrite sget_sdel_eq in G; [discriminate|]. apply R.
    + assert (G' : sget (site_name site) o = Some v).
      { destruct c as [s t|s]; cbn [site_of time_of update] in *; [rewrite sget_sset_ne in G|rewrite sget_sdel_ne in G]; congruence. }
      destruct (V site v G') as (t & rest & M & K). exists t, rest. split; [|exact K]. apply rem_other; [|exact M]. rewrite <- site_name_eq. exact NE.
  - apply Forall_app in OK as [OK C]. inversion C as [|? ? [C' C1] _]; subst.
    destruct (IH OK) as [B|(o & R & V)]; [now apply (broken_call F f c B) in I|].
    destruct (call_fine c C') as [N T]. destruct (set_state_reads F f o _ _ PF R N T) as (f1 & _ & [OKU _] & _).
    destruct (crash_reads F f o c f' PF C' R I NE) as [B|(o' & R' & CU)]; [auto|right]. exists o'. split; [exact R'|].
    intros site v G'. destruct (sget_cut _ _ _ _ CU (proj1 OKU) G') as (rest & G).
    destruct (str_eq_dec (site_name (site_of c)) (site_name site)) as [E|NE'].
    + destruct c as [s t|s]; cbn [site_of time_of update] in *; rewrite <- E in G.
      * rewrite sget_sset_eq in G. injection G as G. exists t, rest. split; [apply rem_store, site_name_eq, E|].
        split; [apply T|]. split; [exact C1|exact G].
      * rewrite sget_sdel_eq in G; [discriminate|]. apply R.
    + assert (G2 : sget (site_name site) o = Some (v ++ rest)).
      { destruct c as [s t|s]; cbn [site_of time_of update] in *; [rewrite sget_sset_ne in G|rewrite sget_sdel_ne in G]; congruence. }
      destruct (V site _ G2) as (t & r2 & M & D & S & K). exists t, (rest ++ r2). rewrite app_assoc. split; [|auto].
      apply rem_other; [|exact M]. rewrite <- site_name_eq. exact NE'.
Qed.
Lemma left_times F f calls site t' : python_floats F -> cut_floats F -> Forall good calls -> left_by F f calls ->
  get_state F f site = Ok (Some t') -> exists t, remembers site calls (Some t) /\ t' <= t.
Proof.
  intros PF CF OK L G. destruct (left_values F f calls PF OK L) as [B|(o & R & V)].
  - unfold get_state in G. rewrite B in G. discriminate.
  - rewrite (get_state_reads F f o site R) in G. destruct (sget (site_name site) o) as [v|] eqn:E; [|discriminate].
    destruct (read_float F v) as [t1|] eqn:RF; [|discriminate]. injection G as ->.
    destruct (V site v E) as (t & rest & M & D & S & K). exists t. split; [exact M|]. exact (CF t v rest t' D S K RF).
Qed.
(** Every moment of a call. *)
Lemma crash_left F f calls c f' : left_by F f calls -> In f' (set_state_crash F f (site_of c) (time_of c)) ->
  left_by F f' calls \/ left_by F f' (calls ++ [c]).
Proof.
  intros L I. assert ({f' = f} + {f' <> f}) as [->|N] by (repeat decide equality); [now left|right]. eapply lb_killed; eauto.
Qed.
Lemma calls_left F calls : left_by F (file_after F calls) calls.
Proof.
  induction calls as [|c calls IH] using rev_ind; [constructor|]. rewrite file_after_snoc. now constructor.
Qed.
Lemma crash_time F f calls site t f' t' : python_floats F -> cut_floats F -> Forall call_ok (calls ++ [Store site t]) -> SEC <= t ->
  left_by F f calls -> In f' (set_state_crash F f site (Some t)) -> get_state F f' site = Ok (Some t') -> f' = f \/ t' <= t.
Proof.
  intros PF CF OK S L I G. assert ({f' = f} + {f' <> f}) as [Q|N] by (repeat decide equality); [now left|right].
  apply Forall_app in OK as [OK C]. inversion C as [|? ? C' _]; subst.
  destruct (left_reads F f calls PF OK L) as [B|(o & R)]; [now apply (broken_call F f (Store site t) B) in I|].
  destruct (call_fine _ C') as [NE T]. destruct (set_state_reads F f o site (Some t) PF R NE T) as (f1 & _ & [OKU _] & _).
  destruct (crash_reads F f o (Store site t) f' PF C' R I N) as [B|(o' & R' & CU)]; [unfold get_state in G; rewrite B in G; discriminate|].
  rewrite (get_state_reads F f' o' site R') in G. destruct (sget (site_name site) o') as [v|] eqn:V; [|discriminate].
  destruct (sget_cut _ _ _ _ CU (proj1 OKU) V) as (rest & W). cbn [site_of time_of update] in W. rewrite sget_sset_eq in W. injection W as W.
  destruct (read_float F v) as [t1|] eqn:RF; [|discriminate]. injection G as ->. exact (CF t v rest t' T S W RF).
Qed.

(** ** The instance of decimal integers *)

Lemma digits_val_prefix a b : forallb is_digit (a ++ b) = true -> digits_val a <= digits_val (a ++ b).
Proof.
  induction b as [|c b IH] using rev_ind; intros D; [rewrite app_nil_r; lia|]. rewrite app_assoc in *. rewrite forallb_app in D.
  apply andb_true_iff in D as [D1 D2]. specialize (IH D1). rewrite digits_val_app. cbn [forallb] in D2. rewrite andb_true_r in D2.
  apply digit_val_range in D2. pose proof (digits_val_bound _ D1). lia.
Qed.
Lemma parse_digits s n : forallb is_digit s = true -> parse_int s = Some n -> n = digits_val s.
Proof.
  intros D P. unfold parse_int in P. rewrite strip_ws_digits in P.
  2: { intros c H. apply is_digit_not_space. exact (proj1 (forallb_forall _ _) D c H). }
  destruct s as [|c s]; [discriminate P|].
  assert (is_digit c = true) as Dc by (cbn [forallb] in D; apply andb_true_iff in D; tauto).
  assert (I : int_digits (c :: s) 0 false = Some n).
  { destruct (ceqb c "-"%char) eqn:E1; [apply ceqb_eq in E1 as ->; discriminate Dc|].
    destruct (ceqb c "+"%char) eqn:E2; [apply ceqb_eq in E2 as ->; discriminate Dc|].
    apply ceqb_neq in E1, E2.
    destruct c as [[] [] [] [] [] [] [] []]; auto; try (exfalso; apply E1; reflexivity); exfalso; apply E2; reflexivity. }
  rewrite int_digits_all in I; [|exact D|left; discriminate]. injection I as <-. reflexivity.
Qed.
Lemma int_cut t a b t' : 0 <= t -> print_int t = a ++ b -> read_units a = Some t' -> t' <= t.
Proof.
  intros P Q R. assert (a <> []) as NE by (intros ->; discriminate R).
  assert (~ In "."%char a) as NP by (intro H; apply (proj2 (proj2 (print_int_chars t))); rewrite Q; apply in_or_app; now left).
  rewrite read_no_point in R by assumption. unfold print_int in Q. destruct (Z.ltb_spec t 0); [lia|].
  pose proof (print_nat_digits t) as D. rewrite Q in D. assert (D1 : forallb is_digit a = true) by (rewrite forallb_app in D; apply andb_true_iff in D; tauto).
  rewrite (parse_digits a t' D1 R). rewrite <- (digits_val_print_nat t) by lia. rewrite Q. apply digits_val_prefix, D.
Qed.
Lemma unit_cut : cut_floats unit_floats.
Proof.
  intros t a b t' T LE Q R. assert (0 <= t) by (assert (0 < SEC) by (apply Z.pow_pos_nonneg; lia); lia).
  pose proof (proj1 (unit_floats_ok t T)) as RT.
  cbn [show_float read_float unit_floats] in *. unfold show_units in Q, RT.
  destruct (Z.eqb_spec (Z.shiftl (Z.shiftr t 1064) 1064) t) as [E|E]; [|exact (int_cut t a b t' H Q R)].
  assert (Z.shiftr t 1064 <= t) as LQ.
  { rewrite Z.shiftr_div_pow2 by lia. apply Z.div_le_upper_bound; [apply Z.pow_pos_nonneg; lia|].
    assert (1 <= 2 ^ 1064) by (assert (0 < 2 ^ 1064) by (apply Z.pow_pos_nonneg; lia); lia). nia. }
  assert (0 <= Z.shiftr t 1064) as PQ by (apply Z.shiftr_nonneg; exact H).
  induction b as [|c b _] using rev_ind.
  - rewrite app_nil_r in Q. rewrite <- Q, RT in R. injection R as <-. apply Z.le_refl.
  - rewrite app_assoc in Q. change $"." with ["."%char] in Q. apply app_inj_tail in Q as [Q _].
    etransitivity; [exact (int_cut _ _ _ _ PQ Q R)|exact LQ].
Qed.
Lemma crash_part F f site ts text n : state_text F f site ts = Ok text -> (n <= List.length text)%nat -> In (Some (firstn n text)) (set_state_crash F f site ts).
Proof. intros S L. unfold set_state_crash. rewrite S. right. apply in_map_iff. exists n. split; [reflexivity|]. apply in_seq. lia. Qed.

(** Two sites, and a kill while the time of the second is written. *)
Definition cut_after (n : nat) (f : option str) (site : str) (t : Z) : option str :=
  match state_text unit_floats f site (Some t) with Ok x => Some (firstn (List.length x - n) x) | Err _ => None end.
Lemma cut_after_in n f site t : match state_text unit_floats f site (Some t) with Ok _ => true | Err _ => false end = true ->
  In (cut_after n f site t) (set_state_crash unit_floats f site (Some t)).
Proof.
  unfold cut_after. destruct (state_text unit_floats f site (Some t)) as [x|] eqn:X; [|discriminate]. intros _. apply crash_part; [exact X|lia].
Qed.
Lemma two_cut :
  let f := file_after unit_floats [Store site_a (5 * SEC)] in let t := 7 * SEC in
  Forall (fun c => call_ok c /\ since_1970 c) [Store site_a (5 * SEC); Store site_c t]
  /\ exists f', left_by unit_floats f' [Store site_a (5 * SEC); Store site_c t]
     /\ In f' (set_state_crash unit_floats f site_c (Some t)) /\ f' <> f
     /\ get_state unit_floats f' site_a = Ok (Some (5 * SEC)) /\ exists t', get_state unit_floats f' site_c = Ok (Some t') /\ t' < t.
Proof.
  intros f t. subst f t. split.
  - repeat (apply Forall_cons; [split; [split; [discriminate|vm_compute; reflexivity]|apply Z.leb_le; vm_compute; reflexivity]|]). apply Forall_nil.
  - exists (cut_after 5 (file_after unit_floats [Store site_a (5 * SEC)]) site_c (7 * SEC)).
    assert (I : In (cut_after 5 (file_after unit_floats [Store site_a (5 * SEC)]) site_c (7 * SEC))
                  (set_state_crash unit_floats (file_after unit_floats [Store site_a (5 * SEC)]) site_c (Some (7 * SEC)))) by (apply cut_after_in; vm_compute; reflexivity).
    assert (N : cut_after 5 (file_after unit_floats [Store site_a (5 * SEC)]) site_c (7 * SEC) <> file_after unit_floats [Store site_a (5 * SEC)]) by (vm_compute; discriminate).
    split; [exact (lb_killed _ _ [Store site_a (5 * SEC)] (Store site_c (7 * SEC)) _ (calls_left unit_floats [Store site_a (5 * SEC)]) I N)|].
    split; [exact I|]. split; [exact N|]. split; [vm_compute; reflexivity|].
    exists 71. split; [vm_compute; reflexivity|apply Z.ltb_lt; vm_compute; reflexivity].
Qed.
