(** * StateRaceFacts: proofs about interleaved uses of the status file. *)

From Coq Require Import Permutation.
From Verif Require Import Py PyFacts Float64 ClientState ClientStateSpec ClientStateFacts StateRace StateRaceSpec.

Lemma nth_replace_eq ps i p q : nth_error ps i = Some q -> nth_error (replace ps i p) i = Some p.
Proof. revert i. induction ps as [|x ps IH]; intros [|i]; cbn; try discriminate; auto. Qed.
Lemma nth_replace_ne ps i j p : i <> j -> nth_error (replace ps i p) j = nth_error ps j.
Proof.
  revert i j. induction ps as [|x ps IH]; intros [|i] [|j] N; cbn; try reflexivity; try congruence.
  apply IH. congruence.
Qed.
Lemma replace_replace ps i p q : replace (replace ps i p) i q = replace ps i q.
Proof. revert i. induction ps as [|x ps IH]; intros [|i]; cbn; congruence. Qed.

(** One process alone. *)
Fixpoint alone (F : float_text) (f : option str) (p : proc) (ns : list nat) : option str * proc :=
  match ns with
  | [] => (f, p)
  | n :: ns' => let '(f', p') := next F f p n in alone F f' p' ns'
  end.

Lemma run_alone F i ns : forall f ps p, nth_error ps i = Some p -> ns <> [] ->
  run F (f, ps) (map (pair i) ns)
  = (fst (alone F f p ns), replace ps i (snd (alone F f p ns))).
Proof.
  induction ns as [|n ns IH]; intros f ps p H N; [congruence|].
  cbn [map]. unfold run. cbn [fold_left]. unfold turn at 2. cbn [fst snd]. rewrite H.
  cbn [alone]. destruct (next F f p n) as [f' p'] eqn:E.
  destruct ns as [|m ns].
  - reflexivity.
  - fold (run F (f', replace ps i p') (map (pair i) (m :: ns))).
    rewrite (IH f' (replace ps i p') p'); [|now apply nth_replace_eq with p | discriminate].
    now rewrite replace_replace.
Qed.

Lemma to_end_alone F i f ps p r' : nth_error ps i = Some p -> to_its_end F i (f, ps) r' ->
  (exists c e, p = Finished c e /\ r' = (f, ps))
  \/ exists ns f' c e, alone F f p ns = (f', Finished c e) /\ r' = (f', replace ps i (Finished c e)).
Proof.
  intros H [[ns ->] (c & e & E)]. destruct ns as [|n ns].
  - left. cbn in E. rewrite H in E. injection E as ->. now exists c, e.
  - right. rewrite (run_alone F i (n :: ns) f ps p H) in * by discriminate.
    cbn [snd] in E. rewrite (nth_replace_eq _ _ _ _ H) in E.
    exists (n :: ns), (fst (alone F f p (n :: ns))), c, e.
    destruct (alone F f p (n :: ns)) as [f' p']. cbn [fst snd] in E |- *.
    apply (f_equal (fun o => match o with Some q => q | None => p' end)) in E. cbv beta iota in E.
    rewrite E. now split.
Qed.

Lemma put_end off s old : List.length old = off -> put off s old = old ++ s.
Proof.
  intros <-. unfold put. rewrite firstn_app, firstn_all, Nat.sub_diag. cbn [firstn].
  rewrite app_nil_r. rewrite skipn_all2 by lia. now rewrite app_nil_r.
Qed.

Lemma alone_ended F ns : forall f c e, alone F f (Finished c e) ns = (f, Finished c e).
Proof. induction ns as [|n ns IH]; intros f c e; [reflexivity | apply IH]. Qed.

Lemma alone_writing F ns : forall c done rest f' c' e,
  alone F (Some done) (Writing c (List.length done) rest) ns = (f', Finished c' e) ->
  f' = Some (done ++ rest) /\ c' = c /\ e = None.
Proof.
  induction ns as [|n ns IH]; intros c done rest f' c' e H; [discriminate|].
  cbn [alone] in H. destruct rest as [|x rest]; cbn [next] in H.
  - rewrite alone_ended in H. injection H as <- <- <-. now rewrite app_nil_r.
  - set (s := firstn (S n) (x :: rest)) in *. set (r := skipn (S n) (x :: rest)) in *.
    rewrite put_end in H by reflexivity. rewrite <- app_length in H.
    apply IH in H as (-> & -> & ->). split; [|now split].
    rewrite <- app_assoc. unfold s, r. now rewrite firstn_skipn.
Qed.

Lemma alone_has_read F ns f c t f' c' e : alone F f (HasRead c t) ns = (f', Finished c' e) ->
  f' = Some t /\ c' = c /\ e = None.
Proof.
  destruct ns as [|n ns]; [discriminate|]. cbn [alone next]. intros H.
  now apply (alone_writing F ns c [] t).
Qed.

Lemma do_call_text F f c : do_call F f c
  = match state_text F f (site_of c) (time_of c) with Ok t => (Some t, None) | Err e => (f, Some e) end.
Proof. destruct c; cbn; unfold set_state; now destruct (state_text F f site _). Qed.

Lemma alone_call F ns f c f' c' e : alone F f (Waiting c) ns = (f', Finished c' e) ->
  (f', e) = do_call F f c /\ c' = c.
Proof.
  destruct ns as [|n ns]; [discriminate|]. cbn [alone next]. rewrite do_call_text.
  destruct (state_text F f (site_of c) (time_of c)) as [t|x]; intros H.
  - apply alone_has_read in H as (-> & -> & ->). now split.
  - rewrite alone_ended in H. injection H as <- <- <-. now split.
Qed.

Lemma serial_file F r calls r' : one_by_one F r calls r' ->
  fst r' = fold_left (fun f c => fst (do_call F f c)) calls (fst r).
Proof.
  induction 1 as [r | [f ps] i c r1 calls r2 W T R IH]; [reflexivity|].
  cbn [fold_left fst] in *. cbn [snd] in W.
  apply (to_end_alone F i f ps (Waiting c) r1 W) in T as [(c' & e & Q & _) | (ns & f' & c' & e & A & ->)].
  - discriminate.
  - apply alone_call in A as [A _]. rewrite <- A. exact IH.
Qed.

(** ** Whole writes *)

(** Everything in the parser was stored by one of the calls. *)
Definition from_calls (F : float_text) (calls : list call) (o : list (str * str)) : Prop :=
  opts_ok o /\ forall n v, In (n, v) o ->
    exists s t, In (Store s t) calls /\ n = site_name s /\ v = show_float F t.

Definition written (o : list (str * str)) : str := ini_text (MkIni [] [(INCREMENTAL, o)]).

Definition proc_ok (F : float_text) (calls : list call) (p : proc) : Prop :=
  match p with
  | Waiting c => In c calls
  | HasRead c t => In c calls /\ exists o, t = written o /\ from_calls F calls o
      /\ sget (site_name (site_of c)) o = match time_of c with Some x => Some (show_float F x) | None => None end
  | Writing _ _ _ => False
  | Finished c e => e = None
  end.
Definition race_ok (F : float_text) (calls : list call) (r : race) : Prop :=
  (exists o, holds (fst r) o /\ from_calls F calls o) /\ Forall (proc_ok F calls) (snd r).

Lemma sset_in (n v : str) (o : list (str * str)) k x : In (k, x) (sset n v o) -> (k = n /\ x = v) \/ In (k, x) o.
Proof.
  induction o as [|[a b] o IH]; cbn.
  - intros [E|[]]. injection E as <- <-. now left.
  - destruct (str_eqb_spec n a) as [<-|Q]; cbn.
    + intros [E|H]; [injection E as <- <-; now left | right; now right].
    + intros [E|H]; [right; now left|]. apply IH in H as [H|H]; [now left | right; now right].
Qed.
Lemma sdel_in (n : str) (o : list (str * str)) k x : In (k, x) (sdel n o) -> In (k, x) o.
Proof.
  induction o as [|[a b] o IH]; cbn; [tauto|].
  destruct (str_eqb_spec n a) as [<-|Q]; cbn; [tauto|]. intros [E|H]; [now left | right; now apply IH].
Qed.

Lemma from_update F calls c o : python_floats F -> In c calls -> call_ok c -> from_calls F calls o ->
  from_calls F calls (update F o (site_of c) (time_of c)).
Proof.
  intros PF I C [OK H]. destruct c as [s t|s]; cbn [site_of time_of update] in *; split.
  - destruct C as [NE T]. destruct (PF t T) as (_ & V1 & V2).
    apply opts_set; [exact OK | | exact V2]. split; [now apply site_name_nonempty | apply site_name_chars].
  - intros n v E. apply sset_in in E as [[-> ->]|E]; [now exists s, t | now apply H].
  - now apply opts_del.
  - intros n v E. apply sdel_in in E. now apply H.
Qed.

Lemma Forall_replace (P : proc -> Prop) ps i p : Forall P ps -> P p -> Forall P (replace ps i p).
Proof.
  intros F. revert i. induction F as [|x ps H F IH]; intros [|i] N; cbn; constructor; auto.
Qed.

Lemma call_time_ok c : call_ok c -> site_of c <> [] /\ time_ok (time_of c).
Proof. destruct c; unfold call_ok; cbn; tauto. Qed.

Lemma after_update F o c : opts_ok o ->
  sget (site_name (site_of c)) (update F o (site_of c) (time_of c))
  = match time_of c with Some x => Some (show_float F x) | None => None end.
Proof.
  intros [ND _]. destruct c as [s t|s]; cbn [site_of time_of update].
  - apply sget_sset_eq.
  - now rewrite sget_sdel_eq.
Qed.

Lemma read_ok F calls r i c n : python_floats F -> Forall call_ok calls ->
  nth_error (snd r) i = Some (Waiting c) -> race_ok F calls r -> race_ok F calls (turn F r (i, n)).
Proof.
  destruct r as [f ps]. intros PF OK W [(o & H & FC) P]. cbn [fst snd] in *.
  assert (I : In c calls).
  { rewrite Forall_forall in P. apply nth_error_In in W. now apply P in W. }
  assert (C : call_ok c) by (rewrite Forall_forall in OK; auto).
  unfold turn. cbn [fst snd]. rewrite W. cbn [next].
  destruct (call_time_ok c C) as [NE T].
  destruct (set_state_holds F f o (site_of c) (time_of c) PF H NE T) as (f' & _ & _ & E).
  rewrite E. split; cbn [fst snd].
  - now exists o.
  - apply Forall_replace; [exact P|]. cbn. split; [exact I|].
    exists (update F o (site_of c) (time_of c)). split; [reflexivity|].
    split; [now apply from_update | apply after_update, H].
Qed.

Lemma write_ok F calls r i c t r' : nth_error (snd r) i = Some (HasRead c t) -> to_its_end F i r r' ->
  race_ok F calls r -> race_ok F calls r' /\ fst r' = Some t.
Proof.
  destruct r as [f ps]. intros W T [_ P]. cbn [fst snd] in *.
  assert (K : proc_ok F calls (HasRead c t)).
  { rewrite Forall_forall in P. apply nth_error_In in W. now apply P in W. }
  destruct K as (_ & o & -> & FC & _).
  apply (to_end_alone F i f ps _ r' W) in T as [(c' & e & Q & _) | (ns & f' & c' & e & A & ->)]; [discriminate|].
  apply alone_has_read in A as (-> & -> & ->). split; [|reflexivity]. split; cbn [fst snd].
  - exists o. split; [|exact FC]. split; [apply FC | now right].
  - now apply Forall_replace.
Qed.

Lemma whole_ok F calls r r' : python_floats F -> Forall call_ok calls ->
  whole_writes F r r' -> race_ok F calls r -> race_ok F calls r'.
Proof.
  intros PF OK W. induction W as [r | r i c n r' N W IH | r i c t r1 r2 N T W IH]; intros R.
  - exact R.
  - apply IH. now apply read_ok with c.
  - apply IH. now apply (write_ok F calls r i c t r1 N T).
Qed.

Lemma start_holds F calls : python_floats F -> Forall call_ok calls ->
  exists o, holds (file_after F calls) o /\ from_calls F calls o.
Proof.
  intros PF. induction calls as [|c calls IH] using rev_ind; intros OK.
  - exists []. split; [split; [repeat constructor | now left]|]. split; [repeat constructor | intros ? ? []].
  - apply Forall_app in OK as [OK C]. inversion C as [|? ? C' _]; subst.
    destruct (IH OK) as (o & H & FC).
    destruct (call_time_ok c C') as [NE T].
    destruct (set_state_holds F _ o (site_of c) (time_of c) PF H NE T) as (f' & S & H' & _).
    exists (update F o (site_of c) (time_of c)). rewrite file_after_snoc.
    assert (D : do_call F (file_after F calls) c = set_state F (file_after F calls) (site_of c) (time_of c))
      by now destruct c.
    rewrite D, S. split; [exact H'|].
    apply from_update; [exact PF | apply in_or_app; right; now left | exact C' |].
    destruct FC as [A B]. split; [exact A|]. intros n v I. destruct (B n v I) as (s & t & J & K).
    exists s, t. split; [apply in_or_app; now left | exact K].
Qed.

Lemma start_ok F before calls : python_floats F -> Forall call_ok (before ++ calls) ->
  race_ok F (before ++ calls) (file_after F before, map Waiting calls).
Proof.
  intros PF OK. apply Forall_app in OK as [OKb OKc].
  destruct (start_holds F before PF OKb) as (o & H & A & B). split; cbn [fst snd].
  - exists o. split; [exact H|]. split; [exact A|]. intros n v I. destruct (B n v I) as (s & t & J & K).
    exists s, t. split; [apply in_or_app; now left | exact K].
  - apply Forall_forall. intros p I. apply in_map_iff in I as (c & <- & I). cbn. apply in_or_app. now right.
Qed.

Lemma race_get F calls r site : python_floats F -> Forall call_ok calls -> race_ok F calls r ->
  exists v, get_state F (fst r) site = Ok v
  /\ forall t, v = Some t -> exists s, In (Store s t) calls /\ same_name s site.
Proof.
  intros PF OK [(o & H & _ & B) _]. rewrite (get_state_holds F _ o site H).
  destruct (sget (site_name site) o) as [x|] eqn:G.
  - apply sget_in in G. destruct (B _ _ G) as (s & t & J & N & ->).
    assert (C : call_ok (Store s t)) by (rewrite Forall_forall in OK; auto).
    destruct (PF t (proj2 C)) as [-> _]. exists (Some t). split; [reflexivity|].
    intros t' E. injection E as <-. exists s. split; [exact J|]. now apply site_name_eq.
  - exists None. split; [reflexivity | discriminate].
Qed.

Lemma whole_no_error F before calls r : python_floats F -> Forall call_ok (before ++ calls) ->
  whole_writes F (file_after F before, map Waiting calls) r ->
  forall c e, In (Finished c e) (snd r) -> e = None.
Proof.
  intros PF OK W c e I. apply (whole_ok F (before ++ calls)) in W; [|assumption..|now apply start_ok].
  destruct W as [_ P]. rewrite Forall_forall in P. now apply P in I.
Qed.

Lemma whole_get F before calls r site : python_floats F -> Forall call_ok (before ++ calls) ->
  whole_writes F (file_after F before, map Waiting calls) r ->
  exists v, get_state F (fst r) site = Ok v
  /\ forall t, v = Some t -> exists s, In (Store s t) (before ++ calls) /\ same_name s site.
Proof.
  intros PF OK W. apply race_get; [assumption..|]. apply (whole_ok F (before ++ calls)) in W; auto.
  now apply start_ok.
Qed.

Lemma whole_last F before calls r i c t r' : python_floats F -> Forall call_ok (before ++ calls) ->
  whole_writes F (file_after F before, map Waiting calls) r ->
  nth_error (snd r) i = Some (HasRead c t) -> to_its_end F i r r' ->
  get_state F (fst r') (site_of c) = Ok (time_of c).
Proof.
  intros PF OK W N T. apply (whole_ok F (before ++ calls)) in W; [|assumption..|now apply start_ok].
  destruct (write_ok F (before ++ calls) r i c t r' N T W) as [_ E]. rewrite E.
  destruct W as [_ P]. rewrite Forall_forall in P. apply nth_error_In in N. apply P in N.
  destruct N as (I & o & -> & FC & G).
  assert (H : holds (Some (written o)) o) by (split; [apply FC | now right]).
  rewrite (get_state_holds F _ o (site_of c) H), G.
  assert (C : call_ok c) by (rewrite Forall_forall in OK; auto).
  destruct c as [s x|s]; cbn [time_of]; [|reflexivity].
  destruct (PF x (proj2 C)) as [-> _]. reflexivity.
Qed.

(** ** One by one *)

Definition waiting (ps : list proc) : list call :=
  flat_map (fun p => match p with Waiting c => [c] | _ => [] end) ps.

Lemma waiting_start calls : waiting (map Waiting calls) = calls.
Proof. induction calls as [|c calls IH]; [reflexivity|]. cbn. f_equal. exact IH. Qed.
Lemma waiting_replace ps : forall i c c' e, nth_error ps i = Some (Waiting c) ->
  Permutation (c :: waiting (replace ps i (Finished c' e))) (waiting ps).
Proof.
  induction ps as [|p ps IH]; intros [|i] c c' e H; cbn in H; try discriminate.
  - injection H as ->. reflexivity.
  - cbn [replace waiting flat_map]. fold (waiting ps). fold (waiting (replace ps i (Finished c' e))).
    rewrite Permutation_middle. apply Permutation_app_head. now apply IH.
Qed.

Lemma serial_step F calls r i c r' : python_floats F -> Forall call_ok calls ->
  nth_error (snd r) i = Some (Waiting c) -> to_its_end F i r r' -> race_ok F calls r ->
  race_ok F calls r' /\ Permutation (c :: waiting (snd r')) (waiting (snd r)).
Proof.
  destruct r as [f ps]. intros PF OK W T [(o & H & FC) P]. cbn [fst snd] in *.
  assert (I : In c calls).
  { rewrite Forall_forall in P. apply nth_error_In in W. now apply P in W. }
  assert (C : call_ok c) by (rewrite Forall_forall in OK; auto).
  apply (to_end_alone F i f ps _ r' W) in T as [(c' & e & Q & _) | (ns & f' & c' & e & A & ->)]; [discriminate|].
  apply alone_call in A as [A ->].
  destruct (call_time_ok c C) as [NE T].
  destruct (set_state_holds F f o (site_of c) (time_of c) PF H NE T) as (f1 & S & H1 & _).
  assert (D : do_call F f c = set_state F f (site_of c) (time_of c)) by now destruct c.
  rewrite D, S in A. injection A as -> ->.
  split; [|now apply waiting_replace]. split; cbn [fst snd].
  - exists (update F o (site_of c) (time_of c)). split; [exact H1 | now apply from_update].
  - now apply Forall_replace.
Qed.

Lemma serial_ok F calls r order r' : python_floats F -> Forall call_ok calls ->
  one_by_one F r order r' -> race_ok F calls r ->
  race_ok F calls r' /\ Permutation (order ++ waiting (snd r')) (waiting (snd r)).
Proof.
  intros PF OK O. induction O as [r | r i c r1 order r2 W T O IH]; intros R; [now split|].
  destruct (serial_step F calls r i c r1 PF OK W T R) as [R1 P1].
  destruct (IH R1) as [R2 P2]. split; [exact R2|].
  cbn [app]. rewrite P2. exact P1.
Qed.

Lemma waiting_none ps : Forall (fun p => exists c e, p = Finished c e) ps -> waiting ps = [].
Proof. induction 1 as [|p ps (c & e & ->) _ IH]; [reflexivity | exact IH]. Qed.

Lemma serial_all F before calls order r : python_floats F -> Forall call_ok (before ++ calls) ->
  one_by_one F (file_after F before, map Waiting calls) order r ->
  Forall (fun p => exists c e, p = Finished c e) (snd r) ->
  Permutation order calls /\ all_done r
  /\ forall site v, get_state F (fst r) site = Ok v <-> remembers site (before ++ order) v.
Proof.
  intros PF OK O E.
  destruct (serial_ok F (before ++ calls) _ _ _ PF OK O (start_ok F before calls PF OK)) as [[_ P] Q].
  rewrite (waiting_none _ E), app_nil_r in Q. cbn [snd] in Q. rewrite waiting_start in Q.
  split; [exact Q|]. split.
  - apply Forall_forall. intros p I. rewrite Forall_forall in E, P.
    destruct (E p I) as (c & e & ->). exists c. apply P in I. cbn in I. now rewrite I.
  - intros site v. rewrite (serial_file F _ _ _ O). cbn [fst].
    replace (fold_left _ order (file_after F before)) with (file_after F (before ++ order))
      by (unfold file_after; now rewrite fold_left_app).
    apply state_history; [exact PF|]. apply Forall_app in OK as [OK1 OK2]. apply Forall_app. split; [exact OK1|].
    apply Forall_forall. intros c I. rewrite Forall_forall in OK2. apply OK2.
    eapply Permutation_in; [exact Q | exact I].
Qed.

(** ** Witnesses *)

Definition two_sites : race := (None, map Waiting [Store site_a 1234567; Store site_c 77]).
Definition lost_s : list (nat * nat) := [(0,0);(1,0);(0,0);(0,999);(0,0);(1,0);(1,999);(1,0)]%nat.
Definition one_site : race := (None, map Waiting [Store site_a 1234567; Store site_a 77]).
Definition bad_s : list (nat * nat) := [(0,0);(1,0);(0,0);(1,0);(0,999);(0,0);(1,999);(1,0)]%nat.

Lemma two_calls_ok : Forall call_ok [Store site_a 1234567; Store site_c 77].
Proof. repeat (apply Forall_cons; [split; [discriminate | vm_compute; reflexivity]|]). apply Forall_nil. Qed.
Lemma one_calls_ok : Forall call_ok [Store site_a 1234567; Store site_a 77].
Proof. repeat (apply Forall_cons; [split; [discriminate | vm_compute; reflexivity]|]). apply Forall_nil. Qed.

Lemma all_done_two r a b : snd r = [Finished a None; Finished b None] -> all_done r.
Proof.
  intros E. unfold all_done. rewrite E. apply Forall_cons; [now exists a|].
  apply Forall_cons; [now exists b | apply Forall_nil].
Qed.

Lemma update_lost : exists F calls schedule site t,
  python_floats F /\ Forall call_ok calls
  /\ all_done (run F (None, map Waiting calls) schedule)
  /\ In (Store site t) calls
  /\ (forall c, In c calls -> same_name (site_of c) site -> c = Store site t)
  /\ get_state F (fst (run F (None, map Waiting calls) schedule)) site = Ok None.
Proof.
  exists unit_floats, [Store site_a 1234567; Store site_c 77], lost_s, site_a, 1234567.
  split; [exact unit_floats_ok|]. split; [exact two_calls_ok|].
  split; [eapply all_done_two; vm_compute; reflexivity|].
  split; [now left|]. split; [|vm_compute; reflexivity].
  intros c [<-|[<-|[]]] S; [reflexivity|].
  apply site_name_eq in S. vm_compute in S. discriminate S.
Qed.

Lemma unreadable : exists F calls schedule,
  python_floats F /\ Forall call_ok calls
  /\ all_done (run F (None, map Waiting calls) schedule)
  /\ forall site, get_state F (fst (run F (None, map Waiting calls) schedule)) site = Err ConfigError.
Proof.
  exists unit_floats, [Store site_a 1234567; Store site_a 77], bad_s.
  split; [exact unit_floats_ok|]. split; [exact one_calls_ok|].
  split; [eapply all_done_two; vm_compute; reflexivity|].
  intros site. unfold get_state.
  assert (E : ini_of_file (fst (run unit_floats (None, map Waiting [Store site_a 1234567; Store site_a 77]) bad_s))
              = Err ConfigError) by (vm_compute; reflexivity).
  rewrite E. reflexivity.
Qed.

(** Two clients, both of which read before either writes. *)
Definition both_read : race := run unit_floats two_sites [(0,0);(1,0)]%nat.
Definition first_saved : race := run unit_floats both_read [(0,0);(0,999);(0,0)]%nat.
Definition both_saved : race := run unit_floats first_saved [(1,0);(1,999);(1,0)]%nat.

Lemma first_ends : to_its_end unit_floats 0 both_read first_saved.
Proof.
  split; [now exists [0;999;0]%nat|]. exists (Store site_a 1234567), None. vm_compute. reflexivity.
Qed.
Lemma second_ends : to_its_end unit_floats 1 first_saved both_saved.
Proof.
  split; [now exists [0;999;0]%nat|]. exists (Store site_c 77), None. vm_compute. reflexivity.
Qed.
Lemma whole_to_first : whole_writes unit_floats (file_after unit_floats [], map Waiting [Store site_a 1234567; Store site_c 77]) first_saved.
Proof.
  apply (whole_read unit_floats _ 0 (Store site_a 1234567) 0); [reflexivity|].
  apply (whole_read unit_floats _ 1 (Store site_c 77) 0); [vm_compute; reflexivity|].
  eapply (whole_write unit_floats _ 0 (Store site_a 1234567)); [vm_compute; reflexivity | exact first_ends |].
  apply whole_none.
Qed.
Lemma second_has_read : exists t, nth_error (snd first_saved) 1 = Some (HasRead (Store site_c 77) t).
Proof. eexists. vm_compute. reflexivity. Qed.
Lemma whole_to_both : whole_writes unit_floats (file_after unit_floats [], map Waiting [Store site_a 1234567; Store site_c 77]) both_saved.
Proof.
  apply (whole_read unit_floats _ 0 (Store site_a 1234567) 0); [reflexivity|].
  apply (whole_read unit_floats _ 1 (Store site_c 77) 0); [vm_compute; reflexivity|].
  eapply (whole_write unit_floats _ 0 (Store site_a 1234567)); [vm_compute; reflexivity | exact first_ends |].
  eapply (whole_write unit_floats _ 1 (Store site_c 77)); [vm_compute; reflexivity | exact second_ends |].
  apply whole_none.
Qed.

(** The second call first, then the first. *)
Definition after_second : race := run unit_floats two_sites (map (pair 1%nat) [0;0;20;999;0]%nat).
Definition after_both : race := run unit_floats after_second (map (pair 0%nat) [0;0;999;0]%nat).
Lemma serial_example : one_by_one unit_floats (file_after unit_floats [], map Waiting [Store site_a 1234567; Store site_c 77])
  [Store site_c 77; Store site_a 1234567] after_both.
Proof.
  apply (one_more unit_floats _ 1 (Store site_c 77) after_second); [reflexivity| |].
  - split; [now exists [0;0;20;999;0]%nat|]. exists (Store site_c 77), None. vm_compute. reflexivity.
  - apply (one_more unit_floats _ 0 (Store site_a 1234567) after_both); [vm_compute; reflexivity| |apply one_none].
    split; [now exists [0;0;999;0]%nat|]. exists (Store site_a 1234567), None. vm_compute. reflexivity.
Qed.
