(** * MeanwhileFacts: proofs about a source that changes while the client is running *)

From Coq Require Import Lia.
From Verif Require Import Py Float64 PathSpec OsPath Mapper MapperSpec Resource Container ContainerSpec ListIndex Disk DiskSpec Builder BuilderSpec
  ClientState ClientStateSpec ClientStateFacts Client ClientSpec ConvergeSpec FollowSpec Follow Kill KillSpec KillFacts MeanwhileSpec.

Section Busy.
Variables (cwd : list str) (F : float_text) (c : client) (s : site).
Hypothesis (PF : python_floats F) (CF : cut_floats F) (SM : forall sm, sitemap c = Ok sm -> sm <> []) (WM : well_mapped cwd c) (IE : in_earnest c).

Lemma busy_grows es w es' w' : busy_history cwd F c s es w es' w' -> exists more, es' = es ++ more.
Proof.
  induction 1 as [es w|es w w1 es' w' _ _ IH|es w more mid E clu from w1 x es' w' _ _ _ _ _ _ _ (m & ->)|es w more E clu from w1 es' w' _ _ _ _ _ _ (m & ->)|es w more mid E clu from w1 t es' w' _ _ _ _ _ _ _ _ (m & ->)].
  - exists []. now rewrite app_nil_r.
  - exact IH.
  - exists (more ++ mid ++ m). now rewrite <- !app_assoc.
  - exists (more ++ m). now rewrite <- app_assoc.
  - exists (more ++ mid ++ m). now rewrite <- !app_assoc.
Qed.
Lemma busy_track es w es' w' : busy_history cwd F c s es w es' w' -> in_order es' -> (forall e, In e es' -> below_base c (ev_uri e)) ->
  on_track cwd F c s es w -> on_track cwd F c s es' w'.
Proof.
  intros H. induction H as [es w|es w w1 es' w' D H IH|es w more mid E clu from w1 x es' w' EC EF R S N X H IH|es w more E clu from w1 es' w' EC EF R S X H IH|es w more mid E clu from w1 t es' w' EC EF R S N X LT H IH]; intros O B T; [exact T| | | |].
  - apply (IH O B), (track_disk _ _ _ _ _ _ _ D T).
  - apply (IH O B). destruct (busy_grows _ _ _ _ H) as (m & ->).
    apply (track_while cwd F c s PF SM WM IE es more mid w E clu from w1 x); auto.
    + apply in_order_app in O. apply O.
    + intros e I. apply B. apply in_app_iff. left. apply in_app_iff. auto.
  - apply (IH O B). destruct (busy_grows _ _ _ _ H) as (m & ->).
    apply (killed_step cwd F c s) with (E := E) (clu := clu) (from := from) (w := w); auto.
    + apply in_order_app in O. apply O.
    + intros e I. apply B, in_app_iff. auto.
  - apply (IH O B). destruct (busy_grows _ _ _ _ H) as (m & ->).
    apply (saving_while cwd F c s PF CF SM WM IE es more mid w E clu from w1 t); auto.
    + apply in_order_app in O. apply O.
    + intros e I. apply B. apply in_app_iff. left. apply in_app_iff. auto.
Qed.
Lemma busy_followed es w es1 w1 more mid E clu from w' : on_track cwd F c s es w -> busy_history cwd F c s es w es1 w1 ->
  in_order (es1 ++ more) -> (forall e, In e (es1 ++ more) -> below_base c (ev_uri e)) ->
  e_cwd E = cwd -> e_floats E = F -> recorded F c w1 from -> sees_while E c clu from s (es1 ++ more) mid -> none_left cwd c w1 from s (es1 ++ more) ->
  incremental E c true clu None w1 = (w', Ok tt) -> copy_while cwd c w' s (es1 ++ more) mid.
Proof.
  intros T H O B EC EF R S N X. assert (on_track cwd F c s es1 w1) as T1.
  { apply (busy_track _ _ _ _ H); [apply in_order_app in O; apply O| |exact T]. intros e I. apply B, in_app_iff. auto. }
  unfold copy_while. apply (followed_while cwd F c s) with (E := E) (clu := clu) (from := from) (w := w1); auto.
Qed.
Lemma busy_copy es w es1 w1 more E clu from w' : on_track cwd F c s es w -> busy_history cwd F c s es w es1 w1 ->
  in_order (es1 ++ more) -> (forall e, In e (es1 ++ more) -> below_base c (ev_uri e)) ->
  e_cwd E = cwd -> e_floats E = F -> recorded F c w1 from -> sees E c clu from s (es1 ++ more) -> none_left cwd c w1 from s (es1 ++ more) ->
  incremental E c true clu None w1 = (w', Ok tt) -> copy_of cwd c w' (later s (es1 ++ more)).
Proof.
  intros T H O B EC EF R S N X u Bu.
  destruct (busy_followed es w es1 w1 more [] E clu from w' T H O B EC EF R (sees_still _ _ _ _ _ _ S) N X u Bu) as (a & b & Q & SC).
  symmetry in Q. apply app_eq_nil in Q. destruct Q as [-> _]. rewrite app_nil_r in SC. exact SC.
Qed.
End Busy.

Lemma busy_baseline E c w w' s es mid : python_floats (e_floats E) -> (forall sm, sitemap c = Ok sm -> sm <> []) -> in_earnest c ->
  good_start_while E c w s es mid -> no_later_file E c w es -> in_order (es ++ mid) ->
  baseline_or_audit E c true false w = (w', Ok tt) -> copy_while (e_cwd E) c w' s es mid /\ on_track (e_cwd E) (e_floats E) c s (es ++ mid) w'.
Proof.
  intros PF SM IE G NL O H. pose proof G as [G1 G2 G3 G4 G5 G6 G7 G8].
  destruct (baseline_got E c w w' (later s es) IE G1 G3 G7 G8 H) as [C W].
  assert (copy_while (e_cwd E) c w' s es mid) as CW.
  { intros u B. destruct (C u B) as [A|(k & d & _ & GE & A)].
    - exists [], mid. rewrite app_nil_r. auto.
    - destruct (G4 k u d GE) as (a & b & Q & L). exists a, b. split; [exact Q|]. unfold same_content. rewrite L. exact A. }
  split; [exact CW|]. destruct G2 as (calls & CO & ST).
  assert ((exists calls, Forall call_ok calls /\ left_by (e_floats E) (w_state w') calls) /\
    forall t, recorded (e_floats E) c w' t -> exists e, In e es /\ t <= ev_time e) as [A B].
  { destruct (baseline_saves E c true w w' (Ok tt) (sy_world _ _ _ G1)) as [Q|(sm & t & QS & DB & ST' & WHO)]; [|exact H| |].
    - intros u n t L _ M. apply (NL u n t L M).
    - split; [exists calls; split; [exact CO|rewrite Q; exact ST]|]. intros t (sm & S & GT). apply (G6 t). exists sm. split; [exact S|congruence].
    - destruct (saved_again (e_floats E) (w_state w) calls sm t (w_state w') PF CO ST (SM sm QS) DB ST') as (CO' & L' & GG).
      split; [eauto|]. intros t' (sm' & S & GT). destruct GG as [GG|GG]; [|apply (G6 t'); exists sm'; split; [exact S|congruence]].
      rewrite QS in S. injection S as <-. rewrite GG in GT. injection GT as <-.
      destruct WHO as [(u & r & SE & RT)|(u & n & LN & _ & MT)]; [apply (G5 u r t SE RT)|apply (NL u n t LN MT)]. }
  split; [exact W|exact A| |].
  - intros t R. destruct (B t R) as (e & I & L). exists e. split; [apply in_app_iff; auto|exact L].
  - intros t R. apply right_while; [|exact CW]. intros e I. destruct (B t R) as (e0 & I0 & L0).
    apply in_order_app in O. destruct O as (_ & _ & O). specialize (O e0 e I0 I). lia.
Qed.

Lemma while_untouched cwd c w s es mid u : copy_while cwd c w s es mid -> below_base c u -> (forall e, In e mid -> ev_uri e <> u) ->
  same_content cwd c w (later s (es ++ mid)) u.
Proof.
  intros C B N. destruct (C u B) as (a & b & Q & SC). unfold same_content in *. rewrite later_app in *. rewrite later_other; [|exact N].
  rewrite later_other in SC; [exact SC|]. intros e I. apply N. rewrite Q. apply in_app_iff. auto.
Qed.
Lemma busy_untouched cwd F c s : python_floats F -> cut_floats F -> (forall sm, sitemap c = Ok sm -> sm <> []) -> well_mapped cwd c -> in_earnest c ->
  forall es w es1 w1 more mid E clu from w' u, on_track cwd F c s es w -> busy_history cwd F c s es w es1 w1 ->
  in_order (es1 ++ more) -> (forall e, In e (es1 ++ more) -> below_base c (ev_uri e)) ->
  e_cwd E = cwd -> e_floats E = F -> recorded F c w1 from -> sees_while E c clu from s (es1 ++ more) mid -> none_left cwd c w1 from s (es1 ++ more) ->
  incremental E c true clu None w1 = (w', Ok tt) -> below_base c u -> (forall e, In e mid -> ev_uri e <> u) ->
  same_content cwd c w' (later s ((es1 ++ more) ++ mid)) u.
Proof.
  intros PF CF SM WM IE es w es1 w1 more mid E clu from w' u T H O B EC EF R S N X Bu Q.
  apply while_untouched; [|exact Bu|exact Q]. apply (busy_followed cwd F c s PF CF SM WM IE es w es1 w1 more mid E clu from w'); auto.
Qed.
