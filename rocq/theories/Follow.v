(** * Follow: a copy that follows a source by incremental synchronization *)

From Verif Require Import Py PyFacts Float64 Float64Facts W3C PathSpec OsPath OsPathFacts Regex RegexFacts Mapper MapperSpec MapperFacts MapperFacts2
  Resource ResourceSpec Container ContainerSpec ContainerFacts Capability Xml Sitemap Hashes ListIndex Disk DiskSpec DiskFacts DiskChange
  Builder BuilderSpec BuilderFacts ClientState ClientStateSpec ClientStateFacts StateCut
  Client ClientSpec ClientLists ClientFacts ClientRuns ClientInc ClientCompare ClientPlaces ClientProps
  ClientDownload ClientChanges ClientThms ClientSync ClientReport ClientStatus ClientDirs ConvergeSpec ClientConverge FollowSpec.

(** ** The events and the change list *)

Lemma later_app s a b : later s (a ++ b) = later (later s a) b.
Proof. unfold later. apply fold_left_app. Qed.
Lemma later_cons s e es : later s (e :: es) = later (step s e) es.
Proof. reflexivity. Qed.
Lemma later_other es u : (forall e, In e es -> ev_uri e <> u) -> forall s, later s es u = s u.
Proof.
  induction es as [|e es IH]; intros N s; [reflexivity|]. rewrite later_cons, IH by (intros; apply N; right; assumption).
  unfold step. destruct (str_eqb_spec (ev_uri e) u) as [Q|]; [|reflexivity]. elim (N e (or_introl eq_refl) Q).
Qed.
Lemma in_order_app a b : in_order (a ++ b) -> in_order a /\ in_order b /\ forall e e', In e a -> In e' b -> ev_time e <= ev_time e'.
Proof.
  induction a as [|x a IH]; cbn [app in_order]; intros H; [split; [exact I|split; [exact H|intros e e' []]]|].
  destruct H as [A B]. destruct (IH B) as (C & D & F). split; [split; [intros e I; apply A, in_app_iff; auto|exact C]|].
  split; [exact D|]. intros e e' [<-|I] J; [apply A, in_app_iff; auto|auto].
Qed.

Lemma since_cons c from r rs : since c from (r :: rs) =
  (if match change_time (c_spec_1_0 c) r with Some t => from <=? t | None => false end then [r] else []) ++ since c from rs.
Proof. unfold since. cbn [filter]. destruct (match change_time (c_spec_1_0 c) r with Some t => from <=? t | None => false end); reflexivity. Qed.
Lemma tells_since c from es : forall s rs, in_order es -> tells c s es rs ->
  exists e1 e2, es = e1 ++ e2 /\ (forall e, In e e1 -> ev_time e < from) /\ (forall e, In e e2 -> from <= ev_time e)
    /\ tells c (later s e1) e2 (since c from rs).
Proof.
  induction es as [|e es IH]; intros s rs O T; destruct rs as [|r rs]; try contradiction.
  - exists [], []. repeat split; intros e [].
  - destruct T as [(EU & EC & ET & EM) T]. destruct O as [O1 O2]. destruct (IH _ _ O2 T) as (e1 & e2 & Q & L & G & T2).
    rewrite since_cons, ET. destruct (Z.leb_spec from (ev_time e)) as [LE|GT].
    + assert (e1 = []) as ->.
      { destruct e1 as [|x e1]; [reflexivity|]. exfalso. specialize (L x (or_introl eq_refl)).
        assert (In x es) as I by (rewrite Q; left; reflexivity). specialize (O1 x I). lia. }
      cbn [app] in Q. subst e2. exists [], (e :: es). split; [reflexivity|]. split; [intros x []|]. split.
      * intros x [<-|I]; auto.
      * cbn [app later fold_left tells]. split; [repeat split; assumption|exact T2].
    + exists (e :: e1), e2. split; [rewrite Q; reflexivity|]. split; [intros x [<-|I]; [lia|auto]|]. split; [exact G|exact T2].
Qed.

Lemma tells_in c es : forall s rs r, tells c s es rs -> In r rs -> exists a e b, es = a ++ e :: b /\ entry_for c (later s a) e r.
Proof.
  induction es as [|e es IH]; intros s rs r T I; destruct rs as [|r' rs]; try contradiction.
  destruct T as [En T]. destruct I as [<-|I].
  - exists [], e, es. split; [reflexivity|exact En].
  - destruct (IH _ _ _ T I) as (a & e' & b & -> & X). exists (e :: a), e', b. split; [reflexivity|exact X].
Qed.
Lemma tells_all c es : forall s rs e, tells c s es rs -> In e es -> exists r, In r rs /\ r_uri r = ev_uri e /\ change_time (c_spec_1_0 c) r = Some (ev_time e).
Proof.
  induction es as [|e' es IH]; intros s rs e T I; destruct rs as [|r' rs]; try contradiction.
  destruct T as [En T]. destruct I as [<-|I].
  - exists r'. split; [left; reflexivity|]. destruct En as (A & _ & B & _). auto.
  - destruct (IH _ _ _ T I) as (r & J & X). exists r. split; [right; exact J|exact X].
Qed.
Lemma tells_last c u es : forall s rs, tells c s es rs ->
  match last_entry u rs with
  | None => forall e, In e es -> ev_uri e <> u
  | Some r => r_change r = Some $"deleted" /\ later s es u = None
              \/ (r_change r = Some $"created" \/ r_change r = Some $"updated") /\ exists d, later s es u = Some d
  end.
Proof.
  induction es as [|e es IH]; intros s rs T; destruct rs as [|r rs]; try contradiction.
  - intros e [].
  - destruct T as [(EU & EC & _) T]. rewrite last_entry_cons. specialize (IH _ _ T). destruct (last_entry u rs) as [l|]; [exact IH|].
    rewrite later_cons, later_other by exact IH. rewrite EU. destruct (str_eqb_spec (ev_uri e) u) as [<-|N].
    + unfold step. rewrite str_eqb_refl. rewrite EC. unfold word_for. destruct (ev_content e) as [d|]; [|left; auto].
      right. split; [destruct (s (ev_uri e)); auto|eauto].
    + intros x [<-|I]; auto.
Qed.
Lemma first_entry_cons u r rs : first_entry u (r :: rs) = if str_eqb (r_uri r) u then Some r else first_entry u rs.
Proof. unfold first_entry, entries_for. cbn [filter]. destruct (str_eqb (r_uri r) u); reflexivity. Qed.
Lemma tells_first c u es : forall s rs f, tells c s es rs -> first_entry u rs = Some f ->
  exists a e b, es = a ++ e :: b /\ entry_for c (later s a) e f /\ r_uri f = u /\ forall e', In e' a -> ev_uri e' <> u.
Proof.
  induction es as [|e es IH]; intros s rs f T F; destruct rs as [|r rs]; try contradiction; [discriminate|].
  destruct T as [En T]. rewrite first_entry_cons in F. destruct (str_eqb_spec (r_uri r) u) as [Q|Q].
  - injection F as <-. exists [], e, es. split; [reflexivity|]. split; [exact En|]. split; [exact Q|intros x []].
  - destruct (IH _ _ _ T F) as (a & e' & b & -> & X & U & N). exists (e :: a), e', b. split; [reflexivity|]. split; [exact X|]. split; [exact U|].
    intros x [<-|I]; [|auto]. destruct En as (EU & _). congruence.
Qed.
Lemma tells_came c s es rs from u : tells c s es rs -> (forall e, In e es -> from <= ev_time e) -> came_and_went u rs ->
  new_since from s es u /\ later s es u = None.
Proof.
  intros T G (f & l & F & L & FC & LC). split.
  - destruct (tells_first _ _ _ _ _ _ T F) as (a & e & b & -> & (EU & EC & ET & _) & U & N).
    exists a, e, b. split; [reflexivity|]. split; [apply G, in_app_iff; right; left; reflexivity|]. split; [congruence|].
    rewrite FC in EC. injection EC as EC. unfold word_for in EC. rewrite <- EU, U in EC.
    destruct (ev_content e); [|discriminate]. split; [discriminate|]. split; [destruct (later s a u); [discriminate|reflexivity]|].
    intros e' I Q. elim (N e' I Q).
  - pose proof (tells_last c u es s rs T) as H. rewrite L in H. destruct H as [[_ H]|[[H|H] _]]; [exact H|rewrite LC in H; discriminate|rewrite LC in H; discriminate].
Qed.
Lemma came_dec u rs : came_and_went u rs \/ ~ came_and_went u rs.
Proof.
  unfold came_and_went. destruct (first_entry u rs) as [f|]; [|right; intros (f & l & F & _); discriminate].
  destruct (last_entry u rs) as [l|]; [|right; intros (f' & l & _ & L & _); discriminate].
  assert (forall a b : option str, {a = b} + {a <> b}) as D by (repeat decide equality).
  destruct (D (r_change f) (Some $"created")) as [A|A]; [|right; intros (f' & l' & [= <-] & _ & X & _); contradiction].
  destruct (D (r_change l) (Some $"deleted")) as [B|B]; [|right; intros (f' & l' & _ & [= <-] & _ & X); contradiction].
  left. exists f, l. auto.
Qed.
Lemma created_more from s a b u : (forall e, In e a -> ev_time e < from) -> new_since from (later s a) b u -> new_since from s (a ++ b) u.
Proof.
  intros A (x & e & y & -> & L & U & C & N & B). exists (a ++ x), e, y. rewrite later_app, <- app_assoc. repeat (split; [auto|]).
  intros e' I. apply in_app_iff in I. destruct I; auto.
Qed.
Lemma leaf_dec root root' q : leaf_at root q = leaf_at root' q \/ leaf_at root q <> leaf_at root' q.
Proof.
  assert (forall a b : str, {a = b} + {a <> b}) as D by (repeat decide equality).
  unfold leaf_at. destruct (lookup q root) as [[d t|l|b|t]|]; destruct (lookup q root') as [[d' t'|l'|b'|t']|]; auto; try (right; discriminate).
  - destruct (D d d') as [->|]; [|right; congruence]. destruct (Z.eq_dec t t') as [->|]; [auto|right; congruence].
  - destruct b, b'; auto; right; discriminate.
  - destruct (Z.eq_dec t t') as [->|]; [auto|right; congruence].
Qed.

(** ** Places *)

Section Places.
Variables (E : env) (c : client).
Hypothesis WM : well_mapped (e_cwd E) c.
Lemma base_goes u : below_base c u -> exists m rel, In m (c_mapper c) /\ rel <> [] /\ Forall file_name rel
  /\ u = src_uri m ++ $"/" ++ rel_path rel /\ src_to_dst (c_mapper c) u = Ok (dst_path m ++ $"/" ++ rel_path rel)
  /\ file_path (dst_path m ++ $"/" ++ rel_path rel)
  /\ denotes (e_cwd E) (dst_path m ++ $"/" ++ rel_path rel) = denotes (e_cwd E) (dst_path m) ++ rel.
Proof.
  intros (m & rel & I & N & F & O & ->). exists m, rel. repeat (split; [assumption|]). split; [reflexivity|].
  destruct WM as ((M1 & M2) & ND & _).
  destruct (multi_round_trip_plain (c_mapper c) m (rel_path rel) I) as [A B]; auto.
  - intros k K. destruct (M1 k K) as (? & ? & ? & ? & _). auto.
  - apply rel_path_one_line, O.
  - split; [exact A|]. split; [split|].
    + specialize (ND m I). destruct (dst_path m); [congruence|discriminate].
    + apply means_dir_below; assumption.
    + apply denotes_below; [|exact F]. apply (ND m I).
Qed.
Lemma base_one u u' q : below_base c u -> below_base c u' -> place_of E c u q -> place_of E c u' q -> u = u'.
Proof.
  intros B B' (p & P & ->) (p' & P' & Q). destruct (base_goes u B) as (m & rel & I & _ & _ & -> & S & _ & D).
  destruct (base_goes u' B') as (m' & rel' & I' & _ & _ & -> & S' & _ & D').
  assert (p = dst_path m ++ $"/" ++ rel_path rel) as -> by congruence. assert (p' = dst_path m' ++ $"/" ++ rel_path rel') as -> by congruence. rewrite D, D' in Q.
  assert (m = m') as <- by (apply (proj2 (proj2 WM) m m' (denotes (e_cwd E) (dst_path m) ++ rel) I I'); [exists rel|exists rel']; [reflexivity|assumption]).
  apply app_inv_head in Q. congruence.
Qed.
End Places.

(** ** One run *)

Lemma started_once E c from_dt w a b : started_from E c from_dt w a -> started_from E c from_dt w b -> a = b.
Proof.
  unfold started_from. destruct from_dt; [congruence|]. intros (x & A & B) (y & C & D). congruence.
Qed.
Lemma read_once E c clu uri a uri' b : changes_read E c clu uri a -> changes_read E c clu uri' b -> a = b.
Proof. intros (A & l & B & ->) (C & l' & D & ->). congruence. Qed.
Lemma same_moves cwd c w w' s u p : src_to_dst (c_mapper c) u = Ok p -> leaf_at (w_root w') (denotes cwd p) = leaf_at (w_root w) (denotes cwd p) ->
  same_content cwd c w s u -> same_content cwd c w' s u.
Proof.
  intros S L. unfold same_content. destruct (s u) as [d|].
  - intros (p' & t & S' & L'). exists p', t. split; [exact S'|]. rewrite S in S'. injection S' as <-. congruence.
  - intros (p' & S' & L'). exists p'. split; [exact S'|]. rewrite S in S'. injection S' as <-. congruence.
Qed.

Section Round.
Variables (E : env) (c : client) (clu from_dt : option str) (w w' : world) (x : res unit) (from : Z) (s : site) (es : list happening).
Hypothesis (WM : well_mapped (e_cwd E) c) (OR : in_order es) (BB : forall e, In e es -> below_base c (ev_uri e))
  (OK : world_ok E w) (SF : started_from E c from_dt w from) (TO : changes_told E c clu from s es)
  (RB : right_before (e_cwd E) c w from s es) (H : incremental E c true clu from_dt w = (w', x)).

(** The changes applied and the events they tell of. *)
Lemma round_events changes uri : changes_read E c clu uri changes -> exists e1 e2, es = e1 ++ e2 /\ (forall e, In e e1 -> ev_time e < from)
  /\ (forall e, In e e2 -> from <= ev_time e) /\ tells c (later s e1) e2 (since c from changes).
Proof.
  intros CR. destruct TO as (old & new & uri' & ch & Q & OL & CR' & T).
  rewrite (read_once _ _ _ _ _ _ _ CR' CR) in T. rewrite Q in OR. apply in_order_app in OR. destruct OR as (_ & ON & _).
  destruct (tells_since c from new (later s old) changes ON T) as (e1 & e2 & Q' & L & G & T').
  exists (old ++ e1), e2. split; [rewrite Q, Q'; apply app_assoc|]. split; [intros e I; apply in_app_iff in I; destruct I; auto|].
  split; [exact G|]. rewrite later_app. exact T'.
Qed.
(** Places of resources that are not due are as before. *)
Lemma round_kept u p changes uri : below_base c u -> src_to_dst (c_mapper c) u = Ok p -> changes_read E c clu uri changes ->
  (forall r, due c from changes r -> r_uri r <> u) -> leaf_at (w_root w') (denotes (e_cwd E) p) = leaf_at (w_root w) (denotes (e_cwd E) p).
Proof.
  intros B S CR ND. destruct (leaf_dec (w_root w') (w_root w) (denotes (e_cwd E) p)) as [Q|C]; [exact Q|]. exfalso.
  destruct (incremental_only _ _ _ _ _ _ _ _ OK H _ C) as (from' & uri' & ch & r & SF' & CR' & D & P).
  rewrite (started_once _ _ _ _ _ _ SF' SF) in *. rewrite (read_once _ _ _ _ _ _ _ CR' CR) in *.
  apply (ND r D). destruct (round_events _ _ CR) as (e1 & e2 & Q & _ & _ & T).
  destruct D as [D _]. apply last_entry_in in D. destruct D as [D _].
  destruct (tells_in _ _ _ _ _ T D) as (a & e & b & -> & (EU & _)).
  apply (base_one E c WM _ _ (denotes (e_cwd E) p)); [|exact B|exact P|exists p; auto].
  rewrite EU. apply BB. rewrite Q. apply in_app_iff. right. apply in_app_iff. right. left. reflexivity.
Qed.
Lemma round_quiet : right_before (e_cwd E) c w' from s es.
Proof.
  intros u B Q. destruct (base_goes E c WM u B) as (m & rel & _ & _ & _ & _ & S & _).
  destruct TO as (_ & _ & uri & ch & _ & _ & CR & _).
  apply (same_moves _ c w w' _ u _ S); [|apply RB; assumption].
  apply (round_kept u _ ch uri B S CR). intros r [D _] U. apply last_entry_in in D. destruct D as [D _].
  destruct (round_events _ _ CR) as (e1 & e2 & Qe & _ & G & T).
  destruct (tells_in _ _ _ _ _ T D) as (a & e & b & -> & (EU & _)).
  assert (In e (a ++ e :: b)) as I by (apply in_app_iff; right; left; reflexivity).
  specialize (G e I). assert (In e es) as J by (rewrite Qe; apply in_app_iff; right; exact I).
  specialize (Q e J ltac:(congruence)). lia.
Qed.

Hypothesis (IE : in_earnest c) (NL : none_left (e_cwd E) c w from s es).
Lemma round_got : x = Ok tt \/ w_state w' <> w_state w -> forall u, below_base c u ->
  same_content (e_cwd E) c w' (later s es) u \/
  exists k d, later s es u <> None /\ e_get E k u = Data d /\ has (e_cwd E) c w' u d.
Proof.
  intros X u B. destruct (base_goes E c WM u B) as (m & rel & _ & _ & _ & _ & S & FP & _).
  set (p := dst_path m ++ $"/" ++ rel_path rel) in *.
  destruct (incremental_effects _ _ _ _ _ _ _ _ OK H) as [(e & XE & N)|(from' & uri & ch & SF' & CR & I)].
  { exfalso. destruct X as [X|X]; [congruence|]. apply X, N. }
  rewrite (started_once _ _ _ _ _ _ SF' SF) in *. clear SF' from'.
  destruct IE as (DR & IF & TR). pose proof (ie_applied _ _ _ _ _ _ _ _ _ _ _ I X DR IF TR) as AP.
  destruct (round_events _ _ CR) as (e1 & e2 & Q & L1 & G & T).
  assert (later s es u = later (later s e1) e2 u) as LS by (rewrite Q, later_app; reflexivity).
  pose proof (tells_last c u _ _ _ T) as TL.
  destruct (last_entry u (since c from ch)) as [r|] eqn:LE.
  - assert (r_uri r = u) as RU by (apply last_entry_in in LE; apply LE).
    destruct (came_dec u (since c from ch)) as [CW|CW].
    + destruct (tells_came _ _ _ _ _ _ T G CW) as [CS LN]. rewrite <- LS in LN.
      left. apply (same_moves _ c w w' _ u p S).
      * apply (round_kept u p ch uri B S CR). intros r' [_ D] U. apply D. rewrite U. exact CW.
      * unfold same_content. rewrite LN. apply NL; [exact B| |exact LN]. rewrite Q. apply created_more; [exact L1|exact CS].
    + assert (due c from ch r) as D by (split; rewrite RU; assumption).
      assert (alone E c from ch r (denotes (e_cwd E) p)) as AL.
      { intros r' D' P'. rewrite RU. apply (base_one E c WM _ _ (denotes (e_cwd E) p)); [|exact B|exact P'|exists p; auto].
        destruct D' as [D' _]. apply last_entry_in in D'. destruct D' as [D' _].
        destruct (tells_in _ _ _ _ _ T D') as (a & e & b & -> & (EU & _)). rewrite EU. apply BB. rewrite Q. apply in_app_iff. right.
        apply in_app_iff. right. left. reflexivity. }
      destruct (AP r D) as [A1 A2]. rewrite RU, S in *. unfold same_content. rewrite LS.
      destruct TL as [[RC LN]|[RC (d & LD)]].
      * left. rewrite LN. destruct (A2 RC eq_refl) as (p' & [= <-] & A). exists p. split; [exact S|]. apply A; [exact AL|exact FP].
      * destruct (A1 RC) as (p' & [= <-] & A). destruct (A AL) as (f & LF & k & d' & _ & GE & ->).
        rewrite RU in GE. right. exists k, d'. split; [congruence|]. split; [exact GE|].
        eexists p, _. split; [exact S|exact LF].
  - left. apply (same_moves _ c w w' _ u p S).
    + apply (round_kept u p ch uri B S CR). intros r' [D _] U. rewrite U in D. congruence.
    + apply RB; [exact B|]. intros e J U. rewrite Q in J. apply in_app_iff in J. destruct J as [J|J]; [auto|]. elim (TL e J U).
Qed.
(** A content that came belongs to the moment of the list or to one soon after. *)
Lemma round_between mid : (forall k u d, e_get E k u = Data d -> exists a b, mid = a ++ b /\ later s (es ++ a) u = Some d) ->
  x = Ok tt \/ w_state w' <> w_state w -> forall u, below_base c u -> exists a b, mid = a ++ b /\ same_content (e_cwd E) c w' (later s (es ++ a)) u.
Proof.
  intros C X u B. destruct (round_got X u B) as [G|(k & d & _ & G & Ha)].
  - exists [], mid. rewrite app_nil_r. auto.
  - destruct (C k u d G) as (a & b & Q & L). exists a, b. split; [exact Q|]. unfold same_content. rewrite L. exact Ha.
Qed.
Lemma round_whole : (forall k u d, e_get E k u = Data d -> later s es u = Some d) ->
  x = Ok tt \/ w_state w' <> w_state w -> copy_of (e_cwd E) c w' (later s es).
Proof.
  intros C X u B. destruct (round_got X u B) as [G|(k & d & _ & G & Ha)]; [exact G|].
  unfold same_content. rewrite (C k u d G). exact Ha.
Qed.
End Round.
Lemma round_copy E c clu from_dt w w' x from s es :
  well_mapped (e_cwd E) c -> in_order es -> (forall e, In e es -> below_base c (ev_uri e)) ->
  world_ok E w -> started_from E c from_dt w from -> sees E c clu from s es -> right_before (e_cwd E) c w from s es ->
  incremental E c true clu from_dt w = (w', x) -> in_earnest c -> none_left (e_cwd E) c w from s es ->
  x = Ok tt \/ w_state w' <> w_state w -> copy_of (e_cwd E) c w' (later s es).
Proof.
  intros WM OR BB OK SF [TO C] RB H IE NL. apply (round_whole E c clu from_dt w w' x from s es WM OR BB OK SF TO RB H IE NL C).
Qed.

(** ** Many runs *)

Lemma world_next E c allow clu from_dt w w' x : world_ok E w -> incremental E c allow clu from_dt w = (w', x) -> world_ok E w'.
Proof.
  intros OK H. destruct (incremental_effect _ _ _ _ _ _ _ _ OK H) as [(R & _)|(uri & ch & _ & RE)].
  - unfold world_ok. rewrite R. exact OK.
  - split; [apply (re_tree _ _ _ _ _ _ _ _ RE), OK|]. split; [apply (re_dirs _ _ _ _ _ _ _ _ RE), OK|apply OK].
Qed.
Lemma right_more cwd c w from s es more : (forall e, In e more -> from <= ev_time e) ->
  right_before cwd c w from s es -> right_before cwd c w from s (es ++ more).
Proof.
  intros G R u B Q. rewrite later_app. unfold same_content. rewrite later_other.
  - apply (R u B). intros e I. apply Q, in_app_iff. auto.
  - intros e I U. specialize (Q e ltac:(apply in_app_iff; auto) U). specialize (G e I). lia.
Qed.
Lemma copy_right cwd c w from s es : copy_of cwd c w (later s es) -> right_before cwd c w from s es.
Proof. intros C u B _. apply C, B. Qed.

Lemma recorded_once F c w a b : recorded F c w a -> recorded F c w b -> a = b.
Proof. intros (x & A & B) (y & C & D). congruence. Qed.

(** What is recorded by a call. *)
Lemma saved_again F f calls sm t f' : python_floats F -> Forall call_ok calls -> left_by F f calls -> sm <> [] -> is_double t ->
  f' = fst (set_state F f sm (Some t)) ->
  Forall call_ok (calls ++ [Store sm t]) /\ left_by F f' (calls ++ [Store sm t]) /\ (get_state F f' sm = Ok (Some t) \/ f' = f).
Proof.
  intros PF CO L SM D E. assert (CO' : Forall call_ok (calls ++ [Store sm t])).
  { apply Forall_app. split; [exact CO|]. constructor; [|constructor]. split; [exact SM|exact D]. }
  split; [exact CO'|]. split; [rewrite E; exact (lb_done F f calls (Store sm t) L)|].
  destruct (set_state F f sm (Some t)) as [f1 e] eqn:S. cbn [fst] in E. subst f1.
  destruct (left_stored F f calls sm t f' e PF CO' L S) as [[_ G]|[_ G]]; auto.
Qed.

(** What happens at the end, when the time of none of it is before the recorded one. *)
Lemma right_while cwd c s w t es mid : (forall e, In e mid -> t <= ev_time e) ->
  (forall u, below_base c u -> exists a b, mid = a ++ b /\ same_content cwd c w (later s (es ++ a)) u) -> right_before cwd c w t s (es ++ mid).
Proof.
  intros G C u B Q. destruct (C u B) as (a & b & Qm & SC).
  assert (N : forall e, In e mid -> ev_uri e <> u).
  { intros e I U. specialize (Q e ltac:(apply in_app_iff; auto) U). specialize (G e I). lia. }
  unfold same_content in *. rewrite later_app in *. rewrite later_other; [|exact N]. rewrite later_other in SC; [exact SC|].
  intros e I. apply N. rewrite Qm. apply in_app_iff. auto.
Qed.

Section History.
Variables (cwd : list str) (F : float_text) (c : client) (s : site).
Hypothesis (PF : python_floats F) (SM : forall sm, sitemap c = Ok sm -> sm <> []) (WM : well_mapped cwd c) (IE : in_earnest c).

Lemma track_more es more w t : in_order (es ++ more) -> on_track cwd F c s es w -> recorded F c w t -> right_before cwd c w t s (es ++ more).
Proof.
  intros O T R. apply right_more; [|apply (ot_right _ _ _ _ _ _ T t R)]. intros e I. destruct (ot_time _ _ _ _ _ _ T t R) as (e0 & I0 & L).
  apply in_order_app in O. destruct O as (_ & _ & O). specialize (O e0 e I0 I). lia.
Qed.
Lemma track_while es more mid w E clu from w1 x : in_order ((es ++ more) ++ mid) -> (forall e, In e (es ++ more) -> below_base c (ev_uri e)) -> on_track cwd F c s es w ->
  e_cwd E = cwd -> e_floats E = F -> recorded F c w from -> sees_while E c clu from s (es ++ more) mid -> none_left cwd c w from s (es ++ more) ->
  incremental E c true clu None w = (w1, x) -> on_track cwd F c s ((es ++ more) ++ mid) w1.
Proof.
  intros O B T EC EF R S N H. pose proof O as OM. apply in_order_app in OM. destruct OM as (O1 & _ & OM).
  pose proof (track_more _ _ _ _ O1 T R) as RB.
  pose proof (ot_world _ _ _ _ _ _ T E EC) as OK. destruct (ot_state _ _ _ _ _ _ T) as (calls & CO & ST). subst cwd F.
  assert (started_from E c None w from) as SF by exact R. destruct S as [TO CT].
  assert (LATE : forall t, (exists e, In e (es ++ more) /\ t <= ev_time e) -> forall e, In e mid -> t <= ev_time e).
  { intros t (e0 & I0 & L0) e I. specialize (OM e0 e I0 I). lia. }
  pose proof (incremental_saves E c true clu None w w1 x OK H) as IS.
  assert ({w_state w1 = w_state w} + {w_state w1 <> w_state w}) as [Q|Q] by (repeat decide equality).
  - assert (forall t, recorded (e_floats E) c w1 t -> t = from) as RO.
    { intros t (sm & A & G). rewrite Q in G. apply (recorded_once (e_floats E) c w); [exists sm; auto|exact R]. }
    assert (FE : exists e, In e (es ++ more) /\ from <= ev_time e).
    { destruct (ot_time _ _ _ _ _ _ T from R) as (e & I & L). exists e. split; [apply in_app_iff; auto|exact L]. }
    split.
    + intros E' EC'. unfold world_ok in *. rewrite EC'. apply (world_next _ _ _ _ _ _ _ _ OK H).
    + exists calls. split; [exact CO|]. rewrite Q. exact ST.
    + intros t Rt. rewrite (RO t Rt). destruct FE as (e & I & L). exists e. split; [apply in_app_iff; auto|exact L].
    + intros t Rt. rewrite (RO t Rt). apply right_more; [apply LATE, FE|].
      apply (round_quiet E c clu None w w1 x from s (es ++ more)); assumption.
  - assert (forall u, below_base c u -> exists a b, mid = a ++ b /\ same_content (e_cwd E) c w1 (later s ((es ++ more) ++ a)) u) as C
      by (apply (round_between E c clu None w w1 x from s (es ++ more)); auto).
    destruct IS as [IS|(sm & from' & uri & ch & t0 & QS & SF' & CR & DB & ST' & _ & _ & _ & (r & Ir & Rt))]; [contradiction|].
    destruct (saved_again (e_floats E) (w_state w) calls sm t0 (w_state w1) PF CO ST (SM sm QS) DB ST') as (CO' & L' & [G'|G']); [|contradiction].
    assert (TE : forall t, recorded (e_floats E) c w1 t -> exists e, In e (es ++ more) /\ t <= ev_time e).
    { intros t (sm' & A & G). rewrite QS in A. injection A as <-. rewrite G' in G. injection G as <-.
      destruct TO as (old & new & uri' & ch' & Qe & _ & CR' & TL). rewrite (read_once _ _ _ _ _ _ _ CR CR') in Ir.
      destruct (tells_in _ _ _ _ _ TL Ir) as (a & e & b & -> & (_ & _ & _ & LE)). exists e.
      split; [rewrite Qe; apply in_app_iff; right; apply in_app_iff; right; left; reflexivity|].
      apply LE. destruct Rt as [Rt|Rt]; [|auto]. unfold effective_time in Rt. destruct (r_ts_datetime r); auto. }
    split.
    + intros E' EC'. unfold world_ok in *. rewrite EC'. apply (world_next _ _ _ _ _ _ _ _ OK H).
    + eauto.
    + intros t Rc. destruct (TE t Rc) as (e & I & L). exists e. split; [apply in_app_iff; auto|exact L].
    + intros t Rc. apply right_while; [apply LATE, TE, Rc|exact C].
Qed.
Lemma sees_still E clu from es : sees E c clu from s es -> sees_while E c clu from s es [].
Proof. intros [A B]. split; [exact A|]. intros k u d G. exists [], []. split; [reflexivity|]. rewrite app_nil_r. exact (B k u d G). Qed.
Lemma track_step es more w E clu from w1 x : in_order (es ++ more) -> (forall e, In e (es ++ more) -> below_base c (ev_uri e)) -> on_track cwd F c s es w ->
  e_cwd E = cwd -> e_floats E = F -> recorded F c w from -> sees E c clu from s (es ++ more) -> none_left cwd c w from s (es ++ more) ->
  incremental E c true clu None w = (w1, x) -> on_track cwd F c s (es ++ more) w1.
Proof.
  intros O B T EC EF R S N H. rewrite <- (app_nil_r (es ++ more)). apply (track_while es more [] w E clu from w1 x); auto.
  - rewrite app_nil_r. exact O.
  - apply sees_still, S.
Qed.
Lemma history_grows es w es' w' : history cwd F c s es w es' w' -> exists more, es' = es ++ more.
Proof.
  induction 1 as [es w|es w more E clu from w1 x es' w' _ _ _ _ _ _ _ (m & ->)]; [exists []; now rewrite app_nil_r|].
  exists (more ++ m). now rewrite app_assoc.
Qed.
Lemma history_track es w es' w' : history cwd F c s es w es' w' -> in_order es' -> (forall e, In e es' -> below_base c (ev_uri e)) ->
  on_track cwd F c s es w -> on_track cwd F c s es' w'.
Proof.
  intros H. induction H as [es w|es w more E clu from w1 x es' w' EC EF R S N X H IH]; intros O B T; [exact T|].
  apply (IH O B). destruct (history_grows _ _ _ _ H) as (m & ->).
  apply (track_step es more w E clu from w1 x); auto.
  - apply in_order_app in O. apply O.
  - intros e I. apply B, in_app_iff. auto.
Qed.

(** After a successful run at the end there is a copy. *)
Lemma followed es w es1 w1 more E clu from w' : on_track cwd F c s es w -> history cwd F c s es w es1 w1 ->
  in_order (es1 ++ more) -> (forall e, In e (es1 ++ more) -> below_base c (ev_uri e)) ->
  e_cwd E = cwd -> e_floats E = F -> recorded F c w1 from -> sees E c clu from s (es1 ++ more) -> none_left cwd c w1 from s (es1 ++ more) ->
  incremental E c true clu None w1 = (w', Ok tt) -> copy_of cwd c w' (later s (es1 ++ more)).
Proof.
  intros T H O B EC EF R S N X. assert (on_track cwd F c s es1 w1) as T1.
  { apply (history_track _ _ _ _ H); [apply in_order_app in O; apply O| |exact T]. intros e I. apply B, in_app_iff. auto. }
  pose proof (track_more _ _ _ _ O T1 R) as RB. pose proof (ot_world _ _ _ _ _ _ T1 E EC) as OK. subst cwd F.
  apply (round_whole E c clu None w1 w' (Ok tt) from s (es1 ++ more)); auto; [apply (se_list _ _ _ _ _ _ S)|apply (se_content _ _ _ _ _ _ S)].
Qed.
(** If more happens while it runs, each file is as its resource was at some moment. *)
Lemma followed_while es w more mid E clu from w' : on_track cwd F c s es w ->
  in_order (es ++ more) -> (forall e, In e (es ++ more) -> below_base c (ev_uri e)) ->
  e_cwd E = cwd -> e_floats E = F -> recorded F c w from -> sees_while E c clu from s (es ++ more) mid -> none_left cwd c w from s (es ++ more) ->
  incremental E c true clu None w = (w', Ok tt) ->
  forall u, below_base c u -> exists a b, mid = a ++ b /\ same_content cwd c w' (later s ((es ++ more) ++ a)) u.
Proof.
  intros T O B EC EF R [S1 S2] N X.
  pose proof (track_more _ _ _ _ O T R) as RB. pose proof (ot_world _ _ _ _ _ _ T E EC) as OK. subst cwd F.
  apply (round_between E c clu None w w' (Ok tt) from s (es ++ more)); auto.
Qed.
End History.

(** When no such resource is left: after a run that made a copy, unless a resource that is
    new since the time recorded is removed. *)
Lemma none_left_fresh cwd c w from s es more : copy_of cwd c w (later s es) -> (forall e, In e more -> from <= ev_time e) ->
  (forall u, new_since from s es u -> later s es u <> None -> later s (es ++ more) u <> None) ->
  none_left cwd c w from s (es ++ more).
Proof.
  intros C G K u B (x & e & y & Q & L & U & EC & N & A) LN.
  assert (later s es u = None) as Z.
  { destruct (later s es u) as [d|] eqn:Z; [|reflexivity]. exfalso.
    symmetry in Q. apply app_eq_app in Q. destruct Q as (l & [[Q1 Q2]|[Q1 Q2]]).
    - subst x. assert (later s (es ++ l) u = later s es u) as Z'; [|congruence]. rewrite later_app. apply later_other.
      intros e' I Ue. specialize (A e' ltac:(apply in_app_iff; auto) Ue). specialize (G e' ltac:(rewrite Q2; apply in_app_iff; auto)). lia.
    - destruct l as [|e' l].
      + rewrite app_nil_r in Q1. subst x. congruence.
      + injection Q2 as <- Q2. apply (K u); [|congruence|exact LN]. exists x, e, l. auto 10. }
  specialize (C u B). unfold same_content in C. rewrite Z in C. exact C.
Qed.

(** ** A baseline first *)

(** What a baseline records. *)
Lemma baseline_saves E c allow w w' x : world_ok E w ->
  (forall u n t, local_node E c w u n -> ~ listed E c u -> mtime_of n = Some t -> is_double t) ->
  baseline_or_audit E c allow false w = (w', x) ->
  w_state w' = w_state w \/
  exists sm t, sitemap c = Ok sm /\ is_double t /\ w_state w' = fst (set_state (e_floats E) (w_state w) sm (Some t))
    /\ ((exists u r, source_entry E c u r /\ r_timestamp r = Some t)
        \/ exists u n, local_node E c w u n /\ ~ listed E c u /\ mtime_of n = Some t).
Proof.
  intros (TO & RD & FN) DBL H.
  apply baseline_inv in H. destruct H as [(e & X & (_ & NS & _) & _)|(src & dst & cmp & _ & _ & F & NE & S & C & H)]; [auto|].
  pose proof (after_report_same src cmp w) as [(N0 & NS & G0) _].
  destruct (false || (differences cmp =? 0)) eqn:DZ; [destruct H as [-> _]; auto|].
  assert (list_ok src) as [WS EO] by (apply (find_resource_list_ok _ _ _ F)).
  assert (w_root (pruned_world src w) = w_root w) as PR by (unfold pruned_world; destruct (w_hashes w); reflexivity).
  assert (tree_ok (w_root (pruned_world src w))) as TP by (rewrite PR; exact TO).
  destruct (scan_is _ _ _ _ TP S) as [WD SI].
  destruct (compare_parts _ _ _ WD WS C) as (_ & _ & _ & _ & IC & IU & ID & _).
  apply synchronize_inv in H.
  destruct H as [(e & _ & -> & _)|(_ & H)]; [auto|].
  destruct H as [(e & Tr & _)|(w1 & nc & nu & nd & Tr & H)].
  { left. pose proof (transfers_effect E c allow cmp (with_last 0 (after_report src cmp w)) w' _ ltac:(change (tree_ok (w_root (after_report src cmp w))); rewrite N0; exact TO) FN Tr) as (O & _).
    rewrite (oa_state _ _ _ _ O). exact NS. }
  assert (exists w2 y, store_if_any E c w1 = (w2, y) /\ w_state w' = w_state w2) as (w2 & y & St & SW).
  { destruct H as [(e & St & _)|(w2 & St & Lg)]; [eauto|]. rewrite log_status_is in Lg. injection Lg as <- _. eauto. }
  clear H. rewrite SW.
  pose proof (transfers_effect E c allow cmp (with_last 0 (after_report src cmp w)) w1 _ ltac:(change (tree_ok (w_root (after_report src cmp w))); rewrite N0; exact TO) FN Tr)
    as (O & _ & _ & _ & _ & LA & _).
  assert (w_state w1 = w_state w) as S1 by (rewrite (oa_state _ _ _ _ O); exact NS).
  destruct (Z.ltb_spec 0 (w_last w1)) as [POS|NEG].
  2:{ left. unfold store_if_any in St. destruct (Z.ltb_spec 0 (w_last w1)); [lia|]. injection St as <- _. exact S1. }
  destruct LA as [LA|(r & I & RT)]; [cbn in LA; lia|].
  assert ((exists u r, source_entry E c u r /\ r_timestamp r = Some (w_last w1))
        \/ exists u n, local_node E c w u n /\ ~ listed E c u /\ mtime_of n = Some (w_last w1)) as WHO.
  { assert (map_of src (r_uri r) = Some r \/ map_of dst (r_uri r) = Some r /\ map_of src (r_uri r) = None) as [M|[M MN]].
    { apply in_app_iff in I. destruct I as [I|I]; [left; apply IC, I|]. apply in_app_iff in I. destruct I as [I|I]; [left; apply IU, I|right; apply ID, I]. }
    - left. exists (r_uri r), r. split; [|exact RT]. exists src. split; [exact F|]. apply sget_in in M. exact M.
    - right. apply sget_in in M. apply SI in M. destruct M as (st & rel & file & n & Is & FA & DS & Q). rewrite PR in FA.
      apply in_map_iff in Is. destruct Is as (m & <- & Im). exists (r_uri r), n. split; [exists m, rel, file; auto|].
      split; [rewrite (find_listed E c src _ F); congruence|]. rewrite Q in RT. exact RT. }
  assert (is_double (w_last w1)) as DB.
  { destruct WHO as [(u & r' & (src' & F' & I') & RT')|(u & n & L & NLi & MT)]; [|apply (DBL u n _ L NLi MT)].
    rewrite F in F'. injection F' as <-. destruct (EO _ _ I') as (D & _). rewrite RT' in D. exact D. }
  apply store_done in St. rewrite S1 in St.
  destruct St as [_ [St|(sm & QS & St)]]; [left; exact St|]. right. exists sm, (w_last w1). auto.
Qed.
Lemma baseline_state E c allow calls w w' : world_ok E w -> Forall call_ok calls ->
  w_state w = file_after (e_floats E) calls -> (forall sm, sitemap c = Ok sm -> sm <> []) ->
  (forall u n t, local_node E c w u n -> mtime_of n = Some t -> is_double t) ->
  baseline_or_audit E c allow false w = (w', Ok tt) ->
  w_state w' = w_state w \/
  exists sm t, sitemap c = Ok sm /\ Forall call_ok (calls ++ [Store sm t]) /\ w_state w' = file_after (e_floats E) (calls ++ [Store sm t])
    /\ ((exists u r, source_entry E c u r /\ r_timestamp r = Some t)
        \/ exists u n, local_node E c w u n /\ ~ listed E c u /\ mtime_of n = Some t).
Proof.
  intros OK CO ST SM DBL H. destruct (baseline_saves E c allow w w' _ OK (fun u n t L _ => DBL u n t L) H) as [Q|(sm & t & QS & D & S & WHO)]; [auto|right].
  exists sm, t. split; [exact QS|]. split.
  - apply Forall_app. split; [exact CO|]. constructor; [|constructor]. split; [exact (SM sm QS)|exact D].
  - split; [|exact WHO]. rewrite S, ST. unfold file_after. rewrite fold_left_app. reflexivity.
Qed.

Lemma sync_mapped E c w : synchronizable E c w -> well_mapped (e_cwd E) c.
Proof.
  intros SY. destruct (sy_apart _ _ _ SY) as [A B]. split; [exact A|]. split; [intros m I; apply (sy_free _ _ _ SY m I)|].
  intros m m' q I I' P P'. apply (B m m' q I I' P P').
Qed.
Lemma baseline_got E c w w' s : in_earnest c -> synchronizable E c w -> (forall u, listed E c u <-> s u <> None) ->
  (forall u q n, below_base c u -> place_of E c u q -> leaf_at (w_root w) q = Some n -> is_file n) ->
  (forall u r n, source_entry E c u r -> local_node E c w u n -> agrees r n -> exists d t, n = File d t /\ s u = Some d) ->
  baseline_or_audit E c true false w = (w', Ok tt) -> (forall u, below_base c u -> same_content (e_cwd E) c w' s u \/ exists k d, s u <> None /\ e_get E k u = Data d /\ has (e_cwd E) c w' u d) /\ forall E', e_cwd E' = e_cwd E -> world_ok E' w'.
Proof.
  intros (DR & IF & TR) SY GL GF GR H.
  destruct (baseline_ran E c w SY w' DR IF TR H) as (T & D & R). split.
  2:{ intros E' EC. unfold world_ok. rewrite EC. apply (world_after E c w SY w' T D R). }
  intros u B. destruct (base_place E c w SY u B) as (m & rel & _ & _ & _ & _ & _ & S & _).
  set (p := dst_path m ++ $"/" ++ rel_path rel) in *. assert (place_of E c u (denotes (e_cwd E) p)) as P by (exists p; auto).
  assert (forall r u', source_entry E c u' r -> r_uri r = u' /\ listed E c u') as EU by (intros r u' I; apply (entry_uri E c u' r I)).
  unfold same_content. destruct (s u) as [d|] eqn:L.
  - assert (exists r, source_entry E c u r) as (r & SE).
    { assert (listed E c u) as (src & F & I) by (apply GL; congruence). apply in_map_iff in I. destruct I as ((u' & r) & <- & I).
      exists r, src. auto. }
    destruct (EU _ _ SE) as [RU LI].
    assert (T r -> has (e_cwd E) c w' u d \/ exists k d', Some d <> None /\ e_get E k u = Data d' /\ has (e_cwd E) c w' u d') as HT.
    { intros Tr. destruct (rn_transferred _ _ _ _ _ _ R r Tr) as (_ & q & f & (p' & S' & ->) & LF & k & d' & _ & GE & ->).
      rewrite RU in *. rewrite S in S'. injection S' as <-. right. exists k, d'. split; [discriminate|]. split; [exact GE|].
      eexists p, _. split; [exact S|exact LF]. }
    destruct (rn_entries _ _ _ _ _ _ R u r SE) as [Tr|(n & LN & AG)]; [auto|].
    destruct (GR u r n SE LN AG) as (d' & t & -> & L'). rewrite L in L'. injection L' as <-.
    destruct (node_base E c w SY w u _ (sy_world _ _ _ SY) (proj1 (sy_names _ _ _ SY)) (sy_free _ _ _ SY) LN) as (_ & _ & q & (p' & S' & ->) & LF).
    rewrite S in S'. injection S' as <-.
    destruct (rn_rest _ _ _ _ _ _ R (denotes (e_cwd E) p)) as [(r' & Tr & P')|[(u' & Du & P')|Q]].
    + destruct (rn_transferred _ _ _ _ _ _ R r' Tr) as (SE' & _). destruct (EU _ _ SE') as [_ LI'].
      assert (u = r_uri r') as -> by (apply (base_inj E c w SY _ _ (denotes (e_cwd E) p)); auto; apply (sy_listed _ _ _ SY), LI').
      apply HT. rewrite (entry_unique E c _ _ _ SE SE'). exact Tr.
    + destruct (rn_deleted _ _ _ _ _ _ R u' Du) as (NL & B' & _).
      assert (u = u') as <- by (apply (base_inj E c w SY _ _ (denotes (e_cwd E) p)); auto). contradiction.
    + left. exists p, t. split; [exact S|congruence].
  - assert (~ listed E c u) as NL by (rewrite GL; congruence). left. exists p. split; [exact S|].
    destruct (rn_rest _ _ _ _ _ _ R (denotes (e_cwd E) p)) as [(r' & Tr & P')|[(u' & Du & P')|Q]].
    + exfalso. destruct (rn_transferred _ _ _ _ _ _ R r' Tr) as (SE' & _). destruct (EU _ _ SE') as [_ LI'].
      apply NL. rewrite (base_inj E c w SY u (r_uri r') (denotes (e_cwd E) p)); auto. apply (sy_listed _ _ _ SY), LI'.
    + destruct (rn_deleted _ _ _ _ _ _ R u' Du) as (_ & B' & q & (p' & S' & ->) & LF).
      assert (u = u') as <- by (apply (base_inj E c w SY _ _ (denotes (e_cwd E) p)); auto). rewrite S in S'. injection S' as <-. exact LF.
    + destruct (leaf_at (w_root w) (denotes (e_cwd E) p)) as [n|] eqn:LF; [|exact Q].
      pose proof (GF u _ n B P LF) as FN. pose proof (base_node E c w SY w u _ n B P LF FN) as LN.
      destruct (rn_local _ _ _ _ _ _ R u n LN) as [Du|]; [|contradiction].
      destruct (rn_deleted _ _ _ _ _ _ R u Du) as (_ & _ & q & (p' & S' & ->) & LF'). rewrite S in S'. injection S' as <-. exact LF'.
Qed.
Lemma baseline_copies E c w w' s : in_earnest c -> synchronizable E c w -> (forall u, listed E c u <-> s u <> None) ->
  (forall k u d, e_get E k u = Data d -> s u = Some d) ->
  (forall u q n, below_base c u -> place_of E c u q -> leaf_at (w_root w) q = Some n -> is_file n) ->
  (forall u r n, source_entry E c u r -> local_node E c w u n -> agrees r n -> exists d t, n = File d t /\ s u = Some d) ->
  baseline_or_audit E c true false w = (w', Ok tt) -> copy_of (e_cwd E) c w' s /\ forall E', e_cwd E' = e_cwd E -> world_ok E' w'.
Proof.
  intros IE SY GL GC GF GR H. destruct (baseline_got E c w w' s IE SY GL GF GR H) as [G W]. split; [|exact W].
  intros u B. destruct (G u B) as [A|(k & d & _ & GE & A)]; [exact A|]. unfold same_content. rewrite (GC k u d GE). exact A.
Qed.
Lemma baseline_copy E c w w' s es : in_earnest c -> good_start E c w s es ->
  baseline_or_audit E c true false w = (w', Ok tt) -> copy_of (e_cwd E) c w' (later s es) /\ forall E', e_cwd E' = e_cwd E -> world_ok E' w'.
Proof.
  intros IE [G1 _ G3 G4 _ _ G7 G8] H. apply (baseline_copies E c w w' (later s es) IE G1 G3 G4 G7 G8 H).
Qed.
Lemma baseline_track E c w w' s es : python_floats (e_floats E) -> (forall sm, sitemap c = Ok sm -> sm <> []) -> in_earnest c -> good_start E c w s es ->
  no_later_file E c w es ->
  baseline_or_audit E c true false w = (w', Ok tt) -> copy_of (e_cwd E) c w' (later s es) /\ on_track (e_cwd E) (e_floats E) c s es w'.
Proof.
  intros PF SM IE G NL H. destruct (baseline_copy E c w w' s es IE G H) as [C W]. split; [exact C|].
  destruct (gs_state _ _ _ _ _ G) as (calls & CO & ST).
  assert ((exists calls, Forall call_ok calls /\ left_by (e_floats E) (w_state w') calls) /\
    forall t, recorded (e_floats E) c w' t -> exists e, In e es /\ t <= ev_time e) as [A B].
  { destruct (baseline_saves E c true w w' (Ok tt) (sy_world _ _ _ (gs_places _ _ _ _ _ G))) as [Q|(sm & t & QS & DB & ST' & WHO)]; [|exact H| |].
    - intros u n t L _ M. apply (NL u n t L M).
    - split; [exists calls; split; [exact CO|rewrite Q; exact ST]|]. intros t (sm & S & GT). apply (gs_recorded _ _ _ _ _ G t). exists sm. split; [exact S|congruence].
    - destruct (saved_again (e_floats E) (w_state w) calls sm t (w_state w') PF CO ST (SM sm QS) DB ST') as (CO' & L' & GG).
      split; [eauto|]. intros t' (sm' & S & GT). destruct GG as [GG|GG]; [|apply (gs_recorded _ _ _ _ _ G t'); exists sm'; split; [exact S|congruence]].
      rewrite QS in S. injection S as <-. rewrite GG in GT. injection GT as <-.
      destruct WHO as [(u & r & SE & RT)|(u & n & LN & _ & MT)]; [apply (gs_listed_times _ _ _ _ _ G u r t SE RT)|apply (NL u n t LN MT)]. }
  split; auto. intros t _. apply copy_right, C.
Qed.
Lemma baseline_followed E0 c w0 w s es es1 w1 more E clu from w' : python_floats (e_floats E0) -> (forall sm, sitemap c = Ok sm -> sm <> []) -> in_earnest c ->
  good_start E0 c w0 s es -> no_later_file E0 c w0 es -> baseline_or_audit E0 c true false w0 = (w, Ok tt) ->
  history (e_cwd E0) (e_floats E0) c s es w es1 w1 ->
  in_order (es1 ++ more) -> (forall e, In e (es1 ++ more) -> below_base c (ev_uri e)) ->
  e_cwd E = e_cwd E0 -> e_floats E = e_floats E0 -> recorded (e_floats E0) c w1 from -> sees E c clu from s (es1 ++ more) ->
  none_left (e_cwd E0) c w1 from s (es1 ++ more) ->
  incremental E c true clu None w1 = (w', Ok tt) -> copy_of (e_cwd E0) c w' (later s (es1 ++ more)).
Proof.
  intros PF SM IE G NL H HS O B EC EF R S N X. destruct (baseline_track E0 c w0 w s es PF SM IE G NL H) as [_ T].
  apply (followed (e_cwd E0) (e_floats E0) c s PF SM (sync_mapped _ _ _ (gs_places _ _ _ _ _ G)) IE es w es1 w1 more E clu from w' T HS O B EC EF R S N X).
Qed.
