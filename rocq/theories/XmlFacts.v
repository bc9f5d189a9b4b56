(** * XmlFacts: what is written is read back *)

From Verif Require Import Py PyFacts Xml.

(** ** Specification: well formed elements and their meaning *)

Section xml_ind.
  Variable P : xml -> Prop.
  Hypothesis H : forall tag atts text kids tail, Forall P kids -> P (El tag atts text kids tail).
  Fixpoint xml_ind' (e : xml) : P e :=
    let '(El tag atts text kids tail) := e in
    H tag atts text kids tail
      ((fix all (l : list xml) : Forall P l :=
          match l with [] => Forall_nil _ | k :: l' => Forall_cons _ (xml_ind' k) (all l') end) kids).
End xml_ind.

Definition good_name (n : str) : bool :=
  match n with c :: n' => name_start c && forallb name_char n' | [] => false end.
Definition good_val (v : str) : bool := forallb xml_char v.
Definition good_text (t : str) : bool := forallb (fun c => xml_char c && negb (ceqb c cr)) t.

(** Names are names, texts consist of XML characters, and there is no carriage
    return in texts outside attributes. *)
Fixpoint writable (e : xml) : bool :=
  let '(El tag atts text kids tail) := e in
  good_name tag && forallb (fun a => good_name (fst a) && good_val (snd a)) atts
  && good_text (opt_text text) && forallb writable kids && good_text (opt_text tail).

(** Absent and empty text are the same. *)
Definition norm_opt (t : option str) : option str :=
  match t with Some (c :: s) => Some (c :: s) | _ => None end.

(** f applied to every element, as long as there is no exception. *)
Definition map_res {A B} (f : A -> res B) : list A -> res (list B) :=
  fix go (l : list A) : res (list B) :=
    match l with
    | [] => Ok []
    | x :: l' => let* y := f x in let* ys := go l' in Ok (y :: ys)
    end.

(** The element with prefixes replaced by the namespaces they stand for. *)
Fixpoint resolve (sc : scope) (e : xml) : res xml :=
  let '(El tag atts text kids tail) := e in
  let* (sc', t, a) := open_tag sc tag atts in
  let* ks := map_res (resolve sc') kids in
  Ok (El t a (norm_opt text) ks (norm_opt tail)).

(** The events an element stands for. *)
Definition ev_text (t : option str) : list event :=
  match t with Some (c :: s) => [EText (c :: s)] | _ => [] end.
Fixpoint events (e : xml) : list event :=
  let '(El tag atts text kids tail) := e in
  EStart tag atts :: ev_text text ++ flat_map events kids ++ EEnd tag :: ev_text tail.

(** ** Line ends *)

Lemma norm_eol_id s : forallb (fun c => negb (ceqb c cr)) s = true -> norm_eol s = s.
Proof.
  induction s as [|c s IH]; cbn [forallb norm_eol]; auto.
  rewrite andb_true_iff, negb_true_iff. intros [H1 H2]. rewrite H1. f_equal. auto.
Qed.

(** ** Characters *)

Ltac by_char c := destruct c as [[] [] [] [] [] [] [] []]; vm_compute; auto; try discriminate.

Lemma name_char_xml c : name_char c = true -> xml_char c = true.
Proof. by_char c. Qed.
Lemma name_start_char c : name_start c = true -> name_char c = true.
Proof. by_char c. Qed.
Lemma name_start_not c : name_start c = true ->
  ceqb c "/" = false /\ ceqb c "!" = false /\ ceqb c "?" = false /\ xml_ws c = false.
Proof. by_char c. Qed.
Lemma name_char_not c : name_char c = true ->
  ceqb c ">" = false /\ ceqb c "/" = false /\ ceqb c "=" = false /\ xml_ws c = false.
Proof. by_char c. Qed.

(** ** The reader on the pieces that are written *)

Definition lx := fold_left lex_step.

Lemma lx_app a b st : lx (a ++ b) st = lx b (lx a st).
Proof. apply fold_left_app. Qed.
Lemma lx_cons c b st : lx (c :: b) st = lx b (lex_step st c).
Proof. reflexivity. Qed.
Lemma lx_nil st : lx [] st = st.
Proof. reflexivity. Qed.

Lemma lx_text_c c buf n ev : xml_char c = true ->
  exists n', lx (esc_text_c c) (LText buf n, ev) = (LText (c :: buf) n', ev).
Proof.
  intros X. unfold esc_text_c.
  destruct (ceqb c "&") eqn:E1. { apply ceqb_eq in E1 as ->. eexists; vm_compute; reflexivity. }
  destruct (ceqb c "<") eqn:E2. { apply ceqb_eq in E2 as ->. eexists; vm_compute; reflexivity. }
  destruct (ceqb c ">") eqn:E3. { apply ceqb_eq in E3 as ->. eexists; vm_compute; reflexivity. }
  rewrite lx_cons, lx_nil. unfold lex_step. rewrite X, E1, E2, E3. cbn [negb andb].
  destruct (ceqb c "]"); eexists; reflexivity.
Qed.

Lemma lx_text s : forall buf n ev, good_text s = true ->
  exists n', lx (esc_text s) (LText buf n, ev) = (LText (rev s ++ buf) n', ev).
Proof.
  induction s as [|c s IH]; intros buf n ev G.
  - exists n. reflexivity.
  - cbn [good_text forallb] in G. apply andb_true_iff in G as [G1 G2].
    apply andb_true_iff in G1 as [X _].
    cbn [esc_text flat_map]. rewrite lx_app.
    destruct (lx_text_c c buf n ev X) as [n1 ->].
    destruct (IH (c :: buf) n1 ev G2) as [n2 E]. exists n2.
    unfold esc_text in E. rewrite E. cbn [rev]. now rewrite <- app_assoc.
Qed.

Lemma lx_att_c c tag atts name buf ev : xml_char c = true ->
  lx (esc_att_c c) (LAttVal tag atts name dquote buf, ev) = (LAttVal tag atts name dquote (c :: buf), ev).
Proof.
  intros X. unfold esc_att_c.
  destruct (ceqb c "&") eqn:E1. { apply ceqb_eq in E1 as ->. vm_compute; reflexivity. }
  destruct (ceqb c "<") eqn:E2. { apply ceqb_eq in E2 as ->. vm_compute; reflexivity. }
  destruct (ceqb c ">") eqn:E3. { apply ceqb_eq in E3 as ->. vm_compute; reflexivity. }
  destruct (ceqb c dquote) eqn:E4. { apply ceqb_eq in E4 as ->. vm_compute; reflexivity. }
  destruct (ceqb c cr) eqn:E5. { apply ceqb_eq in E5 as ->. vm_compute; reflexivity. }
  destruct (ceqb c nl) eqn:E6. { apply ceqb_eq in E6 as ->. vm_compute; reflexivity. }
  destruct (ceqb c tab) eqn:E7. { apply ceqb_eq in E7 as ->. vm_compute; reflexivity. }
  rewrite lx_cons, lx_nil. unfold lex_step. rewrite X, E1, E2, E4. cbn [negb].
  unfold xml_ws. rewrite E5, E6, E7. cbn [orb].
  destruct (ceqb c " ") eqn:E8; auto. apply ceqb_eq in E8 as ->. reflexivity.
Qed.

Lemma lx_att_val v : forall tag atts name buf ev, good_val v = true ->
  lx (esc_att v) (LAttVal tag atts name dquote buf, ev)
  = (LAttVal tag atts name dquote (rev v ++ buf), ev).
Proof.
  induction v as [|c s IH]; intros tag atts name buf ev G; [reflexivity|].
  cbn [good_val forallb] in G. apply andb_true_iff in G as [X G].
  cbn [esc_att flat_map]. rewrite lx_app, lx_att_c by exact X.
  unfold esc_att in IH. rewrite IH by exact G. cbn [rev]. now rewrite <- app_assoc.
Qed.

Lemma lx_att_name n : forall tag atts name ev, forallb name_char n = true ->
  lx n (LAttName tag atts name, ev) = (LAttName tag atts (rev n ++ name), ev).
Proof.
  induction n as [|c s IH]; intros tag atts name ev G; [reflexivity|].
  cbn [forallb] in G. apply andb_true_iff in G as [X G].
  rewrite lx_cons. unfold lex_step. rewrite (name_char_xml c X), X. cbn [negb].
  rewrite IH by exact G. cbn [rev]. now rewrite <- app_assoc.
Qed.

Lemma lx_tag_name n : forall tag ev, forallb name_char n = true ->
  lx n (LTag tag, ev) = (LTag (rev n ++ tag), ev).
Proof.
  induction n as [|c s IH]; intros tag ev G; [reflexivity|].
  cbn [forallb] in G. apply andb_true_iff in G as [X G].
  rewrite lx_cons. unfold lex_step. rewrite (name_char_xml c X), X. cbn [negb].
  rewrite IH by exact G. cbn [rev]. now rewrite <- app_assoc.
Qed.

Lemma lx_end_name n : forall tag ev, forallb name_char n = true ->
  lx n (LEnd tag, ev) = (LEnd (rev n ++ tag), ev).
Proof.
  induction n as [|c s IH]; intros tag ev G; [reflexivity|].
  cbn [forallb] in G. apply andb_true_iff in G as [X G].
  rewrite lx_cons. unfold lex_step. rewrite (name_char_xml c X), X. cbn [negb].
  rewrite IH by exact G. cbn [rev]. now rewrite <- app_assoc.
Qed.

Lemma good_name_split n : good_name n = true ->
  exists c n', n = c :: n' /\ name_start c = true /\ forallb name_char n' = true.
Proof.
  destruct n as [|c n']; [discriminate|]. cbn [good_name]. rewrite andb_true_iff. eauto.
Qed.

Lemma good_name_chars n : good_name n = true -> forallb name_char n = true.
Proof.
  intros G. destruct (good_name_split n G) as (c & n' & -> & S & F).
  cbn [forallb]. now rewrite (name_start_char c S), F.
Qed.

Lemma rev_rev_app (n : str) c : rev (rev n ++ [c]) = c :: n.
Proof. rewrite rev_app_distr, rev_involutive. reflexivity. Qed.

(** An attribute that follows white space. *)
Lemma lx_att_body a tag atts ev : good_name (fst a) = true -> good_val (snd a) = true ->
  lx (fst a ++ ["="%char; dquote] ++ esc_att (snd a) ++ [dquote]) (LAtts tag atts, ev)
  = (LAttEnd tag (atts ++ [a]), ev).
Proof.
  intros G V. destruct a as [n v]; cbn [fst snd] in *.
  destruct (good_name_split n G) as (c & n' & -> & S & F).
  cbn [app]. rewrite lx_cons. unfold lex_step at 1.
  rewrite (name_char_xml c (name_start_char c S)). cbn [negb].
  destruct (name_start_not c S) as (_ & _ & _ & W). rewrite W, S.
  rewrite lx_app, lx_att_name by exact F.
  rewrite 2 lx_cons.
  replace (lex_step (LAttName tag atts (rev n' ++ [c]), ev) "=") with
      (LAttQuote tag atts (c :: n'), ev)
    by (unfold lex_step; rewrite rev_rev_app; reflexivity).
  replace (lex_step (LAttQuote tag atts (c :: n'), ev) dquote) with
      (LAttVal tag atts (c :: n') dquote [], ev) by reflexivity.
  rewrite lx_app, lx_att_val by exact V. rewrite lx_cons, lx_nil.
  unfold lex_step. rewrite app_nil_r, rev_involutive. reflexivity.
Qed.

Lemma lx_atts l : forall tag atts ev,
  forallb (fun a => good_name (fst a) && good_val (snd a)) l = true -> l <> [] ->
  forall st, (st = LAttEnd tag atts \/ exists t, st = LTag t /\ rev t = tag /\ atts = []) ->
  lx (flat_map ser_att l) (st, ev) = (LAttEnd tag (atts ++ l), ev).
Proof.
  induction l as [|a l IH]; intros tag atts ev G N st HS; [congruence|].
  cbn [forallb] in G. apply andb_true_iff in G as [G1 G2]. apply andb_true_iff in G1 as [Gn Gv].
  cbn [flat_map]. rewrite lx_app.
  assert (lx (ser_att a) (st, ev) = (LAttEnd tag (atts ++ [a]), ev)) as ->.
  { unfold ser_att. rewrite lx_app.
    assert (lx ($" ") (st, ev) = (LAtts tag atts, ev)) as ->.
    { destruct HS as [-> | (t & -> & <- & ->)]; reflexivity. }
    apply lx_att_body; auto. }
  destruct l as [|b l].
  - reflexivity.
  - rewrite (IH tag (atts ++ [a]) ev G2 ltac:(discriminate) _ (or_introl eq_refl)).
    now rewrite <- app_assoc.
Qed.

(** A start tag up to its closing bracket. *)
Definition in_tag (tag : str) (atts : list (str * str)) (st : lstate) : Prop :=
  st = LAttEnd tag atts \/ exists t, st = LTag t /\ rev t = tag /\ atts = [].

Lemma lx_open tag atts buf n ev :
  good_name tag = true -> forallb (fun a => good_name (fst a) && good_val (snd a)) atts = true ->
  exists st, in_tag tag atts st /\
    lx ($"<" ++ tag ++ flat_map ser_att atts) (LText buf n, ev) = (st, flush buf ev).
Proof.
  intros G A. destruct (good_name_split tag G) as (c & t & E & S & F).
  rewrite lx_app. replace (lx ($"<") (LText buf n, ev)) with (LLt, flush buf ev) by reflexivity.
  rewrite lx_app.
  assert (lx tag (LLt, flush buf ev) = (LTag (rev tag), flush buf ev)) as ->.
  { subst tag. rewrite lx_cons. unfold lex_step at 1.
    rewrite (name_char_xml c (name_start_char c S)). cbn [negb].
    destruct (name_start_not c S) as (-> & -> & -> & _). rewrite S. cbn [orb].
    rewrite lx_tag_name by exact F. cbn [rev]. reflexivity. }
  destruct atts as [|a atts].
  - cbn [flat_map]. rewrite lx_nil. eexists; split; [|reflexivity].
    right. exists (rev tag). rewrite rev_involutive. auto.
  - eexists; split; [left; reflexivity|].
    rewrite (lx_atts (a :: atts) tag [] (flush buf ev) A ltac:(discriminate)); auto.
    right. exists (rev tag). rewrite rev_involutive. auto.
Qed.

Lemma lx_gt tag atts st ev : in_tag tag atts st ->
  lx ($">") (st, ev) = (LText [] 0, EStart tag atts :: ev).
Proof. intros [-> | (t & -> & <- & ->)]; reflexivity. Qed.
Lemma lx_empty tag atts st ev : in_tag tag atts st ->
  lx ($" />") (st, ev) = (LText [] 0, EEnd tag :: EStart tag atts :: ev).
Proof. intros [-> | (t & -> & <- & ->)]; reflexivity. Qed.

Lemma lx_close tag buf n ev : good_name tag = true ->
  lx ($"</" ++ tag ++ $">") (LText buf n, ev) = (LText [] 0, EEnd tag :: flush buf ev).
Proof.
  intros G. rewrite lx_app.
  replace (lx ($"</") (LText buf n, ev)) with (LEnd [], flush buf ev) by reflexivity.
  rewrite lx_app, lx_end_name by (apply good_name_chars; exact G).
  rewrite app_nil_r. change ($">") with [">"%char]. rewrite lx_cons, lx_nil.
  unfold lex_step. rewrite rev_involutive. reflexivity.
Qed.

Lemma flush_text s ev : flush (rev s) ev = rev (ev_text (Some s)) ++ ev.
Proof.
  destruct s as [|c s]; [reflexivity|].
  cbn [rev ev_text app flush].
  destruct (rev s ++ [c]) eqn:E; [now destruct (rev s)|].
  cbn [flush]. rewrite <- E, rev_rev_app. reflexivity.
Qed.

Lemma ev_text_opt t : ev_text t = ev_text (Some (opt_text t)).
Proof. destruct t; reflexivity. Qed.

(** Text after a tag. *)
Lemma lx_after t ev : good_text (opt_text t) = true ->
  exists buf n, lx (esc_text (opt_text t)) (LText [] 0, ev) = (LText buf n, ev)
                /\ flush buf ev = rev (ev_text t) ++ ev.
Proof.
  intros G. destruct (lx_text (opt_text t) [] 0%nat ev G) as [n E].
  rewrite app_nil_r in E. exists (rev (opt_text t)), n. split; [exact E|].
  rewrite flush_text. now rewrite <- ev_text_opt.
Qed.

Definition emits (s : str) (evs : list event) : Prop :=
  forall buf n ev, exists buf' n' ev', lx s (LText buf n, ev) = (LText buf' n', ev')
    /\ flush buf' ev' = rev evs ++ flush buf ev.

Lemma emits_flat_map {A} (f : A -> str) (g : A -> list event) l :
  Forall (fun x => emits (f x) (g x)) l -> emits (flat_map f l) (flat_map g l).
Proof.
  induction 1 as [|x l H _ IH]; intros buf n ev.
  - exists buf, n, ev. auto.
  - cbn [flat_map]. rewrite lx_app. destruct (H buf n ev) as (b1 & n1 & e1 & -> & F1).
    destruct (IH b1 n1 e1) as (b2 & n2 & e2 & -> & F2). exists b2, n2, e2. split; auto.
    rewrite F2, F1, rev_app_distr. now rewrite app_assoc.
Qed.

Lemma serialize_emits e : writable e = true -> emits (serialize e) (events e).
Proof.
  induction e as [tag atts text kids tail IH] using xml_ind'.
  cbn [writable]. rewrite !andb_true_iff. intros [[[[G A] X] K] T] buf n ev.
  assert (EK : emits (flat_map serialize kids) (flat_map events kids)).
  { apply emits_flat_map. rewrite Forall_forall in *. rewrite forallb_forall in K. auto. }
  cbn [serialize events].
  destruct (lx_open tag atts buf n ev G A) as (st & IT & E).
  replace ($"<" ++ tag ++ flat_map ser_att atts ++
    match opt_text text, kids with
    | [], [] => $" />"
    | t, _ => $">" ++ esc_text t ++ flat_map serialize kids ++ $"</" ++ tag ++ $">"
    end ++ esc_text (opt_text tail))
  with (($"<" ++ tag ++ flat_map ser_att atts) ++
    match opt_text text, kids with
    | [], [] => $" />"
    | t, _ => $">" ++ esc_text t ++ flat_map serialize kids ++ $"</" ++ tag ++ $">"
    end ++ esc_text (opt_text tail)) by (rewrite <- !app_assoc; reflexivity).
  rewrite lx_app, E, lx_app.
  assert (exists ev1, lx (match opt_text text, kids with
    | [], [] => $" />"
    | t, _ => $">" ++ esc_text t ++ flat_map serialize kids ++ $"</" ++ tag ++ $">"
    end) (st, flush buf ev) = (LText [] 0, ev1) /\
    ev1 = rev (EStart tag atts :: ev_text text ++ flat_map events kids ++ [EEnd tag]) ++ flush buf ev)
    as (ev1 & -> & E1).
  { assert (Body : exists ev1,
      lx ($">" ++ esc_text (opt_text text) ++ flat_map serialize kids ++ $"</" ++ tag ++ $">") (st, flush buf ev)
      = (LText [] 0, ev1) /\
      ev1 = rev (EStart tag atts :: ev_text text ++ flat_map events kids ++ [EEnd tag]) ++ flush buf ev).
    { rewrite lx_app, (lx_gt _ _ _ _ IT), lx_app.
      destruct (lx_after text (EStart tag atts :: flush buf ev) X) as (b0 & n0 & -> & F0).
      rewrite lx_app.
      destruct (EK b0 n0 (EStart tag atts :: flush buf ev)) as (b1 & n1 & e1 & -> & F1).
      rewrite lx_close by exact G. eexists; split; [reflexivity|].
      rewrite F1, F0. cbn [rev]. rewrite !rev_app_distr. cbn [rev app]. rewrite <- !app_assoc. reflexivity. }
    destruct (opt_text text) as [|c s] eqn:ET; [destruct kids as [|k kids]|]; try exact Body.
    rewrite (lx_empty _ _ _ _ IT). eexists; split; [reflexivity|].
    rewrite (ev_text_opt text), ET. reflexivity. }
  destruct (lx_after tail ev1 T) as (b & m & -> & F).
  exists b, m, ev1. split; [reflexivity|]. rewrite F, E1.
  cbn [rev]. rewrite !rev_app_distr. cbn [rev app].
  rewrite <- !app_assoc. reflexivity.
Qed.

Lemma lex_serialize e : writable e = true -> lex (serialize e) = Ok (events e).
Proof.
  intros W. unfold lex. change (fold_left lex_step) with lx.
  destruct (serialize_emits e W [] 0%nat []) as (b & n & ev & -> & F).
  rewrite F. cbn [flush]. now rewrite app_nil_r, rev_involutive.
Qed.

(** ** From events to elements *)

Lemma build_app a b st : build (a ++ b) st = bind (build a st) (build b).
Proof.
  revert st. induction a as [|e a IH]; intros st; [reflexivity|].
  cbn [app build]. destruct (build_step st e); cbn [bind]; auto.
Qed.

Definition add_kids (ks : list xml) (f : frame) : frame := fold_left (fun f k => add_kid k f) ks f.

Lemma add_kids_scope ks f : f_scope (add_kids ks f) = f_scope f.
Proof. revert f. induction ks as [|k ks IH]; intros f; [reflexivity|]. cbn. unfold add_kids in IH. now rewrite IH. Qed.

Lemma add_kids_eq ks f : add_kids ks f =
  MkFrame (f_raw f) (f_scope f) (f_tag f) (f_atts f) (f_text f) (rev ks ++ f_kids f).
Proof.
  revert f. induction ks as [|k ks IH]; intros f; [now destruct f|].
  cbn [add_kids fold_left]. unfold add_kids in IH. rewrite IH. cbn. now rewrite <- app_assoc.
Qed.

Definition builds (e : xml) : Prop := forall f fs root e',
  resolve (f_scope f) e = Ok e' -> build (events e) (f :: fs, root) = Ok (add_kid e' f :: fs, root).

Lemma builds_kids l : Forall builds l -> forall f fs root ks,
  map_res (resolve (f_scope f)) l = Ok ks ->
  build (flat_map events l) (f :: fs, root) = Ok (add_kids ks f :: fs, root).
Proof.
  induction 1 as [|e l H _ IH]; intros f fs root ks E; cbn [map_res] in E.
  - injection E as <-. reflexivity.
  - destruct (resolve (f_scope f) e) as [e'|] eqn:R; [|discriminate]. cbn [bind] in E.
    destruct (map_res (resolve (f_scope f)) l) as [ks'|] eqn:M; [|discriminate].
    cbn [bind] in E. injection E as <-.
    cbn [flat_map]. rewrite build_app, (H f fs root e' R). cbn [bind].
    rewrite (IH (add_kid e' f) fs root ks' M). reflexivity.
Qed.

(** The inside of an element, after its start tag. *)
Lemma build_inside text kids ks tag sc t a fs root :
  Forall builds kids -> map_res (resolve sc) kids = Ok ks ->
  build (ev_text text ++ flat_map events kids) (MkFrame tag sc t a None [] :: fs, root)
  = Ok (MkFrame tag sc t a (norm_opt text) (rev ks) :: fs, root).
Proof.
  intros B M. rewrite build_app.
  assert (build (ev_text text) (MkFrame tag sc t a None [] :: fs, root)
          = Ok (MkFrame tag sc t a (norm_opt text) [] :: fs, root)) as ->.
  { destruct text as [[|c s]|]; reflexivity. }
  cbn [bind]. rewrite (builds_kids kids B (MkFrame tag sc t a (norm_opt text) []) fs root ks M).
  rewrite add_kids_eq. cbn. now rewrite app_nil_r.
Qed.

Lemma resolve_inv sc tag atts text kids tail e' :
  resolve sc (El tag atts text kids tail) = Ok e' ->
  exists sc' t a ks, open_tag sc tag atts = Ok (sc', t, a) /\ map_res (resolve sc') kids = Ok ks
    /\ e' = El t a (norm_opt text) ks (norm_opt tail).
Proof.
  cbn [resolve]. destruct (open_tag sc tag atts) as [[[sc' t] a]|]; [|discriminate]. cbn [bind].
  destruct (map_res (resolve sc') kids) as [ks|] eqn:E; [|discriminate]. cbn [bind].
  intros [= <-]. eauto 8.
Qed.

Lemma events_eq tag atts text kids tail :
  events (El tag atts text kids tail)
  = EStart tag atts :: (ev_text text ++ flat_map events kids) ++ EEnd tag :: ev_text tail.
Proof. cbn [events]. now rewrite <- app_assoc. Qed.

Lemma build_all e : builds e.
Proof.
  induction e as [tag atts text kids tail IH] using xml_ind'.
  intros f fs root e' R. destruct (resolve_inv _ _ _ _ _ _ _ R) as (sc' & t & a & ks & O & M & ->).
  rewrite events_eq. cbn [build build_step]. rewrite O. cbn [bind].
  rewrite build_app, (build_inside text kids ks tag sc' t a (f :: fs) root IH M).
  cbn [bind build build_step f_raw]. rewrite str_eqb_refl. cbn [bind].
  unfold close_frame. cbn [f_tag f_atts f_text f_kids]. rewrite rev_involutive.
  destruct tail as [[|c s]|]; reflexivity.
Qed.

Lemma build_root e e' : resolve [] e = Ok e' -> x_tail e = None ->
  build (events e) ([], None) = Ok ([], Some e').
Proof.
  destruct e as [tag atts text kids tail]. cbn [x_tail]. intros R ->.
  destruct (resolve_inv _ _ _ _ _ _ _ R) as (sc' & t & a & ks & O & M & ->).
  rewrite events_eq. cbn [build build_step]. rewrite O. cbn [bind].
  rewrite build_app, (build_inside text kids ks tag sc' t a [] None); auto.
  2: { rewrite Forall_forall. intros; apply build_all. }
  cbn [bind build build_step f_raw]. rewrite str_eqb_refl. cbn [bind].
  unfold close_frame. cbn [f_tag f_atts f_text f_kids]. rewrite rev_involutive. reflexivity.
Qed.

(** ** Nothing that is written has a carriage return *)

Definition no_cr (s : str) : bool := forallb (fun c => negb (ceqb c cr)) s.

Lemma no_cr_app a b : no_cr (a ++ b) = no_cr a && no_cr b.
Proof. apply forallb_app. Qed.

Lemma no_cr_flat_map {A} (f : A -> str) l : (forall x, In x l -> no_cr (f x) = true) -> no_cr (flat_map f l) = true.
Proof.
  induction l as [|x l IH]; intros H; [reflexivity|]. cbn [flat_map]. rewrite no_cr_app.
  rewrite (H x (or_introl eq_refl)), IH; auto. intros y I. apply H. now right.
Qed.

Lemma esc_att_no_cr v : no_cr (esc_att v) = true.
Proof. apply no_cr_flat_map. intros c _. by_char c. Qed.

Lemma esc_text_no_cr t : good_text t = true -> no_cr (esc_text t) = true.
Proof.
  intros G. apply no_cr_flat_map. intros c I.
  unfold good_text in G. rewrite forallb_forall in G. specialize (G c I).
  apply andb_true_iff in G as [_ G]. revert G. by_char c.
Qed.

Lemma name_no_cr n : good_name n = true -> no_cr n = true.
Proof.
  intros G. apply good_name_chars in G. unfold no_cr. rewrite forallb_forall in *.
  intros c I. specialize (G c I). revert G. by_char c.
Qed.

Lemma serialize_no_cr e : writable e = true -> no_cr (serialize e) = true.
Proof.
  induction e as [tag atts text kids tail IH] using xml_ind'.
  cbn [writable]. rewrite !andb_true_iff. intros [[[[G A] X] K] T].
  cbn [serialize]. rewrite !no_cr_app. rewrite !andb_true_iff.
  split; [reflexivity|]. split; [now apply name_no_cr|]. split; [|split].
  - apply no_cr_flat_map. intros [n v] I. rewrite forallb_forall in A. specialize (A _ I).
    cbn [fst snd] in A. apply andb_true_iff in A as [A _].
    unfold ser_att. rewrite !no_cr_app, !andb_true_iff. cbn [fst snd].
    rewrite esc_att_no_cr, (name_no_cr _ A). repeat split; reflexivity.
  - assert (Body : no_cr ($">" ++ esc_text (opt_text text) ++ flat_map serialize kids ++ $"</" ++ tag ++ $">") = true).
    { rewrite !no_cr_app, !andb_true_iff. split; [reflexivity|]. split; [now apply esc_text_no_cr|].
      split; [|split; [reflexivity|split; [now apply name_no_cr|reflexivity]]].
      apply no_cr_flat_map. intros k I. rewrite Forall_forall in IH. rewrite forallb_forall in K. auto. }
    destruct (opt_text text); [destruct kids|]; auto.
  - now apply esc_text_no_cr.
Qed.

Lemma decl_between d r : firstn (List.length ($"<?xml" ++ d ++ $"?>" ++ r) - List.length r - 7)
  (skipn 5 ($"<?xml" ++ d ++ $"?>" ++ r)) = d.
Proof.
  change (skipn 5 ($"<?xml" ++ d ++ $"?>" ++ r)) with (d ++ $"?>" ++ r).
  rewrite !app_length.
  replace (List.length $"<?xml" + (List.length d + (List.length $"?>" + List.length r)) - List.length r - 7)%nat
    with (List.length d)
    by (change (List.length $"<?xml") with 5%nat; change (List.length $"?>") with 2%nat; lia).
  rewrite firstn_app, firstn_all, Nat.sub_diag. cbn [firstn]. apply app_nil_r.
Qed.

Lemma after_decl_write s : skip_decl (xml_decl ++ s) = Ok (nl :: s).
Proof.
  pose (d := $" version='1.0' encoding='utf-8'").
  change (xml_decl ++ s) with ($"<?xml" ++ d ++ $"?>" ++ nl :: s).
  unfold skip_decl.
  change (after_decl ($"<?xml" ++ d ++ $"?>" ++ nl :: s)) with (Some (nl :: s)). cbv iota.
  rewrite decl_between. reflexivity.
Qed.

Lemma lex_nl e : writable e = true -> lex (nl :: serialize e) = Ok (EText [nl] :: events e).
Proof.
  intros W. unfold lex. change (fold_left lex_step) with lx. rewrite lx_cons.
  change (lex_step (LText [] 0, []) nl) with (LText [nl] 0, @nil event).
  destruct (serialize_emits e W [nl] 0%nat []) as (b & n & ev & -> & F).
  rewrite F. cbn [flush]. rewrite rev_app_distr. cbn [rev app]. now rewrite rev_involutive.
Qed.

(** Reading what was written gives the element back, with its names resolved. *)
Lemma parse_write e e' : writable e = true -> x_tail e = None -> resolve [] e = Ok e' ->
  parse_text (write_xml e) = Ok e'.
Proof.
  intros W T R. unfold parse_text, write_xml.
  rewrite norm_eol_id.
  2: { change (no_cr (xml_decl ++ serialize e) = true). rewrite no_cr_app.
       rewrite serialize_no_cr by exact W. reflexivity. }
  rewrite after_decl_write. cbn [bind]. rewrite lex_nl by exact W. cbn [bind].
  cbn [build build_step]. change (forallb xml_ws [nl]) with true. cbn [bind].
  rewrite (build_root e e' R T). reflexivity.
Qed.
