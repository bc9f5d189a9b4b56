(** * ClientUtilsFacts: proofs about option texts *)

From Verif Require Import Py PyFacts Opener ClientUtils ClientUtilsSpec.

Definition commas (c : ascii) (fs : list str) : str := List.concat (map (fun f => c :: f) fs).

Lemma split_commas c f fs :
  Forall (without c) (f :: fs) -> split_on c (f ++ commas c fs) = f :: fs.
Proof.
  revert f. induction fs as [|g fs IH]; intros f H; inversion_clear H as [|? ? Hf Hfs].
  - unfold commas. cbn. rewrite app_nil_r. now apply split_on_no.
  - unfold commas in *. cbn [map List.concat]. rewrite <- app_comm_cons.
    rewrite split_on_app by exact Hf. f_equal. now apply IH.
Qed.
Lemma split_commas_inv c s f fs :
  split_on c s = f :: fs -> s = f ++ commas c fs /\ Forall (without c) (f :: fs).
Proof.
  intros E. split.
  - rewrite <- (join_split_on c s), E. clear. revert f.
    induction fs as [|g fs IH]; intros f; cbn; [now rewrite app_nil_r|].
    f_equal. f_equal. exact (IH g).
  - apply Forall_forall. intros g Hg. rewrite <- E in Hg. exact (split_on_fields c s g Hg).
Qed.

(** ** One pair *)

Lemma split_pair_ok t k v :
  split_pair t = Ok (k, v) <-> t = att_text (k, v) /\ without "=" k /\ without "=" v.
Proof.
  unfold split_pair, att_text. cbn [fst snd]. split.
  - destruct (split_on "=" t) as [|a [|b [|c r]]] eqn:E; try discriminate.
    injection 1 as -> ->. apply split_commas_inv in E as [-> F].
    inversion_clear F as [|? ? F1 F2]. inversion_clear F2 as [|? ? F3 F4].
    unfold commas. cbn. rewrite app_nil_r. auto.
  - intros (-> & A & B).
    replace (k ++ $"=" ++ v) with (k ++ commas "=" [v]) by (unfold commas; cbn; now rewrite app_nil_r).
    now rewrite split_commas by auto.
Qed.
Lemma split_pair_err t e : split_pair t = Err e -> e = ValueError.
Proof.
  unfold split_pair. destruct (split_on "=" t) as [|a [|b [|c r]]]; congruence.
Qed.

(** ** Dictionaries built by assignments *)

Definition assign (d : list (str * str)) (l : list (str * str)) : list (str * str) :=
  fold_left (fun d p => sset (fst p) (snd p) d) l d.

Lemma assigned_snoc k l p :
  assigned k (l ++ [p]) = if str_eqb (fst p) k then Some (snd p) else assigned k l.
Proof.
  unfold assigned. rewrite filter_app. cbn [filter].
  destruct (str_eqb (fst p) k); rewrite rev_app_distr; reflexivity.
Qed.
Lemma sget_assign k d l :
  sget k (assign d l) = match assigned k l with Some v => Some v | None => sget k d end.
Proof.
  induction l as [|p l IH] using rev_ind; [reflexivity|].
  unfold assign in *. rewrite fold_left_app. cbn [fold_left]. rewrite sget_sset, assigned_snoc, IH.
  destruct (str_eqb_spec k (fst p)) as [->|N].
  - now rewrite str_eqb_refl.
  - destruct (str_eqb_spec (fst p) k) as [E|]; [now rewrite E in N|reflexivity].
Qed.
Lemma assign_fresh d l : NoDup (dkeys d ++ dkeys l) -> assign d l = d ++ l.
Proof.
  revert d. induction l as [|[k v] l IH]; intros d N; cbn; [now rewrite app_nil_r|].
  assert (F : ~ In k (dkeys d)).
  { intros I. apply NoDup_remove_2 in N. apply N. apply in_or_app. now left. }
  rewrite sset_fresh by exact F.
  change (d ++ (k, v) :: l) with (d ++ [(k, v)] ++ l). rewrite app_assoc.
  apply IH. unfold dkeys in *. rewrite map_app, <- app_assoc. exact N.
Qed.

(** ** Links *)

Lemma link_atts_ok segs d r :
  link_atts segs d = Ok r <->
  exists atts, segs = map att_text atts /\
    Forall (fun p => fst p <> [] /\ snd p <> [] /\ without "=" (fst p) /\ without "=" (snd p)) atts /\
    r = assign d atts.
Proof.
  revert d. induction segs as [|t segs IH]; intros d; cbn [link_atts].
  - split.
    + injection 1 as <-. exists []. repeat constructor.
    + intros ([|p l] & E & _ & ->); [reflexivity|discriminate].
  - split.
    + destruct (split_pair t) as [[k v]|e] eqn:E; [|discriminate]. cbn [bind].
      apply split_pair_ok in E as (-> & A & B).
      destruct (str_eqb_spec k []) as [|K]; [discriminate|].
      destruct (str_eqb_spec v []) as [|V]; [discriminate|]. cbn [orb].
      intros H. apply IH in H as (atts & -> & F & ->).
      exists ((k, v) :: atts). split; [reflexivity|]. split; [|reflexivity]. constructor; auto.
    + intros ([|[k v] l] & E & F & ->); [discriminate|]. cbn [map] in E.
      injection E as E1 E2.
      pose proof (Forall_inv F) as (K & V & A & B). pose proof (Forall_inv_tail F) as F'. cbn [fst snd] in *.
      assert (S : split_pair t = Ok (k, v)) by (apply split_pair_ok; auto).
      rewrite S. cbn [bind].
      destruct (str_eqb_spec k []) as [|_]; [congruence|].
      destruct (str_eqb_spec v []) as [|_]; [congruence|]. cbn [orb].
      apply IH. exists l. auto.
Qed.
Lemma link_atts_err segs d e : link_atts segs d = Err e -> e = ValueError \/ e = ClientFatalError.
Proof.
  revert d. induction segs as [|t segs IH]; intros d; cbn [link_atts]; [discriminate|].
  destruct (split_pair t) as [[k v]|e'] eqn:E; cbn [bind].
  - destruct (str_eqb k [] || str_eqb v []); [injection 1 as <-; auto|apply IH].
  - injection 1 as <-. left. exact (split_pair_err t _ E).
Qed.

Definition link_start (rel href : str) : list (str * str) := [($"rel", rel); ($"href", href)].
Lemma link_start_is rel href : sset $"href" href (sset $"rel" rel []) = link_start rel href.
Proof. reflexivity. Qed.

Lemma body_ok s r :
  parse_link_body s = Ok r <->
  exists rel href atts, link_text s rel href atts /\ r = assign (link_start rel href) atts.
Proof.
  unfold parse_link_body. split.
  - destruct (split_on "," s) as [|rel [|href segs]] eqn:E; try discriminate.
    destruct (str_eqb_spec href []) as [|H]; [discriminate|]. intros L.
    rewrite link_start_is in L. apply link_atts_ok in L as (atts & -> & F & ->).
    apply split_commas_inv in E as [-> G].
    inversion_clear G as [|? ? G1 G2]. inversion_clear G2 as [|? ? G3 G4].
    exists rel, href, atts. split; [|reflexivity]. constructor; auto.
    + unfold commas. cbn [map List.concat]. rewrite map_map. reflexivity.
    + rewrite Forall_forall in *. intros p Hp. destruct (F p Hp) as (A & B & C & D).
      pose proof (G4 (att_text p) (in_map att_text atts p Hp)) as N.
      unfold att_pair. split; [|split; [|split; [|split; [|split]]]]; auto;
        intros X; apply N; unfold att_text; apply in_or_app; [left|right; apply in_or_app; right]; exact X.
  - intros (rel & href & atts & [T R H S A] & ->).
    assert (E : split_on "," s = rel :: href :: map att_text atts).
    { subst s.
      replace (rel ++ $"," ++ href ++ List.concat (map (fun p => $"," ++ att_text p) atts))
        with (rel ++ commas "," (href :: map att_text atts))
        by (unfold commas; cbn [map List.concat]; rewrite map_map; reflexivity).
      apply split_commas. constructor; [exact R|]. constructor; [exact H|].
      apply Forall_forall. intros g Hg. apply in_map_iff in Hg as ([k v] & <- & Hp).
      rewrite Forall_forall in A. destruct (A _ Hp) as (_ & _ & _ & _ & C & D).
      cbn [fst snd] in *. unfold att_text, without. cbn [fst snd]. intros X.
      apply in_app_or in X as [X|X]; [now apply C|].
      apply in_app_or in X as [[X|[]]|X]; [discriminate X|now apply D]. }
    rewrite E. destruct (str_eqb_spec href []) as [|_]; [congruence|].
    rewrite link_start_is. apply link_atts_ok. exists atts. split; [reflexivity|].
    split; [|reflexivity]. eapply Forall_impl; [|exact A]. unfold att_pair. tauto.
Qed.
Lemma parse_link_ok s r : parse_link s = Ok r <-> parse_link_body s = Ok r.
Proof. unfold parse_link. destruct (parse_link_body s) as [|[]]; split; congruence. Qed.
Lemma parse_link_err s e : parse_link s = Err e -> e = ClientFatalError.
Proof.
  unfold parse_link, parse_link_body.
  destruct (split_on "," s) as [|rel [|href segs]]; [congruence..|].
  destruct (str_eqb href []); [congruence|].
  destruct (link_atts segs _) eqn:L; [discriminate|].
  apply link_atts_err in L as [-> | ->]; congruence.
Qed.

(** ** Results *)

Lemma link_accepts s : (exists d, parse_link s = Ok d) <-> exists rel href atts, link_text s rel href atts.
Proof.
  split.
  - intros [d H]. apply parse_link_ok, body_ok in H as (rel & href & atts & L & _). eauto.
  - intros (rel & href & atts & L). eexists. apply parse_link_ok, body_ok. eauto 6.
Qed.
Lemma link_value s rel href atts :
  link_text s rel href atts ->
  exists d, parse_link s = Ok d /\
    forall k, sget k d = assigned k (($"rel", rel) :: ($"href", href) :: atts).
Proof.
  intros L. exists (assign (link_start rel href) atts).
  split; [apply parse_link_ok, body_ok; eauto|]. intros k.
  change (assign (link_start rel href) atts)
    with (assign [] (($"rel", rel) :: ($"href", href) :: atts)).
  rewrite sget_assign. now destruct (assigned k _).
Qed.
Lemma link_exactly s rel href atts :
  link_text s rel href atts -> NoDup ($"rel" :: $"href" :: map fst atts) ->
  parse_link s = Ok (($"rel", rel) :: ($"href", href) :: atts).
Proof.
  intros L N. apply parse_link_ok, body_ok. exists rel, href, atts. split; [exact L|].
  symmetry. exact (assign_fresh (link_start rel href) atts N).
Qed.

Lemma mapM_ok {A B} (f : A -> res B) l r :
  mapM f l = Ok r <-> Forall2 (fun a b => f a = Ok b) l r.
Proof.
  revert r. induction l as [|a l IH]; intros r; cbn.
  - split; [injection 1 as <-; constructor|intros H; inversion H; reflexivity].
  - split.
    + destruct (f a) as [b|] eqn:E; [|discriminate]. cbn.
      destruct (mapM f l) as [bs|] eqn:M; [|discriminate]. cbn. injection 1 as <-.
      constructor; [exact E|]. now apply IH.
    + intros H. inversion H as [|? b ? bs E F]; subst. rewrite E. cbn.
      apply IH in F. rewrite F. reflexivity.
Qed.
Lemma mapM_err {A B} (f : A -> res B) l e :
  mapM f l = Err e -> exists a, In a l /\ f a = Err e.
Proof.
  induction l as [|a l IH]; cbn; [discriminate|].
  destruct (f a) as [b|e'] eqn:E; cbn.
  - destruct (mapM f l) as [bs|] eqn:M; cbn; [discriminate|]. injection 1 as ->.
    destruct (IH eq_refl) as (x & I & X). eauto.
  - injection 1 as ->. eauto.
Qed.
Lemma links_all l ds :
  parse_links (Some l) = Ok ds <-> Forall2 (fun s d => parse_link s = Ok d) l ds.
Proof. apply mapM_ok. Qed.
Lemma links_err l e :
  parse_links l = Err e ->
  e = ClientFatalError /\ exists o s, l = Some o /\ In s o /\ ~ exists d, parse_link s = Ok d.
Proof.
  destruct l as [l|]; [|discriminate]. intros H. apply mapM_err in H as (s & I & E).
  split; [exact (parse_link_err _ _ E)|]. exists l, s. split; [reflexivity|]. split; [exact I|].
  intros [d D]. congruence.
Qed.

(** ** Capabilities *)

Lemma caps_loop_ok segs d r :
  caps_loop segs d = Ok r <->
  exists ps, segs = map att_text ps /\
    Forall (fun p => without "=" (fst p) /\ without "=" (snd p)) ps /\ r = assign d ps.
Proof.
  revert d. induction segs as [|t segs IH]; intros d; cbn [caps_loop].
  - split.
    + injection 1 as <-. exists []. repeat constructor.
    + intros ([|p l] & E & _ & ->); [reflexivity|discriminate].
  - split.
    + destruct (split_pair t) as [[k v]|e] eqn:E; [|discriminate]. cbn [bind].
      apply split_pair_ok in E as (-> & A & B). intros H.
      apply IH in H as (ps & -> & F & ->).
      exists ((k, v) :: ps). split; [reflexivity|]. split; [|reflexivity]. constructor; auto.
    + intros ([|[k v] l] & E & F & ->); [discriminate|]. cbn [map] in E. injection E as E1 E2.
      pose proof (Forall_inv F) as (A & B). pose proof (Forall_inv_tail F) as F'. cbn [fst snd] in *.
      assert (S : split_pair t = Ok (k, v)) by (apply split_pair_ok; auto).
      rewrite S. cbn [bind]. apply IH. exists l. auto.
Qed.
Lemma caps_loop_err segs d e : caps_loop segs d = Err e -> e = ValueError.
Proof.
  revert d. induction segs as [|t segs IH]; intros d; cbn [caps_loop]; [discriminate|].
  destruct (split_pair t) as [[k v]|e'] eqn:E; cbn [bind]; [apply IH|].
  injection 1 as <-. exact (split_pair_err t _ E).
Qed.
Lemma caps_ok s r :
  parse_capabilities s = Ok r <-> exists p ps, caps_text s p ps /\ r = assign [] (p :: ps).
Proof.
  transitivity (caps_loop (split_on "," s) [] = Ok r).
  { unfold parse_capabilities. destruct (caps_loop (split_on "," s) []) as [|[]]; split; congruence. }
  rewrite caps_loop_ok. split.
  - intros (ps & E & F & ->). destruct ps as [|p ps]; [now apply split_on_nonempty in E|].
    exists p, ps. split; [|reflexivity]. cbn [map] in E. apply split_commas_inv in E as [-> G].
    constructor.
    + unfold commas. rewrite map_map. reflexivity.
    + change (att_text p :: map att_text ps) with (map att_text (p :: ps)) in G.
      rewrite Forall_forall in *. intros q Hq. destruct (F q Hq) as (A & B).
      pose proof (G (att_text q) (in_map att_text _ q Hq)) as N.
      unfold cap_pair. split; [|split; [|split]]; auto;
        intros X; apply N; unfold att_text; apply in_or_app; [left|right; apply in_or_app; right]; exact X.
  - intros (p & ps & [T F] & ->). exists (p :: ps). split; [|split; [|reflexivity]].
    + subst s. replace (List.concat (map (fun q => $"," ++ att_text q) ps)) with (commas "," (map att_text ps))
        by (unfold commas; rewrite map_map; reflexivity).
      cbn [map]. apply split_commas.
      change (att_text p :: map att_text ps) with (map att_text (p :: ps)).
      apply Forall_forall. intros g Hg. apply in_map_iff in Hg as ([k v] & <- & Hp).
      rewrite Forall_forall in F. destruct (F _ Hp) as (_ & _ & C & D).
      cbn [fst snd] in *. unfold att_text, without. cbn [fst snd]. intros X.
      apply in_app_or in X as [X|X]; [now apply C|].
      apply in_app_or in X as [[X|[]]|X]; [discriminate X|now apply D].
    + eapply Forall_impl; [|exact F]. unfold cap_pair. tauto.
Qed.
Lemma caps_err s e : parse_capabilities s = Err e -> e = ClientFatalError.
Proof.
  unfold parse_capabilities. destruct (caps_loop (split_on "," s) []) eqn:E; [discriminate|].
  apply caps_loop_err in E as ->. congruence.
Qed.
Lemma caps_accepts s : (exists d, parse_capabilities s = Ok d) <-> exists p ps, caps_text s p ps.
Proof.
  split.
  - intros [d H]. apply caps_ok in H as (p & ps & C & _). eauto.
  - intros (p & ps & C). eexists. apply caps_ok. eauto.
Qed.
Lemma caps_value s p ps :
  caps_text s p ps ->
  exists d, parse_capabilities s = Ok d /\ forall k, sget k d = assigned k (p :: ps).
Proof.
  intros C. exists (assign [] (p :: ps)). split; [apply caps_ok; eauto|]. intros k.
  rewrite sget_assign. now destruct (assigned k _).
Qed.
Lemma caps_exactly s p ps :
  caps_text s p ps -> NoDup (map fst (p :: ps)) -> parse_capabilities s = Ok (p :: ps).
Proof.
  intros C N. apply caps_ok. exists p, ps. split; [exact C|].
  symmetry. exact (assign_fresh [] (p :: ps) N).
Qed.

(** ** Options *)

Lemma checksum_means_md5 o remote c l :
  o_checksum o = true -> o_hash o = Some l ->
  process_options o remote c =
  process_options (MkOptions (Some (l ++ [$"md5"])) false (o_token o) (o_delay o)) remote c.
Proof. intros A B. unfold process_options. now rewrite A, B. Qed.
Lemma no_checksum o remote c c' h :
  o_checksum o = false -> process_options o remote c = (c', Ok h) -> h = o_hash o.
Proof.
  intros A. unfold process_options. rewrite A. destruct remote; [|congruence].
  destruct (o_delay o) as [d|]; [|congruence].
  destruct (d =? 0); [congruence|]. destruct (d <? 0); congruence.
Qed.

Lemma process_cases o c c' r :
  process_options o true c = (c', r) ->
  cf_delay c' = match r, o_delay o with
                | Ok _, Some d => if d =? 0 then cf_delay c else Some d
                | _, _ => cf_delay c
                end.
Proof.
  unfold process_options.
  destruct (if o_checksum o then _ else _) as [h|e]; [|injection 1 as <- <-; reflexivity].
  assert (T : cf_delay match o_token o with Some ((_ :: _) as t) => with_token t c | _ => c end = cf_delay c)
    by (destruct (o_token o) as [[|]|]; reflexivity).
  destruct (o_delay o) as [d|].
  - destruct (d =? 0); [injection 1 as <- <-; exact T|].
    destruct (d <? 0); injection 1 as <- <-; [exact T|reflexivity].
  - injection 1 as <- <-. exact T.
Qed.
Lemma negative_delay o c d :
  o_delay o = Some d -> d < 0 ->
  exists c' e, process_options o true c = (c', Err e) /\ cf_delay c' = cf_delay c.
Proof.
  intros D N. destruct (process_options o true c) as [c' [h|e]] eqn:P.
  - exfalso. revert P. unfold process_options. rewrite D.
    destruct (if o_checksum o then _ else _) as [h'|e]; [|discriminate].
    replace (d =? 0) with false by lia. replace (d <? 0) with true by lia. discriminate.
  - exists c', e. split; [reflexivity|]. exact (process_cases o c c' (Err e) P).
Qed.
Lemma delay_set o c c' h d :
  process_options o true c = (c', Ok h) -> o_delay o = Some d -> d <> 0 -> cf_delay c' = Some d /\ 0 < d.
Proof.
  intros P D N. pose proof (process_cases o c c' (Ok h) P) as E. rewrite D in E.
  replace (d =? 0) with false in E by lia. split; [exact E|].
  destruct (Z_lt_le_dec d 0) as [L|]; [|lia].
  destruct (negative_delay o c d D L) as (c1 & e & P1 & _). congruence.
Qed.
Lemma delay_kept o c c' h :
  process_options o true c = (c', Ok h) -> o_delay o = None \/ o_delay o = Some 0 -> cf_delay c' = cf_delay c.
Proof.
  intros P D. pose proof (process_cases o c c' (Ok h) P) as E. destruct D as [D|D]; rewrite D in E; exact E.
Qed.
Lemma local_options o c c' r : process_options o false c = (c', r) -> c' = c.
Proof. unfold process_options. destruct (if o_checksum o then _ else _); congruence. Qed.

Lemma token_set o c c' h t :
  process_options o true c = (c', Ok h) -> o_token o = Some t -> t <> [] ->
  authorization c' = Some ($"Bearer " ++ t).
Proof.
  intros P T N. revert P. unfold process_options. rewrite T.
  destruct (if o_checksum o then _ else _) as [h'|]; [|discriminate].
  destruct t as [|a t]; [contradiction|]. destruct (o_delay o) as [d|].
  - destruct (d =? 0); [injection 1 as <- <-; reflexivity|].
    destruct (d <? 0); [discriminate|]. injection 1 as <- <-. reflexivity.
  - injection 1 as <- <-. reflexivity.
Qed.
Lemma token_kept o c c' r :
  process_options o true c = (c', r) -> o_token o = None \/ o_token o = Some [] ->
  authorization c' = authorization c.
Proof.
  intros P T. revert P. unfold process_options, authorization.
  destruct (if o_checksum o then _ else _) as [h'|]; [|injection 1 as <- <-; reflexivity].
  destruct T as [T|T]; rewrite T; destruct (o_delay o) as [d|];
    try (destruct (d =? 0)); try (destruct (d <? 0)); injection 1 as <- <-; reflexivity.
Qed.

Lemma checksum_alone :
  exists o c h c',
    o_checksum o = true /\ o_hash o = None /\
    process_options o true c = (c, Err AttributeError) /\
    process_options (MkOptions (Some [$"md5"]) false (o_token o) (o_delay o)) true c = (c', Ok h).
Proof.
  exists (MkOptions None true None None), config0, (Some [$"md5"]), config0. repeat split.
Qed.
Lemma checksum_alone_always o remote c :
  o_checksum o = true -> o_hash o = None -> process_options o remote c = (c, Err AttributeError).
Proof. intros A B. unfold process_options. now rewrite A, B. Qed.
Lemma checksum_members o remote c c' h l :
  o_checksum o = true -> o_hash o = Some l -> process_options o remote c = (c', Ok h) ->
  forall x, In x (client_hashes h) <-> In x l \/ x = $"md5".
Proof.
  intros A B P x. rewrite (checksum_means_md5 o remote c l A B) in P.
  apply no_checksum in P; [|reflexivity]. subst h. cbn [o_hash client_hashes].
  rewrite in_app_iff. cbn. intuition.
Qed.

Lemma token_everywhere :
  exists o c h, process_options o true config0 = (c, Ok h) /\
    snd (configured_open c 0 $"http://source.example/a") = snd (configured_open c 1 $"http://other.example/b") /\
    snd (configured_open c 1 $"http://other.example/b") = Some $"Bearer secret".
Proof.
  exists (MkOptions None false (Some $"secret") None), (MkConfig (Some $"secret") None), None.
  repeat split.
Qed.

(** ** Lists of capability lists *)

Lemma capability_lists_are s u us : parse_capability_lists s = u :: us <->
  s = u ++ List.concat (map (fun v => $"," ++ v) us) /\ Forall (without ",") (u :: us).
Proof.
  unfold parse_capability_lists. change (fun v => $"," ++ v) with (fun v : str => ","%char :: v).
  change (List.concat (map (fun v : str => ","%char :: v) us)) with (commas "," us). split.
  - apply split_commas_inv.
  - intros [-> F]. now apply split_commas.
Qed.
Lemma capability_lists_some s : parse_capability_lists s <> [].
Proof. apply split_on_nonempty. Qed.
