(** * UrlFacts: proofs about urlparse and url_authority.py *)

From Verif Require Import Py PyFacts Url UrlSpec OsPath UrlAuthority.

Lemma avoids_app bad a b : avoids bad (a ++ b) <-> avoids bad a /\ avoids bad b.
Proof.
  unfold avoids. split.
  - intros H; split; intros c I; apply H, in_app_iff; auto.
  - intros [A B] c I. apply in_app_iff in I as [I|I]; auto.
Qed.
Lemma avoids_cons bad c a : avoids bad (c :: a) <-> ~ In c bad /\ avoids bad a.
Proof.
  unfold avoids. split.
  - intros H; split; [apply H; now left|intros x I; apply H; now right].
  - intros [A B] x [<-|I]; auto.
Qed.

Lemma cut_at_app p a b :
  (forall c, In c a -> p c = false) ->
  (b = [] \/ exists c b', b = c :: b' /\ p c = true) -> cut_at p (a ++ b) = (a, b).
Proof.
  intros A B. induction a as [|x a IH]; cbn [app cut_at].
  - destruct B as [->|(c & b' & -> & E)]; cbn; [auto|now rewrite E].
  - rewrite (A x) by now left. rewrite IH; auto. intros c I; apply A; now right.
Qed.

Lemma cut_char_no c s : ~ In c s -> cut_char c s = (s, []).
Proof. intros H. unfold cut_char. apply split1_none in H. now rewrite H. Qed.
Lemma cut_char_app c a b : ~ In c a -> cut_char c (a ++ c :: b) = (a, b).
Proof.
  intros H. unfold cut_char. assert (split1 c (a ++ c :: b) = Some (a, b)) as -> by (apply split1_spec; auto).
  reflexivity.
Qed.

Lemma alpha_not_c0 c : is_alpha_az c = true -> (code c <=? 32)%N = false.
Proof.
  unfold is_alpha_az, is_upper_az, is_lower_az, in_range. intros H.
  apply N.leb_gt. apply orb_true_iff in H as [H|H]; apply andb_true_iff in H as [H _];
  apply N.leb_le in H; lia.
Qed.

Lemma unsafe_false c : url_unsafe c = false <-> ~ In c [tab; cr; nl].
Proof.
  unfold url_unsafe. split.
  - intros H I. apply orb_false_iff in H as [H H3]. apply orb_false_iff in H as [H1 H2].
    rewrite ceqb_neq in *. destruct I as [I|[I|[I|[]]]]; auto.
  - intros H. rewrite !orb_false_iff, !ceqb_neq. repeat split; intros ->; apply H;
      [now left|now right; left|now right; right; left].
Qed.

Lemma scheme_char_safe c : is_scheme_char c = true -> url_unsafe c = false.
Proof.
  destruct c as [[] [] [] [] [] [] [] []]; vm_compute; congruence.
Qed.
Lemma scheme_char_not_colon c : is_scheme_char c = true -> c <> ":"%char.
Proof. intros H ->. vm_compute in H. discriminate. Qed.

Lemma filter_id {A} (f : A -> bool) l : (forall x, In x l -> f x = true) -> filter f l = l.
Proof.
  induction l as [|x l IH]; cbn; auto. intros H. rewrite H by now left. f_equal. apply IH.
  intros; apply H; now right.
Qed.

Lemma scheme_chars u : wf_url u -> forall c, In c (q_scheme u) -> is_scheme_char c = true.
Proof.
  intros (_ & H & _) c I. apply H in I. unfold is_scheme_char.
  rewrite !orb_true_iff, has_char_In. tauto.
Qed.

Lemma wf_no_breaks u : wf_url u -> forall c, In c (url_text u) -> url_unsafe c = false.
Proof.
  intros W c I. pose proof (scheme_chars u W) as SC.
  destruct W as (_ & _ & _ & NH & _ & _ & NP & _ & NT).
  unfold url_text in I. rewrite !in_app_iff in I.
  destruct I as [I|[I|[I|[I|I]]]].
  - now apply scheme_char_safe, SC.
  - apply unsafe_false. intros X. unfold lit in I. cbn in I, X.
    destruct I as [<-|[<-|[<-|[]]]]; destruct X as [X|[X|[X|[]]]]; discriminate X.
  - apply unsafe_false. now apply NH.
  - apply unsafe_false. now apply NP.
  - apply unsafe_false. now apply NT.
Qed.

Lemma url_clean_text u : wf_url u -> url_clean (url_text u) = url_text u.
Proof.
  intros W. unfold url_clean.
  assert (lstrip_c0 (url_text u) = url_text u) as ->.
  { destruct W as ((c & s & E & A) & _). unfold url_text. rewrite E. cbn.
    now rewrite (alpha_not_c0 c A). }
  apply filter_id. intros c I. now rewrite (wf_no_breaks u W c I).
Qed.

Lemma split_scheme_text u dflt : wf_url u ->
  split_scheme (url_text u) dflt = (lower (q_scheme u), $"//" ++ q_host u ++ q_path u ++ q_tail u).
Proof.
  intros W. pose proof (scheme_chars u W) as SC. destruct W as ((c & s & E & A) & _).
  unfold split_scheme.
  assert (split1 ":" (url_text u) = Some (q_scheme u, $"//" ++ q_host u ++ q_path u ++ q_tail u)) as ->.
  { apply split1_spec. split; [reflexivity|]. intros I. apply SC in I. now apply scheme_char_not_colon in I. }
  rewrite E. rewrite A. rewrite <- E.
  replace (forallb is_scheme_char (q_scheme u)) with true; [reflexivity|].
  symmetry. now apply forallb_forall.
Qed.

Lemma split_netloc_text u : wf_url u ->
  split_netloc ($"//" ++ q_host u ++ q_path u ++ q_tail u) = Ok (q_host u, q_path u ++ q_tail u).
Proof.
  intros (_ & _ & AH & _ & P & _ & _ & T & _).
  unfold split_netloc, lit. cbn [list_ascii_of_string app]. cbn [ceqb Ascii.eqb eqb andb].
  change (ceqb "/" "/" && ceqb "/" "/") with true. cbn [andb].
  rewrite cut_at_app.
  - assert (has_char "[" (q_host u) = false) as ->.
    { apply has_char_false. intros I. apply AH in I. apply I. vm_compute; auto 10. }
    assert (has_char "]" (q_host u) = false) as ->.
    { apply has_char_false. intros I. apply AH in I. apply I. vm_compute; auto 10. }
    reflexivity.
  - intros c I. apply AH in I. unfold is_netloc_end. apply has_char_false. intros X. apply I.
    unfold lit in X |- *. cbn in X |- *. intuition.
  - destruct P as [->|(p & ->)].
    + destruct T as [->|(t & [-> | ->])]; cbn; eauto.
    + right. cbn. eauto.
Qed.

Lemma urlsplit_text u dflt : wf_url u ->
  exists q f, urlsplit (url_text u) dflt = Ok (MkUS (lower (q_scheme u)) (q_host u) (q_path u) q f).
Proof.
  intros W. unfold urlsplit. rewrite url_clean_text, split_scheme_text, split_netloc_text by auto.
  cbn [bind]. destruct W as (_ & _ & _ & _ & _ & AP & _ & T & _).
  assert (NQ : ~ In "?"%char (q_path u)) by (intros I; apply AP in I; apply I; vm_compute; auto 10).
  assert (NF : ~ In "#"%char (q_path u)) by (intros I; apply AP in I; apply I; vm_compute; auto 10).
  destruct T as [->|(t & [-> | ->])].
  - rewrite app_nil_r. rewrite (cut_char_no "#") by auto. rewrite (cut_char_no "?") by auto. eauto.
  - destruct (in_dec Ascii.ascii_dec "#"%char t) as [I|I].
    + destruct (split1 "#" t) as [[a b]|] eqn:E; [|apply split1_none in E; tauto].
      apply split1_spec in E as [-> Na].
      replace (q_path u ++ "?"%char :: a ++ "#"%char :: b) with ((q_path u ++ "?"%char :: a) ++ "#"%char :: b)
        by (now rewrite <- app_assoc).
      rewrite cut_char_app.
      * rewrite cut_char_app by auto. eauto.
      * rewrite in_app_iff. cbn. intros [X|[X|X]]; [auto|discriminate|auto].
    + rewrite (cut_char_no "#").
      * rewrite cut_char_app by auto. eauto.
      * rewrite in_app_iff. cbn. intros [X|[X|X]]; [auto|discriminate|auto].
  - rewrite cut_char_app by auto. rewrite (cut_char_no "?") by auto. eauto.
Qed.

Lemma dirname_split p head tail :
  p = head ++ "/"%char :: tail -> ~ In "/"%char tail ->
  os_dirname p = if forallb (ceqb "/") (head ++ $"/") then head ++ $"/" else rstrip $"/" (head ++ $"/").
Proof.
  intros -> N. unfold os_dirname.
  assert (rsplit1 "/" (head ++ "/"%char :: tail) = Some (head ++ $"/", tail)) as ->.
  { apply rsplit1_spec. exists head. auto. }
  reflexivity.
Qed.
Lemma dirname_none p : ~ In "/"%char p -> os_dirname p = [].
Proof. intros N. unfold os_dirname. apply rsplit1_none in N. now rewrite N. Qed.

Lemma cut_char_incl c s a b x : cut_char c s = (a, b) -> In x a -> In x s.
Proof.
  unfold cut_char. destruct (split1 c s) as [[p q]|] eqn:E; intros [= <- <-]; auto.
  apply split1_spec in E as [-> _]. rewrite in_app_iff. auto.
Qed.

Lemma dirname_params p a b : splitparams p = (a, b) -> os_dirname a = os_dirname p.
Proof.
  unfold splitparams. destruct (rsplit1 "/" p) as [[head tail]|] eqn:E.
  - apply rsplit1_spec in E as (h & -> & -> & N). destruct (cut_char ";" tail) as [x y] eqn:C.
    intros [= <- <-]. rewrite (dirname_split (h ++ "/"%char :: tail) h tail) by auto.
    rewrite <- app_assoc. cbn [app]. rewrite (dirname_split (h ++ "/"%char :: x) h x); auto.
    intros I. apply N. eapply cut_char_incl; eauto.
  - apply rsplit1_none in E. intros C. rewrite !dirname_none; auto.
    intros I. apply E. eapply cut_char_incl; eauto.
Qed.

Lemma urlparse_text u dflt : wf_url u ->
  exists v, urlparse (url_text u) dflt = Ok v /\
    up_scheme v = lower (q_scheme u) /\ up_netloc v = q_host u /\
    os_dirname (up_path v) = os_dirname (q_path u).
Proof.
  intros W. unfold urlparse. destruct (urlsplit_text u dflt W) as (q & f & ->). cbn [bind us_scheme us_path us_netloc us_query us_frag].
  destruct (in_strs _ _ && _).
  - destruct (splitparams (q_path u)) as [a b] eqn:E. eexists. split; [reflexivity|]. cbn.
    repeat split. eapply dirname_params; eauto.
  - eexists. split; [reflexivity|]. cbn. auto.
Qed.

Lemma endswith_dot n m : endswith ($"." ++ n) m = true <-> exists sub, m = sub ++ $"." ++ n.
Proof. apply endswith_spec. Qed.

Definition host_ok (a : authority) (s : uparse) : bool :=
  str_eqb (up_netloc s) (au_netloc a) || endswith ($"." ++ au_netloc a) (up_netloc s).

Lemma authority_text strict m u : wf_url m -> wf_url u ->
  exists b, authority_over strict (url_text m) (url_text u) = Ok b /\
  (b = true <-> same_scheme u m /\ host_within m u /\
    (strict = true -> startswith (os_dirname (q_path m)) (os_dirname (q_path u)) = true)).
Proof.
  intros Wm Wu. unfold authority_over, make_authority, has_authority_over.
  destruct (urlparse_text m [] Wm) as (vm & -> & Sm & Nm & Pm). cbn [bind].
  destruct (urlparse_text u [] Wu) as (vu & -> & Su & Nu & Pu). cbn [bind au_scheme au_netloc au_path au_strict].
  rewrite Sm, Su, Nm, Nu, Pm, Pu. unfold same_scheme, host_within.
  set (dm := os_dirname (q_path m)). set (du := os_dirname (q_path u)).
  destruct (str_eqb_spec (lower (q_scheme u)) (lower (q_scheme m))) as [E|E]; cbn [negb].
  2:{ exists false. split; auto. split; [easy|tauto]. }
  destruct (str_eqb_spec (q_host u) (q_host m)) as [E2|E2]; cbn [negb andb].
  - destruct strict; cbn [andb].
    + destruct (str_eqb_spec du dm) as [E3|E3]; cbn [negb andb].
      * exists true. split; auto. split; auto. intros _. repeat split; auto. intros _. rewrite E3.
        apply startswith_spec. exists []. now rewrite app_nil_r.
      * destruct (startswith dm du); cbn [negb]; eexists; split; auto; split; auto; try easy.
        intros (_ & _ & X). now specialize (X eq_refl).
    + exists true. split; auto. split; auto. intros _. repeat split; auto. easy.
  - destruct (endswith ($"." ++ q_host m) (q_host u)) eqn:E4; cbn [negb].
    + apply endswith_dot in E4. destruct strict; cbn [andb].
      * destruct (str_eqb_spec du dm) as [E3|E3]; cbn [negb andb].
        -- exists true. split; auto. split; auto. intros _. repeat split; auto. intros _. rewrite E3.
           apply startswith_spec. exists []. now rewrite app_nil_r.
        -- destruct (startswith dm du); cbn [negb]; eexists; split; auto; split; auto; try easy.
           intros (_ & _ & X). now specialize (X eq_refl).
      * exists true. split; auto. split; auto. intros _. repeat split; auto. easy.
    + exists false. split; auto. split; [easy|]. intros (_ & [X|X] & _); [easy|].
      apply endswith_dot in X. congruence.
Qed.

Lemma authority_nonstrict m u : wf_url m -> wf_url u ->
  authority_over false (url_text m) (url_text u) = Ok true <-> same_scheme u m /\ host_within m u.
Proof.
  intros Wm Wu. destruct (authority_text false m u Wm Wu) as (b & E & H). rewrite E. split.
  - intros [= ->]. destruct H as [H _]. destruct (H eq_refl) as (A & B & _). auto.
  - intros [A B]. f_equal. apply H. repeat split; auto. easy.
Qed.

(** Reflexive and transitive on all strings that parse. *)
Lemma authority_refl strict u v : urlparse u [] = Ok v -> authority_over strict u u = Ok true.
Proof.
  intros E. unfold authority_over, make_authority, has_authority_over. rewrite E. cbn [bind au_scheme au_netloc au_path au_strict].
  rewrite !str_eqb_refl. cbn. now rewrite andb_false_r.
Qed.

Lemma authority_unfold strict a b : 
  authority_over strict a b = Ok true <->
  exists va vb, urlparse a [] = Ok va /\ urlparse b [] = Ok vb /\
   up_scheme vb = up_scheme va /\
   (up_netloc vb = up_netloc va \/ exists sub, up_netloc vb = sub ++ $"." ++ up_netloc va) /\
   (strict = true -> exists t, os_dirname (up_path vb) = os_dirname (up_path va) ++ t).
Proof.
  unfold authority_over, make_authority, has_authority_over.
  destruct (urlparse a []) as [va|e]; cbn [bind].
  2:{ split; [easy|]. intros (? & ? & ? & _). easy. }
  destruct (urlparse b []) as [vb|e]; cbn [bind au_scheme au_netloc au_path au_strict].
  2:{ split; [easy|]. intros (? & ? & _ & ? & _). easy. }
  set (da := os_dirname (up_path va)). set (db := os_dirname (up_path vb)).
  split.
  - intros H. exists va, vb. repeat split; auto.
    + destruct (str_eqb_spec (up_scheme vb) (up_scheme va)); auto. discriminate.
    + destruct (str_eqb_spec (up_scheme vb) (up_scheme va)); cbn [negb] in H; [|discriminate].
      destruct (str_eqb_spec (up_netloc vb) (up_netloc va)); auto. right. apply endswith_dot.
      destruct (endswith _ _); auto. discriminate.
    + intros ->. destruct (negb (str_eqb (up_scheme vb) (up_scheme va))); [discriminate|].
      destruct (negb (str_eqb (up_netloc vb) (up_netloc va)) && _); [discriminate|].
      cbn [andb] in H. destruct (str_eqb_spec db da) as [E|E].
      * exists []. subst da db. now rewrite app_nil_r.
      * cbn [negb andb] in H. destruct (startswith da db) eqn:S; [|discriminate].
        now apply startswith_spec in S.
  - intros (va' & vb' & [= <-] & [= <-] & A & B & C). rewrite A, str_eqb_refl. cbn [negb].
    assert (negb (str_eqb (up_netloc vb) (up_netloc va)) && negb (endswith ($"." ++ up_netloc va) (up_netloc vb)) = false) as ->.
    { destruct B as [B|B]; [now rewrite B, str_eqb_refl|]. apply endswith_dot in B. rewrite B. apply andb_false_r. }
    destruct strict; cbn [andb]; auto. destruct (C eq_refl) as (t & T). fold da db in T.
    assert (startswith da db = true) as -> by (apply startswith_spec; eauto).
    now rewrite andb_false_r.
Qed.

Lemma authority_trans strict a b c :
  authority_over strict a b = Ok true -> authority_over strict b c = Ok true ->
  authority_over strict a c = Ok true.
Proof.
  rewrite !authority_unfold.
  intros (va & vb & Ea & Eb & S1 & N1 & P1) (vb' & vc & Eb' & Ec & S2 & N2 & P2).
  rewrite Eb in Eb'. injection Eb' as <-. exists va, vc. repeat split; auto.
  - congruence.
  - destruct N1 as [N1|(s1 & N1)], N2 as [N2|(s2 & N2)]; rewrite N2, N1; eauto.
    right. exists (s2 ++ $"." ++ s1). now rewrite <- !app_assoc.
  - intros X. destruct (P1 X) as (t1 & T1), (P2 X) as (t2 & T2). exists (t1 ++ t2).
    now rewrite T2, T1, app_assoc.
Qed.

(** Strict mode. *)
Lemma lstrip_all chars s : (forall c, In c s -> has_char c chars = true) -> lstrip chars s = [].
Proof.
  induction s as [|x s IH]; cbn; auto. intros H. rewrite H by now left. apply IH. intros; apply H; now right.
Qed.
Lemma lstrip_app chars a b : lstrip chars (a ++ b) = lstrip chars a ++ b \/
  (lstrip chars a = [] /\ lstrip chars (a ++ b) = lstrip chars b).
Proof.
  induction a as [|x a IH]; cbn; auto. destruct (has_char x chars); auto.
Qed.
Lemma lstrip_suffix chars s : exists t, s = t ++ lstrip chars s.
Proof.
  induction s as [|x s [t IH]]; cbn; [now exists []|]. destruct (has_char x chars).
  - exists (x :: t). cbn. now rewrite <- IH.
  - now exists [].
Qed.
Lemma rstrip_prefix chars s : exists t, s = rstrip chars s ++ t.
Proof.
  unfold rstrip. destruct (lstrip_suffix chars (rev s)) as [t H]. exists (rev t).
  rewrite <- rev_app_distr, <- H. symmetry. apply rev_involutive.
Qed.
Lemma rstrip_mono chars a b : exists t, rstrip chars (a ++ b) = rstrip chars a ++ t.
Proof.
  unfold rstrip. rewrite rev_app_distr. destruct (lstrip_app chars (rev b) (rev a)) as [->|[_ ->]].
  - rewrite rev_app_distr, rev_involutive. destruct (rstrip_prefix chars a) as [t Ht].
    exists (t ++ rev (lstrip chars (rev b))). rewrite app_assoc. unfold rstrip in Ht. now rewrite <- Ht.
  - exists []. now rewrite app_nil_r.
Qed.
Lemma rstrip_keeps chars a b : (exists c, In c b /\ has_char c chars = false) ->
  exists t, rstrip chars (a ++ b) = a ++ t.
Proof.
  intros (c & I & N). unfold rstrip. rewrite rev_app_distr.
  destruct (lstrip_app chars (rev b) (rev a)) as [->|[E _]].
  - rewrite rev_app_distr, rev_involutive. eauto.
  - exfalso. assert (H : forall s, In c s -> lstrip chars s <> []).
    { induction s as [|x s IH]; cbn; [easy|]. intros [->|J]; [now rewrite N|]. destruct (has_char x chars); auto. easy. }
    apply (H (rev b)); auto. now apply -> in_rev.
Qed.

Lemma dirname_below dir name rest : ~ In "/"%char name ->
  startswith (os_dirname (dir ++ $"/" ++ name)) (os_dirname (dir ++ $"/" ++ rest)) = true.
Proof.
  intros N. rewrite (dirname_split (dir ++ $"/" ++ name) dir name) by auto.
  apply startswith_spec.
  destruct (rsplit1 "/" rest) as [[h t]|] eqn:E.
  - apply rsplit1_spec in E as (h' & -> & -> & Nt).
    rewrite (dirname_split (dir ++ $"/" ++ h' ++ "/"%char :: t) (dir ++ $"/" ++ h') t)
      by (auto; now rewrite <- !app_assoc).
    replace ((dir ++ $"/" ++ h') ++ $"/") with ((dir ++ $"/") ++ h' ++ $"/") by now rewrite <- !app_assoc.
    set (D := dir ++ $"/"). set (H := h' ++ $"/"). rewrite forallb_app.
    destruct (forallb (ceqb "/") D) eqn:FD; cbn [andb].
    + destruct (forallb (ceqb "/") H) eqn:FH; [eauto|].
      apply rstrip_keeps.
      assert (exists c, In c H /\ ceqb "/" c = false) as (c & I & C).
      { clear - FH. induction H as [|x H IH]; cbn [forallb] in FH; [discriminate|].
        destruct (ceqb "/" x) eqn:X; [destruct (IH FH) as (c & ? & ?); exists c; split; auto; now right|].
        exists x. split; auto. now left. }
      exists c. split; auto. apply has_char_false. intros [X|[]]. apply ceqb_neq in C. now apply C.
    + apply rstrip_mono.
  - apply rsplit1_none in E. rewrite (dirname_split (dir ++ $"/" ++ rest) dir rest) by auto.
    exists []. now rewrite app_nil_r.
Qed.

Lemma authority_strict_below m u dir : wf_url m -> wf_url u ->
  same_scheme u m -> host_within m u -> in_directory dir m -> below_directory dir u ->
  authority_over true (url_text m) (url_text u) = Ok true.
Proof.
  intros Wm Wu S H (name & E & N) (rest & F). destruct (authority_text true m u Wm Wu) as (b & -> & X).
  f_equal. apply X. repeat split; auto. intros _. rewrite E, F. now apply dirname_below.
Qed.

Lemma authority_strict_exact m u : wf_url m -> wf_url u ->
  authority_over true (url_text m) (url_text u) = Ok true <->
  same_scheme u m /\ host_within m u /\
  exists t, os_dirname (q_path u) = os_dirname (q_path m) ++ t.
Proof.
  intros Wm Wu. destruct (authority_text true m u Wm Wu) as (b & -> & X). rewrite startswith_spec in X.
  split.
  - intros [= ->]. destruct X as [X _]. destruct (X eq_refl) as (A & B & C). auto.
  - intros (A & B & C). f_equal. apply X. auto.
Qed.

Definition wf_urlb (u : url) : bool :=
  match q_scheme u with c :: _ => is_alpha_az c | [] => false end &&
  forallb (fun c => is_alpha_az c || is_digit c || has_char c $"+-.") (q_scheme u) &&
  forallb (fun c => negb (has_char c ($"/?#[]" ++ [tab; cr; nl]))) (q_host u) &&
  match q_path u with [] => true | c :: _ => ceqb c "/" end &&
  forallb (fun c => negb (has_char c ($"?#" ++ [tab; cr; nl]))) (q_path u) &&
  match q_tail u with [] => true | c :: _ => ceqb c "?" || ceqb c "#" end &&
  forallb (fun c => negb (has_char c [tab; cr; nl])) (q_tail u).

Lemma forallb_avoids bad s : forallb (fun c => negb (has_char c bad)) s = true -> avoids bad s.
Proof.
  intros H c I J. rewrite forallb_forall in H. apply H in I. rewrite negb_true_iff in I.
  now apply has_char_false in I.
Qed.
Lemma avoids_split b1 b2 s : avoids (b1 ++ b2) s -> avoids b1 s /\ avoids b2 s.
Proof. intros H. split; intros c I J; apply (H c I); apply in_app_iff; auto. Qed.

Lemma wf_urlb_ok u : wf_urlb u = true -> wf_url u.
Proof.
  unfold wf_urlb. rewrite !andb_true_iff. intros ((((((A & B) & C) & D) & E) & F) & G).
  apply forallb_avoids, avoids_split in C as [C1 C2]. apply forallb_avoids, avoids_split in E as [E1 E2].
  apply forallb_avoids in G.
  repeat split; auto.
  - destruct (q_scheme u) as [|c s]; [discriminate|]. eauto.
  - intros c I. rewrite forallb_forall in B. apply B in I. rewrite !orb_true_iff, has_char_In in I. tauto.
  - destruct (q_path u) as [|c p]; auto. right. apply ceqb_eq in D as ->. eauto.
  - destruct (q_tail u) as [|c t]; auto. right. exists t. apply orb_true_iff in F as [F|F]; apply ceqb_eq in F as ->; auto.
Qed.

Lemma authority_strict_sibling :
  exists m u dir, wf_url m /\ wf_url u /\ in_directory dir m /\
    authority_over true (url_text m) (url_text u) = Ok true /\ ~ below_directory dir u.
Proof.
  exists (MkUrl $"http" $"example.org" $"/data/sitemap.xml" []),
         (MkUrl $"http" $"example.org" $"/data-private/secret" []), $"/data".
  split; [now apply wf_urlb_ok|]. split; [now apply wf_urlb_ok|]. split.
  { exists $"sitemap.xml". split; [reflexivity|]. vm_compute. intuition discriminate. }
  split; [vm_compute; reflexivity|]. intros (rest & H). vm_compute in H. discriminate.
Qed.
