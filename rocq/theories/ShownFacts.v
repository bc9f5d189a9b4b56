(** * ShownFacts: what is shown of a list *)

From Coq Require Import Sorting.Sorted Sorting.Permutation.
From Verif Require Import Py PyFacts Resource Container ContainerSpec ContainerFacts Xml Sitemap SitemapText Opener ListIndex Hashes Client Build
  PublishFacts BuildParse ShownSpec.

Lemma shows_app a b w : shows b (shows a w) = shows (a ++ b) w.
Proof. unfold shows. cbn [o_out o_fs o_zips]. now rewrite flat_map_app, app_assoc. Qed.
Lemma shows_one line w : printed line w = shows [line] w.
Proof. unfold printed, shows. cbn [flat_map]. now rewrite app_nil_r. Qed.
Lemma shows_none w : shows [] w = w.
Proof. unfold shows. cbn [flat_map]. rewrite app_nil_r. now destruct w. Qed.

Fixpoint marked (prefix : Z -> str) (n : Z) (texts : list str) : list str :=
  match texts with [] => [] | t :: ts => (prefix n ++ t) :: marked prefix (n + 1) ts end.

Lemma entries_shown prefix limit : forall rs n texts w, n < limit ->
  Forall2 (fun r s => resource_str r = Ok s) (firstn (Z.to_nat (limit - n)) rs) texts ->
  show_entries prefix limit n rs w = (shows (marked prefix n texts) w, Ok tt).
Proof.
  induction rs as [|r rs IH]; intros n texts w L F.
  - rewrite firstn_nil in F. inversion F; subst. cbn [show_entries marked]. unfold wret. now rewrite shows_none.
  - replace (Z.to_nat (limit - n)) with (S (Z.to_nat (limit - (n + 1)))) in F by lia. cbn [firstn] in F.
    inversion F as [|? s ? ts R F']; subst. cbn [show_entries marked]. unfold wbind, wlift, print. rewrite R.
    destruct (limit <=? n + 1) eqn:E.
    + apply Z.leb_le in E. replace (Z.to_nat (limit - (n + 1))) with O in F' by lia. cbn [firstn] in F'. inversion F'; subst.
      cbn [marked]. unfold wret. now rewrite shows_one.
    + apply Z.leb_gt in E. rewrite (IH (n + 1) ts) by (try lia; exact F'). rewrite shows_one, shows_app. reflexivity.
Qed.

Lemma verbose_shown c prefix rs texts w : bc_verbose c = true -> 0 < show_limit c -> texts_of c rs texts ->
  show_verbose c prefix rs w = (shows (more_note c (zlen rs) ++ marked prefix 0 texts) w, Ok tt).
Proof.
  intros V L F. unfold texts_of in F. unfold show_verbose. rewrite V.
  assert (forall o, (run _ <- (if show_limit c <? zlen rs
              then print ($"Showing first " ++ print_int (show_limit c) ++ $" entries sorted by URI" ++ o ++ $"...")
              else wret tt) ;; show_entries prefix (show_limit c) 0 rs) w =
     (shows ((if show_limit c <? zlen rs then [$"Showing first " ++ print_int (show_limit c) ++ $" entries sorted by URI" ++ o ++ $"..."] else [])
             ++ marked prefix 0 texts) w, Ok tt)) as K.
  { intro o. assert (forall w', show_entries prefix (show_limit c) 0 rs w' = (shows (marked prefix 0 texts) w', Ok tt)) as S.
    { intro w'. apply entries_shown; [exact L|]. now rewrite Z.sub_0_r. }
    unfold wbind, print, wret. destruct (show_limit c <? zlen rs); rewrite S; [|reflexivity].
    now rewrite shows_one, shows_app. }
  unfold more_note, limit_given. unfold show_limit in *. destruct (bc_max c) as [n|]; [destruct (n =? 0)|]; cbn [negb]; apply K.
Qed.

Lemma marked_numbered texts : forall n, marked (fun n => $"[" ++ print_int n ++ $"] ") n texts = numbered n texts.
Proof.
  induction texts as [|t ts IH]; intro n; cbn [marked numbered]; [reflexivity|]. rewrite IH. f_equal. now rewrite <- !app_assoc.
Qed.
Lemma marked_plain texts : forall n, marked (fun _ => []) n texts = texts.
Proof. induction texts as [|t ts IH]; intro n; cbn [marked app]; [reflexivity|]. now rewrite IH. Qed.

Lemma change_entries rs : forall l l', add_seq (k_add change_list_kind) rs l = Ok l' -> l' = l ++ rs.
Proof.
  induction rs as [|r rs IH]; intros l l' H; cbn [add_seq] in H.
  - injection H as <-. now rewrite app_nil_r.
  - destruct (k_add change_list_kind r l) as [l1|] eqn:A; [|discriminate]. cbn [bind] in H. apply IH in H as ->.
    cbn [k_add change_list_kind] in A. unfold cl_add in A. destruct (r_change r); [|discriminate]. injection A as <-.
    now rewrite <- app_assoc.
Qed.

Lemma change_list_shown e c uri w l texts : bc_verbose c = true -> 0 < show_limit c ->
  list_read change_list_kind (open_uri (o_fs w) (be_web e)) true (new_list change_list_kind $"changelist" true None) uri = Ok l ->
  texts_of c (d_items (l_doc l)) texts ->
  parse_document e c uri w =
  (shows (($"Parsed changelist document with " ++ print_int (zlen (d_items (l_doc l))) ++ $" entries")
          :: more_note c (zlen (d_items (l_doc l))) ++ numbered 0 texts) w, Ok tt).
Proof.
  intros V L H T. unfold list_read in H. destruct (open_uri _ _ uri) as [text|] eqn:F; [|discriminate]. cbn [bind] in H.
  destruct (parse_xml _ _ _ _ _ text) as [[d ix]|] eqn:P; [|discriminate]. cbn [bind] in H.
  assert (D : l_doc l = d).
  { destruct ix; cbn [negb new_list l_allow] in H; injection H as <-; reflexivity. }
  rewrite D in *. cbn [new_list l_name l_doc l_sm] in P. destruct (text_collected _ _ _ _ _ _ _ P) as (md & rs & P2 & S & Cap).
  apply change_entries in S. cbn [d_items k_empty change_list_kind app] in S.
  cbn [d_md d_ln] in P2.
  unfold parse_document, parse_opened. rewrite F. cbn [bind]. unfold collect in P2. rewrite P2. cbn [bind d_md d_items].
  unfold wbind at 1. unfold wlift. cbn [d_md d_items]. rewrite S in *. clear S.
  destruct Cap as [Cap|[_ X]]; [|discriminate X]. rewrite Cap. unfold wbind at 1. unfold print at 1.
  rewrite (verbose_shown c _ rs texts) by assumption. rewrite shows_one, shows_app, marked_numbered. reflexivity.
Qed.

Lemma resource_entries rs : forall d d', wf_rl d -> add_seq (fun r => rl_add r false) rs d = Ok d' -> map snd d' = map snd d ++ rs.
Proof.
  induction rs as [|r rs IH]; intros d d' W H; cbn [add_seq] in H.
  - injection H as <-. now rewrite app_nil_r.
  - destruct (rl_add r false d) as [d1|] eqn:A; [|discriminate]. cbn [bind] in H. pose proof (rl_add_count r d d1 W A) as [W1 _].
    apply IH in H as ->; [|exact W1]. unfold rl_add in A. destruct (smem (r_uri r) d) eqn:M; cbn in A; [discriminate|].
    injection A as <-. rewrite sset_fresh.
    + rewrite map_app. cbn [map snd]. now rewrite <- app_assoc.
    + unfold smem in M. destruct (sget (r_uri r) d) eqn:G; [discriminate|]. now apply sget_none.
Qed.
Lemma resource_list_shown e c uri w l texts : bc_verbose c = true -> 0 < show_limit c ->
  list_read resource_list_kind (open_uri (o_fs w) (be_web e)) true (new_list resource_list_kind $"resourcelist" true None) uri = Ok l ->
  texts_of c (map snd (d_items (l_doc l))) texts ->
  exists cap, (cap = $"resourcelist" \/ cap = $"(unknown capability)") /\
  parse_document e c uri w =
  (shows (($"Parsed " ++ cap ++ $" document with " ++ print_int (zlen (d_items (l_doc l))) ++ $" entries")
          :: more_note c (zlen (d_items (l_doc l))) ++ numbered 0 texts) w, Ok tt).
Proof.
  intros V L H T. unfold list_read in H. destruct (open_uri _ _ uri) as [text|] eqn:F; [|discriminate]. cbn [bind] in H.
  destruct (parse_xml _ _ _ _ _ text) as [[d ix]|] eqn:P; [|discriminate]. cbn [bind] in H.
  assert (D : l_doc l = d).
  { destruct ix; cbn [negb new_list l_allow] in H; injection H as <-; reflexivity. }
  rewrite D in *. cbn [new_list l_name l_doc l_sm] in P. destruct (text_collected _ _ _ _ _ _ _ P) as (md & rs & P2 & S & Cap).
  apply (resource_entries rs [] _ wf_nil) in S. cbn [map app] in S.
  cbn [d_md d_ln] in P2.
  assert (zlen (d_items d) = zlen rs) as -> by (unfold zlen; now rewrite <- S, map_length).
  rewrite S in T. clear S.
  unfold parse_document, parse_opened. rewrite F. cbn [bind]. unfold collect in P2. rewrite P2. cbn [bind d_md d_items].
  unfold wbind at 1. unfold wlift. cbn [d_md d_items].
  destruct Cap as [Cap|[Cap _]]; rewrite Cap; [exists $"resourcelist"; split; [now left|]|exists $"(unknown capability)"; split; [now right|]]; unfold wbind at 1; unfold print at 1;
    rewrite (verbose_shown c _ rs texts) by assumption; rewrite shows_one, shows_app, marked_numbered; reflexivity.
Qed.

Lemma reference_shown e c uri w l texts : bc_verbose c = true -> 0 < show_limit c ->
  list_read resource_list_kind (open_uri (o_fs w) (be_web e)) (negb (bc_multifile c))
    (new_list resource_list_kind $"resourcelist" true (Some (bc_mapper c))) uri = Ok l ->
  exists rs, Permutation rs (map snd (d_items (l_doc l))) /\ StronglySorted uri_before rs /\
    (texts_of c rs texts ->
     read_reference e c uri w = (shows (more_note c (zlen rs) ++ texts) w, Ok (d_items (l_doc l)))).
Proof.
  intros V L H. assert (wf_rl (d_items (l_doc l))) as W by (eapply list_read_wf; [|exact H]; apply wf_nil).
  exists (rl_iter (d_items (l_doc l))). split; [now apply rl_iter_perm|]. split; [now apply rl_iter_sorted|].
  intro T. unfold read_reference. unfold wbind, wlift. rewrite H.
  rewrite (verbose_shown c _ _ texts) by assumption. now rewrite marked_plain.
Qed.
