(** * OpenerFacts: lemmas about url_or_file_open *)

From Verif Require Import Py PyFacts Regex RegexFacts Opener.

Lemma strip_file x : exists y, strip_ws ($"file:" ++ x) = $"file:" ++ y.
Proof.
  unfold strip_ws. set (ls := fix ls (s : str) := match s with [] => [] | x :: s' => if is_space x then ls s' else s end).
  assert (E : forall u c v, is_space c = false -> exists u', ls (u ++ c :: v) = u' ++ c :: v).
  { induction u as [|z u IH]; intros c v N; cbn [app ls].
    - rewrite N. now exists [].
    - destruct (is_space z); [apply IH, N|now exists (z :: u)]. }
  change (ls ($"file:" ++ x)) with ($"file:" ++ x). rewrite rev_app_distr.
  destruct (E (rev x) ":"%char ["e"; "l"; "i"; "f"]%char eq_refl) as (u' & H).
  change (rev $"file:") with [":"; "e"; "l"; "i"; "f"]%char. rewrite H. exists (rev u').
  rewrite rev_app_distr. reflexivity.
Qed.

Lemma unwrap_file x : exists y, unwrap ($"file:" ++ x) = $"file:" ++ y.
Proof. unfold unwrap. destruct (strip_file x) as (y & ->). now exists y. Qed.

Lemma strip_tag_file x : exists y, strip_tag ($"file:" ++ x) = $"file:" ++ y.
Proof.
  unfold strip_tag. destruct (rsplit1 "#" ($"file:" ++ x)) as [[a b]|] eqn:E; [|eauto].
  apply rsplit1_spec in E as (a' & -> & E1 & _). rewrite removelast_last.
  symmetry in E1. apply app_eq_app in E1 as (l & [(-> & E)|(E1 & E)]); [eauto|].
  destruct l as [|z l]; [exists []; now rewrite app_nil_r in *|]. exfalso. injection E as <- _.
  assert (I : In "#"%char $"file:") by (rewrite E1; apply in_or_app; right; now left).
  vm_compute in I. intuition discriminate.
Qed.

Lemma file_not_web x w : url_target ($"file:" ++ x) <> Web w.
Proof.
  unfold url_target. destruct (unwrap_file x) as (y & ->). destruct (strip_tag_file y) as (z & ->).
  change (split_type ($"file:" ++ z)) with (Some ($"file", z)). cbn [str_eqb]. 
  change (str_eqb $"file" $"file") with true. cbv iota. destruct (split_host z) as [h s].
  destruct (match h with Some h => _ | None => true end); [|discriminate]. destruct (unquote s); discriminate.
Qed.

Lemma paced_nth d uris : forall n i u, nth_error uris i = Some u -> 0 <= n ->
  nth_error (paced_opens d n uris) i = Some (snd (paced_open d (n + Z.of_nat i) u)).
Proof.
  induction uris as [|x uris IH]; intros n i u E N; [destruct i; discriminate|]. destruct i as [|i].
  - injection E as ->. cbn [paced_opens]. rewrite Z.add_0_r. reflexivity.
  - cbn [paced_opens nth_error] in *. cbn [paced_open].
    rewrite (IH (n + 1) i u E) by lia. do 3 f_equal. lia.
Qed.

(** The calls of a process. *)
Lemma paced_web d uris i u w : nth_error uris i = Some u -> url_target (with_scheme u) = Web w ->
  nth_error (paced_opens (Some d) 0 uris) i
  = Some (if Nat.eqb i 0 then [Opened (Web w)] else [Slept d; Opened (Web w)]).
Proof.
  intros E T. rewrite (paced_nth (Some d) uris 0 i u E) by lia. rewrite Z.add_0_l. unfold paced_open. cbn [snd]. rewrite T.
  destruct (startswith $"file:" (with_scheme u)) eqn:F.
  - apply startswith_spec in F as (x & F). rewrite F in T. now apply file_not_web in T.
  - destruct i; reflexivity.
Qed.

Lemma paced_file d uris i u : nth_error uris i = Some u ->
  startswith $"file:" u = true \/ re_match (re_const $"\w+:") u = None ->
  nth_error (paced_opens (Some d) 0 uris) i = Some [Opened (url_target (with_scheme u))].
Proof.
  intros E F. rewrite (paced_nth (Some d) uris 0 i u E) by lia. unfold paced_open. cbn [snd].
  assert (W : startswith $"file:" (with_scheme u) = true).
  { unfold with_scheme. destruct F as [F|F].
    - destruct (re_match _ u); [assumption|]. reflexivity.
    - rewrite F. reflexivity. }
  rewrite W, andb_false_r. reflexivity.
Qed.

Lemma paced_none uris i u : nth_error uris i = Some u ->
  nth_error (paced_opens None 0 uris) i = Some [Opened (url_target (with_scheme u))].
Proof. intros E. rewrite (paced_nth None uris 0 i u E) by lia. reflexivity. Qed.

Lemma paced_length d uris : forall n, List.length (paced_opens d n uris) = List.length uris.
Proof. induction uris as [|u uris IH]; intros n; cbn [paced_opens List.length]; [reflexivity|]. unfold paced_open. cbn [List.length]. now rewrite IH. Qed.

Lemma paced_upper : exists u p, url_target (with_scheme u) = Local p
  /\ nth_error (paced_opens (Some 1) 0 [u; u]) 1 = Some [Slept 1; Opened (Local p)].
Proof. exists $"FILE:/x", $"/x". split; reflexivity. Qed.
