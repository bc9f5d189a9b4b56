(** * DumpProps: dumps that are written *)

From Coq Require Import Permutation Sorted Lia.
From Verif Require Import Py PyFacts Float64 OsPath OsPathFacts Resource ResourceSpec Container ContainerSpec ContainerFacts
  Xml Sitemap SitemapSpec SitemapLists Opener ListIndex ListIndexSpec ListIndexFacts ListIndexWrite ListIndexProps Dump PathSpec DumpSpec DumpFacts DumpWrite.

Lemma Forall_choice {A B} (R : A -> B -> Prop) l : (forall x, In x l -> exists y, R x y) -> exists l', Forall2 R l l'.
Proof.
  induction l as [|x l IH]; intros H; [now exists []|]. destruct (H x (or_introl eq_refl)) as (y & Y).
  destruct IH as (l' & L); [intros z I; apply H; now right|]. exists (y :: l'). now constructor.
Qed.

Lemma Forall2_len {A B} (R : A -> B -> Prop) l l' : Forall2 R l l' -> List.length l = List.length l'.
Proof. induction 1; cbn; congruence. Qed.

Lemma combine_uris rs (names : list str) : List.length rs = List.length names ->
  map r_uri (map (fun p => named (fst p) (snd p)) (combine rs names)) = map r_uri rs.
Proof.
  revert names. induction rs as [|r rs IH]; intros [|a names] E; try discriminate; [reflexivity|].
  cbn [combine map fst snd]. rewrite IH by now injection E. reflexivity.
Qed.
Lemma combine_entries fs rs (names : list str) : List.length rs = List.length names ->
  map (fun p => (snd p, content fs (fst p))) (combine rs names) = combine names (map (content fs) rs).
Proof.
  revert names. induction rs as [|r rs IH]; intros [|a names] E; try discriminate; [reflexivity|].
  cbn [combine map fst snd]. rewrite IH by now injection E. reflexivity.
Qed.

Lemma named_good r name : good_resource r -> good_resource (named r name).
Proof. intros H. exact H. Qed.
Lemma local_suffix abs top rest : rest <> [] -> exists pre, local_path abs (top ++ rest) = pre ++ rel_path rest.
Proof.
  intros N. destruct top as [|u t].
  - destruct abs; [exists $"/"|exists []]; reflexivity.
  - destruct abs; cbn [local_path]; [rewrite path_of_app|rewrite rel_path_app]; try assumption; try discriminate; rewrite app_assoc; eauto.
Qed.
Lemma named_legal abs top r name : name_in abs top r name -> legal_resource r -> legal_resource (named r name).
Proof.
  intros (rest & N & [_ P] & ->) (U & (M & PP & C) & H & L). split; [exact U|]. split; [|split; [exact H|exact L]].
  split; [exact M|]. split; [|exact C]. intros s [= <-] c I. apply (PP _ P).
  destruct (local_suffix abs top rest N) as (pre & ->). apply in_or_app. now right.
Qed.

Section Write.
Variables (cwd : list str) (abs : bool) (top : list str) (n : nat) (fs : fsys).
Hypothesis cwd_names : Forall file_name cwd.
Hypothesis root_bare : top = [] -> n = O.
Let prefix : option str := Some (local_path abs top ++ repeat "/"%char n).

Definition stored (r : resource) : Prop :=
  (exists name, name_in abs top r name) /\ (exists f, sget (path_text r) fs = Some f) /\ good_resource r /\ legal_resource r.

Lemma zip_written p : NoDup (map r_uri p) -> zlen p <= 50000 -> (forall r, In r p -> stored r) ->
  exists z rs, write_zip (path_of cwd) prefix fs (keyed p) = Ok (z, rs) /\ archive_of fs abs top p z
    /\ exists order, Permutation p order /\ Forall2 (renamed abs top) order rs.
Proof.
  intros ND Z H. set (order := rl_iter (keyed p)). pose proof (keyed_perm p ND) as P. fold order in P.
  assert (H' : forall r, In r order -> stored r) by (intros r I; apply H; now apply (Permutation_in _ P)).
  destruct (Forall_choice (name_in abs top) order) as (names & NS); [intros r I; now destruct (H' r I)|].
  pose proof (Forall2_len _ _ _ NS) as LEN.
  set (l := combine order names).
  assert (LN : forall x, In x l -> In (fst x) order /\ name_in abs top (fst x) (snd x)).
  { intros [r a] I. split; [now apply in_combine_l in I|]. clear - I NS. unfold l in I. induction NS as [|r' a' rs names X F IH]; [destruct I|].
    destruct I as [[= <- <-]|I]; auto. }
  set (rs := map (fun x => named (fst x) (snd x)) l).
  assert (U : map r_uri rs = map r_uri order) by now apply combine_uris.
  assert (S : StronglySorted uri_before order) by (apply rl_iter_sorted, keyed_wf, ND).
  destruct (manifest_round rs) as (text & d & W & R & B).
  { eapply StronglySorted_uris; [exact U|exact S]. }
  { rewrite U. unfold order. rewrite rl_iter_uris by now apply keyed_wf. apply sort_strs_NoDup. now rewrite keyed_keys. }
  { apply Forall_forall. intros r I. apply in_map_iff in I as (x & <- & I). apply LN in I as [I _]. apply named_good. now apply H'. }
  { apply Forall_forall. intros r I. apply in_map_iff in I as (x & <- & I). apply LN in I as [I J]. eapply named_legal; [exact J|]. now apply H'. }
  exists (MkZip text (combine names (map (content fs) order))), rs. split.
  - unfold write_zip. fold order. rewrite (rename_runs cwd abs top n cwd_names root_bare order names NS). cbn [bind]. fold l. fold rs.
    replace (50000 <? zlen rs) with false.
    2:{ symmetry. apply Z.ltb_ge. replace (zlen rs) with (zlen p); [exact Z|]. unfold zlen. f_equal.
        rewrite <- (Permutation_length P). rewrite <- (map_length r_uri order), <- U, map_length. reflexivity. }
    rewrite W. cbn [bind]. unfold rs at 1. rewrite (entries_run abs top).
    + cbn [bind]. unfold l. now rewrite combine_entries by assumption.
    + intros x I. destruct (LN x I) as [J K]. destruct (H' _ J) as (_ & F & _ & _). split; [exact K|]. split; [exact F|].
      apply (real_kept abs top); [|intros y Y E|right; eauto].
      * apply Forall_forall. intros y Y. now apply LN.
      * destruct (LN y Y) as [_ KY]. rewrite E in KY. unfold path_text. now rewrite (name_in_inj abs top _ _ _ KY K).
  - split; [|exists order; split; [now apply Permutation_sym|]; clear - NS; unfold rs, l;
             induction NS as [|r a order names X F IH]; constructor; auto; now exists a].
    exists order, names. split; [now apply Permutation_sym|]. split; [exact S|]. split; [exact NS|]. split; [reflexivity|].
    exists d. split; [exact R|]. cbn [z_manifest] in *. clear - NS B. unfold rs, l in B. revert B. generalize (rl_iter (d_items d)).
    induction NS as [|r a order names X F IH]; intros items B; cbn [combine map fst snd] in B; inversion B; subst; constructor; auto. eauto.
Qed.

End Write.

(** The file that write puts a separate manifest into. *)
Lemma manifest_written md5 clock p path fs : NoDup (map r_uri p) -> zlen p <= 50000 ->
  Forall good_resource p -> Forall legal_resource p ->
  exists fs', list_write resource_list_kind md5 clock (manifest_list (keyed p)) path fs = (fs', Ok (manifest_list (keyed p)))
    /\ manifest_at fs' path p /\ forall q, q <> path -> sget q fs' = sget q fs.
Proof.
  intros ND Z G L. set (order := rl_iter (keyed p)). pose proof (keyed_perm p ND) as P. fold order in P.
  destruct (manifest_round order) as (text & d & W & R & B).
  { apply rl_iter_sorted, keyed_wf, ND. }
  { unfold order. rewrite rl_iter_uris by now apply keyed_wf. apply sort_strs_NoDup. now rewrite keyed_keys. }
  { eapply Permutation_Forall; [apply Permutation_sym, P|exact G]. }
  { eapply Permutation_Forall; [apply Permutation_sym, P|exact L]. }
  rewrite (list_write_single resource_list_kind md5 clock (manifest_list (keyed p)) path fs 50000 eq_refl).
  2:{ change (k_iter resource_list_kind (d_items (l_doc (manifest_list (keyed p))))) with order.
      unfold zlen. rewrite (Permutation_length P). fold (zlen p). lia. }
  unfold write_doc.
  change (resources_as_xml default_settings false (MkDoc [($"capability", PStr manifest_name)] [] order) = Ok text) in W.
  match goal with |- context [resources_as_xml ?a ?b ?c] =>
    change (resources_as_xml a b c) with (resources_as_xml default_settings false (MkDoc [($"capability", PStr manifest_name)] [] order)) end.
  rewrite W. eexists. split; [reflexivity|]. split.
  - eexists. exists d, order. split; [apply sget_sset_eq|]. split; [now apply Permutation_sym|]. split; [exact R|exact B].
  - intros q N. unfold put_file. now apply sget_sset_ne.
Qed.

Section Loop.
Variables (cwd : list str) (abs : bool) (top : list str) (n : nat) (fs : fsys) (md5 : str -> str) (clock : str -> Z).
Variables (basename : str) (separate : bool).
Hypothesis cwd_names : Forall file_name cwd.
Hypothesis root_bare : top = [] -> n = O.
Let prefix : option str := Some (local_path abs top ++ repeat "/"%char n).

(** Not one of the separate manifests. *)
Definition apart (path : str) : Prop := separate = true -> forall m, 0 <= m -> path <> manifest_file basename m.

Lemma archive_of_ext fs1 fs2 p z : (forall r, In r p -> content fs1 r = content fs2 r) -> archive_of fs1 abs top p z -> archive_of fs2 abs top p z.
Proof.
  intros E (order & names & P & S & N & Z & D). exists order, names. split; [exact P|]. split; [exact S|]. split; [exact N|]. split; [|exact D].
  rewrite Z. f_equal. apply map_ext_in. intros r I. apply E. now apply (Permutation_in _ (Permutation_sym P)).
Qed.

Lemma loop_written ps : forall k s,
  (forall path, apart path -> sget path (w_fs s) = sget path fs) ->
  (forall m, k <= m -> ~ In (archive_name basename m) (dkeys (w_zips s))) -> 0 <= k ->
  Forall (fun p => NoDup (map r_uri p) /\ zlen p <= 50000 /\ forall r, In r p -> stored abs top fs r /\ apart (path_text r)) ps ->
  exists s' zs, write_loop md5 clock (path_of cwd) prefix $"zip" basename separate (map keyed ps) k s = (s', Ok (k + zlen ps))
    /\ (forall path, apart path -> sget path (w_fs s') = sget path fs)
    /\ (forall path, (forall m, k <= m -> path <> manifest_file basename m) -> sget path (w_fs s') = sget path (w_fs s))
    /\ (separate = true -> forall i p, nth_error ps i = Some p -> manifest_at (w_fs s') (manifest_file basename (k + Z.of_nat i)) p)
    /\ w_zips s' = w_zips s ++ combine (map (fun i => archive_name basename (k + Z.of_nat i)) (seq 0 (List.length ps))) zs
    /\ Forall2 (archive_of fs abs top) ps zs
    /\ exists order done, Permutation (List.concat ps) order /\ Forall2 (renamed abs top) order done /\ w_done s' = w_done s ++ done.
Proof.
  induction ps as [|p ps IH]; intros k s FS FR K H.
  - exists s, []. split; [change (zlen []) with 0; rewrite Z.add_0_r; reflexivity|]. split; [exact FS|]. split; [auto|].
    split; [intros _ [|i] p; discriminate|]. split; [cbn; now rewrite app_nil_r|]. split; [constructor|].
    exists [], []. split; [constructor|]. split; [constructor|now rewrite app_nil_r].
  - inversion H as [|? ? (ND & Z & ST) H']; subst. cbn [map write_loop].
    replace ((basename ++ print_pad 5 k) ++ $".xml") with (manifest_file basename k) by (unfold manifest_file; now rewrite <- app_assoc).
    replace ((basename ++ print_pad 5 k) ++ $"." ++ $"zip") with (archive_name basename k) by (unfold archive_name; now rewrite <- app_assoc).
    assert (X : exists fs1, (if separate then list_write resource_list_kind md5 clock (manifest_list (keyed p)) (manifest_file basename k) (w_fs s)
                      else (w_fs s, Ok (manifest_list (keyed p)))) = (fs1, Ok (manifest_list (keyed p)))
       /\ (separate = true -> manifest_at fs1 (manifest_file basename k) p)
       /\ (forall q, q <> manifest_file basename k -> sget q fs1 = sget q (w_fs s))
       /\ (separate = false -> fs1 = w_fs s)).
    { destruct separate.
      - destruct (manifest_written md5 clock p (manifest_file basename k) (w_fs s) ND Z) as (fs1 & W & M & O).
        + apply Forall_forall. intros r I. now destruct (ST r I) as ((_ & _ & ? & _) & _).
        + apply Forall_forall. intros r I. now destruct (ST r I) as ((_ & _ & _ & ?) & _).
        + exists fs1. repeat split; auto. discriminate.
      - exists (w_fs s). repeat split; auto. discriminate. }
    destruct X as (fs1 & X & M1 & O1 & E1). rewrite X. cbn [w_fs w_zips w_done].
    change (str_eqb $"zip" $"zip") with true. cbv iota.
    assert (FS1 : forall path, apart path -> sget path fs1 = sget path fs).
    { intros path A. rewrite <- FS by exact A. destruct separate eqn:SE; [|now rewrite E1]. apply O1. apply A; auto. }
    destruct (zip_written cwd abs top n fs1 cwd_names root_bare p ND Z) as (z & rs & W & A & RN).
    { intros r I. destruct (ST r I) as ((NM & (f & F) & GL) & AP). split; [exact NM|]. split; [|exact GL]. exists f. now rewrite FS1. }
    apply (archive_of_ext fs1 fs) in A.
    2:{ intros r I. destruct (ST r I) as (((? & ? & ? & (_ & PP) & _) & _) & AP). unfold content, path_text in *. rewrite PP in *. now rewrite FS1. }
    fold prefix in W. rewrite W.
    destruct (IH (k + 1) (MkDumped fs1 (sset (archive_name basename k) z (w_zips s)) (w_done s ++ rs))) as (s' & zs & E & F & O & M & G & B & RM).
    + exact FS1.
    + cbn [w_zips]. intros m MK I. apply in_dkeys_sset in I as [I|I].
      * unfold archive_name in I. apply app_inv_head in I. apply app_inv_tail in I. apply print_pad_inj in I; lia.
      * revert I. apply FR. lia.
    + lia.
    + assumption.
    + cbn [w_fs w_zips] in *. exists s', (z :: zs). split; [|split; [exact F|split; [|split; [|split; [|split; [now constructor|]]]]]].
      * rewrite E. do 2 f_equal. unfold zlen. cbn [List.length]. lia.
      * intros path Q. rewrite O by (intros m MM; apply Q; lia). apply O1. apply Q. lia.
      * intros SE [|i] q Hq; cbn [nth_error] in Hq.
        -- injection Hq as <-. change (Z.of_nat 0) with 0. rewrite Z.add_0_r. specialize (M1 SE).
           destruct M1 as (f & d & order & F1 & R). exists f, d, order. split; [|exact R]. rewrite O; [exact F1|].
           intros m MM C. unfold manifest_file in C. apply app_inv_head in C. apply app_inv_tail in C. apply print_pad_inj in C; lia.
        -- specialize (M SE i q Hq). replace (k + Z.of_nat (Datatypes.S i)) with (k + 1 + Z.of_nat i) by lia. exact M.
      * rewrite G. rewrite sset_fresh by (apply FR; lia). rewrite <- app_assoc. f_equal.
        cbn [List.length seq map combine app]. change (Z.of_nat 0) with 0. rewrite Z.add_0_r. f_equal.
        rewrite <- seq_shift, map_map. f_equal. apply map_ext. intros i. f_equal. lia.
      * destruct RN as (o1 & P1 & R1). destruct RM as (o2 & d2 & P2 & R2 & W2). exists (o1 ++ o2), (rs ++ d2).
        split; [cbn [List.concat]; now apply Permutation_app|]. split; [now apply Forall2_app|]. rewrite W2. cbn [w_done]. now rewrite <- app_assoc.
Qed.
End Loop.

(** C44, C76: a dump of files below a directory. *)
Lemma dump_written md5 clock cwd max_size max_files basename separate rs fs abs top :
  Forall file_name cwd -> common_top abs top rs -> Forall (dumpable fs max_size true) rs -> NoDup (map r_uri rs) ->
  Forall good_resource rs -> Forall legal_resource rs -> max_files <= 50000 ->
  (separate = true -> forall r n, In r rs -> 0 <= n -> r_path r <> Some (manifest_file basename n)) ->
  exists s parts zs,
    dump_write md5 clock (path_of cwd) max_size max_files $"zip" basename separate rs fs = (s, Ok (zlen parts))
    /\ List.concat parts = map (measured fs) rs /\ filled max_size max_files parts
    /\ w_zips s = combine (map (fun i => archive_name basename (Z.of_nat i)) (seq 0 (List.length parts))) zs
    /\ Forall2 (archive_of fs abs top) parts zs
    /\ (separate = true -> forall i p, nth_error parts i = Some p -> manifest_at (w_fs s) (manifest_file basename (Z.of_nat i)) p)
    /\ (forall path, (separate = true -> forall n, 0 <= n -> path <> manifest_file basename n) -> sget path (w_fs s) = sget path fs)
    /\ exists order, Permutation (map (measured fs) rs) order /\ Forall2 (renamed abs top) order (w_done s).
Proof.
  intros CW CT D ND G L MF AP. unfold dump_write, check_files. rewrite (check_runs fs max_size true true rs D).
  rewrite (map_ext_in (checked fs true) (measured fs)).
  2:{ intros r I. rewrite Forall_forall in D. eapply checked_measured, D, I. }
  destruct (top_prefix abs top rs CT) as (n & PR & RB). rewrite PR.
  destruct (partition_succeeds max_size max_files (map (measured fs) rs)) as (ms & P).
  { rewrite map_map. exact ND. }
  { apply Forall_forall. intros r I. apply in_map_iff in I as (x & <- & _). discriminate. }
  rewrite P.
  destruct (partition_ok max_size max_files (map (measured fs) rs) [] ms (NoDup_nil _) (open_nil _ _) P) as (parts & C & F & MS & _). cbn [app] in C.
  assert (ME : ms = map keyed parts). { clear - MS. induction MS as [|m p ms ps [-> _] _ IH]; cbn; congruence. }
  destruct (loop_written cwd abs top n fs md5 clock basename separate CW RB parts 0 (MkDumped fs [] [])) as (s & zs & W & FS & _ & M & ZS & A & (order & done & PO & RO & WO)).
  - reflexivity.
  - cbn. auto.
  - lia.
  - apply Forall_forall. intros p I. split; [|split].
    + clear - MS I. induction MS as [|m q ms ps [_ N] _ IH]; [destruct I|]. destruct I as [->|I]; auto.
    + pose proof (filled_files _ _ _ _ F I). lia.
    + intros r J. assert (K : In r (map (measured fs) rs)) by (rewrite <- C; apply in_concat; eauto).
      apply in_map_iff in K as (x & <- & K). rewrite Forall_forall in D, G, L. split; [split; [|split; [|split]]|].
      * destruct CT as [CT _]. destruct (CT x K) as (rest & NR & LA). exists (rel_path rest), rest. auto.
      * destruct (D x K) as (q & f & Q & FF & _). exists f. unfold path_text, measured. cbn. now rewrite Q.
      * exact (G x K).
      * exact (L x K).
      * intros SE m M0 EQ. destruct (D x K) as (q & f & Q & _). apply (AP SE x m K M0). unfold path_text, measured in EQ. cbn in EQ. rewrite Q in EQ. congruence.
  - exists s, parts, zs. subst ms. rewrite W. split; [reflexivity|]. split; [exact C|]. split; [exact F|].
    split; [|split; [exact A|split; [exact M|split; [exact FS|]]]].
    + rewrite ZS. cbn [w_zips app]. reflexivity.
    + exists order. rewrite <- C. split; [exact PO|]. rewrite WO. exact RO.
Qed.

(** Names in an archive: ordinary, and distinct if the files are. *)
Lemma archive_names fs abs top p z : archive_of fs abs top p z ->
  (forall name, In name (map fst (z_entries z)) -> exists names, names <> [] /\ Forall file_name names /\ name = rel_path names)
  /\ (NoDup (map r_path p) -> NoDup (map fst (z_entries z)))
  /\ (NoDup (map r_path p) -> (forall r, In r p -> ~ lies_at abs (top ++ [$"manifest.xml"]) r) -> NoDup (zip_namelist z)).
Proof.
  intros (order & names & P & _ & N & Z & _).
  assert (E : map fst (z_entries z) = names).
  { rewrite Z. pose proof (Forall2_len _ _ _ N) as LEN. clear - LEN. revert names LEN.
    induction order as [|r order IH]; intros [|a names] LEN; try discriminate; [reflexivity|]. cbn [map combine fst]. now rewrite IH by now injection LEN. }
  unfold zip_namelist. rewrite E.
  assert (ND : NoDup (map r_path p) -> NoDup names).
  { intros ND. assert (ND' : NoDup (map r_path order)) by (eapply Permutation_NoDup; [apply Permutation_map, P|exact ND]).
    clear - N ND'. induction N as [|r a order names X N IH]; [constructor|]. cbn [map] in ND'. inversion ND'; subst. constructor; auto.
    intros I. match goal with H : ~ In _ _ |- _ => apply H end.
    assert (Q : exists s, In s order /\ name_in abs top s a).
    { clear - N I. induction N as [|r b order names Y N IH]; [destruct I|]. destruct I as [->|I]; [exists r; split; [now left|assumption]|].
      destruct (IH I) as (s & S & T). exists s. split; [now right|assumption]. }
    destruct Q as (s & S & T). rewrite (name_in_inj abs top _ _ _ X T). now apply in_map. }
  assert (FROM : forall a, In a names -> exists s, In s p /\ name_in abs top s a).
  { intros a I. assert (Q : exists s, In s order /\ name_in abs top s a).
    { clear - N I. induction N as [|r b order names Y N IH]; [destruct I|]. destruct I as [->|I]; [exists r; split; [now left|assumption]|].
      destruct (IH I) as (s & S & T). exists s. split; [now right|assumption]. }
    destruct Q as (s & S & T). exists s. split; [|exact T]. apply (Permutation_in _ (Permutation_sym P)), S. }
  split; [|split; [exact ND|]].
  - intros a I. destruct (FROM a I) as (s & _ & (rest & NR & [F _] & ->)). exists rest. apply Forall_app in F as [_ F]. auto.
  - intros D M. constructor; [|auto]. intros I. destruct (FROM _ I) as (s & S & (rest & NR & LA & EQ)). apply (M s S).
    destruct LA as [F PP]. pose proof F as F'. apply Forall_app in F' as [_ F'].
    assert (R : [$"manifest.xml"] = rest).
    { apply rel_path_inj; auto; [|discriminate]. constructor; [|constructor].
      split; [discriminate|]. split; [discriminate|]. split; [discriminate|]. vm_compute. intuition discriminate. }
    subst rest. split; assumption.
Qed.

(** C77 *)
Lemma check_iff fs max_size set_len check rs :
  (exists out, check_files fs max_size set_len check rs = Ok out) <-> Forall (dumpable fs max_size check) rs.
Proof.
  split.
  - intros (out & H). eapply check_only, H.
  - intros H. unfold check_files. rewrite check_runs by assumption. eauto.
Qed.
Lemma check_result fs max_size set_len check rs rs' prefix total :
  check_files fs max_size set_len check rs = Ok (rs', prefix, total) ->
  total = fold_right Z.add 0 (map (fun r => zlen (content fs r)) rs)
  /\ Forall2 (fun r r' => r' = r \/ (set_len = true /\ r_length r = None /\ r' = measured fs r)) rs rs'
  /\ (set_len = true -> check = true -> rs' = map (measured fs) rs)
  /\ (rs = [] -> prefix = None)
  /\ (rs <> [] -> exists q, prefix = Some q
       /\ (forall r p, In r rs -> r_path r = Some p -> exists t, os_dirname p = q ++ t)
       /\ (forall q', (forall r p, In r rs -> r_path r = Some p -> exists t, os_dirname p = q' ++ t) -> exists t, q = q' ++ t)).
Proof.
  intros H. pose proof (check_only _ _ _ _ _ _ _ _ H) as D. unfold check_files in H. rewrite check_runs in H by assumption.
  injection H as <- <- <-. split; [lia|]. split; [|split; [|split]].
  - clear. induction rs as [|r rs IH]; cbn [map]; constructor; auto. unfold checked. destruct (r_length r) as [x|] eqn:E; [now left|].
    destruct set_len; [right; auto|now left].
  - intros -> ->. apply map_ext_in. intros r I. rewrite Forall_forall in D. eapply checked_measured, D, I.
  - intros ->. reflexivity.
  - intros N. destruct (prefix_spec rs N) as (q & E & Q & M). exists q. split; [exact E|]. split.
    + intros r p I P. specialize (Q r I). unfold dir_of, path_text in Q. rewrite P in Q. exact Q.
    + intros q' A. apply M. intros r I. rewrite Forall_forall in D. destruct (D r I) as (p & f & P & _).
      unfold dir_of, path_text. rewrite P. apply (A r p I P).
Qed.
