(** * WarcFacts: what comes of dumps in WARC and other formats *)

From Verif Require Import Py PyFacts Float64 W3C OsPath Resource Container Xml Sitemap Opener ListIndex Dump Warc DumpExamples.


Lemma payloads cwd prefix take rs : forall ws e, warc_loop cwd prefix take rs = (ws, e) -> forall w, In w ws -> exists r, In r rs /\ r_path r = Some (wr_payload w) /\ r_uri r = wr_url w.
Proof.
  induction rs as [|r rs IH]; intros ws e H w I; cbn [warc_loop] in H; [injection H as <- <-; destruct I|].
  destruct (get_dt (r_timestamp r)) as [d|]; cbn [bind] in H; [|injection H as <- <-; destruct I].
  destruct (r_path r) as [p|] eqn:P; [|injection H as <- <-; destruct I].
  destruct (archive_path cwd prefix p) as [a|]; cbn [bind] in H; [|injection H as <- <-; destruct I].
  destruct (take (MkWarc (r_uri r) d a p)) as [u|]; cbn [bind] in H; [|injection H as <- <-; destruct I].
  destruct (warc_loop cwd prefix take rs) as [ws' e'] eqn:L. injection H as <- <-. destruct I as [<-|I].
  - exists r. split; [left; reflexivity|]. auto.
  - destruct (IH ws' e' eq_refl w I) as (r' & I' & Q). exists r'. split; [right; exact I'|exact Q].
Qed.
Lemma check_keeps fs max_size sl cl rs : forall prefix total rs' p t, check_loop fs max_size sl cl rs prefix total = Ok (rs', p, t) -> List.length rs' = List.length rs.
Proof.
  induction rs as [|r rs IH]; intros prefix total rs' p t H; cbn [check_loop] in H; [injection H as <- _ _; reflexivity|].
  destruct (r_path r); [|discriminate]. destruct (getsize fs _) as [size|]; cbn [bind] in H; [|discriminate].
  match type of H with (let* r := ?X in _) = _ => destruct X as [r'|]; cbn [bind] in H; [|discriminate] end.
  destruct (max_size <? size); [discriminate|].
  destruct (check_loop fs max_size sl cl rs _ _) as [[[rs1 p1] t1]|] eqn:L; cbn [bind] in H; [|discriminate].
  injection H as <- _ _. cbn [List.length]. f_equal. apply (IH _ _ _ _ _ L).
Qed.
Lemma part_of max_size max_files rs : forall m size files ms, 0 <= files -> partition_loop max_size max_files rs m size files = (ms, None) -> ms = [] -> rs = [] /\ files = 0.
Proof.
  induction rs as [|r rs IH]; intros m size files ms P H E; cbn [partition_loop] in H.
  - split; [reflexivity|]. injection H as H. subst ms. destruct (0 <? files) eqn:Q; [discriminate|]. apply Z.ltb_ge in Q. lia.
  - destruct (rl_add r false m) as [m'|]; [|discriminate]. destruct (r_length r) as [n|]; [|discriminate].
    destruct ((max_size <=? size + n) || (max_files <=? files + 1)).
    + destruct (partition_loop max_size max_files rs [] 0 0) as [ms' e]. injection H as H _. subst ms. discriminate.
    + destruct (IH m' (size + n) (files + 1) ms ltac:(lia) H E) as [_ Q]. lia.
Qed.
Lemma some_part max_size max_files rs ms : rs <> [] -> partition_dumps max_size max_files rs = (ms, None) -> exists m ms', ms = m :: ms'.
Proof.
  intros N H. destruct ms as [|m ms]; [|eauto]. destruct (part_of _ _ _ _ _ _ _ (Z.le_refl 0) H eq_refl). contradiction.
Qed.
Lemma not_empty fs max_size rs rs' p t : rs <> [] -> check_files fs max_size true true rs = Ok (rs', p, t) -> rs' <> [].
Proof. intros N C Q. apply check_keeps in C. subst rs'. destruct rs; [contradiction|discriminate]. Qed.

(** No dump of any resources in this format succeeds, whatever the library does. *)
Lemma warc_never lib md5 clock cwd max_size max_files basename separate rs fs : rs <> [] ->
  exists x, snd (dump_write_warc lib md5 clock cwd max_size max_files basename separate rs fs) = Err x.
Proof.
  intros N. unfold dump_write_warc. destruct (check_files fs max_size true true rs) as [[[rs' prefix] t]|x] eqn:C; [|exists x; reflexivity].
  pose proof (not_empty _ _ _ _ _ _ N C) as N'. destruct (partition_dumps max_size max_files rs') as [ms [x|]] eqn:P.
  - destruct (write_loop_warc lib md5 clock cwd prefix basename separate ms 0 fs []) as [[fs1 ws] [n|y]]; [exists x|exists y]; reflexivity.
  - destruct (some_part _ _ _ _ N' P) as (m & ms' & ->). unfold write_loop_warc.
    destruct (if separate then list_write resource_list_kind md5 clock (manifest_list m) ((basename ++ print_pad 5 0) ++ $".xml") fs else (fs, Ok (manifest_list m))) as [fs1 [l|x]]; [|exists x; reflexivity].
    destruct (write_warc lib cwd prefix m) as [w x]. exists x. reflexivity.
Qed.
(** What is written at most is one file, in which the records hold the paths. *)
Lemma warc_files lib md5 clock cwd max_size max_files basename separate rs fs fs' ws x :
  dump_write_warc lib md5 clock cwd max_size max_files basename separate rs fs = (fs', ws, x) ->
  ws = [] \/ exists rs' m ms e prefix t recs, check_files fs max_size true true rs = Ok (rs', prefix, t)
    /\ partition_dumps max_size max_files rs' = (m :: ms, e) /\ ws = [(basename ++ $"00000" ++ $".warc", recs)]
    /\ forall w, In w recs -> exists r, In r (rl_iter m) /\ r_uri r = wr_url w /\ r_path r = Some (wr_payload w).
Proof.
  unfold dump_write_warc. destruct (check_files fs max_size true true rs) as [[[rs' prefix] t]|y] eqn:C; [|intros H; injection H as _ <- _; auto].
  destruct (partition_dumps max_size max_files rs') as [[|m ms] e] eqn:P; unfold write_loop_warc.
  - intros H. injection H as _ <- _. auto.
  - destruct (if separate then list_write resource_list_kind md5 clock (manifest_list m) ((basename ++ print_pad 5 0) ++ $".xml") fs else (fs, Ok (manifest_list m))) as [fs1 [l|y]]; [|intros H; injection H as _ <- _; auto].
    unfold write_warc. destruct lib as [take|]; [|intros H; injection H as _ <- _; auto].
    destruct (warc_loop cwd prefix take (rl_iter m)) as [recs e'] eqn:L. intros H. injection H as _ <- _. right.
    exists rs', m, ms, e, prefix, t, recs. split; [reflexivity|]. split; [exact P|].
    split. { change (print_pad 5 0) with ($"00000"). cbn [sset]. rewrite <- app_assoc. reflexivity. }
    intros w I. destruct (payloads _ _ _ _ _ _ L w I) as (r & I' & A & B). exists r. auto.
Qed.
(** Other formats are refused. *)
Lemma other_format md5 clock cwd max_size max_files format basename separate rs fs : format <> $"zip" -> rs <> [] ->
  exists s x, dump_write md5 clock cwd max_size max_files format basename separate rs fs = (s, Err x) /\ w_zips s = []
    /\ (separate = false -> w_fs s = fs).
Proof.
  intros F N. apply str_eqb_neq in F. unfold dump_write.
  destruct (check_files fs max_size true true rs) as [[[rs' prefix] t]|x] eqn:C; [|exists (MkDumped fs [] []), x; auto].
  pose proof (not_empty _ _ _ _ _ _ N C) as N'. destruct (partition_dumps max_size max_files rs') as [ms [x|]] eqn:P.
  - destruct ms as [|m ms]; [exists (MkDumped fs [] []), x; auto|]. cbn [write_loop w_fs w_zips w_done]. rewrite F.
    destruct separate.
    + destruct (list_write _ _ _ _ _ _) as [fs1 [l|y]]; [exists (MkDumped fs1 [] []), DumpError|exists (MkDumped fs1 [] []), y];
      (split; [reflexivity|]); (split; [reflexivity|discriminate]).
    + exists (MkDumped fs [] []), DumpError. auto.
  - destruct (some_part _ _ _ _ N' P) as (m & ms' & ->). cbn [write_loop w_fs w_zips w_done]. rewrite F.
    destruct separate.
    + destruct (list_write _ _ _ _ _ _) as [fs1 [l|y]]; [exists (MkDumped fs1 [] []), DumpError|exists (MkDumped fs1 [] []), y];
      (split; [reflexivity|]); (split; [reflexivity|discriminate]).
    + exists (MkDumped fs [] []), DumpError. auto.
Qed.

(** ** Examples *)

Definition any_record : warc_library := Some (fun _ => Ok tt).
Definition warc_example : fsys * list (str * list warc_record) * res Z :=
  dump_write_warc any_record no_md5 no_clock $"/" 1000 50000 $"/tmp/rd_" false two_dirs two_files.
Lemma warc_example_is : warc_example =
  (two_files, [($"/tmp/rd_00000.warc", [MkWarc $"http://ex.org/a" None $"../abc/x" $"/data/abc/x"; MkWarc $"http://ex.org/b" None $"../abd/y" $"/data/abd/y"])], Err AttributeError).
Proof. vm_compute. reflexivity. Qed.
Lemma manifest_left : exists s f, dump_write no_md5 no_clock $"/" 1000 50000 $"tar" $"/tmp/rd_" true two_dirs two_files = (s, Err DumpError)
  /\ sget $"/tmp/rd_00000.xml" two_files = None /\ sget $"/tmp/rd_00000.xml" (w_fs s) = Some f.
Proof.
  assert (match dump_write no_md5 no_clock $"/" 1000 50000 $"tar" $"/tmp/rd_" true two_dirs two_files with
    | (s, Err DumpError) => match sget $"/tmp/rd_00000.xml" (w_fs s) with Some _ => true | None => false end | _ => false end = true) as H by (vm_compute; reflexivity).
  destruct (dump_write no_md5 no_clock $"/" 1000 50000 $"tar" $"/tmp/rd_" true two_dirs two_files) as [s [n|x]]; [discriminate|].
  destruct x; try discriminate. destruct (sget $"/tmp/rd_00000.xml" (w_fs s)) as [f|] eqn:S; [|discriminate].
  exists s, f. split; [reflexivity|]. split; [reflexivity|exact S].
Qed.
