(** * ClientInc: what incremental synchronization does *)

From Verif Require Import Py PyFacts Float64 Float64Facts W3C UrlAuthority PathSpec OsPath OsPathFacts Mapper MapperSpec Resource
  Container ContainerSpec ContainerFacts Capability Xml Sitemap Hashes ListIndex Disk DiskSpec DiskFacts DiskChange Builder ClientState Client ClientSpec
  ClientLists ClientFacts ClientRuns.

Definition is_update (r : resource) : bool := change_is $"updated" r || change_is $"created" r.
Definition is_delete (r : resource) : bool := negb (is_update r) && change_is $"deleted" r.

Lemma change_is_iff name r : change_is name r = true <-> r_change r = Some name.
Proof.
  unfold change_is, opt_eqb. destruct (r_change r) as [s|]; [|split; discriminate].
  rewrite str_eqb_eq. split; congruence.
Qed.
Lemma is_delete_iff r : is_delete r = true <-> r_change r = Some $"deleted".
Proof.
  unfold is_delete, is_update. rewrite andb_true_iff, negb_true_iff, orb_false_iff, change_is_iff. split; [tauto|].
  intros H. split; [|exact H]. unfold change_is. rewrite H. split; reflexivity.
Qed.
Lemma is_update_iff r : is_update r = true <-> r_change r = Some $"updated" \/ r_change r = Some $"created".
Proof. unfold is_update. now rewrite orb_true_iff, !change_is_iff. Qed.

Lemma apply_changes_cons E c allow r rs w w' x : apply_changes E c allow (r :: rs) w = (w', x) ->
  (exists e, src_to_dst (c_mapper c) (r_uri r) = Err e /\ w' = w /\ x = Err e) \/
  exists p, src_to_dst (c_mapper c) (r_uri r) = Ok p /\
  ((is_update r = false /\ is_delete r = false /\ w' = w /\ x = Err ClientError) \/
   exists w1 y, (if is_update r then update_resource E c r p w = (w1, y) else is_delete r = true /\ delete_resource E c allow r p w = (w1, y)) /\
   ((exists e, y = Err e /\ w' = w1 /\ x = Err e) \/
    exists n z, y = Ok n /\ apply_changes E c allow rs w1 = (w', z) /\
      ((exists e, z = Err e /\ x = Err e) \/
       exists nc nu nd, z = Ok (nc, nu, nd)
         /\ x = Ok ((if change_is $"created" r then 1 else 0) + nc, (if change_is $"updated" r then 1 else 0) + nu,
                    (if is_delete r then n else 0) + nd)))).
Proof.
  cbn [apply_changes]. intros H.
  apply andthen_inv in H. destruct H as [(w1 & p & S & H)|(e & S & ->)]; unfold lift in S; injection S as <- S; [right|left; eauto].
  exists p. split; [exact S|]. unfold is_delete, is_update.
  assert (change_is $"updated" r = true -> change_is $"created" r = false) as UC.
  { rewrite change_is_iff. intros A. unfold change_is. rewrite A. reflexivity. }
  destruct (change_is $"updated" r) eqn:CU; [rewrite (UC eq_refl)|destruct (change_is $"created" r) eqn:CC; [|destruct (change_is $"deleted" r) eqn:CD]].
  - right. apply andthen_inv in H. destruct H as [(w2 & n & U & H)|(e & U & ->)].
    + apply andthen_inv in U. destruct U as [(w3 & m & U & Q)|(e & U & Q)]; [|discriminate]. injection Q as <- <-.
      exists w3, (Ok m). split; [exact U|]. right.
      apply andthen_inv in H. destruct H as [(w4 & [[nc nu] nd] & A & H)|(e & A & ->)].
      * injection H as <- <-. exists m, (Ok (nc, nu, nd)). split; [reflexivity|]. split; [exact A|]. right. exists nc, nu, nd. auto.
      * exists m, (Err e). split; [reflexivity|]. split; [exact A|]. left. eauto.
    + apply andthen_inv in U. destruct U as [(w3 & m & U & Q)|(e' & U & Q)]; [discriminate|]. injection Q as <-.
      exists w', (Err e). split; [exact U|]. left. eauto.
  - right. apply andthen_inv in H. destruct H as [(w2 & n & U & H)|(e & U & ->)].
    + apply andthen_inv in U. destruct U as [(w3 & m & U & Q)|(e & U & Q)]; [|discriminate]. injection Q as <- <-.
      exists w3, (Ok m). split; [exact U|]. right.
      apply andthen_inv in H. destruct H as [(w4 & [[nc nu] nd] & A & H)|(e & A & ->)].
      * injection H as <- <-. exists m, (Ok (nc, nu, nd)). split; [reflexivity|]. split; [exact A|]. right. exists nc, nu, nd. auto.
      * exists m, (Err e). split; [reflexivity|]. split; [exact A|]. left. eauto.
    + apply andthen_inv in U. destruct U as [(w3 & m & U & Q)|(e' & U & Q)]; [discriminate|]. injection Q as <-.
      exists w', (Err e). split; [exact U|]. left. eauto.
  - right. apply andthen_inv in H. destruct H as [(w2 & n & U & H)|(e & U & ->)].
    + apply andthen_inv in U. destruct U as [(w3 & m & U & Q)|(e & U & Q)]; [|discriminate]. injection Q as <- <-.
      exists w3, (Ok m). split; [split; [reflexivity|exact U]|]. right.
      apply andthen_inv in H. destruct H as [(w4 & [[nc nu] nd] & A & H)|(e & A & ->)].
      * injection H as <- <-. exists m, (Ok (nc, nu, nd)). split; [reflexivity|]. split; [exact A|]. right. exists nc, nu, nd. auto.
      * exists m, (Err e). split; [reflexivity|]. split; [exact A|]. left. eauto.
    + apply andthen_inv in U. destruct U as [(w3 & m & U & Q)|(e' & U & Q)]; [discriminate|]. injection Q as <-.
      exists w', (Err e). split; [split; [reflexivity|exact U]|]. left. eauto.
  - left. injection H as <- <-. auto.
Qed.

(** What one change does. *)
Lemma one_change E c allow r p w w1 y : tree_ok (w_root w) -> Forall file_name (e_cwd E) ->
  (if is_update r then update_resource E c r p w = (w1, y) else is_delete r = true /\ delete_resource E c allow r p w = (w1, y)) ->
  only_at (e_cwd E) (is_at (resolve (e_cwd E) p)) w w1 /\ w_last w <= w_last w1
  /\ (exists l, w_gets w1 = w_gets w ++ l /\ forall u, In u l -> u = r_uri r /\ is_update r = true)
  /\ (forall q, removed w w1 q -> allow = true /\ c_dryrun c = false /\ is_delete r = true /\ q = resolve (e_cwd E) p)
  /\ (c_dryrun c = true -> w_gets w1 = w_gets w /\ w_log w1 = w_log w /\ forall q, leaf_at (w_root w1) q = leaf_at (w_root w) q)
  /\ (w_last w1 = w_last w \/ r_timestamp r = Some (w_last w1))
  /\ (forall n, y = Ok n -> forall t, r_timestamp r = Some t -> is_delete r = true \/ c_dryrun c = false /\ c_ignore_failures c = false -> t <= w_last w1)
  /\ (forall n, y = Ok n -> is_delete r = true -> 0 <= n <= 1)
  /\ (forall n, y = Ok n -> c_dryrun c = false -> c_ignore_failures c = false -> (0 < c_tries c)%nat ->
       (is_update r = true -> means_dir p = false /\ exists f, leaf_at (w_root w1) (resolve (e_cwd E) p) = Some f /\ downloaded E w w1 r f)
       /\ (is_delete r = true -> dir_at (w_root w) [] -> allow = true -> good_file_path p -> leaf_at (w_root w1) (resolve (e_cwd E) p) = None)).
Proof.
  intros T F H. destruct (is_update r) eqn:IU.
  - assert (is_delete r = false) as ID by (unfold is_delete; rewrite IU; reflexivity).
    apply update_effect in H. destruct H as (U1 & U2 & U3 & (k & _ & U4) & U5 & U6 & U7 & U8).
    split; [exact U1|]. split; [exact U3|].
    split; [exists (repeat (r_uri r) k); split; [exact U4|]; intros u I; apply repeat_spec in I; auto|].
    split; [intros q R; destruct (proj1 (keeps_removed _ _) U2 q R)|].
    split; [intros D; destruct (U5 D) as (? & ? & ? & ?); auto|]. split; [exact U7|].
    split; [intros n Y t Ht [Q|[Q1 Q2]]; [congruence|eapply U8; eauto]|].
    split; [congruence|]. intros n Y D IG TR. split; [|congruence]. intros _.
    destruct (U6 n Y D IG TR) as (_ & k0 & d & K & G & M & L). split; [exact M|]. eexists. split; [exact L|]. exists k0, d. auto.
  - destruct H as [ID H]. apply delete_effect in H; [|exact T].
    destruct H as (U1 & U2 & U3 & U4 & (n1 & X1 & U5 & U6 & U7) & U8 & U9 & U10).
    split; [exact U1|]. split; [exact U2|]. split; [exists []; split; [rewrite U3; now rewrite app_nil_r|intros u []]|].
    split. { intros q [R1 R2]. destruct U5 as [U5|U5]; [rewrite (U6 U5) in R2; contradiction|].
             destruct (U7 U5) as (A1 & A2 & _ & _). split; [exact A1|]. split; [exact A2|]. split; [exact ID|].
             destruct (path_eq_dec q (resolve (e_cwd E) p)) as [|N]; [assumption|]. rewrite (oa_leaf _ _ _ _ U1) in R2; [contradiction|exact N]. }
    split. { intros D. split; [exact U3|]. split; [exact U4|]. destruct U5 as [U5|U5]; [rewrite (U6 U5); auto|].
             destruct (U7 U5) as (_ & A2 & _). congruence. }
    split; [exact U9|]. split; [intros n Y t Ht _; apply U10, Ht|].
    split; [intros n Y _; rewrite X1 in Y; injection Y as <-; destruct U5; lia|].
    intros n Y D IG TR. split; [discriminate|]. intros _ R A [G1 G2].
    destruct (leaf_at (w_root w) (resolve (e_cwd E) p)) eqn:LF.
    + specialize (U8 R A D G1 G2 ltac:(discriminate)). rewrite X1 in U8. injection U8 as ->. apply U7. reflexivity.
    + destruct U5 as [U5|U5]; [rewrite (U6 U5); exact LF|apply U7, U5].
Qed.

Lemma apply_changes_effect E c allow rs : forall w w' x, tree_ok (w_root w) -> Forall file_name (e_cwd E) ->
  apply_changes E c allow rs w = (w', x) ->
  only_at (e_cwd E) (places E c rs) w w' /\ w_last w <= w_last w'
  /\ (exists l, w_gets w' = w_gets w ++ l /\ forall u, In u l -> exists r, In r rs /\ is_update r = true /\ u = r_uri r)
  /\ (forall q, removed w w' q -> allow = true /\ c_dryrun c = false /\ exists r, In r rs /\ r_change r = Some $"deleted" /\ target E c r q)
  /\ (c_dryrun c = true -> w_gets w' = w_gets w /\ w_log w' = w_log w /\ forall q, leaf_at (w_root w') q = leaf_at (w_root w) q)
  /\ (w_last w' = w_last w \/ exists r, In r rs /\ r_timestamp r = Some (w_last w'))
  /\ (forall n, x = Ok n -> forall r t, In r rs -> r_timestamp r = Some t ->
       is_delete r = true \/ c_dryrun c = false /\ c_ignore_failures c = false -> t <= w_last w')
  /\ (forall nc nu nd, x = Ok (nc, nu, nd) -> nc = count_changes $"created" rs /\ nu = count_changes $"updated" rs
       /\ 0 <= nd <= count_changes $"deleted" rs)
  /\ (forall n, x = Ok n -> c_dryrun c = false -> c_ignore_failures c = false -> (0 < c_tries c)%nat -> NoDup (map r_uri rs) ->
       forall r, In r rs -> exists p, src_to_dst (c_mapper c) (r_uri r) = Ok p /\
       ((forall r', In r' rs -> target E c r' (resolve (e_cwd E) p) -> r_uri r' = r_uri r) ->
        (is_update r = true -> means_dir p = false /\ exists f, leaf_at (w_root w') (resolve (e_cwd E) p) = Some f /\ downloaded E w w' r f)
        /\ (is_delete r = true -> dir_at (w_root w) [] -> allow = true -> good_file_path p -> leaf_at (w_root w') (resolve (e_cwd E) p) = None))).
Proof.
  induction rs as [|r rs IH]; intros w w' x T F H.
  - cbn in H. injection H as <- <-. split; [apply only_at_refl|]. split; [lia|].
    split; [exists []; split; [now rewrite app_nil_r|intros u []]|]. split; [intros q [A B]; contradiction|].
    split; [auto|]. split; [auto|]. split; [intros n _ r t []|].
    split; [intros ? ? ? [= <- <- <-]; unfold count_changes, zlen; cbn; lia|]. intros n _ _ _ _ _ r [].
  - apply apply_changes_cons in H. destruct H as [(e & S & -> & ->)|(p & S & [(_ & _ & -> & ->)|(w1 & y & O & H)])].
    1,2: (split; [apply only_at_refl|]; split; [lia|];
      split; [exists []; split; [now rewrite app_nil_r|intros u []]|]; split; [intros q [A B]; contradiction|];
      split; [auto|]; split; [auto|]; split; [discriminate|]; split; discriminate).
    apply one_change in O; auto. destruct O as (O1 & O2 & (l & O3 & O3') & O4 & O5 & O6 & O7 & O8 & O9).
    assert (target E c r (resolve (e_cwd E) p)) as TR by (apply target_resolve; eauto).
    destruct H as [(e & -> & -> & ->)|(n & z & -> & A & H)].
    + split; [apply (only_at_mono _ _ _ _ _ (places_head E c r rs p S) O1)|]. split; [exact O2|].
      split; [exists l; split; [exact O3|]; intros u I; destruct (O3' u I) as [-> Q]; exists r; split; [left; reflexivity|auto]|].
      split; [intros q R; destruct (O4 q R) as (? & ? & ID & ->); split; [auto|]; split; [auto|]; exists r; rewrite <- is_delete_iff; split; [left; reflexivity|auto]|].
      split; [exact O5|]. split; [destruct O6 as [|O6]; [auto|right; exists r; split; [left; reflexivity|auto]]|].
      split; [discriminate|]. split; discriminate.
    + apply IH in A; [|apply (oa_tree _ _ _ _ O1); auto|exact F].
      destruct A as (A1 & A2 & (l' & A3 & A3') & A4 & A5 & A6 & A7 & A8 & A9).
      assert (forall m, x = Ok m -> exists m', z = Ok m') as XZ.
      { intros m ->. destruct H as [(e & _ & X)|(nc & nu & nd & Z & _)]; [discriminate|eauto]. }
      split; [eapply only_at_trans; [apply (only_at_mono _ _ _ _ _ (places_head E c r rs p S) O1)|apply (only_at_mono _ _ _ _ _ (places_tail E c r rs) A1)]|].
      split; [lia|].
      split. { exists (l ++ l'). split; [rewrite A3, O3, app_assoc; reflexivity|]. intros u I. apply in_app_iff in I. destruct I as [I|I].
               - destruct (O3' u I) as [-> Q]. exists r. split; [left; reflexivity|auto].
               - destruct (A3' u I) as (r' & I' & Q). exists r'. split; [right; exact I'|exact Q]. }
      split. { intros q R. apply (removed_trans _ w1) in R. destruct R as [R|R].
               - destruct (O4 q R) as (? & ? & ID & ->). split; [auto|]. split; [auto|]. exists r. rewrite <- is_delete_iff. split; [left; reflexivity|auto].
               - destruct (A4 q R) as (? & ? & r' & I' & Q). split; [auto|]. split; [auto|]. exists r'. split; [right; exact I'|exact Q]. }
      split. { intros D. destruct (O5 D) as (X1 & X2 & X3), (A5 D) as (Y1 & Y2 & Y3). split; [congruence|]. split; [congruence|]. intros q. now rewrite Y3. }
      split. { destruct A6 as [A6|(r' & I' & Q)]; [rewrite A6|right; exists r'; split; [right; exact I'|exact Q]].
               destruct O6 as [|O6]; [auto|right; exists r; split; [left; reflexivity|auto]]. }
      split. { intros m X r0 t [<-|I] Ht Q; destruct (XZ m X) as (m' & Z).
               - specialize (O7 n eq_refl t Ht Q). lia.
               - apply (A7 m' Z r0 t I Ht Q). }
      split. { intros nc nu nd ->. destruct H as [(e & _ & X)|(nc' & nu' & nd' & Z & X)]; [discriminate|]. injection X as -> -> ->.
               destruct (A8 _ _ _ Z) as (-> & -> & B). unfold count_changes. cbn [filter].
               specialize (O8 n eq_refl).
               assert (change_is $"deleted" r = is_delete r) as ->.
               { apply Bool.eq_true_iff_eq. now rewrite change_is_iff, is_delete_iff. }
               unfold count_changes, zlen in *.
               destruct (change_is $"created" r), (change_is $"updated" r), (is_delete r); cbn [List.length];
                 try specialize (O8 eq_refl); repeat split; lia. }
      intros m X D IG TS N r0 I0. destruct (XZ m X) as (m' & Z). cbn [map] in N. apply NoDup_cons_iff in N. destruct N as [NI N].
      destruct I0 as [<-|I0].
      * exists p. split; [exact S|]. intros UQ. destruct (O9 n eq_refl D IG TS) as [P1 P2].
        assert (leaf_at (w_root w') (resolve (e_cwd E) p) = leaf_at (w_root w1) (resolve (e_cwd E) p)) as LF.
        { apply (oa_leaf _ _ _ _ A1). intros (r' & I' & T'). apply NI. rewrite <- (UQ r' (or_intror I') T'). apply in_map, I'. }
        rewrite LF. split; [|auto]. intros IU. destruct (P1 IU) as (M & f & L & DL). split; [exact M|]. exists f. split; [exact L|].
        apply (downloaded_mono _ w w w1 w' _ _ [] l'); [now rewrite app_nil_r|exact A3|exact DL].
      * destruct (A9 m' Z D IG TS N r0 I0) as (p0 & S0 & Q). exists p0. split; [exact S0|]. intros UQ.
        destruct Q as [Q1 Q2]; [intros r' I'; apply UQ; right; exact I'|]. split.
        { intros IU. destruct (Q1 IU) as (M & f & L & DL). split; [exact M|]. exists f. split; [exact L|].
          apply (downloaded_mono _ w w1 w' w' _ _ l []); [exact O3|now rewrite app_nil_r|exact DL]. }
        intros ID R. apply Q2; auto. apply (oa_dir _ _ _ _ O1), R.
Qed.

(** ** Incremental synchronization, step by step *)

Definition logged (s : status) (w : world) : world := with_log (w_log w ++ [Logged s]) w.
Definition status_of (in_sync incremental audit : bool) (same : option Z) (created updated deleted to_delete : Z) : status :=
  let words := if audit then ($"to create", $"to update", $"to delete") else ($"created", $"updated", $"deleted") in
  if in_sync then MkStatus (if incremental then $"NO CHANGES" else $"IN SYNC") same created updated deleted words
  else if audit then MkStatus $"NOT IN SYNC" same created updated deleted words
  else if deleted <? to_delete then
    MkStatus (if incremental then $"PART APPLIED" else $"PART SYNCED") same created updated to_delete ($"created", $"updated", $"to delete (--delete)")
  else MkStatus (if incremental then $"CHANGES APPLIED" else $"SYNCED") same created updated deleted words.
Lemma log_status_is a b d s x y z t w : log_status a b d s x y z t w = (logged (status_of a b d s x y z t) w, Ok tt).
Proof. reflexivity. Qed.

Definition nothing_to_do (todo : list resource) : bool :=
  count_changes $"updated" todo + count_changes $"deleted" todo + count_changes $"created" todo =? 0.
Definition only_deletions (todo : list resource) : bool :=
  count_changes $"updated" todo + count_changes $"created" todo =? 0.
Definition first_status (todo : list resource) : status :=
  status_of (nothing_to_do todo) true false None (count_changes $"created" todo) (count_changes $"updated" todo) (count_changes $"deleted" todo) 0.

Lemma apply_change_list_inv E c allow from changes w w' x : apply_change_list E c allow from changes w = (w', x) ->
  (exists e, x = Err e /\ w' = w) \/
  exists kept n todo, prune_updates_before (c_spec_1_0 c) from changes = (kept, Ok n) /\ todo = fst (prune_dupes kept)
    /\ forallb known_change todo = true
    /\ (if nothing_to_do todo || (only_deletions todo && negb allow) then w' = logged (first_status todo) w /\ x = Ok tt
        else exists w1 y, apply_changes E c allow todo (logged (first_status todo) w) = (w1, y) /\
          ((exists e, y = Err e /\ w' = w1 /\ x = Err e) \/
           exists nc nu nd, y = Ok (nc, nu, nd)
             /\ store_if_any E c (logged (status_of true true false None nc nu nd (count_changes $"deleted" todo)) w1) = (w', x))).
Proof.
  unfold apply_change_list. intros H.
  apply andthen_inv in H. destruct H as [(w1 & [kept n] & P & H)|(e & P & ->)]; unfold lift in P; injection P as <- P; [|left; eauto].
  destruct (prune_updates_before (c_spec_1_0 c) from changes) as [kept' [n'|e]] eqn:PB; [|discriminate]. cbn [bind] in P.
  injection P as -> ->. cbn [fst snd] in H.
  apply andthen_inv in H. destruct H as [(w1 & [] & Q & H)|(e & Q & ->)]; unfold lift in Q; injection Q as <- Q; [|left; eauto].
  destruct (forallb known_change (fst (prune_dupes kept))) eqn:K; cbn [negb] in H.
  2:{ injection H as <- <-. left. eauto. }
  right. exists kept, n, (fst (prune_dupes kept)). split; [reflexivity|]. split; [reflexivity|]. split; [exact K|].
  set (todo := fst (prune_dupes kept)) in *.
  unfold andthen at 1 in H. rewrite log_status_is in H.
  fold (nothing_to_do todo) in H. fold (only_deletions todo) in H. fold (first_status todo) in H.
  destruct (nothing_to_do todo || only_deletions todo && negb allow).
  { injection H as <- <-. auto. }
  apply andthen_inv in H. destruct H as [(w1 & [[nc nu] nd] & A & H)|(e & A & ->)].
  - exists w1, (Ok (nc, nu, nd)). split; [exact A|]. right. exists nc, nu, nd. split; [reflexivity|].
    unfold andthen in H. rewrite log_status_is in H. exact H.
  - exists w', (Err e). split; [exact A|]. left. eauto.
Qed.

Definition is_explicit (change_list_uri : option str) : bool := match change_list_uri with Some (_ :: _) => true | _ => false end.
Definition change_list_name (c : client) (change_list_uri : option str) : str :=
  match change_list_uri with Some (x :: u) => x :: u | _ => c_change_list_name c end.
Definition read_change_list (E : env) (uri : str) : res (ixlist (list resource)) :=
  wrapped ClientFatalError (list_read change_list_kind (e_fetch E) false (new_list change_list_kind $"changelist" true None) uri).

Lemma incremental_inv E c allow clu from_dt w w' x : incremental E c allow clu from_dt w = (w', x) ->
  (exists e, x = Err e /\ no_effect w w' /\ w_log w' = w_log w) \/
  exists from uri l last, c_mapper c <> [] /\ unsafe (c_mapper c) = Ok false /\ start_time E c from_dt w = Ok from
    /\ sitemap_uri c (change_list_name c clu) = Ok uri /\ read_change_list E uri = Ok l /\ w_hashes w = []
    /\ last_time (d_items (l_doc l)) 0 = Ok last
    /\ check_changes c (is_explicit clu) uri (d_items (l_doc l)) = Ok tt
    /\ apply_change_list E c allow from (d_items (l_doc l)) (with_last last w) = (w', x).
Proof.
  unfold incremental. intros H.
  destruct (match c_mapper c with [] => true | _ => false end) eqn:M.
  { injection H as <- <-. left. exists ClientFatalError. repeat split. }
  apply andthen_inv in H. destruct H as [(w1 & bad & U & H)|(e & U & ->)]; unfold lift in U; injection U as <- U.
  2:{ left. exists e. repeat split. }
  destruct bad.
  { injection H as <- <-. left. exists ClientFatalError. repeat split. }
  apply andthen_inv in H. destruct H as [(w1 & from & F & H)|(e & F & ->)]; injection F as <- F.
  2:{ left. exists e. repeat split. }
  fold (change_list_name c clu) in H.
  apply andthen_inv in H. destruct H as [(w1 & uri & S & H)|(e & S & ->)]; unfold lift in S; injection S as <- S.
  2:{ left. exists e. repeat split. }
  fold (read_change_list E uri) in H.
  apply andthen_inv in H. destruct H as [(w1 & l & R & H)|(e & R & ->)]; unfold lift in R; injection R as <- R.
  2:{ left. exists e. repeat split. }
  apply andthen_inv in H. destruct H as [(w1 & [] & P & H)|(e & P & ->)].
  2:{ destruct (w_hashes w); [discriminate|]. injection P as <- <-. left. exists AttributeError. repeat split. }
  destruct (w_hashes w) eqn:HW; [|discriminate]. injection P as <-.
  unfold andthen at 1, modify at 1 in H.
  apply andthen_inv in H. destruct H as [(w1 & last & L & H)|(e & L & ->)]; unfold lift in L; injection L as <- L.
  2:{ left. exists e. repeat split. }
  unfold andthen at 1, modify at 1 in H.
  apply andthen_inv in H. destruct H as [(w1 & [] & C & H)|(e & C & ->)]; unfold lift in C; injection C as <- C.
  2:{ left. exists e. repeat split. }
  right. exists from, uri, l, last. split; [intros Q; rewrite Q in M; discriminate|].
  split; [exact U|]. split; [exact F|]. split; [exact S|]. split; [exact R|]. split; [reflexivity|]. split; [exact L|]. split; [exact C|]. exact H.
Qed.
