(** * ClientRuns: what whole runs do *)

From Verif Require Import Py PyFacts Float64 Float64Facts W3C UrlAuthority PathSpec OsPath OsPathFacts Mapper MapperSpec Resource
  Container ContainerSpec ContainerFacts Hashes ListIndex Disk DiskSpec DiskFacts DiskChange Builder ClientState Client ClientSpec ClientLists ClientFacts.

Lemma andthen_inv {A B} (m : act A) (f : A -> act B) w w' x : andthen m f w = (w', x) ->
  (exists w1 a, m w = (w1, Ok a) /\ f a w1 = (w', x)) \/ (exists e, m w = (w', Err e) /\ x = Err e).
Proof.
  unfold andthen. destruct (m w) as [w1 [a|e]]; [left; eauto|]. intros [= <- <-]. right. eauto.
Qed.
Ltac step H := apply andthen_inv in H;
  let w := fresh "w" in let a := fresh "a" in let e := fresh "e" in let H1 := fresh "H" in let H2 := fresh "H" in
  destruct H as [(w & a & H1 & H2)|(e & H1 & H2)].

Lemma target_resolve E c r q : target E c r q <-> exists p, src_to_dst (c_mapper c) (r_uri r) = Ok p /\ q = resolve (e_cwd E) p.
Proof. unfold target. split; intros (p & A & B); exists p; rewrite resolve_denotes in *; auto. Qed.
Lemma target_fun E c r r' q q' : r_uri r' = r_uri r -> target E c r q -> target E c r' q' -> q' = q.
Proof. intros U (p & A & B) (p' & A' & B'). rewrite U in A'. congruence. Qed.

(** The places of some resources. *)
Definition places (E : env) (c : client) (rs : list resource) (q : list str) : Prop := exists r, In r rs /\ target E c r q.

Lemma places_head E c r rs p : src_to_dst (c_mapper c) (r_uri r) = Ok p ->
  forall q, is_at (resolve (e_cwd E) p) q -> places E c (r :: rs) q.
Proof. intros S q ->. exists r. split; [left; reflexivity|]. apply target_resolve. eauto. Qed.
Lemma places_tail E c r rs : forall q, places E c rs q -> places E c (r :: rs) q.
Proof. intros q (x & I & T). exists x. split; [right; exact I|exact T]. Qed.
Lemma places_app E c a b q : places E c (a ++ b) q <-> places E c a q \/ places E c b q.
Proof.
  unfold places. split.
  - intros (r & I & T). apply in_app_iff in I. destruct I; [left|right]; eauto.
  - intros [(r & I & T)|(r & I & T)]; exists r; rewrite in_app_iff; auto.
Qed.

Lemma downloaded_mono E w0 w1 w2 w3 r n a b : w_gets w1 = w_gets w0 ++ a -> w_gets w3 = w_gets w2 ++ b ->
  downloaded E w1 w2 r n -> downloaded E w0 w3 r n.
Proof.
  intros A B (k & d & K & G & N). exists k, d. rewrite A, app_length in K. rewrite B, app_length. split; [lia|auto].
Qed.
Lemma downloaded_same E w0 w1 w2 w3 r n : w_gets w1 = w_gets w0 -> w_gets w3 = w_gets w2 ->
  downloaded E w1 w2 r n -> downloaded E w0 w3 r n.
Proof. intros A B. apply (downloaded_mono _ _ _ _ _ _ _ [] []); rewrite app_nil_r; assumption. Qed.

Lemma for_each_update E c rs : forall w w' x, for_each c (update_resource E c) rs w = (w', x) ->
  only_at (e_cwd E) (places E c rs) w w' /\ keeps w w' /\ w_last w <= w_last w'
  /\ (exists l, w_gets w' = w_gets w ++ l /\ forall u, In u l -> In u (map r_uri rs))
  /\ (c_dryrun c = true -> w_gets w' = w_gets w /\ w_last w' = w_last w /\ w_log w' = w_log w
       /\ forall q, leaf_at (w_root w') q = leaf_at (w_root w) q)
  /\ (forall n, x = Ok n -> c_dryrun c = false -> c_ignore_failures c = false -> (0 < c_tries c)%nat -> NoDup (map r_uri rs) ->
       n = zlen rs /\ forall r, In r rs -> exists p, src_to_dst (c_mapper c) (r_uri r) = Ok p /\ means_dir p = false /\
       ((forall r', In r' rs -> target E c r' (resolve (e_cwd E) p) -> r_uri r' = r_uri r) ->
        exists f, leaf_at (w_root w') (resolve (e_cwd E) p) = Some f /\ downloaded E w w' r f))
  /\ (w_last w' = w_last w \/ exists r, In r rs /\ r_timestamp r = Some (w_last w'))
  /\ (forall n, x = Ok n -> c_dryrun c = false -> c_ignore_failures c = false ->
       forall r t, In r rs -> r_timestamp r = Some t -> t <= w_last w').
Proof.
  induction rs as [|r rs IH]; intros w w' x H; cbn [for_each] in H.
  - injection H as <- <-. split; [apply only_at_refl|]. split; [apply keeps_refl|]. split; [lia|].
    split; [exists []; split; [now rewrite app_nil_r|intros u []]|]. split; [auto|].
    split; [intros n [= <-] _ _ _ _; split; [reflexivity|intros r []]|]. split; [auto|intros n _ _ _ r t []].
  - apply andthen_inv in H. destruct H as [(w1 & p & S & H)|(e & S & ->)].
    2:{ unfold lift in S. injection S as <- S. split; [apply only_at_refl|]. split; [apply keeps_refl|]. split; [lia|].
        split; [exists []; split; [now rewrite app_nil_r|intros u []]|]. split; [auto|]. split; [discriminate|]. split; [auto|discriminate]. }
    unfold lift in S. injection S as <- S.
    apply andthen_inv in H. destruct H as [(w2 & m & U & H)|(e & U & ->)].
    2:{ apply update_effect in U. destruct U as (U1 & U2 & U3 & (k & _ & U4) & U5 & _ & U7 & _).
        split; [apply (only_at_mono _ _ _ _ _ (places_head E c r rs p S) U1)|]. split; [exact U2|]. split; [exact U3|].
        split; [exists (repeat (r_uri r) k); split; [exact U4|]; intros u I; apply repeat_spec in I; left; auto|].
        split; [exact U5|]. split; [discriminate|]. split; [|discriminate].
        destruct U7 as [|U7]; [auto|]. right. exists r. split; [left; reflexivity|exact U7]. }
    apply update_effect in U. destruct U as (U1 & U2 & U3 & (k & _ & U4) & U5 & U6 & U7 & U8).
    assert (exists y, for_each c (update_resource E c) rs w2 = (w', y) /\
      (forall n, x = Ok n -> exists m', y = Ok m' /\ n = m + m')) as (y & H' & XY).
    { apply andthen_inv in H. destruct H as [(w3 & m' & F & H)|(e & F & ->)].
      - injection H as <- <-. exists (Ok m'). split; [exact F|]. intros n [= <-]. eauto.
      - exists (Err e). split; [exact F|]. discriminate. }
    apply IH in H'. destruct H' as (I1 & I2 & I3 & (l & I4 & I4') & I5 & I6 & I7 & I8). clear IH H.
    split; [eapply only_at_trans; [apply (only_at_mono _ _ _ _ _ (places_head E c r rs p S) U1)|apply (only_at_mono _ _ _ _ _ (places_tail E c r rs) I1)]|].
    split; [apply (keeps_trans _ _ _ U2 I2)|]. split; [lia|].
    split. { exists (repeat (r_uri r) k ++ l). rewrite I4, U4, app_assoc. split; [reflexivity|]. intros u I.
             apply in_app_iff in I. destruct I as [I|I]; [apply repeat_spec in I; left; auto|right; auto]. }
    split. { intros D. destruct (U5 D) as (A1 & A2 & A3 & A4), (I5 D) as (B1 & B2 & B3 & B4).
             split; [congruence|]. split; [congruence|]. split; [congruence|]. intros q. now rewrite B4. }
    split; [|split].
    + intros n X D IG T N. inversion N as [|? ? NI N']; subst. destruct (XY n eq_refl) as (m' & -> & ->).
      destruct (I6 m' eq_refl D IG T N') as (-> & J). destruct (U6 m eq_refl D IG T) as (-> & k0 & d & K0 & G & M & L).
      split; [unfold zlen; cbn [List.length]; lia|]. intros r0 [<-|I0].
      * exists p. split; [exact S|]. split; [exact M|]. intros Q. exists (File d match r_timestamp r with Some t => whole_seconds t | None => e_now E end).
        split; [|apply (downloaded_mono _ w w w2 w' _ _ [] l); [now rewrite app_nil_r|exact I4|]; exists k0, d; auto]. rewrite (oa_leaf _ _ _ _ I1); [exact L|]. intros (r' & I' & T'). apply NI.
        rewrite <- (Q r' (or_intror I') T'). apply in_map, I'.
      * destruct (J r0 I0) as (p0 & S0 & M0 & Q0). exists p0. split; [exact S0|]. split; [exact M0|].
        intros Q. destruct Q0 as (f & L0 & D0); [intros r' I' T'; apply Q; [right; exact I'|exact T']|]. exists f. split; [exact L0|].
        apply (downloaded_mono _ w w2 w' w' _ _ (repeat (r_uri r) k) []); [exact U4|now rewrite app_nil_r|exact D0].
    + destruct I7 as [I7|(r0 & I0 & T0)]; [|right; exists r0; split; [right; exact I0|exact T0]].
      destruct U7 as [U7|U7]; [left; congruence|]. right. exists r. split; [left; reflexivity|congruence].
    + intros n X D IG r0 t I0 T0. destruct (XY n X) as (m' & -> & _). destruct I0 as [<-|I0].
      * specialize (U8 t T0 m eq_refl D IG). lia.
      * apply (I8 m' eq_refl D IG r0 t I0 T0).
Qed.

Lemma for_each_delete E c allow rs : forall w w' x, tree_ok (w_root w) -> Forall file_name (e_cwd E) ->
  for_each c (delete_resource E c allow) rs w = (w', x) ->
  only_at (e_cwd E) (places E c rs) w w' /\ w_last w <= w_last w' /\ w_gets w' = w_gets w /\ w_log w' = w_log w
  /\ (allow && negb (c_dryrun c) = false -> w_root w' = w_root w)
  /\ (forall q, leaf_at (w_root w') q = None \/ leaf_at (w_root w') q = leaf_at (w_root w) q)
  /\ (forall n, x = Ok n -> 0 <= n <= zlen rs)
  /\ (forall n, x = Ok n -> dir_at (w_root w) [] -> allow = true -> c_dryrun c = false -> forall r, In r rs ->
       exists p, src_to_dst (c_mapper c) (r_uri r) = Ok p /\
       (p <> [] -> means_dir p = false -> leaf_at (w_root w') (resolve (e_cwd E) p) = None))
  /\ (forall n, x = Ok n -> (n = 0 <-> w_root w' = w_root w))
  /\ (forall n, x = Ok n -> dir_at (w_root w) [] -> allow = true -> c_dryrun c = false -> NoDup (map r_uri rs) ->
       (forall r, In r rs -> exists p, src_to_dst (c_mapper c) (r_uri r) = Ok p /\ p <> [] /\ means_dir p = false
          /\ leaf_at (w_root w) (resolve (e_cwd E) p) <> None
          /\ forall r', In r' rs -> target E c r' (resolve (e_cwd E) p) -> r_uri r' = r_uri r) -> n = zlen rs)
  /\ (w_last w' = w_last w \/ exists r, In r rs /\ r_timestamp r = Some (w_last w'))
  /\ (forall n, x = Ok n -> forall r t, In r rs -> r_timestamp r = Some t -> t <= w_last w').
Proof.
  induction rs as [|r rs IH]; intros w w' x T F H; cbn [for_each] in H.
  - injection H as <- <-. split; [apply only_at_refl|]. split; [lia|]. split; [reflexivity|]. split; [reflexivity|].
    split; [auto|]. split; [auto|]. split; [intros n [= <-]; unfold zlen; cbn; lia|]. split; [intros n _ _ _ _ r []|].
    split; [intros n [= <-]; tauto|]. split; [intros n [= <-] _ _ _ _ _; reflexivity|]. split; [auto|intros n _ r t []].
  - apply andthen_inv in H. destruct H as [(w1 & p & S & H)|(e & S & ->)].
    2:{ unfold lift in S. injection S as <- S. split; [apply only_at_refl|]. split; [lia|]. repeat split; auto; discriminate. }
    unfold lift in S. injection S as <- S.
    apply andthen_inv in H. destruct H as [(w2 & m & U & H)|(e & U & ->)].
    2:{ apply delete_effect in U; [|exact T]. destruct U as (_ & _ & _ & _ & (n & X & _) & _). discriminate. }
    pose proof (delete_effect _ _ _ _ _ _ _ _ T U) as (U1 & U2 & U3 & U4 & (n1 & X1 & U5 & U6 & U7) & U8 & U9 & U10).
    injection X1 as <-.
    assert (exists y, for_each c (delete_resource E c allow) rs w2 = (w', y) /\
      (forall n, x = Ok n -> exists m', y = Ok m' /\ n = m + m')) as (y & H' & XY).
    { apply andthen_inv in H. destruct H as [(w3 & m' & F' & H)|(e & F' & ->)].
      - injection H as <- <-. exists (Ok m'). split; [exact F'|]. intros n [= <-]. eauto.
      - exists (Err e). split; [exact F'|]. discriminate. }
    apply IH in H'; [|apply (oa_tree _ _ _ _ U1); auto|exact F].
    destruct H' as (I1 & I2 & I3 & I4 & I5 & I6 & I7 & I8 & I8' & I9 & I10 & I11). clear IH H.
    assert (forall q, leaf_at (w_root w2) q = None \/ leaf_at (w_root w2) q = leaf_at (w_root w) q) as L2.
    { intros q. destruct U5 as [-> | ->]; [rewrite U6; auto|]. destruct (U7 eq_refl) as (_ & _ & _ & L).
      destruct (path_eq_dec q (resolve (e_cwd E) p)) as [->|N]; [left; exact L|right; apply (oa_leaf _ _ _ _ U1); exact N]. }
    split; [eapply only_at_trans; [apply (only_at_mono _ _ _ _ _ (places_head E c r rs p S) U1)|apply (only_at_mono _ _ _ _ _ (places_tail E c r rs) I1)]|].
    split; [lia|]. split; [congruence|]. split; [congruence|].
    split. { intros A. rewrite I5 by exact A. destruct U5 as [U5|U5]; [auto|]. destruct (U7 U5) as (A1 & A2 & _). rewrite A1, A2 in A. discriminate. }
    split. { intros q. destruct (I6 q) as [|I6']; [auto|]. rewrite I6'. apply L2. }
    split. { intros n X. destruct (XY n X) as (m' & -> & ->). specialize (I7 m' eq_refl). unfold zlen in *. cbn [List.length].
             destruct U5; lia. }
    split. { intros n X R A D r0 [<-|I0].
      - exists p. split; [exact S|]. intros N M. destruct (XY n X) as (m' & -> & ->).
        assert (leaf_at (w_root w2) (resolve (e_cwd E) p) = None) as Z.
        { destruct (leaf_at (w_root w) (resolve (e_cwd E) p)) eqn:LF.
          - specialize (U8 R A D N M ltac:(discriminate)). injection U8 as ->. apply U7. reflexivity.
          - destruct U5 as [-> | ->]; [rewrite U6 by reflexivity; exact LF|apply U7; reflexivity]. }
        destruct (I6 (resolve (e_cwd E) p)); congruence.
      - destruct (XY n X) as (m' & -> & ->). apply (I8 m' eq_refl); auto. apply (oa_dir _ _ _ _ U1), R. }
    split. { intros n X. destruct (XY n X) as (m' & -> & ->). pose proof (I7 m' eq_refl) as M7. specialize (I8' m' eq_refl). split.
      - intros Z. assert (m = 0 /\ m' = 0) as [-> ->] by (destruct U5; lia). rewrite (proj1 I8' eq_refl). auto.
      - intros R. destruct U5 as [-> | ->].
        + rewrite (proj2 I8'); [lia|]. rewrite R. symmetry. auto.
        + exfalso. destruct (U7 eq_refl) as (_ & _ & A & B). destruct (I6 (resolve (e_cwd E) p)); rewrite R in *; congruence. }
    split. { intros n X R A D N Q. destruct (XY n X) as (m' & -> & ->). apply NoDup_cons_iff in N. destruct N as [NI N'].
      destruct (Q r (or_introl eq_refl)) as (p' & S' & P1 & P2 & P3 & P4).
      assert (p' = p) as -> by congruence.
      specialize (U8 R A D P1 P2 P3). injection U8 as ->.
      rewrite (I9 m' eq_refl); auto.
      - unfold zlen. cbn [List.length]. lia.
      - apply (oa_dir _ _ _ _ U1), R.
      - intros r0 I0. destruct (Q r0 (or_intror I0)) as (p0 & S0 & Q1 & Q2 & Q3 & Q4). exists p0.
        split; [exact S0|]. split; [exact Q1|]. split; [exact Q2|]. split.
        + rewrite (oa_leaf _ _ _ _ U1); [exact Q3|]. intros Eq. apply NI.
          assert (r_uri r = r_uri r0) as -> by (apply Q4; [left; reflexivity|]; apply target_resolve; exists p; auto).
          apply in_map, I0.
        + intros r' I'. apply Q4. right. exact I'. }
    split.
    + destruct I10 as [I10|(r0 & I0 & T0)]; [|right; exists r0; split; [right; exact I0|exact T0]].
      destruct U9 as [U9|U9]; [left; congruence|]. right. exists r. split; [left; reflexivity|congruence].
    + intros n X r0 t [<-|I0] T0; destruct (XY n X) as (m' & -> & ->).
      * specialize (U10 t T0). lia.
      * apply (I11 m' eq_refl r0 t I0 T0).
Qed.

(** ** Baseline synchronization and audit, step by step *)

Definition transfers (E : env) (c : client) (allow : bool) (cmp : cmp_result) : act (Z * Z * Z) :=
  do nc <- for_each c (update_resource E c) (rl_iter (created cmp)) ;;
  do nu <- for_each c (update_resource E c) (rl_iter (updated cmp)) ;;
  do nd <- for_each c (delete_resource E c allow) (rl_iter (deleted cmp)) ;;
  ret (nc, nu, nd).
Definition differences (cmp : cmp_result) : Z := zlen (updated cmp) + zlen (deleted cmp) + zlen (created cmp).
Definition store_if_any (E : env) (c : client) : act unit := fun w => if 0 <? w_last w then store_last E c w else (w, Ok tt).
Definition authority_ok (c : client) (src : rdict) : res unit :=
  if c_noauth c then Ok tt
  else let* sm := sitemap c in
       let* a := make_authority (Some sm) (c_strictauth c) in
       check_authority (has_authority_over a) (rl_iter src).

Lemma synchronize_inv E c allow src cmp w w' x : synchronize E c allow src cmp w = (w', x) ->
  (exists e, authority_ok c src = Err e /\ w' = w /\ x = Err e) \/
  (authority_ok c src = Ok tt /\
    ((exists e, transfers E c allow cmp (with_last 0 w) = (w', Err e) /\ x = Err e) \/
     exists w1 nc nu nd, transfers E c allow cmp (with_last 0 w) = (w1, Ok (nc, nu, nd)) /\
       ((exists e, store_if_any E c w1 = (w', Err e) /\ x = Err e) \/
        exists w2, store_if_any E c w1 = (w2, Ok tt) /\
          log_status (differences cmp =? 0) false false (Some (zlen (same cmp))) nc nu nd (zlen (deleted cmp)) w2 = (w', x)))).
Proof.
  unfold synchronize. intros H. apply andthen_inv in H. destruct H as [(w1 & [] & A & H)|(e & A & ->)];
    unfold lift in A; injection A as <- A.
  2:{ left. exists e. unfold authority_ok. auto. }
  right. split; [exact A|].
  unfold andthen at 1 in H. unfold modify at 1 in H.
  apply andthen_inv in H. destruct H as [(w1 & nc & C & H)|(e & C & ->)].
  2:{ left. exists e. unfold transfers, andthen. rewrite C. auto. }
  apply andthen_inv in H. destruct H as [(w2 & nu & U & H)|(e & U & ->)].
  2:{ left. exists e. unfold transfers, andthen. rewrite C, U. auto. }
  apply andthen_inv in H. destruct H as [(w3 & nd & D & H)|(e & D & ->)].
  2:{ left. exists e. unfold transfers, andthen. rewrite C, U, D. auto. }
  right. exists w3, nc, nu, nd. split; [unfold transfers, andthen; rewrite C, U, D; reflexivity|].
  apply andthen_inv in H. destruct H as [(w4 & [] & S & H)|(e & S & ->)]; [right|left]; eauto.
Qed.

(** The world as it is when the differences are known. *)
Definition after_report (src : rdict) (cmp : cmp_result) (w : world) : world :=
  let w := match w_hashes w with [] => w | _ => with_hashes (discard_all (rl_hashes src) (w_hashes w)) w end in
  fst (log_status (differences cmp =? 0) false true (Some (zlen (same cmp)))
    (zlen (created cmp)) (zlen (updated cmp)) (zlen (deleted cmp)) 0 w).
Definition pruned_world (src : rdict) (w : world) : world :=
  match w_hashes w with [] => w | _ => with_hashes (discard_all (rl_hashes src) (w_hashes w)) w end.

Lemma baseline_inv E c allow audit w w' x : baseline_or_audit E c allow audit w = (w', x) ->
  (exists e, x = Err e /\ no_effect w w' /\ w_log w' = w_log w /\ w_last w' = w_last w) \/
  (exists src dst cmp, c_mapper c <> [] /\ (audit = false -> unsafe (c_mapper c) = Ok false)
    /\ find_resource_list (e_fetch E) c = Ok src /\ src <> [] /\ scan E c (pruned_world src w) = Ok dst
    /\ compare 0 1 dst src = Ok cmp
    /\ if audit || (differences cmp =? 0) then w' = after_report src cmp w /\ x = Ok tt
       else synchronize E c allow src cmp (after_report src cmp w) = (w', x)).
Proof.
  unfold baseline_or_audit. intros H.
  destruct (match c_mapper c with [] => true | _ => false end) eqn:M.
  { injection H as <- <-. left. exists ClientFatalError. repeat split. }
  apply andthen_inv in H. destruct H as [(w1 & bad & U & H)|(e & U & ->)]; unfold lift in U; injection U as <- U.
  2:{ left. exists e. repeat split. }
  destruct bad.
  { injection H as <- <-. left. exists ClientFatalError. repeat split. }
  apply andthen_inv in H. destruct H as [(w1 & src & F & H)|(e & F & ->)]; unfold lift in F; injection F as <- F.
  2:{ left. exists e. repeat split. }
  destruct (match src with [] => true | _ => false end) eqn:SE.
  { injection H as <- <-. left. exists ClientFatalError. repeat split. }
  apply andthen_inv in H. destruct H as [(w1 & [] & P & H)|(e & P & ->)].
  2:{ destruct (w_hashes w); discriminate. }
  assert (w1 = pruned_world src w) as ->.
  { unfold pruned_world. destruct (w_hashes w) eqn:HW; injection P as <-; [reflexivity|]. rewrite HW. reflexivity. }
  assert (no_effect w (pruned_world src w) /\ w_log (pruned_world src w) = w_log w /\ w_last (pruned_world src w) = w_last w) as N.
  { unfold pruned_world. destruct (w_hashes w); repeat split. }
  apply andthen_inv in H. destruct H as [(w1 & dst & S & H)|(e & S & ->)]; injection S as <- S.
  2:{ left. exists e. split; [reflexivity|exact N]. }
  apply andthen_inv in H. destruct H as [(w1 & cmp & C & H)|(e & C & ->)]; unfold lift in C; injection C as <- C.
  2:{ left. exists e. split; [reflexivity|exact N]. }
  right. exists src, dst, cmp. split; [intros Q; rewrite Q in M; discriminate|].
  split; [intros ->; exact U|]. split; [exact F|]. split; [intros ->; discriminate|]. split; [exact S|]. split; [exact C|].
  change (zlen (updated cmp) + zlen (deleted cmp) + zlen (created cmp)) with (differences cmp) in H.
  replace (zlen (created cmp) + zlen (updated cmp) + zlen (deleted cmp)) with (differences cmp) in H by (unfold differences; lia).
  unfold andthen at 1 in H.
  destruct (log_status _ _ _ _ _ _ _ _ (pruned_world src w)) as [w1 y] eqn:L.
  assert (y = Ok tt) as -> by (injection L as _ <-; reflexivity).
  assert (after_report src cmp w = w1) as ->.
  { unfold after_report. fold (pruned_world src w). rewrite L. reflexivity. }
  destruct (audit || (differences cmp =? 0)); [|exact H]. injection H as <- <-. auto.
Qed.

Lemma after_report_same src cmp w : no_effect w (after_report src cmp w) /\ w_last (after_report src cmp w) = w_last w.
Proof. unfold after_report. destruct (w_hashes w); repeat split. Qed.

Definition removed (w w' : world) (q : list str) : Prop := leaf_at (w_root w) q <> None /\ leaf_at (w_root w') q = None.
Lemma keeps_removed w w' : keeps w w' <-> forall q, ~ removed w w' q.
Proof.
  split.
  - intros K q [A B]. exact (K q A B).
  - intros N q A B. apply (N q). split; auto.
Qed.
Lemma removed_trans a b c q : removed a c q -> removed a b q \/ removed b c q.
Proof. intros [A C]. unfold removed. destruct (leaf_at (w_root b) q) eqn:L; [right|left]; split; auto; congruence. Qed.

Lemma NoDup_app_r {A} (a b : list A) : NoDup (a ++ b) -> NoDup b.
Proof. induction a as [|x a IH]; [auto|]. intros H. inversion H; subst; auto. Qed.
Lemma NoDup_app_l {A} (a b : list A) : NoDup (a ++ b) -> NoDup a.
Proof.
  induction a as [|x a IH]; [constructor|]. intros H. inversion H as [|? ? NI H']; subst. constructor; [|auto].
  intros I. apply NI, in_app_iff. auto.
Qed.
Lemma NoDup_app_not {A} (a b : list A) x : NoDup (a ++ b) -> In x a -> In x b -> False.
Proof.
  induction a as [|y a IH]; [intros _ []|]. intros H. inversion H as [|? ? NI H']; subst. intros [->|I] J; [|eauto].
  apply NI, in_app_iff. auto.
Qed.

Definition good_file_path (p : str) : Prop := p <> [] /\ means_dir p = false.

Lemma transfers_effect E c allow cmp w w' x : tree_ok (w_root w) -> Forall file_name (e_cwd E) ->
  transfers E c allow cmp w = (w', x) ->
  let cr := rl_iter (created cmp) in let up := rl_iter (updated cmp) in let de := rl_iter (deleted cmp) in
  only_at (e_cwd E) (places E c (cr ++ up ++ de)) w w'
  /\ w_last w <= w_last w'
  /\ (exists l, w_gets w' = w_gets w ++ l /\ forall u, In u l -> In u (map r_uri (cr ++ up)))
  /\ (forall q, removed w w' q -> allow = true /\ c_dryrun c = false /\ places E c de q)
  /\ (c_dryrun c = true -> w_gets w' = w_gets w /\ w_log w' = w_log w /\ (de = [] -> w_last w' = w_last w)
       /\ forall q, leaf_at (w_root w') q = leaf_at (w_root w) q)
  /\ (w_last w' = w_last w \/ exists r, In r (cr ++ up ++ de) /\ r_timestamp r = Some (w_last w'))
  /\ (forall nc nu nd, x = Ok (nc, nu, nd) -> 0 <= nd <= zlen de)
  /\ (forall nc nu nd, x = Ok (nc, nu, nd) -> c_dryrun c = false -> c_ignore_failures c = false -> (0 < c_tries c)%nat ->
       NoDup (map r_uri (cr ++ up ++ de)) ->
       nc = zlen cr /\ nu = zlen up
       /\ (forall r, In r (cr ++ up) -> exists p, src_to_dst (c_mapper c) (r_uri r) = Ok p /\ means_dir p = false /\
           ((forall r', In r' (cr ++ up ++ de) -> target E c r' (resolve (e_cwd E) p) -> r_uri r' = r_uri r) ->
            exists f, leaf_at (w_root w') (resolve (e_cwd E) p) = Some f /\ downloaded E w w' r f))
       /\ (dir_at (w_root w) [] -> allow = true ->
           (forall r, In r de -> exists p, src_to_dst (c_mapper c) (r_uri r) = Ok p /\
              (good_file_path p -> leaf_at (w_root w') (resolve (e_cwd E) p) = None))
           /\ ((forall r, In r de -> exists p, src_to_dst (c_mapper c) (r_uri r) = Ok p /\ good_file_path p
                 /\ leaf_at (w_root w) (resolve (e_cwd E) p) <> None
                 /\ forall r', In r' de -> target E c r' (resolve (e_cwd E) p) -> r_uri r' = r_uri r) -> nd = zlen de))).
Proof.
  intros T F H cr up de. unfold transfers in H. fold cr up de in H.
  assert (forall q, places E c cr q -> places E c (cr ++ up ++ de) q) as PC by (intros q; rewrite !places_app; auto).
  assert (forall q, places E c up q -> places E c (cr ++ up ++ de) q) as PU by (intros q; rewrite !places_app; auto).
  assert (forall q, places E c de q -> places E c (cr ++ up ++ de) q) as PD by (intros q; rewrite !places_app; auto).
  apply andthen_inv in H. destruct H as [(w1 & nc & C & H)|(e & C & ->)]; apply for_each_update in C;
    destruct C as (C1 & C2 & C3 & (lc & C4 & C4') & C5 & C6 & C7 & _).
  2:{ split; [apply (only_at_mono _ _ _ _ _ PC C1)|]. split; [exact C3|].
      split; [exists lc; split; [exact C4|]; intros u I; rewrite map_app, in_app_iff; auto|].
      split; [intros q R; destruct (proj1 (keeps_removed _ _) C2 q R)|].
      split; [intros D; destruct (C5 D) as (? & ? & ? & ?); auto|].
      split; [destruct C7 as [|(r & I & Z)]; [auto|right; exists r; rewrite in_app_iff; auto]|].
      split; discriminate. }
  apply andthen_inv in H. destruct H as [(w2 & nu & U & H)|(e & U & ->)]; apply for_each_update in U;
    destruct U as (U1 & U2 & U3 & (lu & U4 & U4') & U5 & U6 & U7 & _).
  2:{ split; [eapply only_at_trans; [apply (only_at_mono _ _ _ _ _ PC C1)|apply (only_at_mono _ _ _ _ _ PU U1)]|]. split; [lia|].
      split; [exists (lc ++ lu); split; [rewrite U4, C4, app_assoc; reflexivity|]; intros u I; rewrite map_app, in_app_iff; apply in_app_iff in I; destruct I; auto|].
      split; [intros q R; destruct (proj1 (keeps_removed _ _) (keeps_trans _ _ _ C2 U2) q R)|].
      split. { intros D; destruct (C5 D) as (X1 & X2 & X3 & X4), (U5 D) as (Y1 & Y2 & Y3 & Y4).
               split; [congruence|]. split; [congruence|]. split; [congruence|]. intros q. now rewrite Y4. }
      split. { destruct U7 as [U7|(r & I & Z)]; [|right; exists r; rewrite !in_app_iff; auto].
               rewrite U7. destruct C7 as [|(r & I & Z)]; [auto|right; exists r; rewrite in_app_iff; auto]. }
      split; discriminate. }
  assert (tree_ok (w_root w2)) as T2 by (apply (oa_tree _ _ _ _ U1); auto; apply (oa_tree _ _ _ _ C1); auto).
  assert (exists y, for_each c (delete_resource E c allow) de w2 = (w', y)
    /\ (forall nc' nu' nd, x = Ok (nc', nu', nd) -> y = Ok nd /\ nc' = nc /\ nu' = nu)) as (y & D & XY).
  { apply andthen_inv in H. destruct H as [(w3 & nd & D & H)|(e & D & ->)].
    - injection H as <- <-. exists (Ok nd). split; [exact D|]. intros ? ? ? [= <- <- <-]. auto.
    - exists (Err e). split; [exact D|discriminate]. }
  clear H. apply for_each_delete in D; [|exact T2|exact F].
  destruct D as (D1 & D2 & D3 & D4 & D5 & D6 & D7 & D8 & D8' & D9 & D10 & _).
  split; [eapply only_at_trans; [apply (only_at_mono _ _ _ _ _ PC C1)|eapply only_at_trans; [apply (only_at_mono _ _ _ _ _ PU U1)|apply (only_at_mono _ _ _ _ _ PD D1)]]|].
  split; [lia|].
  split; [exists (lc ++ lu); split; [rewrite D3, U4, C4, app_assoc; reflexivity|]; intros u I; rewrite map_app, in_app_iff; apply in_app_iff in I; destruct I; auto|].
  split.
  { intros q R. apply (removed_trans _ w2) in R. destruct R as [R|R].
    - destruct (proj1 (keeps_removed _ _) (keeps_trans _ _ _ C2 U2) q R).
    - destruct (allow && negb (c_dryrun c)) eqn:AD.
      + apply andb_true_iff in AD. destruct AD as [-> ND]. apply negb_true_iff in ND. split; [reflexivity|]. split; [exact ND|].
        destruct (in_dec path_eq_dec q (map (fun r => match src_to_dst (c_mapper c) (r_uri r) with Ok p => resolve (e_cwd E) p | _ => [] end)
                    (filter (fun r => match src_to_dst (c_mapper c) (r_uri r) with Ok _ => true | _ => false end) de))) as [I|N].
        * apply in_map_iff in I. destruct I as (r & <- & I). apply filter_In in I. destruct I as [I S].
          exists r. split; [exact I|]. apply target_resolve. destruct (src_to_dst _ _) as [p|] eqn:SD; [|discriminate]. eauto.
        * exfalso. destruct R as [R1 R2]. rewrite (oa_leaf _ _ _ _ D1) in R2; [contradiction|].
          intros (r & I & Tg). apply target_resolve in Tg. destruct Tg as (p & S & ->). apply N, in_map_iff. exists r.
          rewrite S. split; [reflexivity|]. apply filter_In. split; [exact I|]. now rewrite S.
      + destruct R as [R1 R2]. rewrite D5 in R2 by reflexivity. contradiction. }
  split.
  { intros DR. destruct (C5 DR) as (X1 & X2 & X3 & X4), (U5 DR) as (Y1 & Y2 & Y3 & Y4).
    split; [congruence|]. split; [congruence|]. split.
    - intros Z. destruct D10 as [D10|(r & I & _)]; [congruence|]. rewrite Z in I. destruct I.
    - intros q. rewrite D5, Y4, X4; [reflexivity|]. rewrite DR. destruct allow; reflexivity. }
  split.
  { destruct D10 as [D10|(r & I & Z)]; [rewrite D10|right; exists r; rewrite !in_app_iff; auto].
    destruct U7 as [U7|(r & I & Z)]; [rewrite U7|right; exists r; rewrite !in_app_iff; auto].
    destruct C7 as [|(r & I & Z)]; [auto|right; exists r; rewrite in_app_iff; auto]. }
  split; [intros a b n X; destruct (XY _ _ _ X) as (Y & _ & _); apply D7; exact Y|].
  intros nc' nu' nd X DR IG TR N. destruct (XY _ _ _ X) as (Y & -> & ->). clear XY.
  assert (N1 : NoDup (map r_uri cr)) by (rewrite map_app in N; apply NoDup_app_l in N; exact N).
  assert (N2 : NoDup (map r_uri (up ++ de))) by (rewrite map_app in N; apply NoDup_app_r in N; exact N).
  assert (N3 : NoDup (map r_uri up)) by (rewrite map_app in N2; apply NoDup_app_l in N2; exact N2).
  assert (N4 : NoDup (map r_uri de)) by (rewrite map_app in N2; apply NoDup_app_r in N2; exact N2).
  destruct (C6 nc eq_refl DR IG TR N1) as (-> & C6'). destruct (U6 nu eq_refl DR IG TR N3) as (-> & U6').
  split; [reflexivity|]. split; [reflexivity|]. split.
  - intros r I. apply in_app_iff in I. destruct I as [I|I].
    + destruct (C6' r I) as (p & S & M & Q). exists p. split; [exact S|]. split; [exact M|]. intros UQ.
      destruct Q as (f & L & DL); [intros r' I'; apply UQ; rewrite in_app_iff; auto|]. exists f.
      split; [|apply (downloaded_mono _ w w w1 w' _ _ [] lu); [now rewrite app_nil_r|congruence|exact DL]].
      rewrite (oa_leaf _ _ _ _ D1), (oa_leaf _ _ _ _ U1); [exact L| |].
      * intros (r' & I' & T'). rewrite map_app in N. apply (NoDup_app_not _ _ (r_uri r) N); [apply in_map, I|].
        rewrite <- (UQ r'); [apply in_map, in_app_iff; auto|rewrite !in_app_iff; auto|exact T'].
      * intros (r' & I' & T'). rewrite map_app in N. apply (NoDup_app_not _ _ (r_uri r) N); [apply in_map, I|].
        rewrite <- (UQ r'); [apply in_map, in_app_iff; auto|rewrite !in_app_iff; auto|exact T'].
    + destruct (U6' r I) as (p & S & M & Q). exists p. split; [exact S|]. split; [exact M|]. intros UQ.
      destruct Q as (f & L & DL); [intros r' I'; apply UQ; rewrite !in_app_iff; auto|]. exists f.
      split; [|apply (downloaded_mono _ w w1 w2 w' _ _ lc []); [exact C4|rewrite app_nil_r; exact D3|exact DL]].
      rewrite (oa_leaf _ _ _ _ D1); [exact L|].
      intros (r' & I' & T'). rewrite map_app in N2. apply (NoDup_app_not _ _ (r_uri r) N2); [apply in_map, I|].
      rewrite <- (UQ r'); [apply in_map, I'|rewrite !in_app_iff; auto|exact T'].
  - intros R A. assert (dir_at (w_root w2) []) as R2 by (apply (oa_dir _ _ _ _ U1), (oa_dir _ _ _ _ C1), R).
    split.
    + intros r I. destruct (D8 nd Y R2 A DR r I) as (p & S & Q). exists p. split; [exact S|]. intros [G1 G2]. auto.
    + intros Q. apply (D9 nd Y R2 A DR N4). intros r I. destruct (Q r I) as (p & S & [G1 G2] & L & UQ). exists p.
      split; [exact S|]. split; [exact G1|]. split; [exact G2|]. split; [|exact UQ].
      apply U2, C2, L.
Qed.
