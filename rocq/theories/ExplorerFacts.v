(** * ExplorerFacts: proofs about the explorer *)

From Verif Require Import Py PyFacts Float64 Regex RegexFacts W3C Url OsPath Mapper MapperSpec MapperFacts
  UrlSpec UrlFacts Resource Xml Sitemap DiscoveryFacts Explorer ExplorerSpec.

(** ** Printing code *)

Lemma obind_ok {A B} (m : out A) (f : A -> out B) l b :
  obind m f = (l, Ok b) -> exists a l1 l2, m = (l1, Ok a) /\ f a = (l2, Ok b) /\ l = l1 ++ l2.
Proof.
  unfold obind, say. destruct m as [l1 [a|e]]; cbn [fst snd]; [|discriminate].
  destruct (f a) as [l2 r] eqn:E. cbn [fst snd]. injection 1 as <- ->. eauto 8.
Qed.
Lemma say_ok {A} l0 (m : out A) l a : say l0 m = (l, Ok a) -> exists l1, m = (l1, Ok a) /\ l = l0 ++ l1.
Proof. unfold say. destruct m as [l1 r]. cbn. injection 1 as <- ->. eauto. Qed.

(** ** Names of capabilities *)

Definition lit_then (l : str) : re := fold_right (fun c r => Cat (chr c) r) Eos l.
Lemma R_lit_then l : forall p c w k c',
  R (lit_then l) p c w k c' <-> w = l /\ c' = c /\ (k = [] \/ k = [nl]).
Proof.
  induction l as [|x l IH]; intros p c w k c'; cbn [lit_then fold_right].
  - apply R_eos_iff.
  - rewrite R_cat_iff. split.
    + intros (w1 & w2 & c1 & -> & H1 & H2). apply R_cls_iff in H1 as (y & -> & M & ->).
      apply IH in H2 as (-> & -> & K). rewrite cls_single in M. apply ceqb_eq in M as ->. auto.
    + intros (-> & -> & K). exists [x], l, c. split; [reflexivity|]. split.
      * apply R_cls_iff. exists x. rewrite cls_single, ceqb_refl. auto.
      * apply IH. auto.
Qed.
Definition suffix_re (l : str) : re :=
  Cat (Grp 1 (Cat (Cls true [CSingle nl]) (Star (Cls true [CSingle nl])))) (lit_then l).
Lemma index_re : re_const $"(.+)index$" = suffix_re $"index".
Proof. reflexivity. Qed.
Lemma archive_re : re_const $"(.+)\-archive$" = suffix_re $"-archive".
Proof. reflexivity. Qed.
Lemma R_suffix l w k c :
  R (suffix_re l) 0 [] w k c <->
  exists x, x <> [] /\ one_line x /\ w = x ++ l /\ c = dset Nat.eqb 1%nat x [] /\ (k = [] \/ k = [nl]).
Proof.
  unfold suffix_re. rewrite R_cat_iff. split.
  - intros (w1 & w2 & c1 & -> & H1 & H2). apply R_lit_then in H2 as (-> & -> & K).
    apply R_grp_iff in H1 as (c2 & H1 & ->). apply R_cat_iff in H1 as (a & b & c3 & -> & H1 & H2).
    apply R_cls_iff in H1 as (y & -> & Y & ->). apply R_star_cls_iff in H2 as (F & ->).
    exists ([y] ++ b). split; [discriminate|]. split; [|auto].
    intros [->|I].
    + rewrite cls_dot, ceqb_refl in Y. discriminate.
    + rewrite forallb_forall in F. specialize (F _ I). rewrite cls_dot, ceqb_refl in F. discriminate.
  - intros ([|y b] & N & O & -> & -> & K); [contradiction|].
    exists (y :: b), l, (dset Nat.eqb 1%nat (y :: b) []). split; [reflexivity|]. split; [|apply R_lit_then; auto].
    apply R_grp_iff. exists []. split; [|reflexivity]. apply R_cat_iff. exists [y], b, [].
    pose proof (one_line_dots (y :: b) O) as F. cbn [forallb] in F. apply andb_true_iff in F as [Y F].
    split; [reflexivity|]. split; [apply R_cls_iff; eauto|apply R_star_cls_iff; auto].
Qed.
Lemma suffix_match l x : x <> [] -> one_line (x ++ l) ->
  exists m, re_match (suffix_re l) (x ++ l) = Some m /\ cap_get 1 m = Some x.
Proof.
  intros N O. exists (MSt (List.length (x ++ l)) [] (dset Nat.eqb 1%nat x [])). split.
  - assert (Ox : one_line x) by (intros I; apply O, in_or_app; auto).
    apply re_match_unique; [now rewrite app_nil_r| |].
    + apply R_suffix. exists x. auto 6.
    + intros w k c E H. apply R_suffix in H as (y & Ny & Oy & -> & -> & [-> | ->]).
      * rewrite app_nil_r in E. apply app_inv_tail in E as ->. auto.
      * exfalso. apply O. rewrite E. apply in_or_app. right. now left.
  - apply cap_get_set.
Qed.
Lemma suffix_no_match l s : one_line s -> ~ ends_in l s -> re_match (suffix_re l) s = None.
Proof.
  intros O H. apply re_match_none. intros w k c -> HR.
  apply R_suffix in HR as (x & N & _ & -> & _ & [-> | ->]).
  - apply H. exists x. rewrite app_nil_r. auto.
  - apply O, in_or_app. right. now left.
Qed.

Lemma allowed_index x : x <> [] -> one_line x -> x <> $"capabilitylist" ->
  allowed_entries (x ++ $"index") = [x].
Proof.
  intros N O C. unfold allowed_entries.
  destruct (str_eqb_spec (x ++ $"index") $"capabilitylistindex") as [E|_].
  - exfalso. apply C. apply (app_inv_tail $"index"). exact E.
  - rewrite index_re. destruct (suffix_match $"index" x N) as (m & -> & G).
    + apply one_line_app. split; [exact O|]. unfold one_line. vm_compute. intuition discriminate.
    + now rewrite G.
Qed.
Lemma archive_not_index x : ~ ends_in $"index" (x ++ $"-archive").
Proof.
  intros (y & _ & E). apply (f_equal (@rev ascii)) in E. rewrite !rev_app_distr in E.
  vm_compute in E. discriminate E.
Qed.
Lemma allowed_archive x : x <> [] -> one_line x -> allowed_entries (x ++ $"-archive") = [x].
Proof.
  intros N O. unfold allowed_entries.
  assert (Oa : one_line (x ++ $"-archive")).
  { apply one_line_app. split; [exact O|]. unfold one_line. vm_compute. intuition discriminate. }
  destruct (str_eqb_spec (x ++ $"-archive") $"capabilitylistindex") as [E|_].
  - exfalso. apply (archive_not_index x). rewrite E. exists $"capabilitylist". split; [discriminate|reflexivity].
  - rewrite index_re, archive_re, (suffix_no_match $"index" _ Oa (archive_not_index x)).
    destruct (suffix_match $"-archive" x N Oa) as (m & -> & G). now rewrite G.
Qed.
Lemma allowed_other c : one_line c -> ~ ends_in $"index" c -> ~ ends_in $"-archive" c ->
  c <> $"description" -> c <> $"capabilitylist" -> allowed_entries c = [].
Proof.
  intros O I A D C. unfold allowed_entries.
  destruct (str_eqb c $"capabilitylistindex"); [reflexivity|].
  rewrite index_re, archive_re, !suffix_no_match by assumption.
  destruct (str_eqb_spec c $"description"); [contradiction|].
  destruct (str_eqb_spec c $"capabilitylist"); [contradiction|]. reflexivity.
Qed.

(** ** Menus *)

Lemma expand_ok context u l uri : expand_relative_uri context u = (l, Ok uri) -> urljoin context u = Ok uri.
Proof.
  unfold expand_relative_uri. destruct (urljoin context u) as [full|]; [|discriminate].
  destruct (str_eqb_spec full u) as [<-|_]; injection 1 as <- <-; reflexivity.
Qed.
Lemma show_link_ok context ln key rel cap o l o' :
  show_link context ln key rel cap o = (l, Ok o') ->
  (exists lk u uri, find_link rel ln = Some lk /\ sget $"href" lk = Some (PStr u) /\
     urljoin context u = Ok uri /\ o' = sset key (set_capability cap (new_resource uri)) o)
  \/ (o' = o /\ forall lk, find_link rel ln = Some lk -> sget $"href" lk = None).
Proof.
  unfold show_link. destruct (find_link rel ln) as [[|kv lk]|].
  - injection 1 as <- <-. right. split; [reflexivity|]. injection 1 as <-. reflexivity.
  - destruct (sget $"href" (kv :: lk)) as [[u| |]|] eqn:S; try discriminate.
    + intros H. apply say_ok in H as (l1 & H & ->). apply obind_ok in H as (a & l2 & l3 & X & H & ->).
      injection H as <- <-. left. exists (kv :: lk), u, a. apply expand_ok in X. auto.
    + intros H. apply say_ok in H as (l1 & H & ->). injection H as <- <-. right. split; [reflexivity|].
      injection 1 as <-. exact S.
  - injection 1 as <- <-. right. split; [reflexivity|]. discriminate.
Qed.
Lemma show_link_option context ln key rel cap o l o' :
  show_link context ln key rel cap o = (l, Ok o') -> sget key o = None ->
  link_option context ln rel cap (sget key o') /\
  (forall k, k <> key -> sget k o' = sget k o) /\ incl (dkeys o') (key :: dkeys o).
Proof.
  intros H N. apply show_link_ok in H as [(lk & u & uri & F & S & U & ->)|[-> H]]; unfold link_option.
  - rewrite F, S. split; [|split].
    + exists u, uri. rewrite sget_sset_eq. auto.
    + intros k Hk. now apply sget_sset_ne.
    + intros k I. apply in_dkeys_sset in I as [-> | I]; [now left|now right].
  - split; [|split].
    + destruct (find_link rel ln) as [lk|]; [|exact N]. rewrite (H lk eq_refl). exact N.
    + reflexivity.
    + intros k I. now right.
Qed.

Lemma print_int_inj a b : print_int a = print_int b -> a = b.
Proof. intros E. pose proof (parse_print_int a) as H. rewrite E, parse_print_int in H. congruence. Qed.

Definition numbers (from count : nat) : list str := map (fun k => print_int (Z.of_nat k)) (seq from count).

Lemma entries_keys context caps to_show total : forall rs n o l o',
  show_entries context caps to_show total (Z.of_nat n) rs o = (l, Ok o') ->
  0 <= to_show ->
  (forall k, (n < k)%nat -> ~ In (print_int (Z.of_nat k)) (dkeys o)) ->
  exists es,
    o' = o ++ es /\ map fst es = numbers (S n) (Nat.min (List.length rs) (Z.to_nat to_show - n)) /\
    Forall2 (fun r p => entry_of context caps r (snd p)) (firstn (Z.to_nat to_show - n) rs) es.
Proof.
  induction rs as [|r rs IH]; intros n o l o' H P F; cbn [show_entries] in H.
  - injection H as <- <-. exists []. rewrite app_nil_r, firstn_nil. split; [reflexivity|]. split; constructor.
  - destruct (to_show <=? Z.of_nat n) eqn:L.
    + injection H as <- <-. replace (Z.to_nat to_show - n)%nat with 0%nat by lia.
      exists []. rewrite app_nil_r, Nat.min_0_r. repeat split; constructor.
    + apply say_ok in H as (l1 & H & ->). apply obind_ok in H as (uri & l2 & l3 & X & H & ->).
      apply obind_ok in H as (r' & l4 & l5 & C & H & ->).
      replace (Z.of_nat n + 1) with (Z.of_nat (S n)) in H by lia.
      rewrite sset_fresh in H by (apply F; lia).
      apply IH in H as (es & -> & K & E); [|exact P|].
      * exists ((print_int (Z.of_nat (S n)), r') :: es). split; [now rewrite <- app_assoc|].
        replace (Z.to_nat to_show - n)%nat with (S (Z.to_nat to_show - S n)) by lia.
        cbn [List.length Nat.min firstn map fst]. split; [unfold numbers; cbn [seq map]; f_equal; exact K|].
        constructor; [|exact E]. cbn [snd]. exists uri. split.
        -- exact (expand_ok _ _ _ _ X).
        -- unfold show_capability in C. change (r_capability (set_uri uri r)) with (r_capability r) in C.
           destruct r as [ru rt rl rm r5 r1 r2 rc rd rp rn rcap ra rco rf rn2]. cbn [r_capability set_uri] in *.
           destruct rcap as [c|]; [injection C as <- <-; reflexivity|].
           destruct caps as [|c [|c2 caps]]; injection C as <- <-; reflexivity.
      * intros k Hk. unfold dkeys in *. rewrite map_app, in_app_iff. intros [I|[E|[]]].
        -- revert I. apply F. lia.
        -- cbn [fst] in E. apply print_int_inj in E. lia.
Qed.

Lemma print_int_pos k : 0 < k -> exists c s, print_int k = c :: s /\ is_digit c = true.
Proof.
  intros K. unfold print_int. replace (k <? 0) with false by lia.
  pose proof (print_nat_digits k) as D. destruct (print_nat k) as [|c s] eqn:E; [now apply print_nat_nonempty in E|].
  cbn [forallb] in D. apply andb_true_iff in D as [D _]. eauto.
Qed.
Lemma numbers_in s from count : In s (numbers from count) ->
  exists k, (from <= k < from + count)%nat /\ s = print_int (Z.of_nat k).
Proof.
  unfold numbers. rewrite in_map_iff. intros (k & <- & I). apply in_seq in I. eauto.
Qed.
Lemma letter_not_number c k : is_digit c = false -> 0 < k -> print_int k <> [c].
Proof. intros D K E. destruct (print_int_pos k K) as (a & s & X & A). congruence. Qed.

(** The keys of the three links. *)
Definition link_keys : list str := [$"d"; $"u"; $"i"].

Lemma offered_count len :
  Z.to_nat (if 21 <? Z.of_nat len then 20 else Z.of_nat len) = offered len.
Proof. unfold offered. destruct (Nat.leb_spec len 21); destruct (Z.ltb_spec 21 (Z.of_nat len)); lia. Qed.

Lemma summary_menu d index expected context l o t :
  explore_show_summary d index expected context = (l, Ok (o, t)) ->
  document_type (d_md d) index = Ok t /\
  link_option context (d_ln d) $"describedby" (Some $"resource") (sget $"d" o) /\
  link_option context (d_ln d) $"up" None (sget $"u" o) /\
  link_option context (d_ln d) $"index" None (sget $"i" o) /\
  exists lo es, o = lo ++ es /\ incl (map fst lo) link_keys /\
    map fst es = numbers 1 (offered (List.length (d_items d))) /\
    Forall2 (fun r p => entry_of context (allowed_entries t) r (snd p))
      (firstn (offered (List.length (d_items d))) (d_items d)) es.
Proof.
  unfold explore_show_summary. destruct (document_type (d_md d) index) as [c|]; [|discriminate].
  intros H. apply say_ok in H as (l1 & H & ->).
  apply obind_ok in H as (o1 & l2 & l3 & H1 & H & ->).
  apply obind_ok in H as (o2 & l4 & l5 & H2 & H & ->).
  apply obind_ok in H as (o3 & l6 & l7 & H3 & H & ->).
  apply obind_ok in H as (o4 & l8 & l9 & H4 & H & ->).
  injection H as <- <- <-. split; [reflexivity|].
  apply show_link_option in H1 as (A1 & B1 & C1); [|reflexivity].
  apply show_link_option in H2 as (A2 & B2 & C2); [|now rewrite B1].
  apply show_link_option in H3 as (A3 & B3 & C3); [|rewrite B2, B1 by discriminate; reflexivity].
  assert (K : incl (dkeys o3) link_keys).
  { intros k I. apply C3 in I as [<-|I]; [right; right; now left|].
    apply C2 in I as [<-|I]; [right; now left|]. apply C1 in I as [<-|[]]. now left. }
  assert (NK : forall k, (0 < k)%nat -> ~ In (print_int (Z.of_nat k)) (dkeys o3)).
  { intros k Hk I. apply K in I. cbn [link_keys In] in I.
    destruct I as [E|[E|[E|[]]]]; symmetry in E; revert E; apply letter_not_number; auto; lia. }
  change 0 with (Z.of_nat 0) in H4 at 1.
  match type of H4 with show_entries _ _ ?ts _ _ _ _ = _ => set (to_show := ts) in * end.
  apply entries_keys in H4 as (es & -> & E1 & E2);
    [|unfold to_show; destruct (21 <? _); lia|intros k Hk; apply NK; lia].
  unfold to_show in E1, E2. rewrite offered_count, Nat.sub_0_r in E1, E2.
  assert (OL : (offered (List.length (d_items d)) <= List.length (d_items d))%nat)
    by (unfold offered; destruct (Nat.leb_spec (List.length (d_items d)) 21); lia).
  rewrite Nat.min_r in E1 by exact OL.
  assert (G : forall k, In k link_keys -> sget k (o3 ++ es) = sget k o3).
  { intros k Hk. rewrite sget_app. destruct (sget k o3) as [v|]; [reflexivity|].
    apply sget_none. intros I. unfold dkeys in I. rewrite E1 in I. apply numbers_in in I as (j & J & ->).
    cbn [link_keys In] in Hk. destruct Hk as [E|[E|[E|[]]]]; symmetry in E; revert E; apply letter_not_number; auto; lia. }
  rewrite !G by (cbn [link_keys In]; auto). split; [now rewrite B3, B2 by discriminate|].
  split; [now rewrite B3 by discriminate|]. split; [exact A3|].
  exists o3, es. auto.
Qed.

(** An entry by its number. *)
Lemma Forall2_nth {A B} (P : A -> B -> Prop) l l' : Forall2 P l l' ->
  forall i a, nth_error l i = Some a -> exists b, nth_error l' i = Some b /\ P a b.
Proof.
  induction 1 as [|a b l l' H F IH]; intros [|i] x E; try discriminate; cbn in *.
  - injection E as <-. eauto.
  - eauto.
Qed.
Lemma numbers_NoDup from count : NoDup (numbers from count).
Proof.
  unfold numbers. apply FinFun.Injective_map_NoDup; [|apply seq_NoDup].
  intros a b E. apply print_int_inj in E. lia.
Qed.
Lemma nth_firstn {A} (l : list A) : forall n k, (k < n)%nat -> nth_error (firstn n l) k = nth_error l k.
Proof.
  induction l as [|a l IH]; intros [|n] [|k] H; try lia; try reflexivity. cbn. apply IH. lia.
Qed.
Lemma numbered d index expected context l o t k r :
  explore_show_summary d index expected context = (l, Ok (o, t)) ->
  (k < offered (List.length (d_items d)))%nat -> nth_error (d_items d) k = Some r ->
  exists r', sget (print_int (Z.of_nat (S k))) o = Some r' /\ entry_of context (allowed_entries t) r r'.
Proof.
  intros H K N. apply summary_menu in H as (_ & _ & _ & _ & lo & es & -> & I & M & F).
  assert (N' : nth_error (firstn (offered (List.length (d_items d))) (d_items d)) k = Some r).
  { now rewrite nth_firstn. }
  apply (Forall2_nth _ _ _ F) in N' as ([key r'] & E & R). cbn [snd] in R. exists r'. split; [|exact R].
  rewrite sget_app. replace (sget (print_int (Z.of_nat (S k))) lo) with (@None resource).
  - pose proof (map_nth_error fst _ _ E) as E'. rewrite M in E'. cbn [fst] in E'.
    assert (key = print_int (Z.of_nat (S k))) as ->.
    { unfold numbers in E'. rewrite nth_error_map in E'.
      destruct (nth_error (seq 1 _) k) as [j|] eqn:J; [|discriminate]. injection E' as <-.
      apply nth_error_nth with (d := 0%nat) in J. rewrite seq_nth in J by exact K. subst j. reflexivity. }
    apply in_sget; [unfold dkeys; rewrite M; apply numbers_NoDup|]. eapply nth_error_In, E.
  - symmetry. apply sget_none. intros J. apply I in J. cbn [link_keys In] in J.
    destruct J as [E0|[E0|[E0|[]]]]; symmetry in E0; revert E0; apply letter_not_number; auto; lia.
Qed.
Lemma menu_keys d index expected context l o t key :
  explore_show_summary d index expected context = (l, Ok (o, t)) ->
  sget key o <> None ->
  In key [$"d"; $"u"; $"i"] \/
  exists k, (k < offered (List.length (d_items d)))%nat /\ key = print_int (Z.of_nat (S k)).
Proof.
  intros H K. apply summary_menu in H as (_ & _ & _ & _ & lo & es & -> & I & M & F).
  rewrite sget_app in K. destruct (sget key lo) as [v|] eqn:S.
  - left. apply I. apply sget_in in S. exact (in_map fst _ _ S).
  - right. destruct (sget key es) as [v|] eqn:E; [|contradiction].
    apply sget_in in E. apply (in_map fst) in E. rewrite M in E. cbn [fst] in E. apply numbers_in in E as (k & L & ->).
    exists (k - 1)%nat. split; [lia|]. do 2 f_equal. lia.
Qed.

(** ** Pages *)

Lemma page_menu e n x l o t key :
  show_page e n x = (l, Ok (o, t)) -> sget key o <> None ->
  exists text d index lo l0 c,
    x_caps x <> ResourceItself /\ xe_get e n (x_uri x) = Ok text /\
    parse_xml (MkSettings false false false) append_resource None None (MkDoc [] [] []) text = Ok (d, index) /\
    explore_show_summary d index lo (x_uri x) = (l0, Ok (o, c)) /\ t = Some c.
Proof.
  intros H K. unfold show_page in H. apply say_ok in H as (l1 & H & ->).
  match type of H with context [fst ?s] => remember s as shown eqn:E end.
  destruct shown as [sl [[o' t']|x0]]; cbn [fst snd] in H.
  - injection H as <- -> ->. symmetry in E. destruct (x_caps x) as [| |cs] eqn:C.
    + destruct (xe_get e n (x_uri x)) as [text|] eqn:G; [|discriminate E].
      destruct (parse_xml _ _ _ _ _ text) as [[d index]|] eqn:P; [|discriminate E].
      apply obind_ok in E as ([o1 c1] & l2 & l3 & S & R & ->). injection R as <- <- <-.
      exists text, d, index, None, l2, c1. repeat split; auto. discriminate.
    + apply obind_ok in E as (u & l2 & l3 & S & R & ->). injection R as <- <- <-. now contradiction K.
    + destruct (xe_get e n (x_uri x)) as [text|] eqn:G; [|discriminate E].
      destruct (parse_xml _ _ _ _ _ text) as [[d index]|] eqn:P; [|discriminate E].
      apply obind_ok in E as ([o1 c1] & l2 & l3 & S & R & ->). injection R as <- <- <-.
      exists text, d, index, (Some cs), l2, c1. repeat split; auto. discriminate.
  - destruct x0; try discriminate H; injection H as _ <- _; now contradiction K.
Qed.
Lemma page_no_letter e n x l o t c :
  show_page e n x = (l, Ok (o, t)) -> is_digit c = false -> ~ In [c] link_keys -> sget [c] o = None.
Proof.
  intros H D N. destruct (sget [c] o) as [r|] eqn:E; [|reflexivity]. exfalso.
  assert (K : sget [c] o <> None) by congruence.
  destruct (page_menu e n x l o t [c] H K) as (text & d & index & lo & l0 & c0 & _ & _ & _ & S & _).
  destruct (menu_keys _ _ _ _ _ _ _ [c] S K) as [I|(k & _ & I)]; [contradiction|].
  symmetry in I. revert I. apply letter_not_number; [exact D|lia].
Qed.
Lemma page_no_q e n x l o t : show_page e n x = (l, Ok (o, t)) -> sget $"q" o = None.
Proof.
  intros H. apply (page_no_letter e n x l o t "q"%char H); [reflexivity|].
  intros [E|[E|[E|[]]]]; discriminate E.
Qed.
Lemma page_no_b e n x l o t : show_page e n x = (l, Ok (o, t)) -> sget $"b" o = None.
Proof.
  intros H. apply (page_no_letter e n x l o t "b"%char H); [reflexivity|].
  intros [E|[E|[E|[]]]]; discriminate E.
Qed.

(** ** Navigation *)

Lemma choose_shorter b o : forall inputs l rest c,
  choose b o inputs = (l, rest, c) ->
  (List.length rest <= List.length inputs)%nat /\
  (c = InputEnded \/ (List.length rest < List.length inputs)%nat).
Proof.
  induction inputs as [|i inputs IH]; intros l rest c; cbn [choose].
  - injection 1 as <- <- <-. auto.
  - destruct (sget i o) as [r|]; [injection 1 as <- <- <-; cbn; lia|].
    destruct (str_eqb i $"q"); [injection 1 as <- <- <-; cbn; lia|].
    destruct (str_eqb i $"b"); [injection 1 as <- <- <-; cbn; lia|].
    destruct (choose b o inputs) as [[l' rest'] c'] eqn:E. injection 1 as <- <- <-.
    destruct (IH _ _ _ eq_refl) as [A B]. cbn [List.length]. split; [lia|]. right. lia.
Qed.
Lemma explore_uri_shorter e n x b inputs l rest m :
  explore_uri e n x b inputs = (l, rest, m) ->
  match m with Follow _ | Back => (List.length rest < List.length inputs)%nat | _ => True end.
Proof.
  unfold explore_uri. destruct (show_page e n x) as [pl [[o t]|y]]; [|injection 1 as <- <- <-; exact I].
  destruct (choose b o inputs) as [[l' rest'] c] eqn:C. injection 1 as <- <- <-.
  apply choose_shorter in C as [_ [->|C]]; [exact I|].
  destruct c; auto. destruct (follow t r); auto.
Qed.
Lemma explore_loop_fuel e : forall f1 f2 n h inputs,
  (List.length inputs < f1)%nat -> (List.length inputs < f2)%nat ->
  explore_loop f1 e n h inputs = explore_loop f2 e n h inputs.
Proof.
  induction f1 as [|f1 IH]; intros f2 n h inputs A B; [lia|]. destruct f2 as [|f2]; [lia|].
  cbn [explore_loop]. destruct h as [|x h]; [reflexivity|].
  destruct (explore_uri e n x _ inputs) as [[l rest] m] eqn:E.
  apply explore_uri_shorter in E. destruct m; auto; rewrite (IH f2) by lia; reflexivity.
Qed.
Lemma explore_step e n x h inputs :
  explore_from e n (x :: h) inputs =
  let '(l, rest, m) := explore_uri e n x (negb (Nat.eqb (List.length h) 0)) inputs in
  match m with
  | Follow y => after l (explore_from e (S n) (y :: x :: h) rest)
  | Back => after l (explore_from e (S n) h rest)
  | m => (l, S n, rest, Ended m)
  end.
Proof.
  unfold explore_from at 1. cbn [explore_loop].
  replace (match h with [] => false | _ :: _ => true end) with (negb (Nat.eqb (List.length h) 0)) by (destruct h; reflexivity).
  destruct (explore_uri e n x _ inputs) as [[l rest] m] eqn:E.
  apply explore_uri_shorter in E. unfold explore_from, after.
  destruct m; auto; rewrite (explore_loop_fuel e (List.length inputs) (S (List.length rest))) by lia; reflexivity.
Qed.

Lemma prompt_is {B} (o : menu) (h : list B) :
  Prompt (match o with [] => false | _ => true end) (negb (Nat.eqb (List.length h) 0)) = prompt o h.
Proof. unfold prompt. destruct o; reflexivity. Qed.

Section Nav.
  Variables (e : xenv) (n : nat) (x : xresource) (h : list xresource).
  Variables (l : list line) (o : menu) (t : option str).
  Hypothesis page : show_page e n x = (l, Ok (o, t)).

  Lemma nav_follow key r y rest : sget key o = Some r -> follow t r = Ok y ->
    explore_from e n (x :: h) (key :: rest) =
    after (l ++ [prompt o h]) (explore_from e (S n) (y :: x :: h) rest).
  Proof.
    intros K F. rewrite explore_step. unfold explore_uri. rewrite page. cbn [choose].
    rewrite K, prompt_is, F. reflexivity.
  Qed.
  Lemma nav_back rest :
    explore_from e n (x :: h) ($"b" :: rest) = after (l ++ [prompt o h]) (explore_from e (S n) h rest).
  Proof.
    rewrite explore_step. unfold explore_uri. rewrite page. cbn [choose].
    rewrite (page_no_b e n x l o t page), prompt_is.
    change (str_eqb $"b" $"q") with false. change (str_eqb $"b" $"b") with true. reflexivity.
  Qed.
  Lemma nav_quit rest :
    explore_from e n (x :: h) ($"q" :: rest) = (l ++ [prompt o h], S n, rest, Ended Quit).
  Proof.
    rewrite explore_step. unfold explore_uri. rewrite page. cbn [choose].
    rewrite (page_no_q e n x l o t page), prompt_is.
    change (str_eqb $"q" $"q") with true. reflexivity.
  Qed.
  Lemma nav_none : explore_from e n (x :: h) [] = (l ++ [prompt o h], S n, [], Ended NoInput).
  Proof.
    rewrite explore_step. unfold explore_uri. rewrite page. cbn [choose]. now rewrite prompt_is.
  Qed.
  Lemma nav_other inp rest : sget inp o = None -> inp <> $"q" -> inp <> $"b" ->
    exists tail n' rest' r,
      explore_from e n (x :: h) rest = (l ++ tail, n', rest', r) /\
      explore_from e n (x :: h) (inp :: rest) = (l ++ prompt o h :: tail, n', rest', r).
  Proof.
    intros K Q B. rewrite !explore_step. unfold explore_uri. rewrite page. cbn [choose]. rewrite K.
    destruct (str_eqb_spec inp $"q") as [|_]; [contradiction|].
    destruct (str_eqb_spec inp $"b") as [|_]; [contradiction|].
    destruct (choose _ o rest) as [[l' rest'] c]. rewrite prompt_is.
    destruct c as [r| | |].
    - destruct (follow t r) as [y|y].
      + destruct (explore_from e (S n) (y :: x :: h) rest') as [[[l2 n2] rest2] r2]. cbn [after].
        exists (l' ++ l2), n2, rest2, r2. rewrite <- !app_assoc. auto.
      + exists l', (S n), rest', (Ended (Raised y)). auto.
    - destruct (explore_from e (S n) h rest') as [[[l2 n2] rest2] r2]. cbn [after].
      exists (l' ++ l2), n2, rest2, r2. rewrite <- !app_assoc. auto.
    - exists l', (S n), rest', (Ended Quit). auto.
    - exists l', (S n), rest', (Ended NoInput). auto.
  Qed.
End Nav.

Lemma nav_empty e n inputs : explore_from e n [] inputs = ([], n, inputs, Emptied).
Proof. reflexivity. Qed.
Lemma nav_error e n x h l y inputs :
  show_page e n x = (l, Err y) -> explore_from e n (x :: h) inputs = (l, S n, inputs, Ended (Raised y)).
Proof. intros P. rewrite explore_step. unfold explore_uri. now rewrite P. Qed.
Lemma nav_bad_entry e n x h l o t key r y rest :
  show_page e n x = (l, Ok (o, t)) -> sget key o = Some r -> follow t r = Err y ->
  explore_from e n (x :: h) (key :: rest) = (l ++ [prompt o h], S n, rest, Ended (Raised y)).
Proof.
  intros P K F. rewrite explore_step. unfold explore_uri. rewrite P. cbn [choose]. now rewrite K, prompt_is, F.
Qed.

Lemma after_after l1 l2 p : after l1 (after l2 p) = after (l1 ++ l2) p.
Proof. destruct p as [[[l n] rest] r]. cbn. now rewrite app_assoc. Qed.
Lemma follow_back e n x h l o t key r y l' o' t' rest :
  show_page e n x = (l, Ok (o, t)) -> sget key o = Some r -> follow t r = Ok y ->
  show_page e (S n) y = (l', Ok (o', t')) ->
  explore_from e n (x :: h) (key :: $"b" :: rest) =
  after (l ++ [prompt o h] ++ l' ++ [prompt o' (x :: h)]) (explore_from e (S (S n)) (x :: h) rest).
Proof.
  intros P K F P'. rewrite (nav_follow e n x h l o t P key r y _ K F).
  rewrite (nav_back e (S n) y (x :: h) l' o' t' P'). rewrite after_after, <- app_assoc. reflexivity.
Qed.
Lemma excursion_returns e n x ins n' :
  excursion e n x ins n' -> forall h rest,
  exists l, explore_from e n (x :: h) (ins ++ rest) = after l (explore_from e n' (x :: h) rest).
Proof.
  induction 1 as [n x|n x key ins n1 ins' n2 l o t r y l' o' t' P K F E1 IH1 P' E2 IH2]; intros h rest.
  - exists []. change ([] ++ rest) with rest.
    now destruct (explore_from e n (x :: h) rest) as [[[l n'] rest'] r].
  - cbn [app]. rewrite (nav_follow e n x h l o t P key r y _ K F).
    rewrite <- app_assoc. destruct (IH1 (x :: h) (($"b" :: ins') ++ rest)) as (l1 & ->). cbn [app].
    rewrite (nav_back e n1 y (x :: h) l' o' t' P'). destruct (IH2 h rest) as (l2 & ->).
    rewrite !after_after. eauto.
Qed.

(** Whole sessions. *)
Lemma quit_session e n s starts inputs l n' rest :
  explore_from e n [s] inputs = (l, n', rest, Ended Quit) ->
  explore_all e n (s :: starts) inputs = (l ++ [Bye], rest, Finished).
Proof. intros H. cbn [explore_all]. now rewrite H. Qed.
Lemma next_start e n s starts inputs l n' rest :
  explore_from e n [s] inputs = (l, n', rest, Emptied) ->
  explore_all e n (s :: starts) inputs =
  let '(l', rest', o) := explore_all e n' starts rest in (l ++ l', rest', o).
Proof. intros H. cbn [explore_all]. now rewrite H. Qed.

(** ** What a page shows *)

Lemma shown_app a b : entries_shown (a ++ b) = entries_shown a ++ entries_shown b.
Proof. apply flat_map_app. Qed.
Lemma left_out_app a b : left_out (a ++ b) = left_out a ++ left_out b.
Proof. apply flat_map_app. Qed.
Lemma expand_quiet context u l r : expand_relative_uri context u = (l, r) ->
  entries_shown l = [] /\ left_out l = [].
Proof.
  unfold expand_relative_uri. destruct (urljoin context u) as [full|]; [|injection 1 as <- <-; auto].
  destruct (str_eqb full u); injection 1 as <- <-; auto.
Qed.
Lemma capability_quiet caps r l r' : show_capability caps r = (l, r') ->
  entries_shown l = [] /\ left_out l = [].
Proof.
  unfold show_capability. destruct (r_capability r); [injection 1 as <- <-; auto|].
  destruct caps as [|c [|c' caps]]; injection 1 as <- <-; auto.
Qed.
Lemma link_quiet context ln key rel cap o l r : show_link context ln key rel cap o = (l, r) ->
  entries_shown l = [] /\ left_out l = [].
Proof.
  unfold show_link. destruct (find_link rel ln) as [[|kv lk]|]; try (injection 1 as <- <-; auto; fail).
  destruct (sget _ (kv :: lk)) as [[u| |]|]; try (injection 1 as <- <-; auto; fail).
  destruct (expand_relative_uri context u) as [l1 [u1|x]] eqn:E; apply expand_quiet in E as [A B];
    unfold obind, say, oret; cbn [fst snd]; injection 1 as <- <-; rewrite ?app_nil_r, ?shown_app, ?left_out_app;
    cbn [entries_shown left_out flat_map app]; unfold entries_shown, left_out in *; rewrite ?A, ?B; auto.
Qed.

Lemma entries_lines context caps to_show total : forall rs n o l o',
  show_entries context caps to_show total (Z.of_nat n) rs o = (l, Ok o') -> Z.of_nat n <= to_show ->
  entries_shown l = numbered_uris (S n) (firstn (Z.to_nat to_show - n) rs) /\
  left_out l = if (to_show <? Z.of_nat n + Z.of_nat (List.length rs)) then [total - to_show] else [].
Proof.
  induction rs as [|r rs IH]; intros n o l o' H L; cbn [show_entries] in H.
  - injection H as <- <-. rewrite firstn_nil. cbn [List.length]. destruct (Z.ltb_spec to_show (Z.of_nat n + Z.of_nat 0)); [lia|auto].
  - destruct (Z.leb_spec to_show (Z.of_nat n)) as [Q|Q].
    + injection H as <- <-. replace (Z.to_nat to_show - n)%nat with 0%nat by lia. cbn [List.length].
      destruct (Z.ltb_spec to_show (Z.of_nat n + Z.of_nat (S (List.length rs)))); [|lia].
      replace to_show with (Z.of_nat n) by lia. auto.
    + apply say_ok in H as (l1 & H & ->). apply obind_ok in H as (u & l2 & l3 & E & H & ->).
      apply expand_quiet in E as [E1 E2]. apply obind_ok in H as (r' & l4 & l5 & C & H & ->).
      apply capability_quiet in C as [C1 C2].
      replace (Z.of_nat n + 1) with (Z.of_nat (S n)) in H by lia. apply IH in H as [H1 H2]; [|lia].
      rewrite !shown_app, !left_out_app, E1, E2, C1, C2, H1, H2. cbn [app List.length].
      replace (Z.to_nat to_show - n)%nat with (S (Z.to_nat to_show - S n)) by lia. cbn [firstn].
      unfold numbered_uris. cbn [List.length seq map combine entries_shown left_out flat_map app].
      split; [now replace (Z.of_nat (S n)) with (Z.of_nat n + 1) by lia|].
      now replace (Z.of_nat n + Z.of_nat (S (List.length rs))) with (Z.of_nat (S n) + Z.of_nat (List.length rs)) by lia.
Qed.
Lemma summary_lines d index expected context l o t :
  explore_show_summary d index expected context = (l, Ok (o, t)) ->
  entries_shown l = numbered_uris 1 (firstn (offered (List.length (d_items d))) (d_items d)) /\
  left_out l = if (21 <? List.length (d_items d))%nat then [Z.of_nat (List.length (d_items d)) - 20] else [].
Proof.
  unfold explore_show_summary. destruct (document_type (d_md d) index) as [c|]; [|discriminate].
  intros H. apply say_ok in H as (l1 & H & ->).
  apply obind_ok in H as (o1 & l2 & l3 & H1 & H & ->). apply obind_ok in H as (o2 & l4 & l5 & H2 & H & ->).
  apply obind_ok in H as (o3 & l6 & l7 & H3 & H & ->). apply obind_ok in H as (o4 & l8 & l9 & H4 & H & ->).
  apply link_quiet in H1 as [A1 B1]. apply link_quiet in H2 as [A2 B2]. apply link_quiet in H3 as [A3 B3].
  change 0 with (Z.of_nat 0) in H4. apply entries_lines in H4 as [A4 B4]; [|destruct (21 <? _); lia].
  injection H as <- <- <-. rewrite !shown_app, !left_out_app, A1, A2, A3, A4, B1, B2, B3, B4, offered_count.
  rewrite Nat.sub_0_r, !app_nil_r.
  assert (Q : forall x, entries_shown (match expected with Some l => if in_strs c l then [] else [NotExpected l] | None => [] end ++ (if in_strs c known_types then [] else [UnknownType c]) ++ x) = entries_shown x
    /\ left_out (match expected with Some l => if in_strs c l then [] else [NotExpected l] | None => [] end ++ (if in_strs c known_types then [] else [UnknownType c]) ++ x) = left_out x).
  { intros x. destruct expected as [l|]; [destruct (in_strs c l)|]; destruct (in_strs c known_types); auto. }
  rewrite <- !shown_app, <- !left_out_app.
  specialize (Q []). rewrite !app_nil_r in Q. destruct Q as [Q1 Q2].
  rewrite !shown_app in *. rewrite !left_out_app in *. cbn [entries_shown left_out flat_map app] in *.
  rewrite ?Q1, ?Q2. cbn [app]. split; [reflexivity|].
  destruct (Z.ltb_spec 21 (Z.of_nat (List.length (d_items d)))), (Nat.ltb_spec 21 (List.length (d_items d)));
    match goal with |- context [if ?b then _ else _] => destruct b eqn:E end;
    try reflexivity; try lia; exfalso; apply Z.ltb_lt in E || apply Z.ltb_ge in E; lia.
Qed.

(** ** Types of documents *)

Lemma summary_warnings d index expected context l o t :
  explore_show_summary d index expected context = (l, Ok (o, t)) ->
  (forall w, In (NotExpected w) l <-> expected = Some w /\ ~ In t w) /\
  (forall w, In (UnknownType w) l <-> w = t /\ ~ In t known_types).
Proof.
  unfold explore_show_summary. destruct (document_type (d_md d) index) as [c|]; [|discriminate].
  intros H. apply say_ok in H as (l1 & H & ->).
  assert (Q : c = t /\ forall x, In x l1 -> match x with NotExpected _ | UnknownType _ => False | _ => True end).
  { assert (EX : forall u l r, expand_relative_uri context u = (l, r) -> forall x, In x l -> match x with NotExpected _ | UnknownType _ => False | _ => True end).
    { intros u l r. unfold expand_relative_uri. destruct (urljoin context u) as [full|]; [|injection 1 as <- <-; contradiction].
      destruct (str_eqb full u); injection 1 as <- <-; intros x; [contradiction|]. intros [<-|[]]. exact I. }
    assert (LX : forall ln key rel cap o l r, show_link context ln key rel cap o = (l, r) -> forall x, In x l -> match x with NotExpected _ | UnknownType _ => False | _ => True end).
    { intros ln key rel cap o0 l r. unfold show_link. destruct (find_link rel ln) as [[|kv lk]|]; try (injection 1 as <- <-; contradiction).
      destruct (sget _ (kv :: lk)) as [[u| |]|]; try (injection 1 as <- <-; contradiction).
      - destruct (expand_relative_uri context u) as [l2 [u1|x1]] eqn:E; unfold obind, say, oret; cbn [fst snd]; injection 1 as <- <-; intros x; rewrite ?app_nil_r;
          intros [<-|I0]; [exact I|eapply EX; eauto|exact I|eapply EX; eauto].
      - injection 1 as <- <-. intros x [<-|[]]. exact I. }
    assert (SX : forall caps s tot rs n o l r, show_entries context caps s tot n rs o = (l, r) -> forall x, In x l -> match x with NotExpected _ | UnknownType _ => False | _ => True end).
    { intros caps s tot. induction rs as [|r rs IH]; intros n o0 l r0; cbn [show_entries]; [injection 1 as <- <-; contradiction|].
      destruct (s <=? n); [injection 1 as <- <-; intros x [<-|[]]; exact I|].
      destruct (expand_relative_uri context (r_uri r)) as [l2 [u1|x1]] eqn:E; unfold obind, say; cbn [fst snd].
      2:{ injection 1 as <- <-. intros x [<-|I0]; [exact I|eapply EX; eauto]. }
      destruct (show_capability caps (set_uri u1 r)) as [l3 [r1|x1]] eqn:C; cbn [fst snd];
        (assert (CX : forall x, In x l3 -> match x with NotExpected _ | UnknownType _ => False | _ => True end);
         [unfold show_capability in C; destruct (r_capability _); [injection C as <- C; intros x [<-|[]]; exact I|];
          destruct caps as [|c0 [|c1 caps]]; injection C as <- C; intros x; try contradiction; intros [<-|[]]; exact I|]).
      - destruct (show_entries context caps s tot (n + 1) rs _) as [l4 r4] eqn:F. cbn [fst snd]. injection 1 as <- <-.
        intros x [<-|I0]; [exact I|]. apply in_app_iff in I0 as [I0|I0]; [eapply EX; eauto|].
        apply in_app_iff in I0 as [I0|I0]; [now apply CX|eapply IH; eauto].
      - injection 1 as <- <-. intros x [<-|I0]; [exact I|]. apply in_app_iff in I0 as [I0|I0]; [eapply EX; eauto|now apply CX]. }
    apply obind_ok in H as (o1 & l2 & l3 & H1 & H & ->). apply obind_ok in H as (o2 & l4 & l5 & H2 & H & ->).
    apply obind_ok in H as (o3 & l6 & l7 & H3 & H & ->). apply obind_ok in H as (o4 & l8 & l9 & H4 & H & ->).
    injection H as <- <- <-. split; [reflexivity|]. intros x. rewrite !in_app_iff. intros [X|[X|[X|[X|[]]]]];
      [exact (LX _ _ _ _ _ _ _ H1 x X)|exact (LX _ _ _ _ _ _ _ H2 x X)|exact (LX _ _ _ _ _ _ _ H3 x X)|exact (SX _ _ _ _ _ _ _ _ H4 x X)]. }
  destruct Q as [-> Q].
  assert (M : forall x, In x ([Parsed t (Z.of_nat (List.length (d_items d)))] ++ match expected with Some l => if in_strs t l then [] else [NotExpected l] | None => [] end ++ (if in_strs t known_types then [] else [UnknownType t]) ++ l1) <->
     x = Parsed t (Z.of_nat (List.length (d_items d))) \/ (exists w, expected = Some w /\ ~ In t w /\ x = NotExpected w) \/ (~ In t known_types /\ x = UnknownType t) \/ In x l1).
  { intros x. rewrite !in_app_iff.
    assert (A : In x (match expected with Some l => if in_strs t l then [] else [NotExpected l] | None => [] end) <-> exists w, expected = Some w /\ ~ In t w /\ x = NotExpected w).
    { destruct expected as [w|].
      - destruct (in_strs t w) eqn:E.
        + apply in_strs_In in E. split; [contradiction|]. intros (w' & [= <-] & N & _). contradiction.
        + split.
          * intros [<-|[]]. exists w. repeat split. intros I0. apply in_strs_In in I0. congruence.
          * intros (w' & [= <-] & _ & ->). now left.
      - split; [contradiction|]. intros (w & Z & _). discriminate Z. }
    assert (B : In x (if in_strs t known_types then [] else [UnknownType t]) <-> ~ In t known_types /\ x = UnknownType t).
    { destruct (in_strs t known_types) eqn:E.
      - apply in_strs_In in E. split; [contradiction|]. intros [N _]. contradiction.
      - split.
        + intros [<-|[]]. split; [|reflexivity]. intros I0. apply in_strs_In in I0. congruence.
        + intros [_ ->]. now left. }
    rewrite A, B. cbn [In]. intuition. }
  rewrite <- !app_assoc. split; intros w; (split; [intros I0; apply M in I0; destruct I0 as [X|[(w' & E & N & X)|[(N & X)|X]]]|]); try discriminate X.
  - injection X as ->. auto.
  - now apply Q in X.
  - intros (E & N). apply M. right. left. eauto.
  - injection X as ->. auto.
  - now apply Q in X.
  - intros (-> & N). apply M. auto.
Qed.
Lemma known_defined t : In t known_types <->
  (In t defined_types /\ ~ In t overlooked_types) \/ t = $"descriptionoindex".
Proof.
  split.
  - intros I0. destruct (in_strs t overlooked_types) eqn:E.
    + exfalso. apply in_strs_In in E. revert E I0. unfold overlooked_types, known_types.
      intros [<-|[<-|[<-|[]]]]; intros I0; apply in_strs_In in I0; discriminate I0.
    + destruct (str_eqb_spec t $"descriptionoindex") as [|N]; [auto|left]. split.
      * apply in_strs_In. revert I0. unfold known_types. cbn [In].
        intros I0. repeat (destruct I0 as [<-|I0]; [reflexivity || (exfalso; apply N; reflexivity)|]). contradiction.
      * intros I1. apply in_strs_In in I1. congruence.
  - intros [[I0 N]| ->].
    + apply in_strs_In. revert I0 N. unfold defined_types. cbn [In map app].
      intros I0 N. repeat (destruct I0 as [<-|I0]; [reflexivity || (exfalso; apply N; apply in_strs_In; reflexivity)|]). contradiction.
    + apply in_strs_In. reflexivity.
Qed.

(** ** Headers *)

Lemma uri_look s : re_match (re_const $"^\w+:") s <> None <-> looks_like_uri s.
Proof.
  assert (E : re_const $"^\w+:" = Cat Bos (Cat (Cat (Cls false [CWord false]) (Star (Cls false [CWord false]))) (chr ":")))
    by reflexivity.
  assert (W : forall c, cls_match false [CWord false] c = is_word c).
  { intros c. unfold cls_match. cbn. now destruct (is_word c). }
  rewrite E. split.
  - destruct (re_match _ s) as [st|] eqn:M; [intros _|congruence].
    apply re_match_sound in M as (w & k & c & -> & _ & H).
    apply R_cat_iff in H as (w1 & w2 & c1 & -> & H1 & H2). apply R_bos_iff in H1 as (-> & -> & _).
    apply R_cat_iff in H2 as (w3 & w4 & c2 & -> & H2 & H3). apply R_cls_iff in H3 as (y & -> & Y & ->).
    rewrite cls_single in Y. apply Ascii.eqb_eq in Y as <-.
    apply R_cat_iff in H2 as (a & b & c3 & -> & H1 & H2). apply R_cls_iff in H1 as (x & -> & X & ->).
    apply R_star_cls_iff in H2 as (F & ->). exists ([x] ++ b), k. split; [discriminate|]. split.
    + intros c [<-|I0]; [now rewrite <- W|]. rewrite forallb_forall in F. rewrite <- W. auto.
    + cbn [app]. now rewrite <- app_assoc.
  - intros ([|x b] & rest & N & F & ->); [contradiction|].
    assert (H : R (Cat Bos (Cat (Cat (Cls false [CWord false]) (Star (Cls false [CWord false]))) (chr ":"))) 0 []
                  ((x :: b) ++ [":"%char]) rest []).
    { apply R_cat_iff. exists [], ((x :: b) ++ [":"%char]), []. split; [reflexivity|]. split; [now apply R_bos_iff|].
      apply R_cat_iff. exists (x :: b), [":"%char], []. split; [reflexivity|]. split.
      - apply R_cat_iff. exists [x], b, []. split; [reflexivity|]. split.
        + apply R_cls_iff. exists x. rewrite W. split; [reflexivity|]. split; [|reflexivity]. apply F. now left.
        + apply R_star_cls_iff. split; [|reflexivity]. apply forallb_forall. intros c I0. rewrite W. apply F. now right.
      - apply R_cls_iff. exists ":"%char. auto. }
    apply re_match_some in H as (st & H). rewrite <- app_assoc in H. cbn [app] in H. cbn [app]. rewrite H. discriminate.
Qed.

Lemma uri_head e n uri checks l r : looks_like_uri uri ->
  show_page e n (MkX uri ResourceItself checks) = (l, r) ->
  statuses l = [] /\ headers_shown l = [] /\
  (xe_head e n uri = Ok tt -> l = [Reading uri; Head uri; CannotParse uri] /\ r = Ok ([], None)).
Proof.
  intros U. apply uri_look in U. unfold show_page, explore_show_head. cbn [x_uri x_caps x_checks].
  destruct (re_match _ uri) as [st|]; [|congruence].
  destruct (xe_head e n uri) as [[]|x]; cbn.
  - injection 1 as <- <-. auto.
  - destruct x; injection 1 as <- <-; repeat split; discriminate.
Qed.
Lemma hval_eqb_spec a b : hval_eqb a b = true <-> a = b.
Proof.
  destruct a, b; cbn; split; try discriminate; intros H.
  - f_equal. now apply Z.eqb_eq.
  - injection H as ->. apply Z.eqb_refl.
  - f_equal. now apply str_eqb_eq.
  - injection H as ->. apply str_eqb_refl.
Qed.
Lemma compared_is v x : compared v (Some x) (if hval_eqb v x then Matches else Expected x).
Proof.
  cbn. destruct (hval_eqb v x) eqn:E.
  - apply hval_eqb_spec in E. auto.
  - right. split; [|reflexivity]. intros ->. rewrite (proj2 (hval_eqb_spec v v)) in E; [discriminate|reflexivity].
Qed.
Lemma file_head e n file checks mtime size t :
  ~ looks_like_uri file -> xe_file e file = Some (mtime, size) -> datetime_to_str false mtime = Ok t ->
  exists c1 c2,
    show_page e n (MkX file ResourceItself (Some checks)) =
      ([Reading file; Head file; HeadStatus $"200"; HeadLine $"content-length" (HInt size) c1;
        HeadLine $"last-modified" (HStr t) c2], Ok ([], None)) /\
    compared (HInt size) (sget $"content-length" checks) c1 /\
    compared (HStr t) (sget $"last-modified" checks) c2.
Proof.
  intros U F T. unfold show_page, explore_show_head, head_on_file. cbn [x_uri x_caps x_checks].
  destruct (re_match _ file) as [st|] eqn:M; [exfalso; apply U, uri_look; congruence|].
  rewrite F, T. cbn [bind]. change (str_eqb $"200" $"200") with true. cbv iota.
  exists match sget $"content-length" checks with None => NotChecked | Some x => if hval_eqb (HInt size) x then Matches else Expected x end,
         match sget $"last-modified" checks with None => NotChecked | Some x => if hval_eqb (HStr t) x then Matches else Expected x end.
  split; [reflexivity|]. split; (destruct (sget _ checks); [apply compared_is|reflexivity]).
Qed.
Lemma no_file_head e n file checks : ~ looks_like_uri file -> xe_file e file = None ->
  show_page e n (MkX file ResourceItself checks) = ([Reading file; Head file; HeadStatus $"404"], Ok ([], None)).
Proof.
  intros U F. unfold show_page, explore_show_head, head_on_file. cbn [x_uri x_caps x_checks].
  destruct (re_match _ file) as [st|] eqn:M; [exfalso; apply U, uri_look; congruence|]. now rewrite F.
Qed.
Lemma follow_checks t r x : follow t r = Ok x ->
  x_uri x = r_uri r /\ exists checks, x_checks x = Some checks /\
  sget $"content-length" checks = option_map HInt (r_length r) /\
  (exists lastmod, get_dt (r_timestamp r) = Ok lastmod /\ sget $"last-modified" checks = option_map HStr lastmod).
Proof.
  unfold follow. destruct (match r_capability r with None => _ | Some c => _ end) as [c|]; [|discriminate].
  cbn [bind]. destruct (get_dt (r_timestamp r)) as [lm|]; [|discriminate]. cbn [bind]. injection 1 as <-.
  split; [reflexivity|]. eexists. split; [reflexivity|]. cbn [x_checks].
  split; [|exists lm; split; [reflexivity|]]; destruct (r_length r), lm, (r_mime_type r); reflexivity.
Qed.
Lemma follow_resource t r x : follow (Some t) r = Ok x ->
  (x_caps x = ResourceItself <->
   r_capability r = Some $"resource" \/
   (r_capability r = None /\ In t [$"resourcelist"; $"changelist"; $"resourcedump"; $"changedump"])).
Proof.
  unfold follow. destruct (r_capability r) as [c|].
  - destruct (get_dt (r_timestamp r)) as [lm|]; [|discriminate]. cbn [bind]. injection 1 as <-. cbn [x_caps].
    destruct (str_eqb_spec c $"resource") as [->|N]; split; auto; try discriminate.
    intros [[= ->]|[Z _]]; [contradiction|discriminate Z].
  - destruct (in_strs t _) eqn:E; destruct (get_dt (r_timestamp r)) as [lm|]; try discriminate; cbn [bind]; injection 1 as <-; cbn [x_caps].
    + apply in_strs_In in E. split; auto.
    + split; [discriminate|]. intros [Z|[_ Z]]; [discriminate Z|]. apply in_strs_In in Z. congruence.
Qed.

(** ** Starting points *)

Lemma start_sitemap e s m : start_points e (Some s) m = Ok [MkX s AnyDocument None].
Proof. reflexivity. Qed.
Lemma start_none e : start_points e None [] = Err ClientFatalError.
Proof. reflexivity. Qed.
Lemma params_path p a b s : splitparams ("/"%char :: p) = (a, b) -> a = s -> s <> [].
Proof.
  intros H <- ->. unfold splitparams in H. destruct (rsplit1 "/" ("/"%char :: p)) as [[h t]|] eqn:E.
  - apply rsplit1_spec in E as (x & -> & _ & _). destruct (cut_char ";" t) as [u v]. injection H as H _.
    destruct x; discriminate H.
  - apply rsplit1_none in E. apply E. now left.
Qed.
Lemma start_server e m u : default_src_uri m = Ok (url_text u) -> wf_url u -> q_host u <> [] ->
  start_points e None m =
  Ok ((match q_path u with [] => [] | _ => [MkX (url_text u) AnyDocument None] end)
      ++ [MkX (well_known_uri (lower (q_scheme u)) (q_host u)) (OneOf [$"capabilitylist"; $"capabilitylistindex"]) None]).
Proof.
  intros D W H. unfold start_points. destruct m as [|m0 m]; [discriminate D|]. rewrite D. cbn [bind].
  unfold urlparse. destruct (urlsplit_text u [] W) as (q & f & ->). cbn [bind us_scheme us_path us_netloc us_query us_frag].
  assert (S : is_empty (lower (q_scheme u)) = false).
  { destruct W as ((c & s & E & _) & _). rewrite E. reflexivity. }
  assert (N : is_empty (q_host u) = false) by (destruct (q_host u); [contradiction|reflexivity]).
  assert (K : urlunparse (MkUP (lower (q_scheme u)) (q_host u) $"/.well-known/resourcesync" [] [] [])
              = well_known_uri (lower (q_scheme u)) (q_host u)).
  { unfold urlunparse, urlunsplit, well_known_uri. cbn [up_params up_path up_scheme up_netloc up_query up_frag us_path us_netloc us_scheme us_query us_frag is_empty].
    rewrite S, N. reflexivity. }
  destruct (in_strs _ uses_params && has_char ";" (q_path u)) eqn:P.
  - destruct (splitparams (q_path u)) as [a b] eqn:E. cbn [bind up_scheme up_netloc up_path]. rewrite S, N. cbn [andb]. rewrite K.
    destruct W as (_ & _ & _ & _ & [Z|(p & Z)] & _); rewrite Z in *.
    + rewrite andb_false_r in P. discriminate P.
    + pose proof (params_path p a b a E eq_refl) as A. destruct a; [contradiction|]. reflexivity.
  - cbn [bind up_scheme up_netloc up_path]. rewrite S, N. cbn [andb]. rewrite K. destruct (q_path u); reflexivity.
Qed.
Lemma parse_absolute p : absolute_path p -> urlparse p [] = Ok (MkUP [] [] p [] [] []).
Proof.
  intros ((c & rest & E & N) & A & B). unfold urlparse, urlsplit.
  assert (C : url_clean p = p) by (apply clean_id; [exact B|rewrite E; reflexivity]).
  rewrite C. unfold split_scheme.
  assert (split1 ":" p = None) as ->.
  { apply split1_none. intros I0. apply A in I0. apply I0. vm_compute. auto 10. }
  assert (split_netloc p = Ok ([], p)) as ->.
  { rewrite E. cbn [split_netloc]. destruct (ceqb c "/") eqn:Q; [apply Ascii.eqb_eq in Q; contradiction|].
    now rewrite andb_false_r. }
  cbn [bind]. rewrite (cut_char_no "#"); [|intros I0; apply A in I0; apply I0; vm_compute; auto 10].
  rewrite (cut_char_no "?"); [|intros I0; apply A in I0; apply I0; vm_compute; auto 10].
  cbn [bind us_scheme us_path us_netloc us_query us_frag].
  assert (has_char ";" p = false) as ->.
  { destruct (has_char ";" p) eqn:Q; [|reflexivity]. exfalso. apply has_char_In in Q. apply A in Q. apply Q. vm_compute. auto 10. }
  now rewrite andb_false_r.
Qed.
Lemma start_file e m p : default_src_uri m = Ok p -> absolute_path p -> xe_isdir e p = false ->
  start_points e None m = Ok [MkX p AnyDocument None].
Proof.
  intros D A Q. unfold start_points. destruct m as [|m0 m]; [discriminate D|]. rewrite D. cbn [bind].
  rewrite (parse_absolute p A). cbn [bind up_scheme up_netloc up_path is_empty andb]. now rewrite Q.
Qed.
Lemma start_directory e m p : default_src_uri m = Ok p -> absolute_path p -> endswith $"/" p = false -> xe_isdir e p = true ->
  start_points e None m =
  match filter (is_file e) (map (fun name => p ++ $"/" ++ name) likely_files) with
  | [] => Err ClientFatalError
  | files => Ok (map (fun f => MkX f AnyDocument None) files)
  end.
Proof.
  intros D A S Q. unfold start_points. destruct m as [|m0 m]; [discriminate D|]. rewrite D. cbn [bind].
  rewrite (parse_absolute p A). cbn [bind up_scheme up_netloc up_path is_empty andb]. rewrite Q.
  assert (map (fun name => os_join p name) likely_names = map (fun name => p ++ $"/" ++ name) likely_files) as ->; [|reflexivity].
  assert (J : forall name, startswith $"/" name = false -> os_join p name = p ++ $"/" ++ name).
  { intros name N. unfold os_join. rewrite N, S. destruct A as ((c & rest & -> & _) & _). reflexivity. }
  unfold likely_names, likely_files. cbn [map]. now rewrite !J by reflexivity.
Qed.

Lemma reaches_from e n h ins n' h' : reaches e n h ins n' h' -> forall rest,
  exists l, explore_from e n h (ins ++ rest) = after l (explore_from e n' h' rest).
Proof.
  induction 1 as [n h|n x h key ins n' h' l o t r y P K F _ IH|n x h ins n' h' l o t P _ IH]; intros rest.
  - exists []. change ([] ++ rest) with rest. now destruct (explore_from e n h rest) as [[[l n'] rest'] r].
  - cbn [app]. rewrite (nav_follow e n x h l o t P key r y _ K F). destruct (IH rest) as (l' & ->).
    rewrite after_after. eauto.
  - cbn [app]. rewrite (nav_back e n x h l o t P). destruct (IH rest) as (l' & ->). rewrite after_after. eauto.
Qed.
Lemma quit_anywhere e n s starts ins n' x h l o t rest :
  reaches e n [s] ins n' (x :: h) -> show_page e n' x = (l, Ok (o, t)) ->
  exists ls, explore_all e n (s :: starts) (ins ++ $"q" :: rest) = (ls ++ [Bye], rest, Finished).
Proof.
  intros R P. destruct (reaches_from _ _ _ _ _ _ R ($"q" :: rest)) as (l' & E).
  rewrite (nav_quit e n' x h l o t P) in E. cbn [after] in E. rewrite (quit_session _ _ _ _ _ _ _ _ E). eauto.
Qed.
Lemma back_out e n s starts ins n' rest :
  reaches e n [s] ins n' [] ->
  exists ls, explore_all e n (s :: starts) (ins ++ rest) =
  let '(l', rest', r) := explore_all e n' starts rest in (ls ++ l', rest', r).
Proof.
  intros R. destruct (reaches_from _ _ _ _ _ _ R rest) as (l' & E).
  rewrite nav_empty in E. cbn [after] in E. rewrite app_nil_r in E. rewrite (next_start _ _ _ _ _ _ _ _ E). eauto.
Qed.
Lemma all_done e n inputs : explore_all e n [] inputs = ([Bye], inputs, Finished).
Proof. reflexivity. Qed.
Lemma excursion_reaches e n x ins n' : excursion e n x ins n' -> forall h, reaches e n (x :: h) ins n' (x :: h).
Proof.
  assert (T : forall n h ins n' h', reaches e n h ins n' h' -> forall ins' n'' h'', reaches e n' h' ins' n'' h'' -> reaches e n h (ins ++ ins') n'' h'').
  { induction 1 as [|n0 x0 h key ins0 n0' h' l o t r y P K F _ IH|n0 x0 h ins0 n0' h' l o t P _ IH]; intros ins' n'' h'' R; cbn [app];
      [exact R|eapply goes_on; eauto|eapply goes_back; eauto]. }
  induction 1 as [n x|n x key ins n1 ins' n2 l o t r y l' o' t' P K F E1 IH1 P' E2 IH2]; intros h; [constructor|].
  apply (goes_on e n x h key (ins ++ $"b" :: ins') n2 (x :: h) l o t r y P K F).
  apply (T _ _ _ _ _ (IH1 (x :: h)) ($"b" :: ins') n2 (x :: h)). apply (goes_back e n1 y (x :: h) ins' n2 (x :: h) l' o' t' P'). apply IH2.
Qed.
Lemma summary_links d index expected context l o t :
  explore_show_summary d index expected context = (l, Ok (o, t)) ->
  link_option context (d_ln d) $"describedby" (Some $"resource") (sget $"d" o) /\
  link_option context (d_ln d) $"up" None (sget $"u" o) /\
  link_option context (d_ln d) $"index" None (sget $"i" o).
Proof. intros H. apply summary_menu in H as (_ & A & B & C & _). auto. Qed.
Lemma allowed_named :
  allowed_entries $"description" = [$"capabilitylist"] /\
  allowed_entries $"capabilitylistindex" = [] /\
  forall c, In c (allowed_entries $"capabilitylist") <->
    In c [$"resourcelist"; $"resourcedump"; $"changelist"; $"changedump"; $"resourcelist-archive";
          $"resourcedump-archive"; $"changelist-archive"; $"changedump-archive"].
Proof. split; [reflexivity|]. split; [reflexivity|]. intros c. reflexivity. Qed.
Lemma followed_file e n t r x mtime size time lastmod :
  follow t r = Ok x -> x_caps x = ResourceItself -> ~ looks_like_uri (r_uri r) ->
  xe_file e (r_uri r) = Some (mtime, size) -> datetime_to_str false mtime = Ok time ->
  get_dt (r_timestamp r) = Ok lastmod ->
  exists c1 c2,
    show_page e n x =
      ([Reading (r_uri r); Head (r_uri r); HeadStatus $"200"; HeadLine $"content-length" (HInt size) c1;
        HeadLine $"last-modified" (HStr time) c2], Ok ([], None)) /\
    compared (HInt size) (option_map HInt (r_length r)) c1 /\
    compared (HStr time) (option_map HStr lastmod) c2.
Proof.
  intros F C U X T L. apply follow_checks in F as (Q & checks & K & A & lm & L' & B).
  rewrite L in L'. injection L' as <-. destruct x as [u cs ck]. cbn in Q, C, K. subst u cs ck.
  destruct (file_head e n (r_uri r) checks mtime size time U X T) as (c1 & c2 & P & C1 & C2).
  rewrite A in C1. rewrite B in C2. exists c1, c2. auto.
Qed.
Lemma type_warnings d index expected context l o t :
  explore_show_summary d index expected context = (l, Ok (o, t)) ->
  (forall w, In (NotExpected w) l <-> expected = Some w /\ ~ In t w) /\
  (forall w, In (UnknownType w) l <->
     w = t /\ (~ In t defined_types \/ In t overlooked_types) /\ t <> $"descriptionoindex").
Proof.
  intros H. apply summary_warnings in H as [A B]. split; [exact A|]. intros w. rewrite B, known_defined.
  destruct (in_strs t defined_types) eqn:D; destruct (in_strs t overlooked_types) eqn:V;
    (assert (D' := in_strs_In t defined_types); assert (V' := in_strs_In t overlooked_types); rewrite D in D'; rewrite V in V');
    destruct (str_eqb_spec t $"descriptionoindex"); intuition; try discriminate.
Qed.
Lemma follow_expects t r x : follow (Some t) r = Ok x ->
  (x_caps x = ResourceItself <->
   r_capability r = Some $"resource" \/
   (r_capability r = None /\ In t [$"resourcelist"; $"changelist"; $"resourcedump"; $"changedump"])) /\
  (forall l, x_caps x = OneOf l ->
   (r_capability r = None /\ l = allowed_entries t) \/ (exists c, r_capability r = Some c /\ l = [c])).
Proof.
  intros H. split; [now apply follow_resource|]. revert H. unfold follow. destruct (r_capability r) as [c|].
  - destruct (get_dt (r_timestamp r)) as [lm|]; [|discriminate]. cbn [bind]. injection 1 as <-. cbn [x_caps].
    destruct (str_eqb c _); [discriminate|]. intros l [= <-]. eauto.
  - destruct (in_strs t _); destruct (get_dt (r_timestamp r)) as [lm|]; try discriminate; cbn [bind]; injection 1 as <-; cbn [x_caps]; [discriminate|].
    intros l [= <-]. auto.
Qed.
