(** * ExplorerNotes: what is noted about entries, and documents that cannot be read *)

From Verif Require Import Py PyFacts Url Resource Xml Sitemap Explorer ExplorerSpec ExplorerFacts.

(** What is said about capabilities on a page. *)
Definition notes (l : list line) : list line :=
  filter (fun x => match x with EntryIs _ _ | EntryAssumed _ => true | _ => false end) l.

Lemma notes_app a b : notes (a ++ b) = notes a ++ notes b.
Proof. apply filter_app. Qed.
Lemma expand_notes context u l r : expand_relative_uri context u = (l, r) -> notes l = [].
Proof.
  unfold expand_relative_uri. destruct (urljoin context u) as [full|]; [|injection 1 as <- <-; reflexivity].
  destruct (str_eqb full u); injection 1 as <- <-; reflexivity.
Qed.
Lemma link_notes context ln key rel cap o l r : show_link context ln key rel cap o = (l, r) -> notes l = [].
Proof.
  unfold show_link. destruct (find_link rel ln) as [[|kv lk]|]; try (injection 1 as <- <-; reflexivity).
  destruct (sget _ (kv :: lk)) as [[u| |]|]; try (injection 1 as <- <-; reflexivity).
  destruct (expand_relative_uri context u) as [l1 [u1|x]] eqn:E; apply expand_notes in E;
    unfold obind, say, oret; cbn [fst snd]; injection 1 as <- <-; rewrite ?app_nil_r; cbn [notes filter app]; exact E.
Qed.

(** What is noted about one entry. *)
Definition note (allowed : list str) (r : resource) (l : list line) : Prop :=
  match r_capability r with
  | Some c => (In c allowed /\ l = [EntryIs c None]) \/ (~ In c allowed /\ l = [EntryIs c (Some allowed)])
  | None => (exists c, allowed = [c] /\ l = [EntryAssumed c]) \/ (List.length allowed <> 1%nat /\ l = [])
  end.

Lemma capability_note caps u r l r' : show_capability caps (set_uri u r) = (l, r') -> note caps r l /\ notes l = l.
Proof.
  unfold show_capability, note. change (r_capability (set_uri u r)) with (r_capability r).
  destruct (r_capability r) as [c|].
  - intros [= <- _]. split; [|reflexivity]. destruct (in_strs c caps) eqn:E.
    + left. split; [now apply in_strs_In|reflexivity].
    + right. split; [now apply in_strs_false|reflexivity].
  - destruct caps as [|c [|c' caps]]; intros [= <- _]; (split; [|reflexivity]).
    + right. split; [discriminate|reflexivity].
    + left. eauto.
    + right. split; [discriminate|reflexivity].
Qed.

Lemma entries_notes context caps to_show total : forall rs n o l o',
  show_entries context caps to_show total (Z.of_nat n) rs o = (l, Ok o') ->
  exists ns, notes l = List.concat ns /\ Forall2 (note caps) (firstn (Z.to_nat to_show - n) rs) ns.
Proof.
  induction rs as [|r rs IH]; intros n o l o' H; cbn [show_entries] in H.
  - injection H as <- <-. exists []. rewrite firstn_nil. split; [reflexivity|constructor].
  - destruct (Z.leb_spec to_show (Z.of_nat n)) as [Q|Q].
    + injection H as <- <-. exists []. replace (Z.to_nat to_show - n)%nat with 0%nat by lia. split; [reflexivity|constructor].
    + apply say_ok in H as (l1 & H & ->). apply obind_ok in H as (u & l2 & l3 & E & H & ->).
      apply expand_notes in E. apply obind_ok in H as (r' & l4 & l5 & C & H & ->).
      apply capability_note in C as [C1 C2].
      replace (Z.of_nat n + 1) with (Z.of_nat (S n)) in H by lia. apply IH in H as (ns & H1 & H2).
      exists (l4 :: ns). rewrite !notes_app, E, C2, H1. split; [reflexivity|].
      replace (Z.to_nat to_show - n)%nat with (S (Z.to_nat to_show - S n)) by lia. cbn [firstn]. now constructor.
Qed.

Lemma summary_notes d index expected context l o t :
  explore_show_summary d index expected context = (l, Ok (o, t)) ->
  exists ns, notes l = List.concat ns
    /\ Forall2 (note (allowed_entries t)) (firstn (offered (List.length (d_items d))) (d_items d)) ns.
Proof.
  unfold explore_show_summary. destruct (document_type (d_md d) index) as [c|]; [|discriminate].
  intros H. apply say_ok in H as (l1 & H & ->).
  apply obind_ok in H as (o1 & l2 & l3 & H1 & H & ->). apply obind_ok in H as (o2 & l4 & l5 & H2 & H & ->).
  apply obind_ok in H as (o3 & l6 & l7 & H3 & H & ->). apply obind_ok in H as (o4 & l8 & l9 & H4 & H & ->).
  apply link_notes in H1, H2, H3. change 0 with (Z.of_nat 0) in H4. apply entries_notes in H4 as (ns & A & B).
  injection H as <- <- <-. exists ns. rewrite !notes_app, H1, H2, H3, A. rewrite offered_count, Nat.sub_0_r in B.
  split; [|exact B]. cbn [app]. rewrite app_nil_r.
  destruct expected as [w|]; [destruct (in_strs c w)|]; destruct (in_strs c known_types); reflexivity.
Qed.

(** ** Documents that cannot be read, or make no sense *)

Lemma unread e n x err : x_caps x <> ResourceItself -> xe_get e n (x_uri x) = Err err -> In err [IOError; SocketTimeout] ->
  show_page e n x = ([Reading (x_uri x); CannotRead (x_uri x)], Ok ([], None)).
Proof.
  intros C G I. unfold show_page. destruct (x_caps x); [|congruence|]; rewrite G; cbn [snd fst];
    destruct I as [<-|[<-|[]]]; reflexivity.
Qed.
Lemma failed e n x err : x_caps x <> ResourceItself -> xe_get e n (x_uri x) = Err err -> ~ In err [IOError; SocketTimeout; OutOfModel] ->
  show_page e n x = ([Reading (x_uri x); CannotParse (x_uri x)], Ok ([], None)).
Proof.
  intros C G N. cbn [In] in N. unfold show_page. destruct (x_caps x); [|congruence|]; rewrite G; cbn [snd fst];
    destruct err; try reflexivity; exfalso; tauto.
Qed.
Lemma unparsed e n x text err : x_caps x <> ResourceItself -> xe_get e n (x_uri x) = Ok text ->
  parse_xml (MkSettings false false false) append_resource None None (MkDoc [] [] []) text = Err err ->
  ~ In err [IOError; SocketTimeout; OutOfModel] ->
  show_page e n x = ([Reading (x_uri x); CannotParse (x_uri x)], Ok ([], None)).
Proof.
  intros C G P N. cbn [In] in N. unfold show_page. destruct (x_caps x); [|congruence|]; rewrite G, P; cbn [snd fst];
    destruct err; try reflexivity; exfalso; tauto.
Qed.
Lemma read_page e n x text d index l o t : x_caps x <> ResourceItself -> xe_get e n (x_uri x) = Ok text ->
  parse_xml (MkSettings false false false) append_resource None None (MkDoc [] [] []) text = Ok (d, index) ->
  explore_show_summary d index (match x_caps x with OneOf w => Some w | _ => None end) (x_uri x) = (l, Ok (o, t)) ->
  show_page e n x = (Reading (x_uri x) :: l, Ok (o, Some t)).
Proof.
  intros C G P S. unfold show_page. destruct (x_caps x); [|congruence|]; rewrite G, P, S;
    unfold obind, say, oret; cbn [fst snd app]; now rewrite !app_nil_r.
Qed.
