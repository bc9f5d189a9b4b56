(** * C133: what is shown of a list *)

From Coq Require Import Sorting.Sorted Sorting.Permutation.
From Verif Require Import Py Resource Container ContainerSpec Xml Sitemap Opener ListIndex Hashes Disk Builder Client ClientExamples Build PublishEx BuildEx ShownSpec ShownFacts.

(** parse_document of a change list, when verbose: the number of entries, a note if not all of them are
    shown, and the texts of the first ones in the order of the document. *)
Theorem C133_change_list : forall e c uri w l texts, bc_verbose c = true -> 0 < show_limit c ->
  list_read change_list_kind (open_uri (o_fs w) (be_web e)) true (new_list change_list_kind $"changelist" true None) uri = Ok l ->
  texts_of c (d_items (l_doc l)) texts ->
  parse_document e c uri w =
  (shows (($"Parsed changelist document with " ++ print_int (zlen (d_items (l_doc l))) ++ $" entries")
          :: more_note c (zlen (d_items (l_doc l))) ++ numbered 0 texts) w, Ok tt).
Proof. exact change_list_shown. Qed.
Print Assumptions C133_change_list.
(** Of a resource list too, with the resources as they were added when the list was read. *)
Theorem C133_resource_list : forall e c uri w l texts, bc_verbose c = true -> 0 < show_limit c ->
  list_read resource_list_kind (open_uri (o_fs w) (be_web e)) true (new_list resource_list_kind $"resourcelist" true None) uri = Ok l ->
  texts_of c (map snd (d_items (l_doc l))) texts ->
  exists cap, (cap = $"resourcelist" \/ cap = $"(unknown capability)") /\
  parse_document e c uri w =
  (shows (($"Parsed " ++ cap ++ $" document with " ++ print_int (zlen (d_items (l_doc l))) ++ $" entries")
          :: more_note c (zlen (d_items (l_doc l))) ++ numbered 0 texts) w, Ok tt).
Proof. exact resource_list_shown. Qed.
Print Assumptions C133_resource_list.
(** A resource list that changes are computed from: the first ones in the order of URIs; what is read is
    not different from what is read without showing it. *)
Theorem C133_reference : forall e c uri w l texts, bc_verbose c = true -> 0 < show_limit c ->
  list_read resource_list_kind (open_uri (o_fs w) (be_web e)) (negb (bc_multifile c))
    (new_list resource_list_kind $"resourcelist" true (Some (bc_mapper c))) uri = Ok l ->
  exists rs, Permutation rs (map snd (d_items (l_doc l))) /\ StronglySorted uri_before rs /\
    (texts_of c rs texts ->
     read_reference e c uri w = (shows (more_note c (zlen rs) ++ texts) w, Ok (d_items (l_doc l)))).
Proof. exact reference_shown. Qed.
Print Assumptions C133_reference.

Definition shown_read := Eval vm_compute in
  list_read change_list_kind (open_uri (o_fs unsorted_start) (be_web (pub_env bare_tree))) true (new_list change_list_kind $"changelist" true None) $"/w/cl.xml".
Lemma shown_read_is :
  list_read change_list_kind (open_uri (o_fs unsorted_start) (be_web (pub_env bare_tree))) true (new_list change_list_kind $"changelist" true None) $"/w/cl.xml"
  = shown_read.
Proof. vm_compute. reflexivity. Qed.
Definition shown_items : list resource := Eval vm_compute in match shown_read with Ok l => d_items (l_doc l) | Err _ => [] end.
Lemma shown_text : Forall2 (fun r s => resource_str r = Ok s) (firstn 1 shown_items) [$"[ http://s.org/b | 2001-01-01T00:00:00Z | None | None | created ]"].
Proof. unfold shown_items. cbn [firstn]. apply Forall2_cons; [vm_compute; reflexivity|apply Forall2_nil]. Qed.
Example C133_case : exists l, shown_read = Ok l /\ bc_verbose chatty = true /\ show_limit chatty = 1 /\ zlen (d_items (l_doc l)) = 2
  /\ texts_of chatty (d_items (l_doc l)) [$"[ http://s.org/b | 2001-01-01T00:00:00Z | None | None | created ]"]
  /\ more_note chatty 2 = [$"Showing first 1 entries sorted by URI..."].
Proof.
  exists (match shown_read with Ok l => l | Err _ => new_list change_list_kind $"changelist" true None end).
  split; [vm_compute; reflexivity|]. split; [reflexivity|]. split; [reflexivity|]. split; [vm_compute; reflexivity|].
  split; [|vm_compute; reflexivity].
  change (d_items (l_doc _)) with shown_items. unfold texts_of. change (Z.to_nat (show_limit chatty)) with 1%nat.
  exact shown_text.
Qed.

(** Two resources in a list, the second of which is shown first, and the only one that is. *)
Definition two_listed : written := MkWritten [] [($"/w/rl.xml", MkFile (list_text $"resourcelist"
  [entry $"http://s.org/b" $"2001-01-01T00:00:00Z" []; entry $"http://s.org/a" $"2001-01-02T00:00:00Z" []]) day)] [].
Definition reference_run := Eval vm_compute in read_reference (pub_env bare_tree) chatty $"/w/rl.xml" two_listed.
Lemma reference_run_is : read_reference (pub_env bare_tree) chatty $"/w/rl.xml" two_listed = reference_run.
Proof. vm_compute. reflexivity. Qed.
Example C133_reference_case : fst reference_run
  = shows [$"Showing first 1 entries sorted by URI..."; $"[ http://s.org/a | 2001-01-02T00:00:00Z | None | None ]"] two_listed
  /\ match snd reference_run with Ok d => zlen d = 2 | Err _ => False end.
Proof. split; vm_compute; reflexivity. Qed.
Definition listed_run := Eval vm_compute in parse_document (pub_env bare_tree) chatty $"/w/rl.xml" two_listed.
Lemma listed_run_is : parse_document (pub_env bare_tree) chatty $"/w/rl.xml" two_listed = listed_run.
Proof. vm_compute. reflexivity. Qed.
Example C133_resource_list_case : listed_run =
  (shows [$"Parsed resourcelist document with 2 entries"; $"Showing first 1 entries sorted by URI...";
          $"[0] [ http://s.org/b | 2001-01-01T00:00:00Z | None | None ]"] two_listed, Ok tt).
Proof. vm_compute. reflexivity. Qed.
