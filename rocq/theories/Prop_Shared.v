(** * C128: a copy of a resource can be changed without changing the original *)

From Verif Require Import Py Resource ResourceSpec Shared SharedSpec SharedFacts.

(** A resource with a link, a copy of it that says it was updated (as in a change
    list), and a link set on the copy. *)
Definition with_link : event := New None (MkArgs (Some $"http://a/1") None None None None None None None None None
  (Some [[($"rel", PStr $"up"); ($"href", PStr $"http://a/old")]]) None None None None None None None None None None None).
Definition plain : event := New None (MkArgs (Some $"http://a/1") None None None None None None None None None
  None None None None None None None None None None None None).
Definition updated_copy : event := New (Some 0%nat) (MkArgs None None None None None None None (Some $"updated") None None
  None None None None None None None None None None None None).
Definition link_on_copy : event := Do 1%nat (OpLinkSet $"up" $"http://a/new" false []).

Definition before : list resource := Eval vm_compute in seen (run [with_link; updated_copy] nothing).
Definition after : list resource := Eval vm_compute in seen (run [with_link; updated_copy; link_on_copy] nothing).
Lemma before_run : seen (run [with_link; updated_copy] nothing) = before.
Proof. vm_compute. reflexivity. Qed.
Lemma after_run : seen (run [with_link; updated_copy; link_on_copy] nothing) = after.
Proof. vm_compute. reflexivity. Qed.
Definition href_in (n : nat) (l : list resource) : option (res (option pv)) := option_map (link_href $"up") (nth_error l n).
Lemma apart_hrefs : href_in 0%nat before <> href_in 0%nat after.
Proof. vm_compute. discriminate. Qed.

Theorem C128_refuted : exists es e i r r', ~ about i e /\
  nth_error (seen (run es nothing)) i = Some r /\ nth_error (seen (run (es ++ [e]) nothing)) i = Some r' /\ r' <> r.
Proof.
  exists [with_link; updated_copy], link_on_copy, 0%nat, (nth 0 before (new_resource [])), (nth 0 after (new_resource [])).
  cbn [app]. rewrite before_run, after_run. split; [cbn; discriminate|]. split; [reflexivity|]. split; [reflexivity|].
  intro E. apply apart_hrefs. unfold href_in.
  change (nth_error before 0%nat) with (Some (nth 0 before (new_resource []))).
  change (nth_error after 0%nat) with (Some (nth 0 after (new_resource []))). now rewrite E.
Qed.
Print Assumptions C128_refuted.

(** Whatever is done with other resources, a resource keeps every attribute but its links. *)
Theorem C128_attributes : forall es e i r, ~ about i e -> nth_error (seen (run es nothing)) i = Some r ->
  exists r', nth_error (seen (run (es ++ [e]) nothing)) i = Some r' /\ set_ln None r' = set_ln None r.
Proof. exact others_kept. Qed.
Print Assumptions C128_attributes.

(** It keeps its links too if only resources without links are copied, or links are given for the copy. *)
Theorem C128_careful : forall es e i r, careful [] (es ++ [e]) -> ~ about i e ->
  nth_error (seen (run es nothing)) i = Some r -> nth_error (seen (run (es ++ [e]) nothing)) i = Some r.
Proof. exact careful_independent. Qed.
Print Assumptions C128_careful.

(** All that is read in such a session is as if resources were values. *)
Theorem C128_values : forall es, careful [] es -> seen (run es nothing) = own_run es [].
Proof. exact careful_own. Qed.
Print Assumptions C128_values.

(** Otherwise the copy and the original have the same links until one of them is given new ones. *)
Theorem C128_shared : forall es i a r r' es', nth_error (seen (run es nothing)) i = Some r -> r_ln r <> None -> a_ln a = None ->
  make_resource (Some r) a = Ok r' -> let k := List.length (seen (run es nothing)) in
  (forall e, In e es' -> ~ gives_links i e /\ ~ gives_links k e) ->
  exists x y, nth_error (seen (run (es ++ New (Some i) a :: es') nothing)) i = Some x /\
    nth_error (seen (run (es ++ New (Some i) a :: es') nothing)) k = Some y /\ r_ln x = r_ln y /\ r_ln x <> None.
Proof. exact copies_share. Qed.
Print Assumptions C128_shared.

(** New links are a resource's own until it is copied. *)
Theorem C128_new_links : forall es i r v es', nth_error (seen (run es nothing)) i = Some r ->
  (forall e, In e es' -> ~ about i e /\ forall a, e <> New (Some i) a) ->
  nth_error (seen (run (es ++ Do i (OpLn v) :: es') nothing)) i = Some (set_ln v r).
Proof. exact new_links. Qed.
Print Assumptions C128_new_links.

(** The session above: the link of the original is replaced, the change stays its own; and the same
    after assigning to ln, when the two are apart. *)
Definition two_sessions : list (option str * res (option pv)) * list (res (option pv)) * list (option (list link)) :=
  (map (fun r => (r_change r, link_href $"up" r)) (seen (run [with_link; updated_copy; link_on_copy] nothing)),
   map (fun r => link_href $"up" r) (seen (run [with_link; updated_copy; Do 1%nat (OpLn (Some [])); link_on_copy] nothing)),
   map r_ln (seen (run [plain; updated_copy; link_on_copy] nothing))).
Example C128_example :
  two_sessions =
    ([(None, Ok (Some (PStr $"http://a/new"))); (Some $"updated", Ok (Some (PStr $"http://a/new")))],
     [Ok (Some (PStr $"http://a/old")); Ok (Some (PStr $"http://a/new"))],
     [None; Some [[($"rel", PStr $"up"); ($"href", PStr $"http://a/new")]]])
  /\ careful [] [plain; updated_copy; link_on_copy].
Proof.
  split; [vm_compute; reflexivity|]. cbn [careful]. split; [exact I|]. split; [|split; exact I]. right.
  assert (E : own_step [] plain = [new_resource $"http://a/1"]) by (vm_compute; reflexivity). rewrite E. now intros r [= <-].
Qed.
