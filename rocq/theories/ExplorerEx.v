(** * ExplorerEx: a small source to explore *)

From Verif Require Import Py Float64 W3C Url UrlSpec Resource Xml Sitemap ClientExamples Explorer ExplorerSpec.

(** A capability list, a resource list and a file, below /s; one more resource is on the
    web. *)
Definition cap_text : str := list_text $"capabilitylist" [entry $"r.xml" $"2020-01-01T00:00:00Z" $"capability='resourcelist'"].
Definition res_text : str :=
  list_text $"resourcelist" [entry $"a.txt" $"2020-01-01T00:00:00Z" $"length='5'"; entry $"http://s.org/b" $"2020-01-01T00:00:00Z" $"length='6'"].
Definition ex_world : xenv :=
  MkXenv (fun _ u => if str_eqb u $"/s/c.xml" then Ok cap_text else if str_eqb u $"/s/r.xml" then Ok res_text else Err IOError)
    (fun _ _ => Ok tt)
    (fun f => if str_eqb f $"/s/a.txt" then Some (1577836800 * SEC, 7)
              else if in_strs f [$"/s/resourcelist.xml"; $"/s/resourcesync"] then Some (0, 1) else None)
    (fun d => str_eqb d $"/s").
Definition ex_start : xresource := MkX $"/s/c.xml" AnyDocument None.

(** A page as it is shown, its menu and the type of its document. *)
Definition page_of (n : nat) (x : xresource) : list line := fst (show_page ex_world n x).
Definition menu_of (n : nat) (x : xresource) : menu :=
  match snd (show_page ex_world n x) with Ok (o, _) => o | Err _ => [] end.
Definition type_of (n : nat) (x : xresource) : option str :=
  match snd (show_page ex_world n x) with Ok (_, t) => t | Err _ => None end.
Lemma page_is n x : match snd (show_page ex_world n x) with Ok _ => true | Err _ => false end = true ->
  show_page ex_world n x = (page_of n x, Ok (menu_of n x, type_of n x)).
Proof.
  unfold page_of, menu_of, type_of. destruct (show_page ex_world n x) as [l [[o t]|]]; [reflexivity|discriminate].
Qed.
Lemma start_page n : show_page ex_world n ex_start = (page_of n ex_start, Ok (menu_of n ex_start, type_of n ex_start)).
Proof. apply page_is. vm_compute. reflexivity. Qed.
Definition pick (n : nat) (x : xresource) (key : str) : resource :=
  match sget key (menu_of n x) with Some r => r | None => new_resource [] end.
Definition goto (n : nat) (x : xresource) (key : str) : xresource :=
  match follow (type_of n x) (pick n x key) with Ok y => y | Err _ => x end.
Definition ex_list : xresource := Eval vm_compute in goto 0 ex_start $"1".
Lemma list_page n : show_page ex_world n ex_list = (page_of n ex_list, Ok (menu_of n ex_list, type_of n ex_list)).
Proof. apply page_is. vm_compute. reflexivity. Qed.
Definition ex_resource : xresource := Eval vm_compute in goto 0 ex_list $"1".
Definition ex_remote : xresource := Eval vm_compute in goto 0 ex_list $"2".
Definition r1 : resource := Eval vm_compute in pick 0 ex_start $"1".
Definition r2 : resource := Eval vm_compute in pick 0 ex_list $"1".
Lemma start_one n : sget $"1" (menu_of n ex_start) = Some r1 /\ follow (type_of n ex_start) r1 = Ok ex_list.
Proof. split; vm_compute; reflexivity. Qed.
Lemma list_one n : sget $"1" (menu_of n ex_list) = Some r2 /\ follow (type_of n ex_list) r2 = Ok ex_resource.
Proof. split; vm_compute; reflexivity. Qed.
Lemma resource_page n : show_page ex_world n ex_resource = (page_of n ex_resource, Ok (menu_of n ex_resource, type_of n ex_resource)).
Proof. apply page_is. vm_compute. reflexivity. Qed.

(** To the list, to the resource, back and back. *)
Lemma ex_excursion : excursion ex_world 0 ex_start [$"1"; $"1"; $"b"; $"b"] 4.
Proof.
  apply (go_and_return ex_world 0 ex_start $"1" [$"1"; $"b"] 3 [] 4 _ _ _ _ ex_list _ _ _ (start_page 0) (proj1 (start_one 0)) (proj2 (start_one 0))) with (2 := list_page 3).
  - apply (go_and_return ex_world 1 ex_list $"1" [] 2 [] 3 _ _ _ _ ex_resource _ _ _ (list_page 1) (proj1 (list_one 1)) (proj2 (list_one 1))) with (2 := resource_page 2); constructor.
  - constructor.
Qed.

(** A list of 25 resources, an index of descriptions. *)
Definition many : list resource := map (fun k => new_resource ($"http://s.org/" ++ print_int (Z.of_nat k))) (seq 0 25).
Definition many_doc : doc (list resource) := MkDoc [($"capability", PStr $"resourcelist")] [] many.
Definition descriptions : doc (list resource) := MkDoc [($"capability", PStr $"description")] [] [new_resource $"http://s.org/d.xml"].
Lemma remote_unchecked : exists e n t r x l o,
  follow t r = Ok x /\ x_caps x = ResourceItself /\ r_length r = Some 6 /\
  xe_head e n (x_uri x) = Ok tt /\ show_page e n x = (l, Ok o) /\
  l = [Reading (x_uri x); Head (x_uri x); CannotParse (x_uri x)].
Proof.
  exists ex_world, 2%nat, (Some $"resourcelist"), (pick 0 ex_list $"2"), ex_remote.
  eexists. eexists. split; [vm_compute; reflexivity|]. split; [reflexivity|]. split; [vm_compute; reflexivity|].
  split; [reflexivity|]. split; [vm_compute; reflexivity|]. reflexivity.
Qed.
Lemma description_index_unknown : exists d l o t,
  explore_show_summary d true None $"http://s.org/d.xml" = (l, Ok (o, t)) /\
  In t defined_types /\ In (UnknownType t) l.
Proof.
  exists descriptions. eexists. eexists. exists $"descriptionindex". split; [vm_compute; reflexivity|].
  split; [right; left; reflexivity|right; left; reflexivity].
Qed.
Lemma slash_s : absolute_path $"/s".
Proof.
  split; [exists "s"%char, []; split; [reflexivity|discriminate]|].
  split; intros c I0 J; vm_compute in I0, J; intuition (subst; discriminate).
Qed.
Lemma s_org_r : exists u, wf_url u /\ url_text u = $"http://s.org/r" /\ q_host u <> [].
Proof.
  exists (MkUrl $"http" $"s.org" $"/r" []). split; [|split; [reflexivity|discriminate]].
  unfold wf_url. cbn [q_scheme q_host q_path q_tail].
  split; [exists "h"%char, $"ttp"; split; reflexivity|].
  split; [intros c I0; left; vm_compute in I0; intuition (subst; reflexivity)|].
  split; [intros c I0 J; vm_compute in I0, J; intuition (subst; discriminate)|].
  split; [intros c I0 J; vm_compute in I0, J; intuition (subst; discriminate)|].
  split; [right; exists $"r"; reflexivity|].
  split; [intros c I0 J; vm_compute in I0, J; intuition (subst; discriminate)|].
  split; [intros c I0 J; vm_compute in I0, J; intuition (subst; discriminate)|].
  split; [left; reflexivity|intros c []].
Qed.
