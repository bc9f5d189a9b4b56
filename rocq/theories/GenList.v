(** * GenList: lists that are given an iterator and a count *)

From Verif Require Import Py Float64 Mapper Resource Container Xml Sitemap Opener ListIndex.

(** A list made with resources=..., count=..., list_base.py:42-58.  [g_list] holds the resources
    that iterating over it will give; [g_once] says that they are a generator or another
    iterator, which gives every resource once and has no length. *)
Record glist : Type := MkGen { g_list : ixlist (list resource); g_count : option Z; g_once : bool }.

(** The collection is only iterated over. *)
Definition iterable_kind : kind (list resource) :=
  MkKind (fun l => l) (fun _ _ => Err AttributeError) [] (fun _ _ => Err AttributeError) (fun _ => Err AttributeError).

Definition g_items (g : glist) : list resource := d_items (l_doc (g_list g)).
Definition with_items (rs : list resource) (g : glist) : glist :=
  MkGen (with_doc (MkDoc (d_md (l_doc (g_list g))) (d_ln (l_doc (g_list g))) rs) (l_index (g_list g)) (g_list g))
    (g_count g) (g_once g).
(** After [n] resources have been taken. *)
Definition taken (n : nat) (g : glist) : glist := if g_once g then with_items (skipn n (g_items g)) g else g.
Definition exhausted (g : glist) : glist := taken (List.length (g_items g)) g.

(** __len__, list_base.py:64-79. *)
Definition g_len (g : glist) : res Z :=
  match g_count g with
  | Some n => Ok n
  | None => if g_once g then Err TypeError else Ok (zlen (g_items g))
  end.

(** requires_multifile, list_base_with_index.py:188-197; as in ListIndex. *)
Definition g_requires (g : glist) : res Z :=
  match l_max (g_list g) with
  | None => Ok 0
  | Some max =>
      let* n := g_len g in
      if n <=? max then Ok 0
      else if max =? 0 then Err PlainException                (* ZeroDivisionError *)
      else if max <? 0 then Err OutOfModel
      else Ok (float_ceil_div n max)
  end.

(** as_xml_index, list_base_with_index.py:222-247: no resource is taken. *)
Definition g_index (g : glist) (basename : str) : res str :=
  let l := g_list g in
  let* num_parts := g_requires g in
  if num_parts =? 0 then Err ListBaseIndexError
  else as_xml (fun x => x) (l_sm l) (l_name l) true
         (default_capability (l_name l)
            (MkDoc [] [] (map (fun n => new_resource (part_name basename n)) (zrange num_parts)))).

(** as_xml, list_base_with_index.py:199-220; the text and the list after the call.  The
    capability that as_xml leaves in the metadata is not modelled. *)
Definition g_as_xml (g : glist) (allow_multifile : bool) (basename : str) : res str * glist :=
  let l := g_list g in
  match g_requires g with
  | Err e => (Err e, g)
  | Ok n =>
      if n =? 0 then (as_xml (fun x => x) (l_sm l) (l_name l) (l_index l) (l_doc l), exhausted g)
      else (if allow_multifile then g_index g basename else Err ListBaseIndexError, g)
  end.

(** as_xml_part, list_base_with_index.py:249-276: islice(self.resources, start, stop) takes the
    first stop of the resources to come and gives those after the first start. *)
Definition g_as_xml_part (g : glist) (basename : str) (part : Z) : res str * glist :=
  let l := g_list g in
  match g_requires g, l_max l, g_len g with
  | Err e, _, _ => (Err e, g)
  | Ok _, None, _ => (Err ListBaseIndexError, g)
  | Ok _, Some _, Err e => (Err e, g)
  | Ok num_parts, Some max, Ok len =>
      if num_parts =? 0 then (Err ListBaseIndexError, g)
      else
        let start := part * max in
        if len <? start then (Err ListBaseIndexError, g)
        else
          let stop := if len <? start + max then len else start + max in
          if (start <? 0) || (stop <? 0) then (Err ValueError, g)
          else
            let slice := firstn (Z.to_nat (stop - start)) (skipn (Z.to_nat start) (g_items g)) in
            let d := default_capability (l_name l) (MkDoc [] [] slice) in
            (resources_as_xml (l_sm l) false (MkDoc (d_md d) (list_link_set $"index" basename (d_ln d)) slice),
             taken (Z.to_nat stop) g)
  end.

(** write, list_base_with_index.py:278-347, uses neither the length nor the count; if it
    succeeds it has taken all resources.  The list after a failure is not modelled. *)
Definition g_write (md5 : str -> str) (clock : str -> Z) (g : glist) (basename : str) (fs : fsys) : fsys * res glist :=
  let '(fs', r) := list_write iterable_kind md5 clock (g_list g) basename fs in
  (fs', let* l' := r in Ok (exhausted (MkGen l' (g_count g) (g_once g)))).

(** Several parts, asked for one after the other. *)
Fixpoint g_parts (g : glist) (basename : str) (numbers : list Z) : list (res str) * glist :=
  match numbers with
  | [] => ([], g)
  | n :: ns =>
      let '(r, g) := g_as_xml_part g basename n in
      let '(rs, g) := g_parts g basename ns in (r :: rs, g)
  end.
