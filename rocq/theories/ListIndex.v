(** * ListIndex: model of list_base_with_index.py *)

From Verif Require Import Py Float64 Regex Mapper UrlAuthority Resource Container Xml Sitemap Opener.

(** The kinds of collection that a list may hold its resources in: iteration, the add
    method of the list, the empty collection, and the add and uris methods of the
    collection itself, which lists of the kind [list] do not have. *)
Record kind (C : Type) : Type := MkKind {
  k_iter : C -> list resource;
  k_add : resource -> C -> res C;
  k_empty : C;
  k_insert : resource -> C -> res C;
  k_uris : C -> res (list str) }.
Arguments MkKind {C}. Arguments k_iter {C}. Arguments k_add {C}. Arguments k_empty {C}.
Arguments k_insert {C}. Arguments k_uris {C}.

(** ResourceList, resource_list.py:48-76,140-169. *)
Definition resource_list_kind : kind rdict :=
  MkKind rl_iter (fun r => rl_add r false) [] (fun r => rl_add r false) (fun d => Ok (rl_uris d)).
(** ChangeList, change_list.py:28-55: its collection is a Python list. *)
Definition change_list_kind : kind (list resource) :=
  MkKind (fun l => l) cl_add [] (fun _ _ => Err AttributeError) (fun _ => Err AttributeError).

(** ListBaseWithIndex, list_base_with_index.py:49-73.  [l_max] is max_sitemap_entries.
    Simplification: an explicit count is not modelled. *)
Record ixlist (C : Type) : Type := MkIx {
  l_doc : doc C; l_name : option str; l_max : option Z; l_allow : bool;
  l_mapper : option mapper; l_check : bool; l_index : bool; l_sm : settings }.
Arguments MkIx {C}. Arguments l_doc {C}. Arguments l_name {C}. Arguments l_max {C}. Arguments l_allow {C}.
Arguments l_mapper {C}. Arguments l_check {C}. Arguments l_index {C}. Arguments l_sm {C}.

Definition with_doc {C} (d : doc C) (index : bool) (l : ixlist C) : ixlist C :=
  MkIx d (l_name l) (l_max l) (l_allow l) (l_mapper l) (l_check l) index (l_sm l).

(** len(self) *)
Definition zlen {A} (l : list A) : Z := Z.of_nat (List.length l).

(** ** Utility *)

(** get_resources_chunk, list_base_with_index.py:357-385, the loop: [n] entries are in
    the chunk already; what it takes from the iterator and what is left there. *)
Fixpoint take_chunk (max n : Z) (it : list resource) : list resource * list resource :=
  match it with
  | [] => ([], [])
  | r :: it' =>
      if max <=? n + 1 then ([r], it')
      else let '(c, rest) := take_chunk max (n + 1) it' in (r :: c, rest)
  end.
(** The entries of the chunk, the next resource and the state of the iterator. *)
Definition get_chunk (max : Z) (first : option resource) (it : list resource)
    : list resource * option resource * list resource :=
  let start := match first with Some r => [r] | None => [] end in
  let '(c, rest) := take_chunk max (zlen start) it in
  match rest with
  | [] => (start ++ c, None, [])
  | r :: rest' => (start ++ c, Some r, rest')
  end.
(** The chunks of the while loop in write, list_base_with_index.py:306-330.  [fuel] is
    more than the number of resources still to come. *)
Fixpoint all_chunks (fuel : nat) (max : Z) (first : option resource) (it : list resource)
    : list (list resource) :=
  match fuel with
  | O => []
  | S f =>
      let '(c, nxt, it') := get_chunk max first it in
      match c with [] => [] | _ => c :: all_chunks f max nxt it' end
  end.

(** part_name, list_base_with_index.py:387-404. *)
Definition part_name (basename : str) (n : Z) : str :=
  let prefix := if endswith $".xml" basename
                then firstn (List.length basename - 4) basename else basename in
  prefix ++ print_pad 5 n ++ $".xml".

(** is_file_uri, list_base_with_index.py:406-412. *)
Definition is_file_uri (uri : str) : bool :=
  match re_match (re_const $"file:") uri with
  | Some _ => true
  | None => match re_match (re_const $"\w{3,4}:") uri with Some _ => false | None => true end
  end.

(** link_set on a list, resource_container.py:134-152, without further attributes. *)
Definition list_link_set (rel href : str) (ln : list link) : list link :=
  match find_link rel ln with
  | None => ln ++ [[($"rel", PStr rel); ($"href", PStr href)]]
  | Some _ => update_first rel (fun l => sset $"href" (PStr href) l) ln
  end.

(** ** Output *)

(** math.ceil(len / float(max)): division of floating point numbers. *)
Definition float_ceil_div (n m : Z) : Z := - ((- float_of_ratio n m) / SEC).

(** requires_multifile, list_base_with_index.py:186-196: 0 stands for False.
    Negative limits are outside the model. *)
Definition requires_multifile {C} (k : kind C) (l : ixlist C) : res Z :=
  let n := zlen (k_iter k (d_items (l_doc l))) in
  match l_max l with
  | None => Ok 0
  | Some max => if n <=? max then Ok 0
                else if max =? 0 then Err PlainException      (* ZeroDivisionError *)
                else if max <? 0 then Err OutOfModel
                else Ok (float_ceil_div n max)
  end.

(** range(n) *)
Definition zrange (n : Z) : list Z := map Z.of_nat (seq 0 (Z.to_nat n)).

(** as_xml_index, list_base_with_index.py:222-247. *)
Definition as_xml_index {C} (k : kind C) (l : ixlist C) (basename : str) : res str :=
  let* num_parts := requires_multifile k l in
  if num_parts =? 0 then Err ListBaseIndexError
  else
    as_xml (fun x => x) (l_sm l) (l_name l) true
      (default_capability (l_name l)
         (MkDoc [] [] (map (fun n => new_resource (part_name basename n)) (zrange num_parts)))).

(** as_xml_part, list_base_with_index.py:249-276.  A negative part number makes
    islice raise ValueError. *)
Definition as_xml_part {C} (k : kind C) (l : ixlist C) (basename : str) (part : Z) : res str :=
  let items := k_iter k (d_items (l_doc l)) in
  let* num_parts := requires_multifile k l in
  match l_max l with
  | None => Err ListBaseIndexError
  | Some max =>
      if num_parts =? 0 then Err ListBaseIndexError
      else
        let start := part * max in
        if zlen items <? start then Err ListBaseIndexError
        else
          let stop := if zlen items <? start + max then zlen items else start + max in
          if (start <? 0) || (stop <? 0) then Err ValueError
          else
            let slice := firstn (Z.to_nat (stop - start)) (skipn (Z.to_nat start) items) in
            let d := default_capability (l_name l) (MkDoc [] [] slice) in
            resources_as_xml (l_sm l) false (MkDoc (d_md d) (list_link_set $"index" basename (d_ln d)) slice)
  end.

(** as_xml, list_base_with_index.py:198-220. *)
Definition list_as_xml {C} (k : kind C) (l : ixlist C) (allow_multifile : bool) (basename : str) : res str :=
  let* num_parts := requires_multifile k l in
  if num_parts =? 0 then as_xml (k_iter k) (l_sm l) (l_name l) (l_index l) (l_doc l)
  else if allow_multifile then as_xml_index k l basename
  else Err ListBaseIndexError.

(** self.mapper.dst_to_src with the MapperError of write turned into
    ListBaseIndexError. *)
Definition map_name (ms : option mapper) (file : str) : res str :=
  match ms with
  | None => Err AttributeError
  | Some ms => match dst_to_src ms file with Err MapperError => Err ListBaseIndexError | x => x end
  end.

(** open(path, 'w'), resources_as_xml(doc, fh=f): the file is emptied first. *)
Definition write_doc (clock : str -> Z) (sm : settings) (index : bool) (d : doc (list resource))
    (path : str) (fs : fsys) : fsys * option exn :=
  match resources_as_xml sm index d with
  | Ok text => (put_file path text (clock path) fs, None)
  | Err e => (put_file path [] (clock path) fs, Some e)
  end.

(** The entry of the index for a component file, list_base_with_index.py:325-328. *)
Definition index_entry (md5 : str -> str) (uri : str) (f : file) : resource :=
  set_md5 (Some (md5 (f_data f))) (set_timestamp (Some (f_mtime f)) (new_resource uri)).

(** The while loop of write, list_base_with_index.py:306-330, given the chunks; [n] is
    len(index). *)
Fixpoint write_parts (md5 : str -> str) (clock : str -> Z) (sm : settings) (ms : option mapper)
    (md : link) (ln : list link) (basename : str) (chunks : list (list resource)) (n : Z)
    (index : list resource) (fs : fsys) : fsys * res (list resource) :=
  match chunks with
  | [] => (fs, Ok index)
  | c :: chunks' =>
      let file := part_name basename n in
      match map_name ms file with
      | Err e => (fs, Err e)
      | Ok uri =>
          let '(fs, e) := write_doc clock sm false (MkDoc md ln c) file fs in
          match e, sget file fs with
          | Some e, _ => (fs, Err e)
          | None, None => (fs, Err IOError)
          | None, Some f =>
              write_parts md5 clock sm ms md ln basename chunks' (n + 1) (index ++ [index_entry md5 uri f]) fs
          end
      end
  end.

(** write(basename), list_base_with_index.py:278-347.  [md5] is the hexadecimal MD5
    digest of a file's contents, [clock] the modification time a file gets.  The result
    is the file system and the list after the call.  The link dictionaries are shared
    between the list, the index and the chunks (ln=list(self.ln) copies the outer list
    only), so an index link that exists already is overwritten in all of them. *)
Definition list_write {C} (k : kind C) (md5 : str -> str) (clock : str -> Z) (l : ixlist C)
    (basename : str) (fs : fsys) : fsys * res (ixlist C) :=
  let items := k_iter k (d_items (l_doc l)) in
  let md := d_md (default_capability (l_name l) (l_doc l)) in
  let ln := d_ln (l_doc l) in
  match l_max l, items with
  | None, _ :: _ => (fs, Err TypeError)                        (* len(chunk) >= None *)
  | _, _ =>
      let max := match l_max l with Some m => m | None => 0 end in
      let '(chunk, nxt, it) := get_chunk max None items in
      match nxt with
      | Some _ =>
          if negb (l_allow l) then (fs, Err ListBaseIndexError)
          else
            match map_name (l_mapper l) basename with
            | Err e => (fs, Err e)
            | Ok index_uri =>
                let part_ln := list_link_set $"index" index_uri ln in
                let shared_ln := match find_link $"index" ln with Some _ => part_ln | None => ln end in
                let '(fs, index) :=
                  write_parts md5 clock (l_sm l) (l_mapper l) md part_ln basename
                    (chunk :: all_chunks (S (List.length items)) max nxt it) 0 [] fs in
                match index with
                | Err e => (fs, Err e)
                | Ok index =>
                    let '(fs, e) := write_doc clock (l_sm l) true (MkDoc md shared_ln index) basename fs in
                    (fs, match e with
                         | Some e => Err e
                         | None => Ok (with_doc (MkDoc (d_md (l_doc l)) shared_ln (d_items (l_doc l))) (l_index l) l)
                         end)
                end
            end
      | None =>
          let '(fs, e) := write_doc clock (l_sm l) (l_index l) (MkDoc md ln chunk) basename fs in
          (fs, match e with Some e => Err e | None => Ok l end)
      end
  end.

(** ** Input *)

(** for r in component: self.resources.add(r), list_base_with_index.py:179-180. *)
Fixpoint insert_all {C} (insert : resource -> C -> res C) (rs : list resource) (c : C) : res C :=
  match rs with [] => Ok c | r :: rs' => let* c := insert r c in insert_all insert rs' c end.

(** read_component_sitemap, list_base_with_index.py:137-182.  [fetch] stands for
    url_or_file_open followed by reading. *)
Definition read_component {C} (k : kind C) (fetch : str -> res str) (l : ixlist C)
    (index_uri : str) (index_is_file : bool) (c : C) (uri : str) : res C :=
  let* uri :=
    if index_is_file then
      if negb (is_file_uri uri) then
        match l_mapper l with None => Err AttributeError | Some ms => src_to_dst ms uri end
      else if l_check l then
        let* b := authority_over false index_uri uri in
        if negb b then Err ListBaseIndexError else Ok uri
      else Ok uri
    else Ok uri in
  let* text := match fetch uri with Err IOError => Err ListBaseIndexError | x => x end in
  let* (d, _) := parse_xml (l_sm l) (fun r rs => Ok (rs ++ [r])) None (Some false) (MkDoc [] [] []) text in
  insert_all (k_insert k) (d_items d) c.

Fixpoint read_components {C} (k : kind C) (fetch : str -> res str) (l : ixlist C)
    (index_uri : str) (index_is_file : bool) (uris : list str) (c : C) : res C :=
  match uris with
  | [] => Ok c
  | u :: uris' =>
      let* c := read_component k fetch l index_uri index_is_file c u in
      read_components k fetch l index_uri index_is_file uris' c
  end.

(** read(uri, index_only), list_base_with_index.py:77-135.  The list after the call;
    its state after an exception is not modelled. *)
Definition list_read {C} (k : kind C) (fetch : str -> res str) (index_only : bool) (l : ixlist C) (uri : str)
    : res (ixlist C) :=
  let* text := fetch uri in
  let* (d, index) := parse_xml (l_sm l) (k_add k) (l_name l) None (l_doc l) text in
  if negb index then Ok (with_doc d (l_index l) l)
  else if negb (l_allow l) then Err ListBaseIndexError
  else if index_only then Ok (with_doc d true l)
  else
    let* uris := k_uris k (d_items d) in
    let* c := read_components k fetch l uri (is_file_uri uri) (sort_strs uris) (k_empty k) in
    Ok (with_doc (MkDoc (d_md d) (d_ln d) c) (l_index l) l).
