(** * Mapper: model of mapper.py *)

From Verif Require Import Py Regex Url OsPath.

Record smap : Type := MkMap { src_uri : str; dst_path : str }.

(** re.compile of a pattern built at run time. *)
Definition compile (pat : str) : res re :=
  match re_parse pat with POk r => Ok r | PError => Err ReError | PUnsupported => Err OutOfModel end.

(** Map.strip_trailing_slashes, mapper.py:163-168. *)
Definition strip_trailing_slashes (path : str) : str :=
  match re_match (re_const $"(.*)/+$") path with
  | None => path
  | Some m => match cap_get 1 m with Some g => g | None => path end
  end.

(** Map(src_uri, dst_path), mapper.py:155-161. *)
Definition make_map (src dst : str) : smap :=
  MkMap (strip_trailing_slashes src) (strip_trailing_slashes dst).

(** The common part of Map.dst_to_src and Map.src_to_dst, mapper.py:181-187 and
    198-204: match [s] against the base followed by an optional group that starts
    with a slash, up to the end, and put that group after [other]. *)
Definition map_base (base other s : str) : res (option str) :=
  let* r := compile (base ++ $"(/.*)?$") in
  match re_match r s with
  | None => Ok None
  | Some m =>
      (* m.group(1): the first group, which is one of base's own if it has any *)
      let rel := match cap_get 1 m with Some g => g | None => $"/" end in
      Ok (Some (other ++ rel))
  end.
Definition map_dst_to_src (m : smap) (dst : str) : res (option str) :=
  map_base (dst_path m) (src_uri m) dst.
Definition map_src_to_dst (m : smap) (src : str) : res (option str) :=
  map_base (src_uri m) (dst_path m) src.

(** Map.unsafe, mapper.py:206-218. *)
Definition map_unsafe (m : smap) : res bool :=
  let* u := urlparse (src_uri m) [] in
  if negb (str_eqb (up_scheme u) []) then Ok false
  else
    let s := os_normpath (src_uri m) in
    let d := os_normpath (dst_path m) in
    let lcp := os_commonprefix s d in
    Ok (str_eqb s lcp || str_eqb d lcp).

Notation mapper := (list smap).

(** Mapper.path_from_uri, mapper.py:122-136. *)
Definition path_from_uri (uri : str) : res str :=
  let* u := urlparse uri [] in
  if str_eqb (up_netloc u) [] then Ok uri
  else
    let path := join $"/" [up_netloc u; up_path u] in
    let path := re_sub (re_const $"[^\w\-\.]") $"_" path in
    let path := re_sub (re_const $"__+") $"_" path in
    let path := re_sub (re_const $"[_\.]+$") [] path in
    let path := re_sub (re_const $"^[_\.]+") [] path in
    Ok path.

(** The loop of Mapper.parse, mapper.py:58-77. *)
Fixpoint parse_mappings (args : list str) (acc : mapper) : res mapper :=
  match args with
  | [] => Ok acc
  | a :: args' =>
      match split_on "=" a with
      | [s; d] =>
          if existsb (fun m => str_eqb s (src_uri m) || str_eqb d (dst_path m)) acc
          then Err MapperError
          else parse_mappings args' (acc ++ [make_map s d])
      | _ => Err MapperError
      end
  end.

(** Mapper(mappings, use_default_path), mapper.py:19-77. *)
Definition make_mapper (args : list str) (use_default : bool) : res mapper :=
  let no_eq s := negb (has_char "=" s) in
  match args with
  | [a] =>
      if use_default && no_eq a then let* p := path_from_uri a in Ok [make_map a p]
      else parse_mappings args []
  | [a; b] => if no_eq a && no_eq b then Ok [make_map a b] else parse_mappings args []
  | _ => parse_mappings args []
  end.

(** Mapper.default_src_uri, mapper.py:79-86. *)
Definition default_src_uri (m : mapper) : res str :=
  match m with x :: _ => Ok (src_uri x) | [] => Err MapperError end.

(** Mapper.unsafe, mapper.py:88-98. *)
Fixpoint unsafe (ms : mapper) : res bool :=
  match ms with
  | [] => Ok false
  | m :: ms' => let* b := map_unsafe m in if b then Ok true else unsafe ms'
  end.

(** Mapper.dst_to_src and Mapper.src_to_dst, mapper.py:100-120: the first map that
    applies. *)
Fixpoint dst_to_src (ms : mapper) (p : str) : res str :=
  match ms with
  | [] => Err MapperError
  | m :: ms' => let* r := map_dst_to_src m p in
                match r with Some u => Ok u | None => dst_to_src ms' p end
  end.
Fixpoint src_to_dst (ms : mapper) (u : str) : res str :=
  match ms with
  | [] => Err MapperError
  | m :: ms' => let* r := map_src_to_dst m u in
                match r with Some p => Ok p | None => src_to_dst ms' u end
  end.
