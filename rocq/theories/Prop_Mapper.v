(** * Properties C20 to C26: mapping between URIs and paths *)

From Verif Require Import Py Regex Url OsPath Mapper MapperSpec MapperFacts MapperFacts2 OsPathFacts.

(** C20: a mapping of literal strings replaces exactly the mapped prefix ... *)
Theorem C20_src_to_dst : forall m u, literal (src_uri m) -> one_line u ->
  src_to_dst [m] u = match spec_map (src_uri m) (dst_path m) u with
                     | Some p => Ok p | None => Err MapperError end.
Proof. exact src_to_dst_one. Qed.
Print Assumptions C20_src_to_dst.

Theorem C20_dst_to_src : forall m p, literal (dst_path m) -> one_line p ->
  dst_to_src [m] p = match spec_map (dst_path m) (src_uri m) p with
                     | Some u => Ok u | None => Err MapperError end.
Proof. exact dst_to_src_one. Qed.
Print Assumptions C20_dst_to_src.

(** ... of several, the first one that applies ... *)
Theorem C20_first_applies : forall ms u, (forall m, In m ms -> literal (src_uri m)) -> one_line u ->
  forall p, src_to_dst ms u = Ok p <->
  exists before m after, ms = before ++ m :: after /\
    (forall k, In k before -> spec_map (src_uri k) (dst_path k) u = None) /\
    spec_map (src_uri m) (dst_path m) u = Some p.
Proof. exact src_to_dst_first. Qed.
Print Assumptions C20_first_applies.

(** ... and URIs at or below the base are also mapped this way if the base contains dots. *)
Theorem C20_below_base : forall m rest, plain (src_uri m) -> one_line (src_uri m ++ rest) ->
  rest = [] \/ (exists x, rest = "/"%char :: x) ->
  src_to_dst [m] (src_uri m ++ rest) = Ok (dst_path m ++ match rest with [] => $"/" | _ => rest end).
Proof. exact src_to_dst_inside. Qed.
Print Assumptions C20_below_base.

Example C20_example :
  let m := make_map $"http://localhost/data" $"/tmp/d" in
  literal (src_uri m) /\ literal (dst_path m) /\
  src_to_dst [m] $"http://localhost/data/a/b.txt" = Ok $"/tmp/d/a/b.txt" /\
  src_to_dst [m] $"http://localhost/database" = Err MapperError /\
  dst_to_src [m] $"/tmp/d/x" = Ok $"http://localhost/data/x".
Proof. split; [now apply literalb_ok|]. split; [now apply literalb_ok|]. vm_compute. auto. Qed.

(** C21: there and back is the identity, for a single mapping ... *)
Theorem C21_single : forall m x,
  plain (src_uri m) -> plain (dst_path m) -> one_line (src_uri m) -> one_line (dst_path m) -> one_line x ->
  src_to_dst [m] (src_uri m ++ $"/" ++ x) = Ok (dst_path m ++ $"/" ++ x) /\
  dst_to_src [m] (dst_path m ++ $"/" ++ x) = Ok (src_uri m ++ $"/" ++ x).
Proof. exact single_round_trip. Qed.
Print Assumptions C21_single.

(** ... and for several literal ones none of which is a path prefix of another ... *)
Theorem C21_several : forall ms m x, In m ms ->
  (forall k, In k ms -> literal (src_uri k) /\ literal (dst_path k) /\ one_line (src_uri k) /\ one_line (dst_path k)) ->
  (forall i j a b, i <> j -> nth_error ms i = Some a -> nth_error ms j = Some b ->
     ~ path_prefix (src_uri a) (src_uri b) /\ ~ path_prefix (dst_path a) (dst_path b)) ->
  one_line x ->
  src_to_dst ms (src_uri m ++ $"/" ++ x) = Ok (dst_path m ++ $"/" ++ x) /\
  dst_to_src ms (dst_path m ++ $"/" ++ x) = Ok (src_uri m ++ $"/" ++ x).
Proof. exact multi_round_trip. Qed.
Print Assumptions C21_several.

(** ... or several with dots no two of which apply to the same string. *)
Theorem C21_several_plain : forall ms m x, In m ms ->
  (forall k, In k ms -> plain (src_uri k) /\ plain (dst_path k) /\ one_line (src_uri k) /\ one_line (dst_path k)) ->
  (forall i j a b s, i <> j -> nth_error ms i = Some a -> nth_error ms j = Some b ->
     ~ (applies (src_uri a) s /\ applies (src_uri b) s) /\
     ~ (applies (dst_path a) s /\ applies (dst_path b) s)) ->
  one_line x ->
  src_to_dst ms (src_uri m ++ $"/" ++ x) = Ok (dst_path m ++ $"/" ++ x) /\
  dst_to_src ms (dst_path m ++ $"/" ++ x) = Ok (src_uri m ++ $"/" ++ x).
Proof. exact multi_round_trip_plain. Qed.
Print Assumptions C21_several_plain.

Example C21_example :
  let a := make_map $"http://localhost/a/" $"/tmp/a" in
  let b := make_map $"http://localhost/ab" $"/tmp/b" in
  literal (src_uri a) /\ literal (dst_path b) /\ ~ path_prefix (src_uri a) (src_uri b) /\
  src_to_dst [a; b] $"http://localhost/ab/x.y" = Ok $"/tmp/b/x.y".
Proof.
  split; [now apply literalb_ok|]. split; [now apply literalb_ok|].
  split; [|vm_compute; reflexivity]. vm_compute. intros [H|(x & H)]; discriminate H.
Qed.

(** C22: a mapping applies outside its base, because the base is used as a regular
    expression ... *)
Theorem C22_mapped_outside_base_refuted : exists m u p,
  src_to_dst [m] u = Ok p /\ ~ exists t, u = src_uri m ++ t.
Proof. exact src_to_dst_outside_base. Qed.
Print Assumptions C22_mapped_outside_base_refuted.

(** ... but for a base without metacharacters only to URIs that read like it, with
    its dots as wildcards; for a literal base that is the base itself. *)
Theorem C22_plain_base : forall ms u p,
  (forall k, In k ms -> plain (src_uri k)) -> one_line u -> src_to_dst ms u = Ok p ->
  exists m w rest, In m ms /\ u = w ++ rest /\ like (src_uri m) w /\
    ((rest = [] /\ p = dst_path m ++ $"/") \/ (exists x, rest = "/"%char :: x /\ p = dst_path m ++ rest)).
Proof. exact src_to_dst_plain_agrees. Qed.
Print Assumptions C22_plain_base.

Theorem C22_literal_base : forall ms u p,
  (forall k, In k ms -> literal (src_uri k)) -> one_line u -> src_to_dst ms u = Ok p ->
  exists m, In m ms /\ path_prefix (src_uri m) u.
Proof. exact src_to_dst_literal. Qed.
Print Assumptions C22_literal_base.

Example C22_example :
  let m := make_map $"http://example.org/d" $"/tmp" in
  plain (src_uri m) /\ src_to_dst [m] $"http://example.org/d/x" = Ok $"/tmp/x" /\
  src_to_dst [m] $"http://example!org/d/x" = Ok $"/tmp/x" /\
  src_to_dst [m] $"http://example.com/d/x" = Err MapperError.
Proof. split; [now apply plainb_ok|]. vm_compute. auto. Qed.

(** C23: only one trailing slash is stripped ... *)
Theorem C23_strips_all_slashes_refuted : exists s, ~ no_end_slash (src_uri (make_map s [])).
Proof. exact strip_leaves_slash. Qed.
Print Assumptions C23_strips_all_slashes_refuted.

(** ... so one slash more or less makes no difference. *)
Theorem C23_one_slash : forall s d, one_line s -> one_line d -> no_end_slash s -> no_end_slash d ->
  make_map s d = MkMap s d /\ make_map (s ++ $"/") d = MkMap s d /\
  make_map s (d ++ $"/") = MkMap s d /\ make_map (s ++ $"/") (d ++ $"/") = MkMap s d.
Proof. exact make_map_slashes. Qed.
Print Assumptions C23_one_slash.

Theorem C23_strips_one : forall s d, one_line s -> one_line d ->
  make_map (s ++ $"/") (d ++ $"/") = MkMap s d.
Proof. exact make_map_strips. Qed.
Print Assumptions C23_strips_one.

Example C23_example :
  one_line $"http://a/b" /\ no_end_slash $"http://a/b" /\
  make_map $"http://a/b/" $"/c/" = MkMap $"http://a/b" $"/c" /\
  make_map $"http://a/b//" $"/c" = MkMap $"http://a/b/" $"/c".
Proof.
  split; [vm_compute; intuition discriminate|]. split; [|vm_compute; auto].
  apply no_end_slash_ok. reflexivity.
Qed.

(** C24: each argument gives a map, in order, or the list is refused ... *)
Theorem C24_maps : forall args ms, ~ two_form args -> make_mapper args false = Ok ms ->
  Forall2 (fun a m => exists s d, is_arg a s d /\ m = make_map s d) args ms.
Proof. exact make_mapper_maps. Qed.
Print Assumptions C24_maps.

Theorem C24_refusal : forall args e, make_mapper args false = Err e -> e = MapperError.
Proof. exact make_mapper_err. Qed.
Print Assumptions C24_refusal.

Theorem C24_bad_argument : forall args a, ~ two_form args -> In a args ->
  (forall s d, ~ is_arg a s d) -> make_mapper args false = Err MapperError.
Proof. exact make_mapper_bad. Qed.
Print Assumptions C24_bad_argument.

(** ... well-formed arguments that repeat nothing are accepted ... *)
Theorem C24_accepts : forall pairs, pairs_ok pairs ->
  make_mapper (map (fun p => fst p ++ $"=" ++ snd p) pairs) false = Ok (map (fun p => make_map (fst p) (snd p)) pairs).
Proof. exact make_mapper_accepts. Qed.
Print Assumptions C24_accepts.

(** ... the two-argument form gives the same mapper ... *)
Theorem C24_two_arguments : forall a b, ~ In "="%char a -> ~ In "="%char b ->
  make_mapper [a; b] false = Ok [make_map a b] /\
  make_mapper [a ++ $"=" ++ b] false = Ok [make_map a b].
Proof. exact make_mapper_two. Qed.
Print Assumptions C24_two_arguments.

(** ... no two maps share a source or a destination if the arguments have no
    trailing slashes ... *)
Theorem C24_no_duplicates : forall args ms, make_mapper args false = Ok ms ->
  (forall a s d, In a args -> is_arg a s d -> one_line a /\ no_end_slash s /\ no_end_slash d) ->
  NoDup (map src_uri ms) /\ NoDup (map dst_path ms).
Proof. exact make_mapper_no_dups. Qed.
Print Assumptions C24_no_duplicates.

(** ... but otherwise they may. *)
Theorem C24_duplicates_refuted : exists args ms,
  make_mapper args false = Ok ms /\ ~ NoDup (map src_uri ms).
Proof. exact make_mapper_dups. Qed.
Print Assumptions C24_duplicates_refuted.

Example C24_example :
  make_mapper [$"http://a/x/=/p"; $"http://a/y=q/"] false =
    Ok [MkMap $"http://a/x" $"/p"; MkMap $"http://a/y" $"q"] /\
  make_mapper [$"http://a/x=/p"; $"http://a/x=/q"] false = Err MapperError /\
  make_mapper [$"http://a/x"] false = Err MapperError /\
  ~ two_form [$"http://a/x/=/p"; $"http://a/y=q/"] /\
  pairs_ok [($"http://a/x", $"/p"); ($"http://a/y", $"q")].
Proof.
  split; [vm_compute; reflexivity|]. split; [vm_compute; reflexivity|]. split; [vm_compute; reflexivity|].
  split; [|now apply pairs_okb_ok].
  intros (a & b & [= <- <-] & N & _). apply N. vm_compute. auto 20.
Qed.

(** C25: nested local paths are missed if one of them is the current directory ... *)
Theorem C25_missed_refuted : exists s d,
  map_unsafe (MkMap s d) = Ok false /\ forall cwd, inside (denotes cwd s) (denotes cwd d).
Proof. exact unsafe_missed. Qed.
Print Assumptions C25_missed_refuted.

(** ... and found between absolute paths and between relative paths that go down,
    from every current directory. *)
Theorem C25_detected : forall s d cwd, ~ In ":"%char s \/ absolute s -> comparable s d ->
  map_unsafe (MkMap s d) = Ok false ->
  ~ inside (denotes cwd s) (denotes cwd d) /\ ~ inside (denotes cwd d) (denotes cwd s).
Proof. exact safe_separate. Qed.
Print Assumptions C25_detected.

(** A mapper is safe only if each of its maps is. *)
Theorem C25_every_map : forall ms, unsafe ms = Ok false <-> forall m, In m ms -> map_unsafe m = Ok false.
Proof. exact unsafe_all. Qed.
Print Assumptions C25_every_map.

Example C25_example :
  comparable $"/data/a/" $"/data/./b" /\ map_unsafe (MkMap $"/data/a/" $"/data/./b") = Ok false /\
  comparable $"x/y" $"x/y/z" /\ map_unsafe (MkMap $"x/y" $"x/y/z") = Ok true.
Proof.
  split; [left; repeat split; try (eexists; reflexivity); intros q; vm_compute; discriminate|].
  split; [vm_compute; reflexivity|]. split; [|vm_compute; reflexivity].
  right. split; [reflexivity|]. split; [reflexivity|].
  split; (split; [vm_compute; intros c I; decompose [or] I; subst; discriminate || contradiction|exists $"x"; split; [vm_compute; auto|split; vm_compute; discriminate]]).
Qed.

(** The normalisation of paths that this rests on keeps their meaning, wherever one is. *)
Theorem C25_normalised : forall cwd p, denotes cwd (os_normpath p) = denotes cwd p.
Proof. exact normpath_denotes. Qed.
Print Assumptions C25_normalised.

(** C26: the default destination for a URI with a host is a safe name, never a path
    with several components. *)
Theorem C26_safe_name : forall uri p v,
  urlparse uri [] = Ok v -> up_netloc v <> [] -> path_from_uri uri = Ok p -> safe_name p.
Proof. exact path_from_uri_safe. Qed.
Print Assumptions C26_safe_name.

Theorem C26_single_component : forall p, safe_name p -> ~ In "/"%char p /\ p <> $"." /\ p <> $"..".
Proof. exact safe_name_component. Qed.
Print Assumptions C26_single_component.

(** Names that are already safe are kept: the host is the name if there is no path. *)
Theorem C26_keeps_host : forall h, safe_name h -> h <> [] -> path_from_uri ($"http://" ++ h) = Ok h.
Proof. exact path_from_uri_host. Qed.
Print Assumptions C26_keeps_host.

Example C26_example :
  path_from_uri $"http://example.org:8080/a/../b__c/?x" = Ok $"example.org_8080_a_.._b_c" /\
  safe_name $"example.org".
Proof. split; [vm_compute; reflexivity|]. now apply safe_nameb_ok. Qed.
