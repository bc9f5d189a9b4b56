(** * MirrorSpec: publishing a tree of files and copying it *)

From Verif Require Import Py Float64 W3C PathSpec OsPath UrlAuthority Mapper MapperSpec Resource ResourceSpec Container Xml Sitemap
  Opener ListIndex Hashes Disk DiskSpec Builder BuilderSpec ClientState Client ClientSpec ConvergeSpec SucceedSpec Build PublishSpec.

(** The file [rel] of the tree to be published. *)
Definition source_file (e : benv) (dir : str) (rel : list str) (d : str) (t : Z) : Prop :=
  leaf_at (be_root e) (denotes (be_cwd e) dir ++ rel) = Some (File d t).

(** All files below the directory [dir] of the publisher are published below [base], in
    one list; there is at least one of them. *)
Record publisher (e : benv) (bc : bclient) (base dir : str) (l : ixlist rdict) : Prop := {
  pb_mapper : bc_mapper bc = [MkMap base dir];
  pb_exclude : bc_exclude bc = [];
  pb_able : publishable e bc None;
  pb_scans : scans_to e bc None false l;
  pb_one : zlen (d_items (l_doc l)) <= at_most bc;
  pb_apart : mappings_apart (bc_mapper bc);
  pb_names : one_line_names (be_root e);
  pb_plain : no_specials (be_root e);
  pb_dir : dir <> [] /\ leaf_at (be_root e) (denotes (be_cwd e) dir) = None;
  pb_some : exists rel d t, source_file e dir rel d t
}.

(** A client that reads the list at [sm] and copies what is below [base] to [dir], where
    nothing is yet. *)
Record copier (E : env) (c : client) (w : world) (base dir sm : str) : Prop := {
  cp_mapper : c_mapper c = [MkMap base dir];
  cp_sitemap : c_sitemap_name c = Some sm;
  cp_options : c_dryrun c = false /\ c_ignore_failures c = false /\ (0 < c_tries c)%nat;
  cp_apart : mappings_apart (c_mapper c);
  cp_safe : unsafe (c_mapper c) = Ok false;
  cp_world : world_ok E w;
  cp_names : one_line_names (w_root w) /\ Forall one_line (e_cwd E);
  cp_dir : dir <> [] /\ forall p rest, denotes (e_cwd E) dir = p ++ rest -> leaf_at (w_root w) p = None;
  cp_empty : forall x, lookup (denotes (e_cwd E) dir ++ [x]) (w_root w) = None;
  cp_memory : memory_ok w;
  cp_hashes : (forall h, In h (w_hashes w) -> In h [$"md5"; $"sha-1"; $"sha-256"]) /\ (w_hashes w = [] \/ no_specials (w_root w))
}.

(** The network delivers the list at [sm] and every file at its URI, and the client accepts
    that the list speaks for these URIs. *)
Definition serves (E : env) (c : client) (e : benv) (base dir sm text : str) : Prop :=
  e_fetch E sm = Ok text /\
  forall rel d t, source_file e dir rel d t ->
    (forall k, e_get E k (base ++ $"/" ++ rel_path rel) = Data d)
    /\ (c_noauth c = true \/ authority_over (c_strictauth c) sm (base ++ $"/" ++ rel_path rel) = Ok true).

(** Below [dir] there are the files of the source and no others; contents are equal,
    modification times differ by no more than a second and two microseconds. *)
Definition mirrored (E : env) (w : world) (dir : str) (e : benv) (srcdir : str) : Prop :=
  forall rel,
    (forall d t, source_file e srcdir rel d t ->
       exists t', leaf_at (w_root w) (denotes (e_cwd E) dir ++ rel) = Some (File d t') /\ 1000000 * Z.abs (t' - t) < 1000002 * SEC)
    /\ (forall n, leaf_at (w_root w) (denotes (e_cwd E) dir ++ rel) = Some n -> exists d t, source_file e srcdir rel d t).

(** The file [f] is a resource list that says [d] to whoever gets it, from whatever URI. *)
Definition resource_document (fs : fsys) (f : str) (d : doc rdict) : Prop :=
  exists file, sget f fs = Some file /\
    forall fetch uri mf ms, fetch uri = Ok (f_data file) ->
    exists l, list_read resource_list_kind fetch false (new_list resource_list_kind $"resourcelist" mf ms) uri = Ok l /\ l_doc l = d.
