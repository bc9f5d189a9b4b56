(** * PublishSpec: what the properties of documents made from the disk mean *)

From Verif Require Import Py Float64 W3C Mapper MapperSpec Resource ResourceSpec Container ContainerSpec Xml Sitemap SitemapSpec
  Opener ListIndex ListIndexSpec Hashes Disk DiskSpec OsPath Builder BuilderSpec Client StoredSpec Build.

(** A file that is to be published: a scan with these paths finds it and [u] is its URI. *)
Definition on_disk (e : benv) (c : bclient) (paths : option str) (u file : str) (n : node) : Prop :=
  exists start rel, In start (start_points (bc_mapper c) (match paths with Some p => Some (split_on "," p) | None => None end))
    /\ found_at (bc_exclude c) (be_cwd e) (be_root e) start rel file n /\ dst_to_src (bc_mapper c) file = Ok u.

(** What can be put into a document: URIs and digests are text, times are those of
    a clock between 1970-01-01T18:12 and 2106. *)
Definition file_time (t : Z) : Prop := 2 ^ 16 * SEC <= t <= (2 ^ 32 - 1) * SEC.
Definition publishable (e : benv) (c : bclient) (paths : option str) : Prop :=
  tree_ok (be_root e)
  /\ (digest_like (of_md5 (be_digests e)) /\ digest_like (of_sha1 (be_digests e)) /\ digest_like (of_sha256 (be_digests e)))
  /\ clock_like (be_clock e)
  /\ (file_time (be_start e) /\ file_time (be_end e))
  /\ (forall u file n, on_disk e c paths u file n ->
        u <> [] /\ uri_text u /\ legal file /\ forall t, mtime_of n = Some t -> file_time t).

(** Links that can be put into a document. *)
Definition fine_links (links : option (list link)) : Prop :=
  forall ln, links = Some ln -> Forall good_link ln /\ Forall (legal_atts link_keys) ln.

(** The scan succeeds with the list [l]. *)
Definition scans_to (e : benv) (c : bclient) (paths : option str) (path : bool) (l : ixlist rdict) : Prop :=
  build_resource_list e c paths path = Ok l.

(** The list fits into one document, or its parts can be found from the index. *)
Definition room_for (c : bclient) (f : str) (l : ixlist rdict) : Prop :=
  zlen (d_items (l_doc l)) <= Z.max (match bc_max c with Some m => m | None => 50000 end) 1
  \/ (bc_multifile c = true /\ published (bc_mapper c) f).

(** What the document says of a file, with its URI, is right. *)
Definition says (e : benv) (c : bclient) (path : bool) (u file : str) (n : node) (r : resource) : Prop :=
  read_close (MkSettings false false false) (described (be_digests e) (bc_hashes c) true path u file n) r.

(** Two files of one URI at different times.  They are clearly the same if they have the
    same length and digests and their times are less than a second apart, by more
    than 3 microseconds; they clearly differ if they have a different length or digest,
    or times that are further than a second apart, by more than 3 microseconds. *)
Definition digests_agree (D : digests) (hashes : list str) (d d' : str) : Prop :=
  (In $"md5" hashes -> of_md5 D d = of_md5 D d') /\ (In $"sha-1" hashes -> of_sha1 D d = of_sha1 D d')
  /\ (In $"sha-256" hashes -> of_sha256 D d = of_sha256 D d').
Definition clearly_same (D : digests) (hashes : list str) (n n' : node) : Prop :=
  List.length (data_of n) = List.length (data_of n') /\ digests_agree D hashes (data_of n) (data_of n')
  /\ exists t t', mtime_of n = Some t /\ mtime_of n' = Some t' /\ 1000000 * Z.abs (t - t') <= 999997 * SEC.
Definition clearly_different (D : digests) (hashes : list str) (n n' : node) : Prop :=
  List.length (data_of n) <> List.length (data_of n')
  \/ (In $"md5" hashes /\ of_md5 D (data_of n) <> of_md5 D (data_of n'))
  \/ (In $"sha-1" hashes /\ of_sha1 D (data_of n) <> of_sha1 D (data_of n'))
  \/ (In $"sha-256" hashes /\ of_sha256 D (data_of n) <> of_sha256 D (data_of n'))
  \/ exists t t', mtime_of n = Some t /\ mtime_of n' = Some t' /\ 1000003 * SEC <= 1000000 * Z.abs (t - t').

(** The lists that documents are read into. *)
Definition reading (c : bclient) : ixlist rdict := new_list resource_list_kind $"resourcelist" true (Some (bc_mapper c)).
Definition reading_changes : ixlist (list resource) := new_list change_list_kind $"changelist" true None.

(** What the entries that are read from a change list should say, URI by URI: [before] and
    [after] tell which file has a URI at two times. *)
Definition none_of (files : str -> str -> node -> Prop) (u : str) : Prop := forall file n, ~ files u file n.
Definition reported (D : digests) (hashes : list str) (path : bool) (change u file : str) (n : node) (r : resource) : Prop :=
  read_close (MkSettings false false false) (store_change (Some change) (described D hashes true path u file n)) r.
Definition reports (D : digests) (hashes : list str) (path : bool) (before after : str -> str -> node -> Prop)
    (changes : list resource) : Prop :=
  (forall u, none_of before u -> none_of after u -> entries_for u changes = [])
  /\ (forall u file n, none_of before u -> after u file n ->
        exists r, entries_for u changes = [r] /\ reported D hashes path $"created" u file n r)
  /\ (forall u file n, before u file n -> none_of after u ->
        exists r, entries_for u changes = [r] /\ r_change r = Some $"deleted"
          /\ r_length r = Some (Z.of_nat (List.length (data_of n))))
  /\ (forall u file n file' n', before u file n -> after u file' n' -> clearly_same D hashes n n' ->
        entries_for u changes = [])
  /\ (forall u file n file' n', before u file n -> after u file' n' -> clearly_different D hashes n n' ->
        exists r, entries_for u changes = [r] /\ reported D hashes path $"updated" u file' n' r).

(** Whether local paths are asked for. *)
Definition with_paths (dump : option bool) : bool := match dump with Some b => b | None => false end.
(** The largest number of entries of a document. *)
Definition at_most (c : bclient) : Z := Z.max (match bc_max c with Some m => m | None => 50000 end) 1.

(** The file [g] is a change list that says [d] to whoever gets it, from whatever URI. *)
Definition change_document (fs : fsys) (g : str) (d : doc (list resource)) : Prop :=
  exists file, sget g fs = Some file /\
    forall fetch uri, fetch uri = Ok (f_data file) ->
    exists l, list_read change_list_kind fetch false reading_changes uri = Ok l /\ l_doc l = d.

(** Nothing but the time of the last change, which is kept in memory, is different. *)
Definition untouched (w w' : world) : Prop :=
  w_root w' = w_root w /\ w_state w' = w_state w /\ w_gets w' = w_gets w /\ w_log w' = w_log w.
