(** * DocKinds: the kinds of documents with indexes and their constructors *)

From Verif Require Import Py Mapper Resource Container Xml Sitemap Opener ListIndex Client.

(** ListBaseWithIndex.__init__, list_base_with_index.py:49-73: max_sitemap_entries is
    50000, and allow_multifile is True if it is None.  [sm] stands for spec_version and
    add_lastmod. *)
Definition made {C} (name : str) (allow : option bool) (ms : option mapper) (sm : settings) (d : doc C) : ixlist C :=
  MkIx d (Some name) (Some 50000) (match allow with Some b => b | None => true end) ms false false sm.

(** ResourceList(allow_multifile, mapper), resource_list.py:141-157. *)
Definition resource_list (allow : option bool) (ms : option mapper) (sm : settings) (d : doc rdict) : ixlist rdict :=
  made $"resourcelist" allow ms sm d.

(** Assigning the attribute capability_name. *)
Definition named {C} (name : str) (l : ixlist C) : ixlist C :=
  MkIx (l_doc l) (Some name) (l_max l) (l_allow l) (l_mapper l) (l_check l) (l_index l) (l_sm l).

(** ResourceDump, resource_dump.py:26-33, ResourceDumpManifest,
    resource_dump_manifest.py:23-30, and ChangeDump, change_dump.py:24-35:
    allow_multifile is not passed on. *)
Definition resource_dump (allow : option bool) (ms : option mapper) (sm : settings) (d : doc rdict) : ixlist rdict :=
  named $"resourcedump" (resource_list None ms sm d).
Definition resource_dump_manifest (allow : option bool) (ms : option mapper) (sm : settings) (d : doc rdict) : ixlist rdict :=
  named $"resourcedump-manifest" (resource_list None ms sm d).
Definition change_dump (allow : option bool) (ms : option mapper) (sm : settings) (d : doc rdict) : ixlist rdict :=
  named $"changedump" (resource_list None ms sm d).

(** ChangeList(mapper), change_list.py:28-36, and ChangeDumpManifest(allow_multifile, mapper),
    change_dump_manifest.py:25-36, which does not pass allow_multifile on. *)
Definition change_list (ms : option mapper) (sm : settings) (d : doc (list resource)) : ixlist (list resource) :=
  made $"changelist" None ms sm d.
Definition change_dump_manifest (allow : option bool) (ms : option mapper) (sm : settings) (d : doc (list resource))
    : ixlist (list resource) :=
  named $"changedump-manifest" (change_list ms sm d).

(** ResourceListArchive, ChangeListArchive, ResourceDumpArchive and ChangeDumpArchive,
    archives.py:18-72: the resources are in a Python list, to which ResourceContainer.add
    appends, resource_container.py:193-202; they have no parameter for a mapper. *)
Definition archive_kind : kind (list resource) :=
  MkKind (fun l => l) (fun r l => Ok (l ++ [r])) [] (fun _ _ => Err AttributeError) (fun _ => Err AttributeError).
Definition archive (name : str) (sm : settings) (d : doc (list resource)) : ixlist (list resource) :=
  made name None None sm d.
Definition archive_names : list str :=
  [ $"resourcelist-archive"; $"changelist-archive"; $"resourcedump-archive"; $"changedump-archive" ].

(** SourceDescription, source_description.py:41-51: no parameter for a mapper either;
    the metadata gets an entry from. *)
Definition source_description (sm : settings) (d : doc rdict) : ixlist rdict :=
  made $"description" None None sm (MkDoc (sset $"from" PNone (d_md d)) (d_ln d) (d_items d)).

(** Assigning the attributes max_sitemap_entries, mapper and allow_multifile. *)
Definition limited {C} (max : Z) (l : ixlist C) : ixlist C :=
  MkIx (l_doc l) (l_name l) (Some max) (l_allow l) (l_mapper l) (l_check l) (l_index l) (l_sm l).
Definition mapped {C} (ms : mapper) (l : ixlist C) : ixlist C :=
  MkIx (l_doc l) (l_name l) (l_max l) (l_allow l) (Some ms) (l_check l) (l_index l) (l_sm l).
Definition allowing {C} (b : bool) (l : ixlist C) : ixlist C :=
  MkIx (l_doc l) (l_name l) (l_max l) b (l_mapper l) (l_check l) (l_index l) (l_sm l).
