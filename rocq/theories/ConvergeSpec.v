(** * ConvergeSpec: when a baseline synchronization is expected to converge *)

From Verif Require Import Py PathSpec OsPath Mapper MapperSpec Resource ResourceSpec ListIndex Disk DiskSpec Builder BuilderSpec Client ClientSpec.

(** The URI is the base of a mapping followed by a slash and the path of a file. *)
Definition below_base (c : client) (u : str) : Prop :=
  exists m rel, In m (c_mapper c) /\ rel <> [] /\ Forall file_name rel /\ Forall one_line rel
    /\ u = src_uri m ++ $"/" ++ rel_path rel.

(** No destination is another one or below it. *)
Definition destinations_apart (E : env) (c : client) : Prop :=
  forall m m' q, In m (c_mapper c) -> In m' (c_mapper c) ->
    inside (denotes (e_cwd E) (dst_path m)) q -> inside (denotes (e_cwd E) (dst_path m')) q -> m = m'.
(** Each destination is a directory or not there. *)
Definition destinations_free (E : env) (c : client) (w : world) : Prop :=
  forall m, In m (c_mapper c) -> dst_path m <> [] /\ leaf_at (w_root w) (denotes (e_cwd E) (dst_path m)) = None.

(** Source and destination are such that they can be synchronized. *)
Record synchronizable (E : env) (c : client) (w : world) : Prop := {
  sy_world : world_ok E w;
  sy_names : one_line_names (w_root w) /\ Forall one_line (e_cwd E);
  sy_apart : mappings_apart (c_mapper c) /\ destinations_apart E c;
  sy_free : destinations_free E c w;
  sy_listed : forall u, listed E c u -> below_base c u
}.

(** The source gives all times, and lengths that are those of the data it delivers. *)
Definition honest (E : env) (c : client) : Prop :=
  forall u r, source_entry E c u r -> r_timestamp r <> None
    /\ forall k d, e_get E k u = Data d -> agree (r_length r) (Some (zlen d)).
