(** * Specification for the effect of --verbose *)

From Verif Require Import Py Opener ListIndex Hashes Client Build.

(** The arguments without --verbose. *)
Definition without_verbose (a : build_args) : build_args :=
  MkArgs (a_mode a) (a_map a) (a_outfile a) (a_paths a) (a_reference a) (a_newreference a) (a_link a) (a_describedby a)
    (a_sourcedescription a) (a_capabilitylist a) (a_hash a) (a_checksum a) (a_exclude a) (a_no_multifile a) (a_max a)
    (a_empty a) (a_warc a) false.
(** The same files and the same archives. *)
Definition same_files (w w' : written) : Prop := o_fs w = o_fs w' /\ o_zips w = o_zips w'.
