(** * Sync: model of resync-sync *)

From Verif Require Import Py Float64 OsPath Mapper Resource Container Sitemap Opener ListIndex Hashes Disk Builder ClientState Client
  ClientUtils Build.

(** ** Options, resync-sync:34-106 and client_utils.py:165-215 *)

(** Exactly one mode is given, resync-sync:43-54. *)
Inductive sync_mode : Type := Baseline | Incremental | Audit | Parse.

(** Left out: --logger, --logfile and --eval (logging), --timeout, which is handed to the
    network, and --reference, --newreference and --empty, which the script does not look
    at. *)
Record sync_args : Type := MkSync {
  s_mode : sync_mode;
  s_map : list str;
  s_sitemap : option str; s_capabilitylist : option str; s_changelist_uri : option str; s_from : option str;
  s_hash : option (list str); s_checksum : bool; s_token : option str; s_delay : option Z;
  s_exclude : option (list str); s_no_multifile : bool; s_noauth : bool; s_strictauth : bool;
  s_delete : bool; s_dryrun : bool; s_ignore_failures : bool;
  s_max : option Z; s_tries : option Z; s_spec_1_0 : bool; s_verbose : bool }.

(** ** The client as it is set up, resync-sync:115-144 *)

(** if (args.tries): c.tries = args.tries, with 20 from client.py:63. *)
Definition tries_of (o : option Z) : nat :=
  match o with Some n => if n =? 0 then 20%nat else Z.to_nat n | None => 20%nat end.
(** [s_exclude] becomes an attribute that neither baseline_or_audit nor incremental nor
    parse_document looks at, and [s_max] one that only parse_document looks at. *)
Definition sync_client (a : sync_args) (ms : mapper) : client :=
  MkClient ms (given (s_sitemap a)) (given (s_capabilitylist a)) $"resourcelist.xml" $"changelist.xml"
    (negb (s_no_multifile a)) (s_noauth a) (s_strictauth a) (s_dryrun a) (s_ignore_failures a) (tries_of (s_tries a)) (s_spec_1_0 a).
(** The same client for parse_document. *)
Definition sync_parser (a : sync_args) (hash : option (list str)) (ms : mapper) : bclient :=
  MkBClient ms (client_hashes hash) (match s_exclude a with Some l => l | None => [] end) (negb (s_no_multifile a))
    (match s_max a with Some m => if m =? 0 then None else Some m | None => None end) true None (s_verbose a).

(** ** main(), resync-sync:108-168 *)

(** The try block, resync-sync:119-162: the world, what is printed, and the result. *)
Definition sync_body (E : env) (a : sync_args) (hash : option (list str)) (w : world) : world * str * res unit :=
  match (match s_map a with [] => Ok [] | maps => make_mapper maps true end) with
  | Err x => (w, [], Err x)
  | Ok ms =>
      let c := sync_client a ms in
      match s_mode a with
      | Baseline => let '(w, r) := baseline_or_audit E c (s_delete a) false w in (w, [], r)
      | Audit => let '(w, r) := baseline_or_audit E c (s_delete a) true w in (w, [], r)
      | Incremental => let '(w, r) := incremental E c (s_delete a) (s_changelist_uri a) (s_from a) w in (w, [], r)
      | Parse =>
          match sitemap c with
          | Err x => (w, [], Err x)
          | Ok uri => let '(o, r) := parse_opened (e_fetch E) (sync_parser a hash ms) uri (MkWritten [] [] []) in (w, o_out o, r)
          end
      end
  end.
(** The script, with what it prints.  How it ends is described as for resync-build. *)
Definition resync_sync (E : env) (a : sync_args) (w : world) : world * str * ending :=
  match snd (process_options (MkOptions (s_hash a) (s_checksum a) (s_token a) (s_delay a)) true config0) with
  | Err x => (w, [], Died x)
  | Ok hash =>
      match sync_body E a hash (with_hashes (client_hashes hash) w) with
      | (w, out, Ok _) => (w, out, Done)
      | (w, out, Err ClientFatalError) => (w, out, FatalShown)
      | (w, out, Err x) => (w, out, Died x)
      end
  end.

(** The exit status of a Python script: 0 when main() returns, 1 after an exception, 2
    after parser.error. *)
Definition exit_status (e : ending) : Z :=
  match e with Done => 0 | FatalShown => 0 | UsageError => 2 | Died _ => 1 end.
