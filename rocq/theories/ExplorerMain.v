(** * ExplorerMain: model of resync-explorer *)

From Verif Require Import Py Float64 Mapper Opener ClientUtils Build Explorer.

(** Options, resync-explorer:43-67.  Left out: --verbose, --logger and --logfile
    (logging), --timeout, and --outfile, --paths, --reference, --newreference, --dump and
    --changelist-uri, which the script does not look at. *)
Record explorer_args : Type := MkExplorerArgs {
  xa_sitemap : option str; xa_hash : option (list str); xa_checksum : bool; xa_token : option str; xa_delay : option Z;
  xa_exclude : option (list str); xa_no_multifile : bool; xa_noauth : bool; xa_max : option Z }.

(** main(), resync-explorer:69-101: what is printed after the banner, and how it ends.
    There is no argument that gives mappings, so the client has none.  The attributes set
    from --exclude, --multifile, --noauth and --max-sitemap-entries are not looked at by
    explore().  At the end of the input, input() raises EOFError, here PlainException. *)
Definition resync_explorer (e : xenv) (a : explorer_args) (inputs : list str) : list line * Build.ending :=
  match snd (process_options (MkOptions (xa_hash a) (xa_checksum a) (xa_token a) (xa_delay a)) true config0) with
  | Err x => ([], Died x)
  | Ok _ =>
      match explore e (given (xa_sitemap a)) [] inputs with
      | (l, _, Finished) => (l, Done)
      | (l, _, EndOfInput) => (l, Died PlainException)
      | (l, _, Failed ClientFatalError) => (l, FatalShown)
      | (l, _, Failed x) => (l, Died x)
      end
  end.
