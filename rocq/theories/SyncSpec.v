(** * SyncSpec: what the properties of resync-sync mean *)

From Verif Require Import Py Float64 OsPath Mapper Resource Container Opener ListIndex Hashes Disk DiskSpec Builder BuilderSpec ClientState Client
  ClientSpec ClientUtils Build Sync.

(** The options give these hash types and mappings. *)
Definition sync_options (a : sync_args) (hash : option (list str)) (ms : mapper) : Prop :=
  snd (process_options (MkOptions (s_hash a) (s_checksum a) (s_token a) (s_delay a)) true config0) = Ok hash
  /\ match s_map a with [] => ms = [] | maps => make_mapper maps true = Ok ms end.
(** The client that these options ask for. *)
Record as_options (a : sync_args) (ms : mapper) (c : client) : Prop := {
  ao_mapper : c_mapper c = ms;
  ao_sitemap : c_sitemap_name c = match s_sitemap a with Some [] => None | o => o end;
  ao_capabilities : c_capability_list c = match s_capabilitylist a with Some [] => None | o => o end;
  ao_names : c_resource_list_name c = $"resourcelist.xml" /\ c_change_list_name c = $"changelist.xml";
  ao_multifile : c_multifile c = true <-> s_no_multifile a = false;
  ao_authority : c_noauth c = s_noauth a /\ c_strictauth c = s_strictauth a;
  ao_dryrun : c_dryrun c = s_dryrun a;
  ao_failures : c_ignore_failures c = s_ignore_failures a;
  ao_tries : match s_tries a with
             | Some n => n <> 0 -> Z.of_nat (c_tries c) = Z.max 0 n
             | None => Z.of_nat (c_tries c) = 20
             end /\ (s_tries a = Some 0 -> Z.of_nat (c_tries c) = 20);
  ao_spec : c_spec_1_0 c = s_spec_1_0 a
}.
(** How a call ends the script. *)
Definition ended (x : res unit) : ending :=
  match x with Ok _ => Done | Err ClientFatalError => FatalShown | Err e => Died e end.

(** The world as the client of the script finds it. *)
Definition prepared (hash : option (list str)) (w : world) : world := with_hashes (client_hashes hash) w.

(** --baseline --delete, and neither --dryrun nor --ignore-failures nor a negative --tries. *)
Definition full_baseline (a : sync_args) : Prop :=
  s_mode a = Baseline /\ s_delete a = true /\ s_dryrun a = false /\ s_ignore_failures a = false
  /\ (forall n, s_tries a = Some n -> 0 <= n).

(** How often [u] was requested from [w] to [w']. *)
Definition how_often (u : str) (l : list str) : nat := List.length (filter (str_eqb u) l).
Definition requested (w w' : world) (u : str) (n : nat) : Prop :=
  exists l, w_gets w' = w_gets w ++ l /\ n = how_often u l.

(** The options but for what is to be excluded. *)
Definition excluding (l : option (list str)) (a : sync_args) : sync_args :=
  MkSync (s_mode a) (s_map a) (s_sitemap a) (s_capabilitylist a) (s_changelist_uri a) (s_from a) (s_hash a) (s_checksum a)
    (s_token a) (s_delay a) l (s_no_multifile a) (s_noauth a) (s_strictauth a) (s_delete a) (s_dryrun a) (s_ignore_failures a)
    (s_max a) (s_tries a) (s_spec_1_0 a) (s_verbose a).
