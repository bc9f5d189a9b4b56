(** * SucceedSpec: when a baseline synchronization is expected to succeed *)

From Verif Require Import Py Float64 PathSpec OsPath UrlAuthority Mapper MapperSpec Resource ResourceSpec ListIndex ClientState Disk DiskSpec
  Builder BuilderSpec Client ClientSpec ConvergeSpec.

(** A file can be at each place where the client puts a listed resource: there is a
    file or nothing there, nothing but directories leads to it, and it does not lead
    to the place of another resource. *)
Definition room (E : env) (c : client) (w : world) : Prop :=
  forall u q, listed E c u -> place_of E c u q ->
    ~ dir_at (w_root w) q
    /\ (forall n, leaf_at (w_root w) q = Some n -> exists d t, n = File d t)
    /\ (forall p x rest, q = p ++ x :: rest -> leaf_at (w_root w) p = None)
    /\ (forall u' x rest, listed E c u' -> ~ place_of E c u' (q ++ x :: rest)).

(** Whenever the resource is requested, one of the tries allowed gets the data; those
    before it time out. *)
Definition comes_through (E : env) (c : client) (u : str) : Prop :=
  forall k, exists j d, (j < c_tries c)%nat /\ e_get E (k + j) u = Data d
    /\ forall i, (i < j)%nat -> timed_out (e_get E (k + i) u).

(** The source has authority over what it lists, or this is not checked. *)
Definition authorized (E : env) (c : client) : Prop :=
  c_noauth c = true \/ exists sm, sitemap c = Ok sm /\ forall u, listed E c u -> authority_over (c_strictauth c) sm u = Ok true.

(** Before the last seconds of the year 9999. *)
Definition before_10000 (t : Z) : Prop := t < 253402300798 * SEC.
Definition dates_ok (E : env) (c : client) (w : world) : Prop :=
  (forall u r t, source_entry E c u r -> r_timestamp r = Some t -> before_10000 t)
  /\ (forall u n t, local_node E c w u n -> mtime_of n = Some t -> before_10000 t).

(** The client's memory is empty or can be read. *)
Definition memory_ok (w : world) : Prop := exists i, ini_of_file (w_state w) = Ok i.

(** All that is needed. *)
Record favourable (E : env) (c : client) (w : world) : Prop := {
  fv_sync : synchronizable E c w;
  fv_listed : exists u, listed E c u;
  fv_safe : unsafe (c_mapper c) = Ok false;
  fv_room : room E c w;
  fv_get : forall u, listed E c u -> comes_through E c u;
  fv_auth : authorized E c;
  fv_dates : dates_ok E c w;
  fv_memory : memory_ok w;
  fv_hashes : (forall h, In h (w_hashes w) -> In h [$"md5"; $"sha-1"; $"sha-256"]) /\ (w_hashes w = [] \/ no_specials (w_root w))
}.
