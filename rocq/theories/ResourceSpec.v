(** * ResourceSpec: what the properties of resources mean, without the model's helpers *)

From Verif Require Import Py Float64 W3C Resource.

(** A digest without whitespace, if given. *)
Definition ws_free (o : option str) : Prop :=
  forall v c, o = Some v -> In c v -> is_space c = false.

(** The (type, value) pairs of a hash string up to the first entry without a colon. *)
Fixpoint typed_entries (entries : list str) : list (str * str) :=
  match entries with
  | [] => []
  | e :: es =>
      match split1 ":"%char e with
      | Some p => p :: typed_entries es
      | None => []
      end
  end.

Definition supported_hashes : list str := [$"md5"; $"sha-1"; $"sha-256"].

(** The value given first for a type. *)
Definition first_for (ty : str) (ps : list (str * str)) : option str :=
  option_map snd (find (fun p => str_eqb (fst p) ty) ps).

(** Two optional values do not contradict each other. *)
Definition agree {A} (a b : option A) : Prop :=
  forall x y, a = Some x -> b = Some y -> x = y.

(** Neither time given, or both and less than one second apart. *)
Definition close_times (a b : option Z) : Prop :=
  match a, b with
  | None, None => True
  | Some x, Some y => Z.abs (x - y) < SEC
  | _, _ => False
  end.

Definition no_proof_of_inequality (r s : resource) : Prop :=
  r_uri r = r_uri s /\ close_times (r_timestamp r) (r_timestamp s) /\
  agree (r_md5 r) (r_md5 s) /\ agree (r_sha1 r) (r_sha1 s) /\
  agree (r_sha256 r) (r_sha256 s) /\ agree (r_length r) (r_length s).

(** Times on a grid of 2^-52 s: all integers and all doubles of magnitude 1 s or
    more (and zero). *)
Definition on_grid (t : option Z) : Prop := forall x, t = Some x -> (2 ^ 1022 | x).

(** The allowed values of the change attribute. *)
Definition valid_change (c : option str) : Prop :=
  c = None \/ c = Some $"created" \/ c = Some $"updated" \/ c = Some $"deleted".

(** Argument if given, else the value copied. *)
Definition given_or {A} (arg old : option A) : option A :=
  match arg with Some _ => arg | None => old end.

(** A time given as text if any, else as number if any, else the value copied. *)
Definition time_given_or (txt : option str) (arg old : option Z) (result : option Z) : Prop :=
  match txt with
  | Some s => exists t, str_to_datetime s = Ok t /\ result = Some t
  | None => result = given_or arg old
  end.

Definition links (r : resource) : list link :=
  match r_ln r with Some l => l | None => [] end.
