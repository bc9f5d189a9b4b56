(** * StateRaceSpec: ways in which uses of the status file may be interleaved. *)

From Verif Require Import Py ClientState ClientStateSpec StateRace.

(** All processes have ended without an exception. *)
Definition all_done (r : race) : Prop := Forall (fun p => exists c, p = Finished c None) (snd r).

(** Process [i], whose turn it is all the time, goes from [r] to its end in [r']. *)
Definition to_its_end (F : float_text) (i : nat) (r r' : race) : Prop :=
  (exists ns, r' = run F r (map (pair i) ns))
  /\ exists c e, nth_error (snd r') i = Some (Finished c e).

(** No process starts before the one that has started has ended; [calls] are the calls
    in the order in which they are made. *)
Inductive one_by_one (F : float_text) : race -> list call -> race -> Prop :=
| one_none r : one_by_one F r [] r
| one_more r i c r' calls r'' :
    nth_error (snd r) i = Some (Waiting c) -> to_its_end F i r r' ->
    one_by_one F r' calls r'' -> one_by_one F r (c :: calls) r''.

(** Processes may read while others have read and not written, but none does anything
    between the time when another opens the file for writing and the time it ends. *)
Inductive whole_writes (F : float_text) : race -> race -> Prop :=
| whole_none r : whole_writes F r r
| whole_read r i c n r' :
    nth_error (snd r) i = Some (Waiting c) ->
    whole_writes F (turn F r (i, n)) r' -> whole_writes F r r'
| whole_write r i c t r' r'' :
    nth_error (snd r) i = Some (HasRead c t) -> to_its_end F i r r' ->
    whole_writes F r' r'' -> whole_writes F r r''.

