(** * Clients that share a status file (C117). *)

From Coq Require Import Permutation.
From Verif Require Import Py Float64 ClientState ClientStateSpec ClientStateFacts StateRace StateRaceSpec StateRaceFacts.

(** C117 is false of the code: two clients record times for two sites at the same time, both
    end without an exception, and the time of one site is lost, ... *)
Theorem C117_refuted : exists F calls schedule site t,
  python_floats F /\ Forall call_ok calls
  /\ all_done (run F (None, map Waiting calls) schedule)
  /\ In (Store site t) calls
  /\ (forall c, In c calls -> same_name (site_of c) site -> c = Store site t)
  /\ get_state F (fst (run F (None, map Waiting calls) schedule)) site = Ok None.
Proof. exact update_lost. Qed.
Print Assumptions C117_refuted.

(** ... or the file they leave cannot be read for any site. *)
Theorem C117_unreadable_refuted : exists F calls schedule,
  python_floats F /\ Forall call_ok calls
  /\ all_done (run F (None, map Waiting calls) schedule)
  /\ forall site, get_state F (fst (run F (None, map Waiting calls) schedule)) site = Err ConfigError.
Proof. exact unreadable. Qed.
Print Assumptions C117_unreadable_refuted.

(** Calls that do not overlap, in whatever order they are made and in whatever pieces they
    write: all end without an exception, and the last time of every site is there. *)
Theorem C117_serial : forall F before calls order r,
  python_floats F -> Forall call_ok (before ++ calls) ->
  one_by_one F (file_after F before, map Waiting calls) order r ->
  Forall (fun p => exists c e, p = Finished c e) (snd r) ->
  Permutation order calls /\ all_done r
  /\ forall site v, get_state F (fst r) site = Ok v <-> remembers site (before ++ order) v.
Proof. exact serial_all. Qed.
Print Assumptions C117_serial.

(** If only the writing does not overlap, times may be lost, but the file stays readable at
    every moment between writes, each time in it was stored for that site, ... *)
Theorem C117_whole_writes : forall F before calls r site,
  python_floats F -> Forall call_ok (before ++ calls) ->
  whole_writes F (file_after F before, map Waiting calls) r ->
  exists v, get_state F (fst r) site = Ok v
  /\ forall t, v = Some t -> exists s, In (Store s t) (before ++ calls) /\ same_name s site.
Proof. exact whole_get. Qed.
Print Assumptions C117_whole_writes.

(** ... no call raises an exception, ... *)
Theorem C117_no_error : forall F before calls r,
  python_floats F -> Forall call_ok (before ++ calls) ->
  whole_writes F (file_after F before, map Waiting calls) r ->
  forall c e, In (Finished c e) (snd r) -> e = None.
Proof. exact whole_no_error. Qed.
Print Assumptions C117_no_error.

(** ... and what a client has just written for its own site is there. *)
Theorem C117_own : forall F before calls r i c t r',
  python_floats F -> Forall call_ok (before ++ calls) ->
  whole_writes F (file_after F before, map Waiting calls) r ->
  nth_error (snd r) i = Some (HasRead c t) -> to_its_end F i r r' ->
  get_state F (fst r') (site_of c) = Ok (time_of c).
Proof. exact whole_last. Qed.
Print Assumptions C117_own.

Example C117_example :
  python_floats unit_floats
  /\ Forall call_ok ([] ++ [Store site_a 1234567; Store site_c 77])
  /\ one_by_one unit_floats (file_after unit_floats [], map Waiting [Store site_a 1234567; Store site_c 77])
       [Store site_c 77; Store site_a 1234567] after_both
  /\ all_done after_both
  /\ whole_writes unit_floats (file_after unit_floats [], map Waiting [Store site_a 1234567; Store site_c 77]) first_saved
  /\ (exists t, nth_error (snd first_saved) 1 = Some (HasRead (Store site_c 77) t))
  /\ to_its_end unit_floats 1 first_saved both_saved
  /\ get_state unit_floats (fst first_saved) site_a = Ok (Some 1234567)
  /\ get_state unit_floats (fst both_saved) site_a = Ok None
  /\ get_state unit_floats (fst both_saved) site_c = Ok (Some 77)
  /\ get_state unit_floats (fst after_both) site_a = Ok (Some 1234567)
  /\ get_state unit_floats (fst after_both) site_c = Ok (Some 77).
Proof.
  split; [exact unit_floats_ok|]. split; [exact two_calls_ok|]. split; [exact serial_example|].
  split; [eapply all_done_two; vm_compute; reflexivity|].
  split; [exact whole_to_first|]. split; [exact second_has_read|]. split; [exact second_ends|].
  split; [vm_compute; reflexivity|]. split; [vm_compute; reflexivity|]. split; [vm_compute; reflexivity|].
  split; vm_compute; reflexivity.
Qed.
