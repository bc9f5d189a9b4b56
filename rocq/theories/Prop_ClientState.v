(** * Properties of the client's memory of past synchronizations (C45, C46). *)

From Verif Require Import Py Float64 ClientState ClientStateSpec ClientStateFacts.

(** C45: for every sequence of calls from the start, get_state(site) gives what
    was last stored for the site or for a site with the same letters and digits
    in the same places; no call raises an exception. *)
Theorem C45_last_write : forall F calls site,
  python_floats F -> Forall call_ok calls ->
  forall v, get_state F (file_after F calls) site = Ok v <-> remembers site calls v.
Proof. exact state_history. Qed.
Print Assumptions C45_last_write.

Theorem C45_no_error : forall F calls c,
  python_floats F -> Forall call_ok (calls ++ [c]) ->
  snd (do_call F (file_after F calls) c) = None.
Proof. exact history_no_error. Qed.
Print Assumptions C45_no_error.

(** C45 as listed, which tells all sites apart, is false of the code. *)
Theorem C45_refuted : exists F calls site t,
  python_floats F /\ Forall call_ok calls
  /\ remembers_exactly site calls (Some t)
  /\ get_state F (file_after F calls) site <> Ok (Some t).
Proof. exact sites_share. Qed.
Print Assumptions C45_refuted.

(** Storing a timestamp for the empty site name leaves a file that cannot be read. *)
Theorem C45_empty_site_refuted : exists F t,
  python_floats F /\ is_double t
  /\ forall site, get_state F (fst (set_state F None [] (Some t))) site = Err ConfigError.
Proof. exact empty_site. Qed.
Print Assumptions C45_empty_site_refuted.

Example C45_example :
  python_floats unit_floats /\ Forall call_ok calls_ab
  /\ get_state unit_floats (file_after unit_floats calls_ab) site_b = Ok (Some 99)
  /\ get_state unit_floats (file_after unit_floats calls_ab) site_c = Ok (Some 77)
  /\ get_state unit_floats (file_after unit_floats (calls_ab ++ [Forget site_c])) site_c = Ok None.
Proof.
  split; [exact unit_floats_ok|]. split; [exact calls_ok_ab|].
  split; [vm_compute; reflexivity|]. split; vm_compute; reflexivity.
Qed.

(** C46 is false of the code: whatever was stored, there is a point at which an
    interruption of set_state loses the timestamps of all sites, ... *)
Theorem C46_refuted : forall F calls c,
  python_floats F -> Forall call_ok (calls ++ [c]) ->
  exists f,
    In f (set_state_crash F (file_after F calls) (site_of c)
            (match c with Store _ t => Some t | Forget _ => None end))
    /\ forall site, get_state F f site = Ok None.
Proof. exact crash_empties. Qed.
Print Assumptions C46_refuted.

(** ... and one may leave a timestamp that was never stored. *)
Theorem C46_wrong_time_refuted : exists F calls site t f t',
  python_floats F /\ Forall call_ok (calls ++ [Store site t])
  /\ In f (set_state_crash F (file_after F calls) site (Some t))
  /\ get_state F f site = Ok (Some t')
  /\ t' <> t /\ get_state F (file_after F calls) site <> Ok (Some t').
Proof. exact crash_wrong_time. Qed.
Print Assumptions C46_wrong_time_refuted.
