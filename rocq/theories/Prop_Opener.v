(** * Property C65: pacing of requests *)

From Verif Require Import Py Regex Opener OpenerFacts.

(** C65: with a delay, every request to the web but the first call of the process is
    preceded by one sleep of this length ... *)
Theorem C65_web : forall d uris i u w, nth_error uris i = Some u -> url_target (with_scheme u) = Web w ->
  nth_error (paced_opens (Some d) 0 uris) i
  = Some (if Nat.eqb i 0 then [Opened (Web w)] else [Slept d; Opened (Web w)]).
Proof. exact paced_web. Qed.
Print Assumptions C65_web.
(** ... and no opening of a path or a file URI is. *)
Theorem C65_file : forall d uris i u, nth_error uris i = Some u ->
  startswith $"file:" u = true \/ re_match (re_const $"\w+:") u = None ->
  nth_error (paced_opens (Some d) 0 uris) i = Some [Opened (url_target (with_scheme u))].
Proof. exact paced_file. Qed.
Print Assumptions C65_file.
(** Without a delay nothing sleeps. *)
Theorem C65_no_delay : forall uris i u, nth_error uris i = Some u ->
  nth_error (paced_opens None 0 uris) i = Some [Opened (url_target (with_scheme u))].
Proof. exact paced_none. Qed.
Print Assumptions C65_no_delay.
(** One answer per call. *)
Theorem C65_calls : forall d uris n, List.length (paced_opens d n uris) = List.length uris.
Proof. exact paced_length. Qed.
Print Assumptions C65_calls.
(** A local file is slept for if its scheme is in capitals. *)
Theorem C65_refuted : exists u p, url_target (with_scheme u) = Local p
  /\ nth_error (paced_opens (Some 1) 0 [u; u]) 1 = Some [Slept 1; Opened (Local p)].
Proof. exact paced_upper. Qed.
Print Assumptions C65_refuted.

Example C65_example :
  paced_opens (Some 5) 0 [$"http://a/"; $"/tmp/x"; $"https://b/"; $"file:///tmp/y"]
  = [[Opened (Web $"http://a/")]; [Opened (Local $"/tmp/x")]; [Slept 5; Opened (Web $"https://b/")];
     [Opened (Local $"/tmp/y")]].
Proof. vm_compute. reflexivity. Qed.
