(** * Properties C19 and C69: capability lists *)

From Verif Require Import Py Float64 W3C Resource ResourceSpec Container ContainerSpec
  Capability CapabilitySpec CapabilityFacts.
From Coq Require Import Sorting.Sorted Permutation.

(** C19: iteration yields every entry once, in canonical order ... *)
Theorem C19_iteration_order : forall d, wf_rl d ->
  Permutation (cs_iter d) (map snd d) /\ StronglySorted (cap_before d) (cs_iter d).
Proof. exact (fun d W => conj (cs_iter_perm d W) (cs_iter_sorted d W)). Qed.
Print Assumptions C19_iteration_order.

(** ... but unknown capabilities are not in alphabetical order, as the comment in
    the code promises. *)
Theorem C19_unknown_alphabetical_refuted :
  exists d a b, wf_rl d /\ cs_iter d = [a; b] /\
    r_capability a = Some $"zeta" /\ r_capability b = Some $"alpha".
Proof. exact unknown_not_alphabetical. Qed.
Print Assumptions C19_unknown_alphabetical_refuted.

Example C19_example :
  let d := [ex_cap "http://x/z" "zeta"; ex_cap "http://x/c" "changelist";
            ex_cap "http://x/2" "resourcelist"; ex_cap "http://x/1" "resourcelist"] in
  wf_rl d /\ map r_uri (cs_iter d) = [$"http://x/1"; $"http://x/2"; $"http://x/c"; $"http://x/z"].
Proof.
  split; [|vm_compute; auto]. split; cbn; [repeat constructor; cbn; intuition discriminate|].
  intros u r H. repeat destruct H as [[= <- <-]|H]; try reflexivity. destruct H.
Qed.

(** C69: capability_info finds the entry with the capability, the first by URI. *)
Theorem C69_capability_info : forall d name r, wf_rl d ->
  capability_info name d = Some r <->
  (In (r_uri r, r) d /\ r_capability r = name /\
   forall r', In (r_uri r', r') d -> r_capability r' = name -> r' = r \/ uri_before r r').
Proof. exact capability_info_spec. Qed.
Print Assumptions C69_capability_info.

Theorem C69_has_capability : forall d name, wf_rl d ->
  has_capability name d = true <-> exists u r, In (u, r) d /\ r_capability r = name.
Proof. exact has_capability_spec. Qed.
Print Assumptions C69_has_capability.

Example C69_example :
  let d := [ex_cap "http://x/2" "resourcelist"; ex_cap "http://x/1" "resourcelist"] in
  wf_rl d /\ capability_info (Some $"resourcelist") d = Some (snd (ex_cap "http://x/1" "resourcelist")) /\
  capability_info (Some $"changelist") d = None.
Proof.
  split; [|vm_compute; auto]. split; cbn; [repeat constructor; cbn; intuition discriminate|].
  intros u r H. repeat destruct H as [[= <- <-]|H]; try reflexivity. destruct H.
Qed.
