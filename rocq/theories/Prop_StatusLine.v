(** * Prop_StatusLine: the lines that tell how a run went *)

From Verif Require Import Py Resource Container Disk Builder ClientState Client ClientSpec ClientExamples ConvergeEx ClientSyncEx FollowEx StatusLine.

(** C120: a status line of a run has one of seven words, always ending in the same column,
    and then the numbers in parentheses: *)
Theorem C120_column : forall E c allow audit clu from_dt w w' x s,
  (baseline_or_audit E c allow audit w = (w', x) \/ incremental E c allow clu from_dt w = (w', x)) ->
  In (Logged s) (w_log w') -> ~ In (Logged s) (w_log w) ->
  In (st_word s) [$"IN SYNC"; $"NO CHANGES"; $"NOT IN SYNC"; $"SYNCED"; $"PART SYNCED"; $"CHANGES APPLIED"; $"PART APPLIED"]
  /\ exists first rest, status_line s = first ++ $" (" ++ rest /\ List.length first = 23%nat /\ ~ In "("%char first
     /\ exists pad, first = $"Status: " ++ repeat " "%char pad ++ st_word s.
Proof. exact run_column. Qed.
Print Assumptions C120_column.
(** from the line one can tell the word, the numbers, and what they are numbers of. *)
Theorem C120_told : forall s s', standard s -> standard s' -> status_line s = status_line s' -> s = s'.
Proof. exact line_told. Qed.
Print Assumptions C120_told.
Theorem C120_runs : forall E c allow audit clu from_dt w w' x s,
  (baseline_or_audit E c allow audit w = (w', x) \/ incremental E c allow clu from_dt w = (w', x)) ->
  In (Logged s) (w_log w') -> In (Logged s) (w_log w) \/ standard s.
Proof. exact run_standard. Qed.
Print Assumptions C120_runs.

Example C120_example : map (fun ev => match ev with Logged s => status_line s | _ => [] end) (w_log copied)
  = [$"Status:     NOT IN SYNC (same=0, to create=2, to update=0, to delete=0)";
     $"Status:          SYNCED (same=0, created=2, updated=0, deleted=0)"]
  /\ baseline_or_audit two_env (ex_client one_mapping) true false empty_start = (copied, Ok tt).
Proof. split; [vm_compute; reflexivity|exact copied_run]. Qed.
