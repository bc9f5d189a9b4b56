(** * Properties C116: the explorer script *)

From Verif Require Import Py Float64 Mapper Opener ClientUtils Build Sync Explorer ExplorerSpec ExplorerFacts ExplorerEx
  ExplorerMain ExplorerMainFacts.

(** C116: without --sitemap nothing can be explored: there are no mappings to start from,
    and the error does not show in the exit status. *)
Theorem C116_refuted : forall e a inputs, shared_ok a -> xa_sitemap a = None \/ xa_sitemap a = Some [] ->
  resync_explorer e a inputs = ([], FatalShown) /\ exit_status FatalShown = 0.
Proof. exact (fun e a i S N => conj (without_sitemap e a i S N) eq_refl). Qed.
Print Assumptions C116_refuted.

(** With it, exploring starts from the document it names, and nothing else. *)
Theorem C116_start : forall e a inputs s, shared_ok a -> xa_sitemap a = Some s -> s <> [] ->
  exists l rest o, explore_all e 0 [MkX s AnyDocument None] inputs = (l, rest, o)
    /\ resync_explorer e a inputs =
       (l, match o with Finished => Done | EndOfInput => Died PlainException
           | Failed ClientFatalError => FatalShown | Failed x => Died x end).
Proof. exact with_sitemap. Qed.
Print Assumptions C116_start.

(** Wherever one is, q ends it in good order; at the end of the input there is an
    exception. *)
Theorem C116_quit : forall e a s ins n' x h l o t rest, shared_ok a -> xa_sitemap a = Some s -> s <> [] ->
  reaches e 0 [MkX s AnyDocument None] ins n' (x :: h) -> show_page e n' x = (l, Ok (o, t)) ->
  exists ls, resync_explorer e a (ins ++ $"q" :: rest) = (ls ++ [Bye], Done).
Proof. exact script_quits. Qed.
Print Assumptions C116_quit.
Theorem C116_no_input : forall e a, shared_ok a -> forall s, xa_sitemap a = Some s -> s <> [] -> forall l o t,
  show_page e 0 (MkX s AnyDocument None) = (l, Ok (o, t)) -> exists ls, resync_explorer e a [] = (ls, Died PlainException).
Proof. exact input_ends. Qed.
Print Assumptions C116_no_input.

(** --exclude, --multifile, --noauth and --max-sitemap-entries have no effect. *)
Theorem C116_ignored : forall e a b inputs, same_start a b -> resync_explorer e a inputs = resync_explorer e b inputs.
Proof. exact same_explored. Qed.
Print Assumptions C116_ignored.

Example C116_example : shared_ok ex_args /\ shared_ok no_args
  /\ snd (resync_explorer ex_world ex_args [$"1"; $"7"; $"1"; $"b"; $"q"]) = Done
  /\ fst (resync_explorer ex_world ex_args [$"q"]) = page_of 0 ex_start ++ [Prompt true false; Bye]
  /\ snd (resync_explorer ex_world ex_args [$"1"]) = Died PlainException.
Proof. split; [|split; [|split; [|split]]]; try (split; [discriminate|exact I]); vm_compute; reflexivity. Qed.
