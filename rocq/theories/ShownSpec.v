(** * Specification for what is shown of a list *)

From Verif Require Import Py Resource Container Opener ListIndex Hashes Client Build.

(** How many entries are shown: --max-sitemap-entries, or 100 without it. *)
Definition show_limit (c : bclient) : Z := match bc_max c with Some n => if n =? 0 then 100 else n | None => 100 end.
Definition limit_given (c : bclient) : bool := match bc_max c with Some n => negb (n =? 0) | None => false end.
(** What is said if there are more. *)
Definition more_note (c : bclient) (entries : Z) : list str :=
  if show_limit c <? entries then
    [$"Showing first " ++ print_int (show_limit c) ++ $" entries sorted by URI"
     ++ (if limit_given c then [] else $" (override with --max-sitemap-entries)") ++ $"..."]
  else [].
Fixpoint numbered (n : Z) (texts : list str) : list str :=
  match texts with
  | [] => []
  | t :: ts => ($"[" ++ print_int n ++ $"] " ++ t) :: numbered (n + 1) ts
  end.
(** The lines are printed and nothing else happens. *)
Definition shows (lines : list str) (w : written) : written :=
  MkWritten (o_out w ++ flat_map (fun l => l ++ [nl]) lines) (o_fs w) (o_zips w).
(** The texts of the entries that are shown. *)
Definition texts_of (c : bclient) (rs : list resource) (texts : list str) : Prop :=
  Forall2 (fun r s => resource_str r = Ok s) (firstn (Z.to_nat (show_limit c)) rs) texts.
