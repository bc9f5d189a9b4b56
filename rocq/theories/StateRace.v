(** * StateRace: clients that use the status file at the same time

    client_state.py:28-48 has no lock ("FIXME - should have some file lock to avoid
    race").  Several processes are in set_state; a schedule says whose turn it is. *)

From Verif Require Import Py ClientState ClientStateSpec.

(** Where a process is: before parser.read; between reading and open(..., 'w'), with the
    text it will write; while it is writing, at an offset of its own; done, with the
    exception if there was one. *)
Inductive proc : Type :=
| Waiting (c : call)
| HasRead (c : call) (text : str)
| Writing (c : call) (off : nat) (rest : str)
| Finished (c : call) (e : option exn).

(** Writing [s] at the offset [off]: what is there is overwritten, the rest stays; a gap
    is filled with zeros. *)
Definition put (off : nat) (s old : str) : str :=
  firstn off (old ++ repeat zero off) ++ s ++ skipn (off + List.length s) old.


(** The next step of a process: parser.read and the changes to the parser, 33-45;
    open(status_file, 'w'), which empties the file, 46; a piece of the text, of at most
    [S n] characters; the end, 47-48.  Python writes texts of up to 8 kB in one piece. *)
Definition next (F : float_text) (f : option str) (p : proc) (n : nat) : option str * proc :=
  match p with
  | Waiting c => match state_text F f (site_of c) (time_of c) with
                 | Ok t => (f, HasRead c t)
                 | Err e => (f, Finished c (Some e))
                 end
  | HasRead c t => (Some [], Writing c 0 t)
  | Writing c off [] => (f, Finished c None)
  | Writing c off rest =>
      let s := firstn (S n) rest in
      (Some (put off s (match f with Some t => t | None => [] end)),
       Writing c (off + List.length s) (skipn (S n) rest))
  | Finished c e => (f, Finished c e)
  end.

(** The file and the processes; a turn of process [i]. *)
Notation race := (option str * list proc)%type.
Fixpoint replace (ps : list proc) (i : nat) (p : proc) : list proc :=
  match ps, i with
  | [], _ => []
  | _ :: ps', O => p :: ps'
  | q :: ps', S i' => q :: replace ps' i' p
  end.
Definition turn (F : float_text) (r : race) (m : nat * nat) : race :=
  match nth_error (snd r) (fst m) with
  | Some p => let '(f, p') := next F (fst r) p (snd m) in (f, replace (snd r) (fst m) p')
  | None => r
  end.
Definition run (F : float_text) (r : race) (schedule : list (nat * nat)) : race := fold_left (turn F) schedule r.
