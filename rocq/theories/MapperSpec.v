(** * MapperSpec: what mappings between URIs and paths should do *)

From Verif Require Import Py Regex Url OsPath Mapper.

(** Strings that are ordinary text in a regular expression, except that a dot
    stands for any character. *)
Definition plain (s : str) : Prop := forall c, In c s -> ~ In c $"^$*+?{}[]\|()".
(** ... and that contain no dot either. *)
Definition literal (s : str) : Prop := plain s /\ ~ In "."%char s.
Definition one_line (s : str) : Prop := ~ In nl s.

Fixpoint strip_prefix (b u : str) : option str :=
  match b, u with
  | [], _ => Some u
  | x :: b', y :: u' => if ceqb x y then strip_prefix b' u' else None
  | _, [] => None
  end.

(** The mapped string: [b] replaced by [d] at the front if [u] is [b] or below it. *)
Definition spec_map (b d u : str) : option str :=
  match strip_prefix b u with
  | Some [] => Some (d ++ $"/")
  | Some (c :: rest) => if ceqb c "/" then Some (d ++ c :: rest) else None
  | None => None
  end.

(** [w] reads like [b] with dots as wildcards. *)
Definition like (b w : str) : Prop :=
  Forall2 (fun x y => if ceqb x "." then y <> nl else y = x) b w.
(** [s] is at or below something that reads like [b]. *)
Definition applies (b s : str) : Prop :=
  exists w rest, s = w ++ rest /\ like b w /\ (rest = [] \/ exists x, rest = "/"%char :: x).

(** [b] is [a] or a path below it. *)
Definition path_prefix (a b : str) : Prop := b = a \/ exists x, b = a ++ $"/" ++ x.

(** ** Directories *)

Definition absolute (p : str) : Prop := exists p', p = "/"%char :: p'.
(** Following a path component by component from a directory. *)
Fixpoint walk (dir : list str) (comps : list str) : list str :=
  match comps with
  | [] => dir
  | c :: comps' =>
      if str_eqb c [] || str_eqb c $"." then walk dir comps'
      else if str_eqb c $".." then walk (removelast dir) comps'
      else walk (dir ++ [c]) comps'
  end.
(** The directory a path means when the current directory is [cwd]. *)
Definition denotes (cwd : list str) (p : str) : list str :=
  walk (if startswith $"/" p then [] else cwd) (split_on "/" p).
Definition inside (a b : list str) : Prop := exists rest, b = a ++ rest.

(** A relative path that goes down: no "..", and at least one real component. *)
Definition downward (p : str) : Prop :=
  (forall c, In c (split_on "/" p) -> c <> $"..") /\
  exists c, In c (split_on "/" p) /\ c <> [] /\ c <> $".".

(** ** Arguments: a source and a destination around a single equals sign. *)
Definition is_arg (a : str) (s d : str) : Prop :=
  a = s ++ $"=" ++ d /\ ~ In "="%char s /\ ~ In "="%char d.

(** Two arguments without equals signs. *)
Definition two_form (args : list str) : Prop :=
  exists a b, args = [a; b] /\ ~ In "="%char a /\ ~ In "="%char b.

(** No slash at the end. *)
Definition no_end_slash (s : str) : Prop := forall q, s <> q ++ $"/".

(** Two absolute paths (that do not start with a double slash, which POSIX keeps),
    or two relative paths that go down. *)
Definition comparable (s d : str) : Prop :=
  (absolute s /\ absolute d /\ (forall q, s <> $"//" ++ q) /\ (forall q, d <> $"//" ++ q)) \/
  (startswith $"/" s = false /\ startswith $"/" d = false /\ downward s /\ downward d).

(** ** Names derived from URIs *)
Definition und : ascii := "_".

Definition no_double (s : str) : Prop := forall a b, s <> a ++ [und; und] ++ b.

Definition safe_char (c : ascii) : Prop := is_word c = true \/ c = "-"%char \/ c = "."%char.

(** A name made of word characters, '-' and '.', not starting or ending in '_' or
    '.', without two underscores in a row. *)
Definition safe_name (s : str) : Prop :=
  (forall c, In c s -> safe_char c) /\
  (forall c t, s = c :: t -> c <> und /\ c <> "."%char) /\
  (forall t c, s = t ++ [c] -> c <> und /\ c <> "."%char) /\
  no_double s.

(** Pairs that are acceptable as arguments: no equals signs, line breaks or trailing
    slashes, no source and no destination twice. *)
Definition pairs_ok (ps : list (str * str)) : Prop :=
  (forall p, In p ps -> ~ In "="%char (fst p) /\ ~ In "="%char (snd p) /\
     one_line (fst p) /\ one_line (snd p) /\ no_end_slash (fst p) /\ no_end_slash (snd p)) /\
  NoDup (map fst ps) /\ NoDup (map snd ps).
