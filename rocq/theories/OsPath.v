(** * OsPath: posixpath (Python 3.12) functions that resync calls *)

From Verif Require Import Py.

(** dirname and basename, posixpath.py:163-186. *)
Definition os_dirname (p : str) : str :=
  match rsplit1 "/" p with
  | None => []
  | Some (head, _) => if forallb (ceqb "/") head then head else rstrip $"/" head
  end.
Definition os_basename (p : str) : str :=
  match rsplit1 "/" p with None => p | Some (_, tail) => tail end.

(** splitroot, posixpath.py:130-156: the root and the rest. *)
Definition os_splitroot (p : str) : str * str :=
  match p with
  | a :: p1 =>
      if ceqb a "/" then
        match p1 with
        | b :: p2 =>
            if ceqb b "/" then
              match p2 with
              | c :: _ => if ceqb c "/" then ($"/", p1) else ($"//", p2)
              | [] => ($"//", [])
              end
            else ($"/", p1)
        | [] => ($"/", [])
        end
      else ([], p)
  | [] => ([], [])
  end.

(** The loop of normpath, posixpath.py:381-389; [acc] reversed. *)
Fixpoint norm_comps (rooted : bool) (comps : list str) (acc : list str) : list str :=
  match comps with
  | [] => rev acc
  | c :: comps' =>
      if str_eqb c [] || str_eqb c $"." then norm_comps rooted comps' acc
      else if negb (str_eqb c $"..") || (negb rooted && match acc with [] => true | _ => false end)
              || match acc with x :: _ => str_eqb x $".." | [] => false end
      then norm_comps rooted comps' (c :: acc)
      else norm_comps rooted comps' (match acc with [] => [] | _ :: a => a end)
  end.

(** normpath, posixpath.py:365-391. *)
Definition os_normpath (p : str) : str :=
  match p with
  | [] => $"."
  | _ =>
      let '(root, rest) := os_splitroot p in
      let r := root ++ join $"/" (norm_comps (negb (str_eqb root [])) (split_on "/" rest) []) in
      if str_eqb r [] then $"." else r
  end.

(** commonprefix of two strings, genericpath.py:69-83: characterwise. *)
Fixpoint os_commonprefix (a b : str) : str :=
  match a, b with
  | x :: a', y :: b' => if ceqb x y then x :: os_commonprefix a' b' else []
  | _, _ => []
  end.

(** join of two paths, posixpath.py:71-92. *)
Definition os_join (a b : str) : str :=
  if startswith $"/" b then b
  else match a with
       | [] => b
       | _ => if endswith $"/" a then a ++ b else a ++ $"/" ++ b
       end.

(** abspath, posixpath.py:412-424, given the current directory. *)
Definition os_abspath (cwd p : str) : str :=
  os_normpath (if startswith $"/" p then p else os_join cwd p).

Fixpoint common_list (a b : list str) : nat :=
  match a, b with
  | x :: a', y :: b' => if str_eqb x y then S (common_list a' b') else O
  | _, _ => O
  end.
(** relpath(path, start), posixpath.py:483-524. *)
Definition os_relpath (cwd path start : str) : res str :=
  match path with
  | [] => Err ValueError
  | _ =>
      let parts p := filter (fun s => negb (str_eqb s [])) (split_on "/" (os_abspath cwd p)) in
      let sl := parts (match start with [] => $"." | _ => start end) in
      let pl := parts path in
      let i := common_list sl pl in
      let rel := repeat $".." (List.length sl - i) ++ skipn i pl in
      match rel with
      | [] => Ok $"."
      | _ => Ok (join $"/" rel)
      end
  end.
