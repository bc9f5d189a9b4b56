(** * Hashes: model of hashes.py *)

From Verif Require Import Py Resource.

(** The digest objects of hashlib are modelled by the bytes they were given so far:
    hexdigest() is the digest of all of them.  The three digest functions are given as
    [digests]. *)
Record digests : Type := MkDigests { of_md5 : str -> str; of_sha1 : str -> str; of_sha256 : str -> str }.

(** Hashes: the requested types and the digest objects, hashes.py:38-54. *)
Record hashes : Type := MkHashes {
  w_md5 : bool; w_sha1 : bool; w_sha256 : bool;
  c_md5 : option str; c_sha1 : option str; c_sha256 : option str }.

(** NAME_TO_ATTRIBUTE, hashes.py:36. *)
Definition hash_names : list str := [$"md5"; $"sha-1"; $"sha-256"].

(** The constructor without a file, hashes.py:38-54; the set of types as three flags. *)
Definition new_hashes (names : list str) : res hashes :=
  if forallb (fun n => in_strs n hash_names) names
  then Ok (MkHashes (in_strs $"md5" names) (in_strs $"sha-1" names) (in_strs $"sha-256" names) None None None)
  else Err PlainException.

(** initialize_hashes, hashes.py:56-63. *)
Definition initialize_hashes (h : hashes) : hashes :=
  MkHashes (w_md5 h) (w_sha1 h) (w_sha256 h)
    (if w_md5 h then Some [] else c_md5 h)
    (if w_sha1 h then Some [] else c_sha1 h)
    (if w_sha256 h then Some [] else c_sha256 h).

(** update(data) of the objects that exist, hashes.py:78-83. *)
Definition update_hashes (data : str) (h : hashes) : hashes :=
  let upd := option_map (fun s => s ++ data) in
  MkHashes (w_md5 h) (w_sha1 h) (w_sha256 h) (upd (c_md5 h)) (upd (c_sha1 h)) (upd (c_sha256 h)).

(** f.read(n): a negative number reads everything. *)
Definition read_block (n : Z) (data : str) : str * str :=
  if n <? 0 then (data, [])
  else (firstn (Z.to_nat n) data, skipn (Z.to_nat n) data).

(** The loop of compute_for_file, hashes.py:73-84.  [fuel] is more than the length of
    the file. *)
Fixpoint read_loop (fuel : nat) (block_size : Z) (data : str) (h : hashes) : hashes :=
  match fuel with
  | O => h
  | S f =>
      let '(block, rest) := read_block block_size data in
      match block with [] => h | _ => read_loop f block_size rest (update_hashes block h) end
  end.

(** compute_for_file, hashes.py:65-84. *)
Definition compute_for_file (block_size : Z) (data : str) (h : hashes) : hashes :=
  read_loop (S (List.length data)) block_size data (initialize_hashes h).

(** md5, sha1, sha256, hashes.py:97-116. *)
Definition hash_md5 (D : digests) (h : hashes) : option str := option_map (of_md5 D) (c_md5 h).
Definition hash_sha1 (D : digests) (h : hashes) : option str := option_map (of_sha1 D) (c_sha1 h).
Definition hash_sha256 (D : digests) (h : hashes) : option str := option_map (of_sha256 D) (c_sha256 h).

(** set(resource), hashes.py:86-95. *)
Definition hash_set (D : digests) (h : hashes) (r : resource) : resource :=
  let r := if w_md5 h then set_md5 (hash_md5 D h) r else r in
  let r := if w_sha1 h then set_sha1 (hash_sha1 D h) r else r in
  if w_sha256 h then set_sha256 (hash_sha256 D h) r else r.
