(** * DumpSpec: what the properties of dumps mean *)

From Coq Require Import Permutation Sorted.
From Verif Require Import Py Float64 Resource ResourceSpec Container ContainerSpec Xml Sitemap SitemapSpec Opener ListIndex Dump PathSpec.

(** ** Partition *)

Definition size_of (r : resource) : Z := match r_length r with Some n => n | None => 0 end.
Definition total_size (rs : list resource) : Z := fold_right Z.add 0 (map size_of rs).

(** A limit has been reached. *)
Definition full (max_size max_files : Z) (p : list resource) : Prop :=
  max_size <= total_size p \/ max_files <= zlen p.

(** Each part is filled until a limit is reached, and not beyond; only the last part may
    have reached none. *)
Definition filled (max_size max_files : Z) (parts : list (list resource)) : Prop :=
  (forall p, In p parts -> p <> [] /\ forall a b, p = a ++ b -> a <> [] -> b <> [] -> ~ full max_size max_files a)
  /\ (forall before p after, parts = before ++ p :: after -> after <> [] -> full max_size max_files p).

(** ** Files *)

(** The file of a resource is there, has the length stated, if that is checked and any is
    stated, and is not too big. *)
Definition dumpable (fs : fsys) (max_size : Z) (check : bool) (r : resource) : Prop :=
  exists p f, r_path r = Some p /\ sget p fs = Some f
    /\ (check = true -> forall n, r_length r = Some n -> n = zlen (f_data f)) /\ zlen (f_data f) <= max_size.

(** The contents of the file of a resource. *)
Definition content (fs : fsys) (r : resource) : str :=
  match r_path r with
  | Some p => match sget p fs with Some f => f_data f | None => [] end
  | None => []
  end.
(** The resource with the size of its file as its length. *)
Definition measured (fs : fsys) (r : resource) : resource := set_length (Some (zlen (content fs r))) r.

(** The file of a resource is at the path through these names. *)
Definition lies_at (abs : bool) (names : list str) (r : resource) : Prop :=
  Forall file_name names /\ r_path r = Some (local_path abs names).

(** All files lie below the directory [top], and no longer text than that is common to
    the names of their directories: one of them lies directly in it, or two of them lie
    in subdirectories that differ in the first character of their names. *)
Definition common_top (abs : bool) (top : list str) (rs : list resource) : Prop :=
  (forall r, In r rs -> exists rest, rest <> [] /\ lies_at abs (top ++ rest) r)
  /\ ((exists r n, In r rs /\ lies_at abs (top ++ [n]) r)
      \/ (exists r1 r2 c1 a1 x1 n1 c2 a2 x2 n2, In r1 rs /\ In r2 rs /\ c1 <> c2
          /\ lies_at abs (top ++ (c1 :: a1) :: x1 ++ [n1]) r1 /\ lies_at abs (top ++ (c2 :: a2) :: x2 ++ [n2]) r2)).

(** The name, from [top] on, that a file has in the archive. *)
Definition name_in (abs : bool) (top : list str) (r : resource) (name : str) : Prop :=
  exists rest, rest <> [] /\ lies_at abs (top ++ rest) r /\ name = rel_path rest.

(** What becomes of a resource object: its path is replaced. *)
Definition renamed (abs : bool) (top : list str) (r r' : resource) : Prop :=
  exists name, name_in abs top r name /\ r' = set_path (Some name) r.

(** An archive of these resources: the file of each of them, in the order of their URIs,
    under its name, and a manifest that, when it is read, gives the same resources with
    these names as their paths. *)
Definition archive_of (fs : fsys) (abs : bool) (top : list str) (part : list resource) (z : zipfile) : Prop :=
  exists order names, Permutation part order /\ StronglySorted uri_before order
    /\ Forall2 (name_in abs top) order names
    /\ z_entries z = combine names (map (content fs) order)
    /\ exists d, list_parse (fun r => rl_add r false) default_settings (Some manifest_name) (MkDoc [] [] []) (z_manifest z) = Ok d
       /\ Forall2 (fun r r' => exists name, name_in abs top r name
            /\ read_back default_settings (set_path (Some name) r) r') order (rl_iter (d_items d)).

(** The name of archive number [n]. *)
Definition archive_name (basename : str) (n : Z) : str := basename ++ print_pad 5 n ++ $".zip".

(** The separate manifest of archive number [n], read from its file: it lists the
    resources as they are, with their local paths. *)
Definition manifest_file (basename : str) (n : Z) : str := basename ++ print_pad 5 n ++ $".xml".
Definition manifest_at (fs : fsys) (path : str) (part : list resource) : Prop :=
  exists f d order, sget path fs = Some f /\ Permutation part order
    /\ list_parse (fun r => rl_add r false) default_settings (Some manifest_name) (MkDoc [] [] []) (f_data f) = Ok d
    /\ Forall2 (read_back default_settings) order (rl_iter (d_items d)).

(** The names of the entries of an archive; the manifest comes first, dump.py:79. *)
Definition zip_namelist (z : zipfile) : list str := $"manifest.xml" :: map fst (z_entries z).
