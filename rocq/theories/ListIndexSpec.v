(** * ListIndexSpec: what the properties of lists with indexes mean *)

From Verif Require Import Py Float64 Regex Mapper Resource ResourceSpec Container Xml Sitemap SitemapSpec Opener ListIndex.

(** Every part but the last has [max] entries; the last has between 1 and [max]. *)
Definition split_by {A} (max : Z) (parts : list (list A)) : Prop :=
  (forall p, In p parts -> 1 <= zlen p <= max) /\
  (forall i p, nth_error parts i = Some p -> (S i < List.length parts)%nat -> zlen p = max).

(** The file at [path] is the sitemap (or, if [index], the sitemap index) with these
    entries. *)
Definition holds (sm : settings) (fs : fsys) (path : str) (index : bool) (md : link) (ln : list link)
    (entries : list resource) : Prop :=
  exists f, sget path fs = Some f /\ resources_as_xml sm index (MkDoc md ln entries) = Ok (f_data f).

(** A local path that url_or_file_open takes literally: absolute, on no other host,
    without escapes and fragment, and not ending with white space. *)
Definition plain_path (p : str) : Prop :=
  (exists c rest, p = "/"%char :: c :: rest /\ c <> "/"%char) /\
  ~ In "%"%char p /\ ~ In "#"%char p /\ (forall q c, p = q ++ [c] -> is_space c = false).

(** The mapper gives the index and its component files http URIs that lead back to
    them and can be put into a document. *)
Definition uri_text (u : str) : Prop := legal u /\ ~ In cr u.
Definition published (ms : mapper) (basename : str) : Prop :=
  (exists u, dst_to_src ms basename = Ok u /\ uri_text u) /\
  (forall n, 0 <= n -> exists x, dst_to_src ms (part_name basename n) = Ok ($"http:" ++ x) /\ uri_text x /\
     src_to_dst ms ($"http:" ++ x) = Ok (part_name basename n)).

(** MD5 digests are words; modification times lie between 1970-01-01T09:07 and 2106. *)
Definition digest_like (md5 : str -> str) : Prop := forall s, ws_free (Some (md5 s)) /\ legal (md5 s).
Definition clock_like (clock : str -> Z) : Prop := forall f, 2 ^ 15 * SEC <= clock f <= 2 ^ 32 * SEC.

(** A list to read into: the same settings, no contents. *)
Definition emptied {C} (k : kind C) (l : ixlist C) : ixlist C := with_doc (MkDoc [] [] (k_empty k)) false l.

(** A URI with a scheme of [n] letters. *)
Definition scheme_of_length (n : nat) (u : str) : Prop :=
  exists w rest, u = w ++ $":" ++ rest /\ List.length w = n /\ Forall (fun c => is_word c = true) w.

(** The sitemap made for a part of a list: it says what it is and where its index is. *)
Definition part_doc (name index : str) (p : list resource) : doc (list resource) :=
  MkDoc [($"capability", PStr name)] [[($"rel", PStr $"index"); ($"href", PStr index)]] p.

(** The same list with check_url_authority set to [c]. *)
Definition set_check {C} (c : bool) (l : ixlist C) : ixlist C :=
  MkIx (l_doc l) (l_name l) (l_max l) (l_allow l) (l_mapper l) c (l_index l) (l_sm l).
