(** * SitemapSpec: what the properties of sitemap documents mean *)

From Verif Require Import Py Float64 W3C W3CSpec Resource ResourceSpec Xml Sitemap.

(** ** Namespaces *)

Definition sitemap_ns (n : str) : str := $"{http://www.sitemaps.org/schemas/sitemap/0.9}" ++ n.
Definition rs_ns (n : str) : str := $"{http://www.openarchives.org/rs/terms/}" ++ n.

(** An element as a namespace aware reader sees it when it stands in a document that
    declares the sitemap namespace as the default and the ResourceSync namespace as rs:. *)
Fixpoint with_namespaces (e : xml) : xml :=
  let '(El tag atts text kids tail) := e in
  El (if startswith $"rs:" tag then rs_ns (skipn 3 tag) else sitemap_ns tag) atts
     (match text with Some [] => None | _ => text end)
     (map with_namespaces kids)
     (match tail with Some [] => None | _ => tail end).

(** ** Values that can be written and read without loss *)

(** Times that are whole seconds between the years 1 and 9999, or the floating point
    numbers nearest to a number of microseconds (1970-01-01T04:33:04 to 2242). *)
Definition plain_time (o : option Z) : Prop :=
  forall t, o = Some t ->
    (exists n, in_years n /\ t = n * SEC) \/
    (exists k, 2 ^ 14 * 1000000 <= k < 2 ^ 33 * 1000000 /\ t = float_of_ratio k 1000000).

(** A value None in a dictionary of attributes is as good as no value. *)
Definition present (o : option pv) : option pv := match o with Some PNone => None | _ => o end.

(** l' has the attributes of l that are among keys, with the same values. *)
Definition same_atts (keys : list str) (l l' : link) : Prop :=
  forall k, (In k keys -> sget k l' = present (sget k l)) /\ (~ In k keys -> sget k l' = None).

Definition link_keys : list str :=
  [$"hash"; $"href"; $"length"; $"modified"; $"path"; $"rel"; $"pri"; $"mime_type"].
Definition md_keys (spec_1_0 : bool) : list str :=
  [$"capability"; $"change"; $"hash"; $"length"; $"path"; $"mime_type";
   $"md_at"; $"md_completed"; $"md_from"; $"md_until"] ++ (if spec_1_0 then [] else [$"datetime"]).

(** Lengths and priorities are numbers, everything else is text. *)
Definition typed (l : link) : Prop :=
  forall k v, In (k, v) l ->
    if in_strs k [$"length"; $"pri"] then exists n, v = PInt n \/ v = PNone
    else exists s, v = PStr s \/ v = PNone.

Definition good_link (l : link) : Prop :=
  NoDup (map fst l) /\ ~ In $"type" (map fst l) /\ typed l
  /\ (exists s, sget $"href" l = Some (PStr s)) /\ (exists s, sget $"rel" l = Some (PStr s))
  /\ (forall n, sget $"pri" l = Some (PInt n) -> 1 <= n <= 999999).

Definition good_md (l : link) : Prop :=
  NoDup (map fst l)
  /\ (forall k, In k [$"type"; $"at"; $"completed"; $"from"; $"until"] -> ~ In k (map fst l))
  /\ typed l
  /\ (forall c, sget $"change" l = Some (PStr c) -> valid_change (Some c)).

Definition good_resource (r : resource) : Prop :=
  r_uri r <> []
  /\ (plain_time (r_timestamp r) /\ plain_time (r_ts_datetime r) /\ plain_time (r_ts_at r)
      /\ plain_time (r_ts_completed r) /\ plain_time (r_ts_from r) /\ plain_time (r_ts_until r))
  /\ (ws_free (r_md5 r) /\ ws_free (r_sha1 r) /\ ws_free (r_sha256 r))
  /\ valid_change (r_change r)
  /\ Forall good_link (links r).

(** What is expected to be read back for a resource that was written. *)
Definition read_back (sm : settings) (r r' : resource) : Prop :=
  r_uri r' = r_uri r
  /\ r_timestamp r' = (match r_timestamp r with
                       | Some t => Some t
                       | None => if s_spec_1_0 sm || s_add_lastmod sm then r_ts_datetime r else None
                       end)
  /\ r_ts_datetime r' = (if s_spec_1_0 sm then None else r_ts_datetime r)
  /\ r_length r' = r_length r /\ r_mime_type r' = r_mime_type r
  /\ r_md5 r' = r_md5 r /\ r_sha1 r' = r_sha1 r /\ r_sha256 r' = r_sha256 r
  /\ r_change r' = r_change r /\ r_path r' = r_path r /\ r_capability r' = r_capability r
  /\ Forall2 (same_atts link_keys) (links r) (links r')
  /\ r_ts_at r' = None /\ r_ts_completed r' = None /\ r_ts_from r' = None /\ r_ts_until r' = None.

(** ** Text *)

(** Characters that may stand in an XML document. *)
Definition xml_legal (c : ascii) : Prop := (32 <= code c)%N \/ c = tab \/ c = nl \/ c = cr.
Definition legal (s : str) : Prop := forall c, In c s -> xml_legal c.
Definition legal_opt (o : option str) : Prop := forall s, o = Some s -> legal s.

Definition legal_atts (keys : list str) (l : link) : Prop :=
  (forall k, In k (map fst l) -> In k keys) /\ (forall k s, In (k, PStr s) l -> legal s).

(** A resource that can be put into a text: a carriage return is possible in
    attributes only. *)
Definition legal_resource (r : resource) : Prop :=
  (legal (r_uri r) /\ ~ In cr (r_uri r))
  /\ (legal_opt (r_mime_type r) /\ legal_opt (r_path r) /\ legal_opt (r_capability r))
  /\ (legal_opt (r_md5 r) /\ legal_opt (r_sha1 r) /\ legal_opt (r_sha256 r))
  /\ Forall (legal_atts link_keys) (links r).

Definition good_doc (d : doc (list resource)) : Prop :=
  (good_md (d_md d) /\ legal_atts (md_keys false) (d_md d))
  /\ (Forall good_link (d_ln d) /\ Forall (legal_atts link_keys) (d_ln d))
  /\ Forall good_resource (d_items d) /\ Forall legal_resource (d_items d).

Definition doc_read_back (sm : settings) (d d' : doc (list resource)) : Prop :=
  same_atts (md_keys (s_spec_1_0 sm)) (d_md d) (d_md d')
  /\ Forall2 (same_atts link_keys) (d_ln d) (d_ln d')
  /\ Forall2 (read_back sm) (d_items d) (d_items d').

(** ** Structure of acceptable documents *)

Definition kids_named (n : str) (e : xml) : list xml := filter (fun k => str_eqb (x_tag k) n) (x_kids e).
Definition is_int (s : str) : Prop := exists n, parse_int s = Some n.

Definition ok_md (e : xml) : Prop :=
  (forall c, sget $"change" (x_atts e) = Some c -> c = $"created" \/ c = $"updated" \/ c = $"deleted")
  /\ (forall s, sget $"length" (x_atts e) = Some s -> is_int s).
Definition ok_ln (e : xml) : Prop :=
  (exists s, sget $"href" (x_atts e) = Some s) /\ (exists s, sget $"rel" (x_atts e) = Some s)
  /\ (forall s, sget $"length" (x_atts e) = Some s -> is_int s)
  /\ (forall s, sget $"pri" (x_atts e) = Some s -> exists n, parse_int s = Some n /\ 1 <= n <= 999999).
Definition ok_entry (e : xml) : Prop :=
  (exists loc c s, kids_named (sitemap_ns $"loc") e = [loc] /\ x_text loc = Some (c :: s))
  /\ (List.length (kids_named (sitemap_ns $"lastmod") e) <= 1)%nat
  /\ (List.length (kids_named (rs_ns $"md") e) <= 1)%nat
  /\ Forall ok_md (kids_named (rs_ns $"md") e)
  /\ Forall ok_ln (kids_named (rs_ns $"ln") e).

(** The entries are the children named tag. *)
Definition ok_kids (tag : str) (root : xml) : Prop :=
  Forall ok_entry (kids_named tag root)
  /\ Forall ok_md (kids_named (rs_ns $"md") root)
  /\ Forall ok_ln (kids_named (rs_ns $"ln") root)
  /\ (List.length (kids_named (rs_ns $"md") root) <= 1)%nat
  /\ (forall before e after, x_kids root = before ++ e :: after -> x_tag e = tag ->
        forall k, In k after -> x_tag k <> rs_ns $"md" /\ x_tag k <> rs_ns $"ln").

(** The capability the document states, if any. *)
Definition stated_capability (root : xml) : option str :=
  match kids_named (rs_ns $"md") root with
  | m :: _ => sget $"capability" (x_atts m)
  | [] => None
  end.
Definition ok_capability (expected : option str) (root : xml) : Prop :=
  forall c, expected = Some c ->
    stated_capability root = Some c \/ (stated_capability root = None /\ c = $"resourcelist").

Definition acceptable (expected : option str) (sitemapindex : option bool) (root : xml) (index : bool) : Prop :=
  (x_tag root = sitemap_ns (if index then $"sitemapindex" else $"urlset"))
  /\ (sitemapindex = None \/ sitemapindex = Some index)
  /\ ok_kids (sitemap_ns (if index then $"sitemap" else $"url")) root
  /\ ok_capability expected root.

(** ** Lists *)

(** A list, seen as the document it is written as: the resources in the order of
    iteration, and its own name as capability if none is set. *)
Definition as_written {C} (iter : C -> list resource) (name : str) (d : doc C) : doc (list resource) :=
  MkDoc (match sget $"capability" (d_md d) with
         | None => d_md d ++ [($"capability", PStr name)]
         | Some _ => d_md d
         end) (d_ln d) (iter (d_items d)).
Definition in_order {C} (iter : C -> list resource) (d : doc C) : doc (list resource) :=
  MkDoc (d_md d) (d_ln d) (iter (d_items d)).

(** A list that can be written without loss: its capability, if set, is its name. *)
Definition good_list {C} (iter : C -> list resource) (name : str) (d : doc C) : Prop :=
  good_doc (in_order iter d)
  /\ (sget $"capability" (d_md d) = None \/ sget $"capability" (d_md d) = Some (PStr name)).

(** The times in an entry can be read. *)
Definition is_time (s : str) : Prop := exists t, str_to_datetime s = Ok t.
Definition ok_times (spec_1_0 : bool) (e : xml) : Prop :=
  (forall lm s, In lm (kids_named (sitemap_ns $"lastmod") e) -> x_text lm = Some s -> is_time s)
  /\ (spec_1_0 = false -> forall m s, In m (kids_named (rs_ns $"md") e) ->
        sget $"datetime" (x_atts m) = Some s -> is_time s).

(** All times of the entries. *)
Definition times_readable (spec_1_0 : bool) (root : xml) (index : bool) : Prop :=
  Forall (ok_times spec_1_0) (kids_named (sitemap_ns (if index then $"sitemap" else $"url")) root).
