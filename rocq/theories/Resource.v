(** * Resource: model of resync/resource.py *)

From Verif Require Import Py Float64 W3C.

(** Values found in link dictionaries: strings, integers (after sitemap
    parsing) or None. *)
Inductive pv : Set := PStr (s : str) | PInt (n : Z) | PNone.
Definition pv_eqb (a b : pv) : bool :=
  match a, b with
  | PStr x, PStr y => str_eqb x y
  | PInt x, PInt y => x =? y
  | PNone, PNone => true
  | _, _ => false
  end.

(** A link is a dictionary (resource.py:372). *)
Notation link := (list (str * pv)).

(** Resource attributes: the slots of resource.py:56-58 and the entries of
    _extra that resource.py:37-44 names.  Timestamps are numbers of seconds in
    the scale of Float64.v.  Simplifications: other _extra entries are not
    modelled; a missing _extra entry is not distinguished from None (only
    __repr__ could tell). *)
Record resource : Type := MkR {
  r_uri : str;
  r_timestamp : option Z;
  r_length : option Z;
  r_mime_type : option str;
  r_md5 : option str;
  r_sha1 : option str;
  r_sha256 : option str;
  r_change : option str;
  r_ts_datetime : option Z;
  r_path : option str;
  r_ln : option (list link);
  r_capability : option str;
  r_ts_at : option Z;
  r_ts_completed : option Z;
  r_ts_from : option Z;
  r_ts_until : option Z }.

(** All attributes None but the URI: the state set up in resource.py:80-91,102. *)
Definition new_resource (u : str) : resource :=
  MkR u None None None None None None None None None None None None None None None.

(** Plain attribute stores (object.__setattr__ / _set_extra, resource.py:163-174). *)
Definition set_uri v r := MkR v (r_timestamp r) (r_length r) (r_mime_type r) (r_md5 r) (r_sha1 r) (r_sha256 r) (r_change r) (r_ts_datetime r) (r_path r) (r_ln r) (r_capability r) (r_ts_at r) (r_ts_completed r) (r_ts_from r) (r_ts_until r).
Definition set_timestamp v r := MkR (r_uri r) v (r_length r) (r_mime_type r) (r_md5 r) (r_sha1 r) (r_sha256 r) (r_change r) (r_ts_datetime r) (r_path r) (r_ln r) (r_capability r) (r_ts_at r) (r_ts_completed r) (r_ts_from r) (r_ts_until r).
Definition set_length v r := MkR (r_uri r) (r_timestamp r) v (r_mime_type r) (r_md5 r) (r_sha1 r) (r_sha256 r) (r_change r) (r_ts_datetime r) (r_path r) (r_ln r) (r_capability r) (r_ts_at r) (r_ts_completed r) (r_ts_from r) (r_ts_until r).
Definition set_mime_type v r := MkR (r_uri r) (r_timestamp r) (r_length r) v (r_md5 r) (r_sha1 r) (r_sha256 r) (r_change r) (r_ts_datetime r) (r_path r) (r_ln r) (r_capability r) (r_ts_at r) (r_ts_completed r) (r_ts_from r) (r_ts_until r).
Definition set_md5 v r := MkR (r_uri r) (r_timestamp r) (r_length r) (r_mime_type r) v (r_sha1 r) (r_sha256 r) (r_change r) (r_ts_datetime r) (r_path r) (r_ln r) (r_capability r) (r_ts_at r) (r_ts_completed r) (r_ts_from r) (r_ts_until r).
Definition set_sha1 v r := MkR (r_uri r) (r_timestamp r) (r_length r) (r_mime_type r) (r_md5 r) v (r_sha256 r) (r_change r) (r_ts_datetime r) (r_path r) (r_ln r) (r_capability r) (r_ts_at r) (r_ts_completed r) (r_ts_from r) (r_ts_until r).
Definition set_sha256 v r := MkR (r_uri r) (r_timestamp r) (r_length r) (r_mime_type r) (r_md5 r) (r_sha1 r) v (r_change r) (r_ts_datetime r) (r_path r) (r_ln r) (r_capability r) (r_ts_at r) (r_ts_completed r) (r_ts_from r) (r_ts_until r).
Definition store_change v r := MkR (r_uri r) (r_timestamp r) (r_length r) (r_mime_type r) (r_md5 r) (r_sha1 r) (r_sha256 r) v (r_ts_datetime r) (r_path r) (r_ln r) (r_capability r) (r_ts_at r) (r_ts_completed r) (r_ts_from r) (r_ts_until r).
Definition set_ts_datetime v r := MkR (r_uri r) (r_timestamp r) (r_length r) (r_mime_type r) (r_md5 r) (r_sha1 r) (r_sha256 r) (r_change r) v (r_path r) (r_ln r) (r_capability r) (r_ts_at r) (r_ts_completed r) (r_ts_from r) (r_ts_until r).
Definition set_path v r := MkR (r_uri r) (r_timestamp r) (r_length r) (r_mime_type r) (r_md5 r) (r_sha1 r) (r_sha256 r) (r_change r) (r_ts_datetime r) v (r_ln r) (r_capability r) (r_ts_at r) (r_ts_completed r) (r_ts_from r) (r_ts_until r).
Definition set_ln v r := MkR (r_uri r) (r_timestamp r) (r_length r) (r_mime_type r) (r_md5 r) (r_sha1 r) (r_sha256 r) (r_change r) (r_ts_datetime r) (r_path r) v (r_capability r) (r_ts_at r) (r_ts_completed r) (r_ts_from r) (r_ts_until r).
Definition set_capability v r := MkR (r_uri r) (r_timestamp r) (r_length r) (r_mime_type r) (r_md5 r) (r_sha1 r) (r_sha256 r) (r_change r) (r_ts_datetime r) (r_path r) (r_ln r) v (r_ts_at r) (r_ts_completed r) (r_ts_from r) (r_ts_until r).
Definition set_ts_at v r := MkR (r_uri r) (r_timestamp r) (r_length r) (r_mime_type r) (r_md5 r) (r_sha1 r) (r_sha256 r) (r_change r) (r_ts_datetime r) (r_path r) (r_ln r) (r_capability r) v (r_ts_completed r) (r_ts_from r) (r_ts_until r).
Definition set_ts_completed v r := MkR (r_uri r) (r_timestamp r) (r_length r) (r_mime_type r) (r_md5 r) (r_sha1 r) (r_sha256 r) (r_change r) (r_ts_datetime r) (r_path r) (r_ln r) (r_capability r) (r_ts_at r) v (r_ts_from r) (r_ts_until r).
Definition set_ts_from v r := MkR (r_uri r) (r_timestamp r) (r_length r) (r_mime_type r) (r_md5 r) (r_sha1 r) (r_sha256 r) (r_change r) (r_ts_datetime r) (r_path r) (r_ln r) (r_capability r) (r_ts_at r) (r_ts_completed r) v (r_ts_until r).
Definition set_ts_until v r := MkR (r_uri r) (r_timestamp r) (r_length r) (r_mime_type r) (r_md5 r) (r_sha1 r) (r_sha256 r) (r_change r) (r_ts_datetime r) (r_path r) (r_ln r) (r_capability r) (r_ts_at r) (r_ts_completed r) (r_ts_from r) v.

(** Resource.CHANGE_TYPES, resource.py:60. *)
Definition CHANGE_TYPES : list str := [$"created"; $"updated"; $"deleted"].

(** r.change = v with the check of __setattr__, resource.py:159-161. *)
Definition set_change (v : option str) (r : resource) : res resource :=
  match v with
  | None => Ok (store_change None r)
  | Some c => if in_strs c CHANGE_TYPES then Ok (store_change (Some c) r) else Err ChangeTypeError
  end.

(** Datetime string accessors, resource.py:182-268. *)
Definition get_dt (t : option Z) : res (option str) :=
  match t with
  | None => Ok None
  | Some t => let* s := datetime_to_str false t in Ok (Some s)
  end.
Definition set_lastmod (v : option str) (r : resource) : res resource :=
  let* t := str_to_datetime_opt v in Ok (set_timestamp t r).
Definition set_datetime (v : option str) (r : resource) : res resource :=
  let* t := str_to_datetime_opt v in Ok (set_ts_datetime t r).
Definition set_md_at (v : option str) (r : resource) : res resource :=
  let* t := str_to_datetime_opt v in Ok (set_ts_at t r).
Definition set_md_completed (v : option str) (r : resource) : res resource :=
  let* t := str_to_datetime_opt v in Ok (set_ts_completed t r).
Definition set_md_from (v : option str) (r : resource) : res resource :=
  let* t := str_to_datetime_opt v in Ok (set_ts_from t r).
Definition set_md_until (v : option str) (r : resource) : res resource :=
  let* t := str_to_datetime_opt v in Ok (set_ts_until t r).

(** ** The constructor, resource.py:62-149 *)

(** Keyword arguments of the constructor other than resource; None = not given. *)
Record rargs : Type := MkArgs {
  a_uri : option str; a_timestamp : option Z; a_length : option Z;
  a_mime_type : option str; a_md5 : option str; a_sha1 : option str; a_sha256 : option str;
  a_change : option str; a_ts_datetime : option Z; a_path : option str;
  a_ln : option (list link); a_capability : option str;
  a_ts_at : option Z; a_ts_completed : option Z; a_ts_from : option Z; a_ts_until : option Z;
  a_lastmod : option str; a_datetime : option str;
  a_md_at : option str; a_md_completed : option str; a_md_from : option str; a_md_until : option str }.

Definition no_args : rargs :=
  MkArgs None None None None None None None None None None None None None None None None
         None None None None None None.

(** "if (x is not None): self.x = x" *)
Definition override {A} (v : option A) (set : option A -> resource -> resource) (r : resource) : resource :=
  match v with Some _ => set v r | None => r end.
Definition override_res {A} (v : option A) (set : option A -> resource -> res resource)
    (r : resource) : res resource :=
  match v with Some _ => set v r | None => Ok r end.

(** Resource(args, resource=src).  The order of the assignments (and so of the
    possible exceptions) is that of the code.  The URI slot is None until set;
    the model tracks that with [has_uri].  Simplification: a copied ln is the
    same list object in Python, here it is a copy. *)
Definition make_resource (src : option resource) (a : rargs) : res resource :=
  let '(r, has_uri) :=
    match src with
    | Some s => (s, true)
    | None => (new_resource [], false)
    end in
  let '(r, has_uri) :=
    match a_uri a with Some u => (set_uri u r, true) | None => (r, has_uri) end in
  let r := override (a_timestamp a) set_timestamp r in
  let r := override (a_length a) set_length r in
  let r := override (a_md5 a) set_md5 r in
  let r := override (a_sha1 a) set_sha1 r in
  let r := override (a_sha256 a) set_sha256 r in
  let r := override (a_mime_type a) set_mime_type r in
  let* r := override_res (a_change a) set_change r in
  let r := override (a_ts_datetime a) set_ts_datetime r in
  let r := override (a_path a) set_path r in
  let r := override (a_ts_at a) set_ts_at r in
  let r := override (a_ts_completed a) set_ts_completed r in
  let r := override (a_ts_from a) set_ts_from r in
  let r := override (a_ts_until a) set_ts_until r in
  let r := override (a_capability a) set_capability r in
  let r := override (a_ln a) set_ln r in
  let* r := override_res (a_lastmod a) set_lastmod r in
  let* r := override_res (a_datetime a) set_datetime r in
  let* r := override_res (a_md_at a) set_md_at r in
  let* r := override_res (a_md_completed a) set_md_completed r in
  let* r := override_res (a_md_from a) set_md_from r in
  let* r := override_res (a_md_until a) set_md_until r in
  if has_uri then Ok r else Err ValueError.

(** ** Hash property, resource.py:280-329 *)

Definition prefixed (p : str) (v : option str) : list str :=
  match v with Some s => [p ++ s] | None => [] end.

Definition get_hash (r : resource) : option str :=
  let hashvals := prefixed $"md5:" (r_md5 r) ++ prefixed $"sha-1:" (r_sha1 r)
                  ++ prefixed $"sha-256:" (r_sha256 r) in
  match hashvals with [] => None | _ => Some (join $" " hashvals) end.

(** The loop over the entries: state (resource, types seen, some error), and
    whether the loop was left by the ValueError of unpacking an entry without
    a colon (line 315). *)
Fixpoint hash_loop (entries : list str) (r : resource) (seen : list str) (errors : bool)
    : resource * option exn :=
  match entries with
  | [] => (r, if errors then Some ValueError else None)
  | e :: es =>
      match split1 ":"%char e with
      | None => (r, Some ValueError)
      | Some (ty, v) =>
          if in_strs ty seen then hash_loop es r seen true
          else
            let seen := ty :: seen in
            if str_eqb ty $"md5" then hash_loop es (set_md5 (Some v) r) seen errors
            else if str_eqb ty $"sha-1" then hash_loop es (set_sha1 (Some v) r) seen errors
            else if str_eqb ty $"sha-256" then hash_loop es (set_sha256 (Some v) r) seen errors
            else hash_loop es r seen true
      end
  end.

(** r.hash = v: the resource afterwards and the exception raised, if any.  For
    None the AttributeError of None.split is swallowed by __setattr__
    (resource.py:163-167) after the digests were cleared. *)
Definition set_hash (v : option str) (r : resource) : resource * option exn :=
  let r0 := set_sha256 None (set_sha1 None (set_md5 None r)) in
  match v with
  | None => (r0, None)
  | Some s => hash_loop (split_ws s) r0 [] false
  end.

(** ** Links, resource.py:331-425 *)

Definition link_has_rel (rel : str) (l : link) : bool :=
  match sget $"rel" l with Some v => pv_eqb v (PStr rel) | None => false end.

(** link(rel) on a list of links (also resource_container.py:120-125). *)
Definition find_link (rel : str) (ln : list link) : option link := find (link_has_rel rel) ln.

Definition get_link (rel : str) (r : resource) : option link :=
  match r_ln r with None => None | Some ln => find_link rel ln end.

(** link_href(rel): KeyError if the link has no href. *)
Definition link_href (rel : str) (r : resource) : res (option pv) :=
  match get_link rel r with
  | None => Ok None
  | Some l => match sget $"href" l with Some v => Ok (Some v) | None => Err KeyError end
  end.

Definition set_atts (atts : list (str * pv)) (l : link) : link :=
  fold_left (fun l kv => sset (fst kv) (snd kv) l) atts l.

(** Update the first link with the given rel. *)
Fixpoint update_first (rel : str) (f : link -> link) (ln : list link) : list link :=
  match ln with
  | [] => []
  | l :: ln' => if link_has_rel rel l then f l :: ln' else l :: update_first rel f ln'
  end.

(** Names that cannot be given again as extra keyword arguments of link_set. *)
Definition link_params : list str := [$"self"; $"rel"; $"href"; $"allow_duplicates"].

(** link_set(rel, href, allow_duplicates, **atts), resource.py:349-375. *)
Definition link_set (rel href : str) (allow_duplicates : bool) (atts : list (str * pv))
    (r : resource) : res resource :=
  if existsb (fun kv => in_strs (fst kv) link_params) atts then Err TypeError
  else
    let ln := match r_ln r with None => [] | Some ln => ln end in
    let new := set_atts atts [($"rel", PStr rel); ($"href", PStr href)] in
    Ok (set_ln (Some
      (match find_link rel ln with
       | Some _ =>
           if allow_duplicates then ln ++ [new]
           else update_first rel (fun l => set_atts atts (sset $"href" (PStr href) l)) ln
       | None => ln ++ [new]
       end)) r).

(** link_add(rel, href, **atts), resource.py:377-382. *)
Definition link_add (rel href : str) (atts : list (str * pv)) (r : resource) : res resource :=
  link_set rel href true atts r.

(** describedby, up, index, contents setters, resource.py:389-425. *)
Definition set_describedby (u : str) := link_set $"describedby" u false [].
Definition set_up (u : str) := link_set $"up" u false [].
Definition set_index (u : str) := link_set $"index" u false [].
Definition set_contents (u : str) :=
  link_set $"contents" u false [($"type", PStr $"application/xml")].

(** ** Equality, resource.py:436-475 *)

(** Both given and different. *)
Definition clash {A} (eqb : A -> A -> bool) (a b : option A) : bool :=
  match a, b with Some x, Some y => negb (eqb x y) | _, _ => false end.

Definition equal (r s : resource) (delta : Z) : bool :=
  if negb (str_eqb (r_uri r) (r_uri s)) then false
  else if match r_timestamp r, r_timestamp s with
          | None, None => false
          | Some a, Some b => delta <=? Z.abs (fsub a b)
          | _, _ => true
          end then false
  else if clash str_eqb (r_md5 r) (r_md5 s) then false
  else if clash str_eqb (r_sha1 r) (r_sha1 s) then false
  else if clash str_eqb (r_sha256 r) (r_sha256 s) then false
  else if clash Z.eqb (r_length r) (r_length s) then false
  else true.

(** r == s *)
Definition r_eqb (r s : resource) : bool := equal r s SEC.

(** ** Sequences of operations on one resource (for the change invariant) *)

Inductive rop : Type :=
| OpUri (v : str) | OpTimestamp (v : option Z) | OpLength (v : option Z)
| OpMime (v : option str) | OpMd5 (v : option str) | OpSha1 (v : option str)
| OpSha256 (v : option str) | OpChange (v : option str) | OpTsDatetime (v : option Z)
| OpPath (v : option str) | OpLn (v : option (list link)) | OpCapability (v : option str)
| OpTsAt (v : option Z) | OpTsCompleted (v : option Z) | OpTsFrom (v : option Z)
| OpTsUntil (v : option Z)
| OpLastmod (v : option str) | OpDatetime (v : option str)
| OpMdAt (v : option str) | OpMdCompleted (v : option str)
| OpMdFrom (v : option str) | OpMdUntil (v : option str)
| OpHash (v : option str)
| OpLinkSet (rel href : str) (dup : bool) (atts : list (str * pv))
| OpCopy (a : rargs).      (* replace the resource by Resource(resource=r, a) *)

Definition keep (r : resource) (x : res resource) : resource * option exn :=
  match x with Ok r' => (r', None) | Err e => (r, Some e) end.

(** One attribute assignment or method call: state afterwards and exception. *)
Definition apply_op (o : rop) (r : resource) : resource * option exn :=
  match o with
  | OpUri v => (set_uri v r, None)
  | OpTimestamp v => (set_timestamp v r, None)
  | OpLength v => (set_length v r, None)
  | OpMime v => (set_mime_type v r, None)
  | OpMd5 v => (set_md5 v r, None)
  | OpSha1 v => (set_sha1 v r, None)
  | OpSha256 v => (set_sha256 v r, None)
  | OpChange v => keep r (set_change v r)
  | OpTsDatetime v => (set_ts_datetime v r, None)
  | OpPath v => (set_path v r, None)
  | OpLn v => (set_ln v r, None)
  | OpCapability v => (set_capability v r, None)
  | OpTsAt v => (set_ts_at v r, None)
  | OpTsCompleted v => (set_ts_completed v r, None)
  | OpTsFrom v => (set_ts_from v r, None)
  | OpTsUntil v => (set_ts_until v r, None)
  | OpLastmod v => keep r (set_lastmod v r)
  | OpDatetime v => keep r (set_datetime v r)
  | OpMdAt v => keep r (set_md_at v r)
  | OpMdCompleted v => keep r (set_md_completed v r)
  | OpMdFrom v => keep r (set_md_from v r)
  | OpMdUntil v => keep r (set_md_until v r)
  | OpHash v => set_hash v r
  | OpLinkSet rel href dup atts => keep r (link_set rel href dup atts r)
  | OpCopy a => keep r (make_resource (Some r) a)
  end.

Definition apply_ops (ops : list rop) (r : resource) : resource :=
  fold_left (fun r o => fst (apply_op o r)) ops r.
