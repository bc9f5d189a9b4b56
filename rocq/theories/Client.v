(** * Client: model of client.py -- finding the source, baseline and incremental
    synchronization, audit *)

From Verif Require Import Py Float64 Regex W3C Url UrlAuthority OsPath Mapper Resource Container Capability
  Xml Sitemap Opener ListIndex Hashes Disk Builder ClientState.

(** ** The world in which the client runs *)

(** What happens when a resource is requested: the request fails with an exception,
    the whole body arrives, or the exception comes after part of the body. *)
Inductive outcome : Type :=
| Refused (e : exn)
| Data (body : str)
| Broken (part : str) (e : exn).

(** What does not change during a run: the current directory (as names from the
    root), the documents of the source, the outcome of the n-th request for a
    resource, the time files get when they are written, the digest functions and
    the text of numbers.  Simplifications: documents do not change during a run,
    and reading them is not affected by what the client writes. *)
Record env : Type := MkEnv {
  e_cwd : list str;
  e_fetch : str -> res str;
  e_get : nat -> str -> outcome;
  e_now : Z;
  e_digests : digests;
  e_floats : float_text
}.

(** A status line (client.py:801-837): the word, the counts (same may be absent) and
    the words for the counts. *)
Record status : Type := MkStatus {
  st_word : str;
  st_same : option Z;
  st_created : Z; st_updated : Z; st_deleted : Z;
  st_words : str * str * str
}.

(** What is logged.  Simplification: other messages are left out. *)
Inductive event : Type :=
| Logged (s : status)
| SizeDiffers (uri : str) (got expected : Z)
| HashDiffers (name uri : str).

(** What changes during a run: the tree, the client state file (kept apart from the
    tree: a simplification), the requests made, and the client's last_timestamp and
    hashes attributes (the latter a set), and the log. *)
Record world : Type := MkWorld {
  w_root : node;
  w_state : option str;
  w_gets : list str;
  w_last : Z;
  w_hashes : list str;
  w_log : list event
}.
Definition with_root v w := MkWorld v (w_state w) (w_gets w) (w_last w) (w_hashes w) (w_log w).
Definition with_state v w := MkWorld (w_root w) v (w_gets w) (w_last w) (w_hashes w) (w_log w).
Definition with_gets v w := MkWorld (w_root w) (w_state w) v (w_last w) (w_hashes w) (w_log w).
Definition with_last v w := MkWorld (w_root w) (w_state w) (w_gets w) v (w_hashes w) (w_log w).
Definition with_hashes v w := MkWorld (w_root w) (w_state w) (w_gets w) (w_last w) v (w_log w).
Definition with_log v w := MkWorld (w_root w) (w_state w) (w_gets w) (w_last w) (w_hashes w) v.

(** Actions: they change the world and return a value or raise an exception. *)
Definition act (A : Type) : Type := world -> world * res A.
Definition ret {A} (a : A) : act A := fun w => (w, Ok a).
Definition raise {A} (e : exn) : act A := fun w => (w, Err e).
Definition lift {A} (r : res A) : act A := fun w => (w, r).
Definition andthen {A B} (m : act A) (f : A -> act B) : act B := fun w =>
  match m w with
  | (w', Ok a) => f a w'
  | (w', Err e) => (w', Err e)
  end.
Definition modify (f : world -> world) : act unit := fun w => (f w, Ok tt).
Notation "'do' x <- m ;; k" := (andthen m (fun x => k)) (at level 200, x name, m at level 100, k at level 200).
Notation "m ;;; k" := (andthen m (fun _ => k)) (at level 199, right associativity).

Definition log (e : event) : act unit := modify (fun w => with_log (w_log w ++ [e]) w).

(** ** The client, client.py:45-69 *)
Record client : Type := MkClient {
  c_mapper : mapper;
  c_sitemap_name : option str;
  c_capability_list : option str;
  c_resource_list_name : str;
  c_change_list_name : str;
  c_multifile : bool;
  c_noauth : bool;
  c_strictauth : bool;
  c_dryrun : bool;
  c_ignore_failures : bool;
  c_tries : nat;
  c_spec_1_0 : bool
}.

(** sitemap_uri(basename), client.py:77-87. *)
Definition sitemap_uri (c : client) (basename : str) : res str :=
  match re_match (re_const $"\w+:") basename with
  | Some _ => Ok basename
  | None => if startswith $"/" basename then Ok basename
            else let* u := default_src_uri (c_mapper c) in Ok (u ++ $"/" ++ basename)
  end.

(** sitemap, client.py:89-94. *)
Definition sitemap (c : client) : res str :=
  match c_sitemap_name c with Some s => Ok s | None => sitemap_uri c (c_resource_list_name c) end.

(** ** Finding the source's resource list *)

(** try: ... except Exception: raise [e] *)
Definition wrapped {A} (e : exn) (r : res A) : res A :=
  match r with
  | Err OutOfModel => Err OutOfModel
  | Err _ => Err e
  | Ok x => Ok x
  end.

Definition plain_settings : settings := MkSettings false false false.

(** A new list of some kind, list_base_with_index.py:49-73, with the options that
    matter for reading. *)
Definition new_list {C} (k : kind C) (name : str) (multifile : bool) (ms : option mapper) : ixlist C :=
  MkIx (MkDoc [] [] (k_empty k)) (Some name) (Some 50000) multifile ms false false plain_settings.

(** read_resource_list(uri), client.py:96-107: the resources. *)
Definition read_resource_list (fetch : str -> res str) (c : client) (uri : str) : res rdict :=
  let* l := wrapped ClientError
              (list_read resource_list_kind fetch false
                 (new_list resource_list_kind $"resourcelist" (c_multifile c) (Some (c_mapper c))) uri) in
  Ok (d_items (l_doc l)).

(** ResourceSet.add, resource_set.py:34-40, as used by SourceDescription and
    CapabilityList; ResourceSet has no uris method. *)
Definition rs_add (r : resource) (d : rdict) : res rdict :=
  if smem (r_uri r) d then Err ResourceSetDupeError else Ok (sset (r_uri r) r d).
Definition source_description_kind : kind rdict :=
  MkKind rl_iter rs_add [] rs_add (fun _ => Err AttributeError).

(** find_resource_list_from_capability_list(uri), client.py:136-155.  CapabilityList
    reads a single document, list_base.py:80-120. *)
Definition find_from_capability_list (fetch : str -> res str) (uri : str) : res str :=
  let* d := wrapped ClientError
              (let* text := match fetch uri with Err IOError => Err PlainException | x => x end in
               list_parse rs_add plain_settings (Some $"capabilitylist") (MkDoc [] [] []) text) in
  match capability_info (Some $"resourcelist") (d_items d) with
  | None => Err ClientFatalError
  | Some r => urljoin uri (r_uri r)
  end.

(** find_resource_list_from_source_description(uri), client.py:109-134. *)
Definition find_from_source_description (fetch : str -> res str) (uri : str) : res str :=
  let* l := wrapped ClientError
              (list_read source_description_kind fetch false
                 (new_list source_description_kind $"description" true None) uri) in
  match rl_iter (d_items (l_doc l)) with
  | [] => Err ClientFatalError
  | [r] => let* uri := urljoin uri (r_uri r) in find_from_capability_list fetch uri
  | _ => Err ClientFatalError
  end.

(** for uri in [...]: try: return ... except ClientError, client.py:182-198. *)
Fixpoint first_found {A} (try : str -> res A) (uris : list str) (otherwise : res A) : res A :=
  match uris with
  | [] => otherwise
  | u :: us =>
      match try u with
      | Err ClientError => first_found try us otherwise
      | x => x
      end
  end.

(** uri.lstrip('file:///'), client.py:184,194: every leading character out of the set
    of 'f', 'i', 'l', 'e', ':' and '/'. *)
Definition strip_file (uri : str) : str := lstrip $"file:///" uri.

(** The candidates of client.py:179-183 and 191-193. *)
Definition uri_host (sm : str) : res str :=
  let* parts := urlsplit sm [] in
  Ok (urlunsplit (MkUS (us_scheme parts) (us_netloc parts) [] [] [])).

(** find_resource_list(), client.py:157-201. *)
Definition find_resource_list (fetch : str -> res str) (c : client) : res rdict :=
  match c_sitemap_name c with
  | Some s => read_resource_list fetch c s
  | None =>
      match c_capability_list c with
      | Some u => let* rl := find_from_capability_list fetch u in read_resource_list fetch c rl
      | None =>
          let* sm := sitemap c in
          let* host := uri_host sm in
          let* d1 := urljoin sm $".well-known/resourcesync" in
          let* d2 := urljoin host $".well-known/resourcesync" in
          first_found (fun u => let* rl := find_from_source_description fetch (strip_file u) in
                                read_resource_list fetch c rl) [d1; d2]
            (let* l1 := urljoin sm $"resourcelist.xml" in
             let* l2 := urljoin sm $"sitemap.xml" in
             let* l3 := urljoin host $"sitemap.xml" in
             first_found (fun u => read_resource_list fetch c (strip_file u)) [l1; l2; l3]
               (Err ClientFatalError))
      end
  end.

(** ** Status, client.py:801-837 *)

Definition log_status (in_sync incremental audit : bool) (same : option Z)
    (created updated deleted to_delete : Z) : act unit :=
  let words := if audit then ($"to create", $"to update", $"to delete")
               else ($"created", $"updated", $"deleted") in
  log (Logged
    (if in_sync then
       MkStatus (if incremental then $"NO CHANGES" else $"IN SYNC") same created updated deleted words
     else if audit then MkStatus $"NOT IN SYNC" same created updated deleted words
     else if deleted <? to_delete then
       MkStatus (if incremental then $"PART APPLIED" else $"PART SYNCED") same created updated to_delete
         ($"created", $"updated", $"to delete (--delete)")
     else MkStatus (if incremental then $"CHANGES APPLIED" else $"SYNCED") same created updated deleted words)).

(** The text of a status line, client.py:834-837. *)
Definition status_line (s : status) : str :=
  let '(c, u, d) := st_words s in
  $"Status: " ++ repeat " "%char (15 - List.length (st_word s))%nat ++ st_word s ++ $" ("
  ++ match st_same s with None => [] | Some n => $"same=" ++ print_int n ++ $", " end
  ++ c ++ $"=" ++ print_int (st_created s) ++ $", "
  ++ u ++ $"=" ++ print_int (st_updated s) ++ $", "
  ++ d ++ $"=" ++ print_int (st_deleted s) ++ $")".

(** prune_hashes(hashes, list_type), client.py:791-799. *)
Fixpoint discard_all (hashes own : list str) : list str :=
  match hashes with
  | [] => own
  | h :: hs => discard_all hs (filter (fun x => negb (str_eqb x h)) own)
  end.
Definition prune_hashes (hashes : list str) : act unit :=
  modify (fun w => with_hashes (discard_all hashes (w_hashes w)) w).

(** ** Transfers *)

(** One request and the copying to the file, client.py:508-510. *)
Definition attempt (E : env) (uri filename : str) : act unit := fun w =>
  let n := List.length (w_gets w) in
  let w := with_gets (w_gets w ++ [uri]) w in
  let write d := write_file (e_cwd E) (w_root w) filename d (e_now E) in
  match e_get E n uri with
  | Refused e => (w, Err e)
  | Data d => match write d with
              | Ok root => (with_root root w, Ok tt)
              | Err e => (w, Err e)
              end
  | Broken d e => match write d with
                  | Ok root => (with_root root w, Err e)
                  | Err e' => (w, Err e')
                  end
  end.

(** The loop over the tries, client.py:506-532: whether a request succeeded;
    [None] if the failure is ignored.  [left] is the number of tries left. *)
Fixpoint download (E : env) (c : client) (left : nat) (uri filename : str) : act (option bool) := fun w =>
  match left with
  | O => (w, Ok (Some false))
  | S left' =>
      let failed := if c_ignore_failures c then Ok None else Err ClientFatalError in
      match attempt E uri filename w with
      | (w, Ok _) => (w, Ok (Some true))
      | (w, Err SocketTimeout) => match left' with
                                  | O => (w, failed)
                                  | _ => download E c left' uri filename w
                                  end
      | (w, Err IOError) => (w, failed)
      | (w, Err e) => (w, Err e)
      end
  end.

(** int(timestamp), as a time. *)
Definition whole_seconds (t : Z) : Z := int_part t * SEC.

(** check_hashes(filename, resource), client.py:550-578; [data] is what is in the file. *)
Definition check_hashes (E : env) (data : str) (r : resource) : act unit := fun w =>
  let check name (expected : option str) (digest : str -> str) :=
    match expected with
    | Some x => if in_strs name (w_hashes w) && negb (str_eqb x (digest data))
                then [HashDiffers name (r_uri r)] else []
    | None => []
    end in
  (with_log (w_log w ++ check $"md5" (r_md5 r) (of_md5 (e_digests E))
                     ++ check $"sha-1" (r_sha1 r) (of_sha1 (e_digests E))
                     ++ check $"sha-256" (r_sha256 r) (of_sha256 (e_digests E))) w, Ok tt).

(** os.stat(filename) and what is in the file. *)
Definition file_data (E : env) (w : world) (filename : str) : res str :=
  let* n := lstat (e_cwd E) (w_root w) filename in
  match n with File d _ => Ok d | _ => Err OutOfModel end.

(** update_resource(resource, filename, change), client.py:481-548; [change] is only
    logged and left out. *)
Definition update_resource (E : env) (c : client) (r : resource) (filename : str) : act Z :=
  (fun w => match mkpath (e_cwd E) (w_root w) (os_dirname filename) with
            | Ok root => (with_root root w, Ok tt)
            | Err e => (w, Err e)
            end) ;;;
  if c_dryrun c then ret 0
  else
    do got <- download E c (c_tries c) (r_uri r) filename ;;
    match got with
    | None => ret 0
    | Some b =>
        match r_timestamp r with
        | None => ret tt
        | Some t =>
            (fun w => match utime (e_cwd E) (w_root w) filename (whole_seconds t) with
                      | Ok root => (with_root root w, Ok tt)
                      | Err e => (w, Err e)
                      end) ;;;
            modify (fun w => if w_last w <? t then with_last t w else w)
        end ;;;
        do data <- (fun w => (w, file_data E w filename)) ;;
        match r_length r with
        | Some n => if n =? zlen data then ret tt else log (SizeDiffers (r_uri r) (zlen data) n)
        | None => ret tt
        end ;;;
        check_hashes E data r ;;;
        ret (if b then 1 else 0)
    end.

(** delete_resource(resource, filename, allow_deletion), client.py:580-620. *)
Definition delete_resource (E : env) (c : client) (allow_deletion : bool) (r : resource) (filename : str) : act Z :=
  modify (fun w => match r_timestamp r with
                   | Some t => if w_last w <? t then with_last t w else w
                   | None => w
                   end) ;;;
  if allow_deletion && negb (c_dryrun c) then
    fun w => match unlink (e_cwd E) (w_root w) filename with
             | Ok root => (with_root root w, Ok 1)
             | Err _ => (w, Ok 0)
             end
  else ret 0.

(** for resource in ...: filename = src_to_dst(uri); n += ..., client.py:303-317. *)
Fixpoint for_each (c : client) (f : resource -> str -> act Z) (rs : list resource) : act Z :=
  match rs with
  | [] => ret 0
  | r :: rs' =>
      do filename <- lift (src_to_dst (c_mapper c) (r_uri r)) ;;
      do n <- f r filename ;;
      do m <- for_each c f rs' ;;
      ret (n + m)
  end.

(** ClientState().set_state(self.sitemap, self.last_timestamp) and the message that
    shows the time, client.py:318-324 and 471-477. *)
Definition store_last (E : env) (c : client) : act unit :=
  do sm <- lift (sitemap c) ;;
  (fun w => match set_state (e_floats E) (w_state w) sm (Some (w_last w)) with
            | (f, None) => (with_state f w, Ok tt)
            | (f, Some e) => (with_state f w, Err e)
            end) ;;;
  (fun w => match datetime_to_str false (w_last w) with Ok _ => (w, Ok tt) | Err e => (w, Err e) end).

(** if [over] says no for a resource: raise ClientFatalError, client.py:284-291 *)
Fixpoint check_authority (over : str -> res bool) (rs : list resource) : res unit :=
  match rs with
  | [] => Ok tt
  | r :: rs' => let* b := over (r_uri r) in
                if b then check_authority over rs' else Err ClientFatalError
  end.

(** The disk scan, client.py:272-274. *)
Definition scan (E : env) (c : client) (w : world) : res rdict :=
  from_disk (e_digests E) (new_builder (Some (c_mapper c)) (w_hashes w) true false)
    (e_cwd E) (w_root w) None [].

(** The second half of baseline_or_audit, from the authority check on,
    client.py:284-329. *)
Definition synchronize (E : env) (c : client) (allow_deletion : bool) (src : rdict) (cmp : cmp_result) : act unit :=
  lift (if c_noauth c then Ok tt
        else let* sm := sitemap c in
             let* a := make_authority (Some sm) (c_strictauth c) in
             check_authority (has_authority_over a) (rl_iter src)) ;;;
  modify (with_last 0) ;;;
  do nc <- for_each c (update_resource E c) (rl_iter (created cmp)) ;;
  do nu <- for_each c (update_resource E c) (rl_iter (updated cmp)) ;;
  do nd <- for_each c (delete_resource E c allow_deletion) (rl_iter (deleted cmp)) ;;
  (fun w => if 0 <? w_last w then store_last E c w else (w, Ok tt)) ;;;
  log_status (zlen (updated cmp) + zlen (deleted cmp) + zlen (created cmp) =? 0) false false
    (Some (zlen (same cmp))) nc nu nd (zlen (deleted cmp)).

(** baseline_or_audit(allow_deletion, audit_only), client.py:244-329. *)
Definition baseline_or_audit (E : env) (c : client) (allow_deletion audit_only : bool) : act unit :=
  if match c_mapper c with [] => true | _ => false end then raise ClientFatalError
  else
    do bad <- lift (if audit_only then Ok false else unsafe (c_mapper c)) ;;
    if bad then raise ClientFatalError
    else
      do src <- lift (find_resource_list (e_fetch E) c) ;;
      if match src with [] => true | _ => false end then raise ClientFatalError
      else
        (fun w => match w_hashes w with [] => (w, Ok tt) | _ => prune_hashes (rl_hashes src) w end) ;;;
        do dst <- (fun w => (w, scan E c w)) ;;
        do cmp <- lift (compare 0 1 dst src) ;;
        log_status (zlen (updated cmp) + zlen (deleted cmp) + zlen (created cmp) =? 0) false true
          (Some (zlen (same cmp))) (zlen (created cmp)) (zlen (updated cmp)) (zlen (deleted cmp)) 0 ;;;
        if audit_only || (zlen (created cmp) + zlen (updated cmp) + zlen (deleted cmp) =? 0) then ret tt
        else synchronize E c allow_deletion src cmp.

(** ** Incremental synchronization *)

(** The time of a change, client.py:384-394; if one has no time the attribute is left at 0, a simplification. *)
Definition effective_time (r : resource) : option Z :=
  match r_ts_datetime r with Some t => Some t | None => r_timestamp r end.
Fixpoint last_time (rs : list resource) (last : Z) : res Z :=
  match rs with
  | [] => Ok last
  | r :: rs' => match effective_time r with
                | None => Err ClientFatalError
                | Some t => last_time rs' (if last <? t then t else last)
                end
  end.

(** The counts, client.py:421-433: how many are of the type; an unknown type raises
    ClientError. *)
Definition change_is (name : str) (r : resource) : bool := opt_eqb str_eqb (r_change r) (Some name).
Definition known_change (r : resource) : bool :=
  change_is $"updated" r || change_is $"created" r || change_is $"deleted" r.
Definition count_changes (name : str) (rs : list resource) : Z := zlen (filter (change_is name) rs).

(** The loop over the changes, client.py:449-467: numbers created, updated, deleted. *)
Fixpoint apply_changes (E : env) (c : client) (allow_deletion : bool) (rs : list resource)
    : act (Z * Z * Z) :=
  match rs with
  | [] => ret (0, 0, 0)
  | r :: rs' =>
      do filename <- lift (src_to_dst (c_mapper c) (r_uri r)) ;;
      do n <- (if change_is $"updated" r then
                 update_resource E c r filename ;;; ret (0, 1, 0)
               else if change_is $"created" r then
                 update_resource E c r filename ;;; ret (1, 0, 0)
               else if change_is $"deleted" r then
                 do k <- delete_resource E c allow_deletion r filename ;; ret (0, 0, k)
               else raise ClientError) ;;
      do m <- apply_changes E c allow_deletion rs' ;;
      ret (fst (fst n) + fst (fst m), snd (fst n) + snd (fst m), snd n + snd m)
  end.

(** Where to start from, client.py:345-359. *)
Definition start_time (E : env) (c : client) (from_datetime : option str) (w : world) : res Z :=
  match from_datetime with
  | Some s => match str_to_datetime s with Err ValueError => Err ClientFatalError | x => x end
  | None =>
      let* sm := sitemap c in
      let* t := get_state (e_floats E) (w_state w) sm in
      match t with Some t => Ok t | None => Err ClientFatalError end
  end.

(** The second half of incremental, client.py:408-479: [changes] are those of the
    change list, to be applied from [from] on. *)
Definition apply_change_list (E : env) (c : client) (allow_deletion : bool) (from : Z) (changes : list resource)
    : act unit :=
  do pruned <- lift (let '(kept, n) := prune_updates_before (c_spec_1_0 c) from changes in
                     let* n := n in Ok (kept, n)) ;;
  lift (if 0 <? snd pruned then let* _ := datetime_to_str false from in Ok tt else Ok tt) ;;;
  let todo := fst (prune_dupes (fst pruned)) in
  if negb (forallb known_change todo) then raise ClientError
  else
    let to_create := count_changes $"created" todo in
    let to_update := count_changes $"updated" todo in
    let to_delete := count_changes $"deleted" todo in
    let in_sync := (to_update + to_delete + to_create =? 0) in
    log_status in_sync true false None to_create to_update to_delete 0 ;;;
    if in_sync || ((to_update + to_create =? 0) && negb allow_deletion) then ret tt
    else
      do n <- apply_changes E c allow_deletion todo ;;
      log_status true true false None (fst (fst n)) (snd (fst n)) (snd n) to_delete ;;;
      (fun w => if 0 <? w_last w then store_last E c w else (w, Ok tt)).

(** The authority check, client.py:395-407: [explicit] is whether the URI of the change
    list was given, in which case nothing is checked. *)
Definition check_changes (c : client) (explicit : bool) (uri : str) (changes : list resource) : res unit :=
  if c_noauth c then Ok tt
  else let* cs := make_authority (Some uri) (c_strictauth c) in
       if explicit then Ok tt
       else let* sm := sitemap c in
            let* sa := make_authority (Some sm) false in
            check_authority (fun u => let* b := has_authority_over cs u in
                                      if b then Ok true else has_authority_over sa u) changes.

(** incremental(allow_deletion, change_list_uri, from_datetime), client.py:331-479.
    ChangeList has no hashes method: with hashes the call on line 383 raises
    AttributeError. *)
Definition incremental (E : env) (c : client) (allow_deletion : bool) (change_list_uri from_datetime : option str)
    : act unit :=
  if match c_mapper c with [] => true | _ => false end then raise ClientFatalError
  else
    do bad <- lift (unsafe (c_mapper c)) ;;
    if bad then raise ClientFatalError
    else
      do from <- (fun w => (w, start_time E c from_datetime w)) ;;
      let explicit := match change_list_uri with Some (_ :: _) => true | _ => false end in
      do uri <- lift (sitemap_uri c (match change_list_uri with
                                     | Some (x :: u) => x :: u
                                     | _ => c_change_list_name c end)) ;;
      do l <- lift (wrapped ClientFatalError
                      (list_read change_list_kind (e_fetch E) false
                         (new_list change_list_kind $"changelist" true None) uri)) ;;
      (fun w => match w_hashes w with [] => (w, Ok tt) | _ => (w, Err AttributeError) end) ;;;
      modify (with_last 0) ;;;
      do last <- lift (last_time (d_items (l_doc l)) 0) ;;
      modify (with_last last) ;;;
      lift (check_changes c explicit uri (d_items (l_doc l))) ;;;
      apply_change_list E c allow_deletion from (d_items (l_doc l)).
