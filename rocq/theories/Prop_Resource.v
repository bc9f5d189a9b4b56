(** * Properties C05-C10: resources *)

From Verif Require Import Py Float64 W3C Resource ResourceSpec ResourceFacts.

(** C05: assigning one resource's hash to another transfers the three digests and
    changes nothing else. *)
Theorem C05_hash_round_trip : forall r s,
  ws_free (r_md5 r) -> ws_free (r_sha1 r) -> ws_free (r_sha256 r) ->
  set_hash (get_hash r) s =
  (set_sha256 (r_sha256 r) (set_sha1 (r_sha1 r) (set_md5 (r_md5 r) s)), None).
Proof. exact hash_round_trip. Qed.
Print Assumptions C05_hash_round_trip.

Example C05_example :
  let r := set_sha256 (Some $"ab:c") (set_md5 (Some $"d41d8cd98f") (new_resource $"http://a/")) in
  let s := set_sha1 (Some $"old") (new_resource $"http://b/") in
  get_hash r = Some $"md5:d41d8cd98f sha-256:ab:c" /\
  set_hash (get_hash r) s =
    (set_sha256 (Some $"ab:c") (set_md5 (Some $"d41d8cd98f") (new_resource $"http://b/")), None).
Proof. split; reflexivity. Qed.

(** C06: parsing of an arbitrary hash string. *)
Theorem C06_hash_parse : forall s r r' e,
  set_hash (Some s) r = (r', e) ->
  let ps := typed_entries (split_ws s) in
  r' = set_sha256 (first_for $"sha-256" ps)
         (set_sha1 (first_for $"sha-1" ps) (set_md5 (first_for $"md5" ps) r))
  /\ (e = None \/ e = Some ValueError)
  /\ (e = Some ValueError <->
       (exists entry, In entry (split_ws s) /\ ~ In ":"%char entry)
       \/ ~ NoDup (map fst ps)
       \/ (exists ty, In ty (map fst ps) /\ ~ In ty supported_hashes)).
Proof. exact hash_parse. Qed.
Print Assumptions C06_hash_parse.

(** The fields of a whitespace-separated string are what they should be. *)
Theorem C06_fields : forall ws,
  Forall (fun w => w <> [] /\ forall c, In c w -> is_space c = false) ws ->
  split_ws (join $" " ws) = ws.
Proof. exact split_ws_join. Qed.
Print Assumptions C06_fields.

Example C06_example :
  set_hash (Some $" md5:1  crc:9 md5:2 sha-1:x ") (set_sha256 (Some $"zz") (new_resource $"u")) =
  (set_sha1 (Some $"x") (set_md5 (Some $"1") (new_resource $"u")), Some ValueError).
Proof. reflexivity. Qed.

(** C07: [==] on resources. *)
Theorem C07_eq_is_no_proof_of_inequality : forall r s,
  on_grid (r_timestamp r) -> on_grid (r_timestamp s) ->
  (r_eqb r s = true <-> no_proof_of_inequality r s).
Proof. exact r_eqb_spec. Qed.
Print Assumptions C07_eq_is_no_proof_of_inequality.

Theorem C07_eq_reflexive : forall r, r_eqb r r = true.
Proof. exact r_eqb_refl. Qed.
Print Assumptions C07_eq_reflexive.

Theorem C07_eq_symmetric : forall r s delta, equal r s delta = equal s r delta.
Proof. exact equal_sym. Qed.
Print Assumptions C07_eq_symmetric.

Theorem C07_eq_not_transitive :
  exists r s t, r_eqb r s = true /\ r_eqb s t = true /\ r_eqb r t = false.
Proof. exact r_eqb_not_transitive. Qed.
Print Assumptions C07_eq_not_transitive.

(** With a positive delta, equal is reflexive ... *)
Theorem C07_equal_delta_reflexive_partial : forall r delta, 0 < delta -> equal r r delta = true.
Proof. exact equal_refl. Qed.
Print Assumptions C07_equal_delta_reflexive_partial.

(** ... but with the default delta a resource with a timestamp is not equal to
    itself, nor to anything else. *)
Theorem C07_equal_delta_reflexive_refuted : exists r, equal r r 0 = false.
Proof. exact equal_default_not_reflexive. Qed.
Print Assumptions C07_equal_delta_reflexive_refuted.

Theorem C07_equal_default_with_timestamp : forall r s t,
  r_timestamp r = Some t -> equal r s 0 = false.
Proof. exact equal_default_with_timestamp. Qed.
Print Assumptions C07_equal_default_with_timestamp.

Example C07_example :
  let r := set_md5 (Some $"1") (set_timestamp (Some (1000000 * SEC)) (new_resource $"u")) in
  let s := set_length (Some 5) (set_timestamp (Some (1000000 * SEC + SEC / 2)) (new_resource $"u")) in
  on_grid (r_timestamp r) /\ on_grid (r_timestamp s) /\ r_eqb r s = true /\
  r_eqb r (set_timestamp (Some (1000001 * SEC)) s) = false /\
  r_eqb r (set_md5 (Some $"2") s) = false.
Proof.
  cbv zeta. split; [|split; [|vm_compute; auto]].
  - apply on_grid_some. exists (1000000 * 2 ^ 52). vm_compute. reflexivity.
  - apply on_grid_some. exists (1000000 * 2 ^ 52 + 2 ^ 51). vm_compute. reflexivity.
Qed.

(** C08: the change attribute is always valid. *)
Theorem C08_change_always_valid : forall a r ops,
  make_resource None a = Ok r -> valid_change (r_change (apply_ops ops r)).
Proof. exact change_always_valid. Qed.
Print Assumptions C08_change_always_valid.

Theorem C08_bad_change_rejected : forall r c,
  ~ valid_change (Some c) -> apply_op (OpChange (Some c)) r = (r, Some ChangeTypeError).
Proof. exact bad_change_rejected. Qed.
Print Assumptions C08_bad_change_rejected.

Definition args_uri (u : str) : rargs :=
  MkArgs (Some u) None None None None None None None None None None None None None None None
         None None None None None None.
Definition args_change (c : str) : rargs :=
  MkArgs None None None None None None None (Some c) None None None None None None None None
         None None None None None None.

Example C08_example :
  exists r, make_resource None (args_uri $"http://a/") = Ok r /\
  r_change (apply_ops [OpChange (Some $"created"); OpChange (Some $"bogus"); OpLastmod (Some $"junk");
                       OpCopy (args_change $"moved"); OpHash (Some $"md5:1")] r) = Some $"created" /\
  r_change (apply_ops [OpChange (Some $"created"); OpCopy (args_change $"deleted")] r) = Some $"deleted".
Proof. eexists. split; [reflexivity|]. split; reflexivity. Qed.

(** C09: the copy constructor. *)
Theorem C09_copy_and_override : forall src a r',
  make_resource src a = Ok r' ->
  exists r0, (match src with Some s => r0 = s | None => r0 = new_resource [] /\ a_uri a <> None end) /\
  r_uri r' = match a_uri a with Some u => u | None => r_uri r0 end /\
  time_given_or (a_lastmod a) (a_timestamp a) (r_timestamp r0) (r_timestamp r') /\
  r_length r' = given_or (a_length a) (r_length r0) /\
  r_mime_type r' = given_or (a_mime_type a) (r_mime_type r0) /\
  r_md5 r' = given_or (a_md5 a) (r_md5 r0) /\
  r_sha1 r' = given_or (a_sha1 a) (r_sha1 r0) /\
  r_sha256 r' = given_or (a_sha256 a) (r_sha256 r0) /\
  r_change r' = given_or (a_change a) (r_change r0) /\
  (a_change a = None \/ valid_change (a_change a)) /\
  time_given_or (a_datetime a) (a_ts_datetime a) (r_ts_datetime r0) (r_ts_datetime r') /\
  r_path r' = given_or (a_path a) (r_path r0) /\
  r_ln r' = given_or (a_ln a) (r_ln r0) /\
  r_capability r' = given_or (a_capability a) (r_capability r0) /\
  time_given_or (a_md_at a) (a_ts_at a) (r_ts_at r0) (r_ts_at r') /\
  time_given_or (a_md_completed a) (a_ts_completed a) (r_ts_completed r0) (r_ts_completed r') /\
  time_given_or (a_md_from a) (a_ts_from a) (r_ts_from r0) (r_ts_from r') /\
  time_given_or (a_md_until a) (a_ts_until a) (r_ts_until r0) (r_ts_until r').
Proof. exact make_resource_inv. Qed.
Print Assumptions C09_copy_and_override.

(** A copy with valid arguments never fails. *)
Theorem C09_copy_succeeds : forall r a,
  (a_change a = None \/ valid_change (a_change a)) ->
  (forall s, In (Some s) [a_lastmod a; a_datetime a; a_md_at a; a_md_completed a; a_md_from a; a_md_until a] ->
     exists t, str_to_datetime s = Ok t) ->
  exists r', make_resource (Some r) a = Ok r'.
Proof. exact copy_total. Qed.
Print Assumptions C09_copy_succeeds.

Theorem C09_no_uri_rejected : forall a r, a_uri a = None -> make_resource None a <> Ok r.
Proof. exact no_uri_rejected. Qed.
Print Assumptions C09_no_uri_rejected.

Example C09_example :
  let r := set_ts_until (Some 7) (set_md5 (Some $"1") (new_resource $"http://a/")) in
  make_resource (Some r) (args_change $"updated") = Ok (store_change (Some $"updated") r) /\
  make_resource None (args_change $"updated") = Err ValueError.
Proof. split; reflexivity. Qed.

(** C10: links. *)
Theorem C10_link_set : forall rel href atts r r',
  NoDup (map fst atts) ->
  link_set rel href false atts r = Ok r' ->
  (exists l, get_link rel r' = Some l /\ sget $"rel" l = Some (PStr rel) /\
             sget $"href" l = Some (PStr href) /\
             forall k v, In (k, v) atts -> sget k l = Some v)
  /\ (forall rel', rel' <> rel -> get_link rel' r' = get_link rel' r)
  /\ (forall l, In l (links r) -> In l (links r') \/ get_link rel r = Some l)
  /\ (List.length (links r) <= List.length (links r') <= S (List.length (links r)))%nat
  /\ r' = set_ln (r_ln r') r.
Proof. exact link_set_laws. Qed.
Print Assumptions C10_link_set.

Theorem C10_link_add : forall rel href atts r r',
  NoDup (map fst atts) ->
  link_add rel href atts r = Ok r' ->
  (exists l, links r' = links r ++ [l] /\ sget $"rel" l = Some (PStr rel) /\
             sget $"href" l = Some (PStr href) /\ forall k v, In (k, v) atts -> sget k l = Some v)
  /\ (forall rel' l, get_link rel' r = Some l -> get_link rel' r' = Some l)
  /\ (forall rel', rel' <> rel -> get_link rel' r' = get_link rel' r).
Proof. exact link_add_laws. Qed.
Print Assumptions C10_link_add.

Example C10_example :
  exists r1 r2 r3,
    link_set $"up" $"http://a/up" false [($"type", PStr $"text/xml")] (new_resource $"u") = Ok r1 /\
    link_set $"up" $"http://a/new" false [($"pri", PInt 3)] r1 = Ok r2 /\
    link_href $"up" r2 = Ok (Some (PStr $"http://a/new")) /\
    link_add $"up" $"http://a/third" [] r2 = Ok r3 /\
    link_href $"up" r3 = Ok (Some (PStr $"http://a/new")) /\ List.length (links r3) = 2%nat.
Proof. do 3 eexists. repeat split; reflexivity. Qed.
