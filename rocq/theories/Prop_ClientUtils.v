(** * Properties C64, C80, C81, C82: command line options *)

From Verif Require Import Py Opener ClientUtils ClientUtilsSpec ClientUtilsFacts.

(** C64: parse_link accepts exactly rel,href,att=val,... *)
Theorem C64_link_accepts : forall s,
  (exists d, parse_link s = Ok d) <-> exists rel href atts, link_text s rel href atts.
Proof. exact link_accepts. Qed.
Print Assumptions C64_link_accepts.
(** ... and returns those values, the last one of each attribute, *)
Theorem C64_link_value : forall s rel href atts, link_text s rel href atts ->
  exists d, parse_link s = Ok d /\ forall k, sget k d = assigned k (($"rel", rel) :: ($"href", href) :: atts).
Proof. exact link_value. Qed.
Print Assumptions C64_link_value.
(** ... in the order given, when no attribute is given twice. *)
Theorem C64_link_exactly : forall s rel href atts, link_text s rel href atts ->
  NoDup ($"rel" :: $"href" :: map fst atts) ->
  parse_link s = Ok (($"rel", rel) :: ($"href", href) :: atts).
Proof. exact link_exactly. Qed.
Print Assumptions C64_link_exactly.
(** Any other text is a ClientFatalError. *)
Theorem C64_link_error : forall s e, parse_link s = Err e -> e = ClientFatalError.
Proof. exact parse_link_err. Qed.
Print Assumptions C64_link_error.

(** Several --link options: one link each, in order; one bad option refuses them all. *)
Theorem C64_links : forall l ds,
  parse_links (Some l) = Ok ds <-> Forall2 (fun s d => parse_link s = Ok d) l ds.
Proof. exact links_all. Qed.
Print Assumptions C64_links.
Theorem C64_links_error : forall l e, parse_links l = Err e ->
  e = ClientFatalError /\ exists o s, l = Some o /\ In s o /\ ~ exists d, parse_link s = Ok d.
Proof. exact links_err. Qed.
Print Assumptions C64_links_error.

(** parse_capabilities accepts exactly name=uri,name=uri,... *)
Theorem C64_capabilities_accepts : forall s,
  (exists d, parse_capabilities s = Ok d) <-> exists p ps, caps_text s p ps.
Proof. exact caps_accepts. Qed.
Print Assumptions C64_capabilities_accepts.
Theorem C64_capabilities_value : forall s p ps, caps_text s p ps ->
  exists d, parse_capabilities s = Ok d /\ forall k, sget k d = assigned k (p :: ps).
Proof. exact caps_value. Qed.
Print Assumptions C64_capabilities_value.
Theorem C64_capabilities_exactly : forall s p ps, caps_text s p ps -> NoDup (map fst (p :: ps)) ->
  parse_capabilities s = Ok (p :: ps).
Proof. exact caps_exactly. Qed.
Print Assumptions C64_capabilities_exactly.
Theorem C64_capabilities_error : forall s e, parse_capabilities s = Err e -> e = ClientFatalError.
Proof. exact caps_err. Qed.
Print Assumptions C64_capabilities_error.

(** A list of capability lists: the texts between the commas, in order. *)
Theorem C64_capability_lists : forall s,
  parse_capability_lists s <> []
  /\ forall u us, parse_capability_lists s = u :: us <->
       s = u ++ List.concat (map (fun v => $"," ++ v) us) /\ Forall (without ",") (u :: us).
Proof. exact (fun s => conj (capability_lists_some s) (capability_lists_are s)). Qed.
Print Assumptions C64_capability_lists.

Example C64_example :
  parse_link $"up,http://e.com/c?a=b,type=text/xml,type=x" =
    Ok [($"rel", $"up"); ($"href", $"http://e.com/c?a=b"); ($"type", $"x")]
  /\ parse_link $"up," = Err ClientFatalError
  /\ parse_link $"up,u,a=b=c" = Err ClientFatalError
  /\ link_text $"up,u,a=b" $"up" $"u" [($"a", $"b")]
  /\ parse_capability_lists $"http://e.com/a,http://e.com/b" = [$"http://e.com/a"; $"http://e.com/b"]
  /\ parse_capabilities $"resourcelist=http://e.com/r.xml,changelist=c" =
       Ok [($"resourcelist", $"http://e.com/r.xml"); ($"changelist", $"c")]
  /\ parse_capabilities $"resourcelist=http://e.com/?a=b" = Err ClientFatalError.
Proof.
  split; [reflexivity|]. split; [reflexivity|]. split; [reflexivity|]. split.
  - constructor; [reflexivity| | |discriminate|]; unfold without;
      [vm_compute; intuition discriminate|vm_compute; intuition discriminate|].
    constructor; [|constructor]. unfold att_pair, without. vm_compute.
    split; [discriminate|]. split; [discriminate|]. intuition discriminate.
  - split; [reflexivity|]. split; reflexivity.
Qed.

(** C80: --checksum with at least one --hash adds md5 to the hash types, ... *)
Theorem C80_with_hash : forall o remote c c' h l,
  o_checksum o = true -> o_hash o = Some l -> process_options o remote c = (c', Ok h) ->
  forall x, In x (client_hashes h) <-> In x l \/ x = $"md5".
Proof. exact checksum_members. Qed.
Print Assumptions C80_with_hash.
(** ... as --hash=md5 would, with the same effects and errors; *)
Theorem C80_same : forall o remote c l, o_checksum o = true -> o_hash o = Some l ->
  process_options o remote c =
  process_options (MkOptions (Some (l ++ [$"md5"])) false (o_token o) (o_delay o)) remote c.
Proof. exact checksum_means_md5. Qed.
Print Assumptions C80_same.
(** without it the hash types are those given; *)
Theorem C80_without : forall o remote c c' h,
  o_checksum o = false -> process_options o remote c = (c', Ok h) -> h = o_hash o.
Proof. exact no_checksum. Qed.
Print Assumptions C80_without.
(** but --checksum alone is an AttributeError, where --hash=md5 alone is not. *)
Theorem C80_refuted : exists o c h c',
  o_checksum o = true /\ o_hash o = None /\
  process_options o true c = (c, Err AttributeError) /\
  process_options (MkOptions (Some [$"md5"]) false (o_token o) (o_delay o)) true c = (c', Ok h).
Proof. exact checksum_alone. Qed.
Print Assumptions C80_refuted.
Example C80_example :
  process_options (MkOptions (Some [$"sha-1"]) true None None) false config0
  = (config0, Ok (Some [$"sha-1"; $"md5"])).
Proof. reflexivity. Qed.

(** C81: an access token is sent with every request, ... *)
Theorem C81_sent : forall o c c' h t, process_options o true c = (c', Ok h) ->
  o_token o = Some t -> t <> [] -> authorization c' = Some ($"Bearer " ++ t).
Proof. exact token_set. Qed.
Print Assumptions C81_sent.
(** ... without one no request is changed, ... *)
Theorem C81_none : forall o c c' r, process_options o true c = (c', r) ->
  o_token o = None \/ o_token o = Some [] -> authorization c' = authorization c.
Proof. exact token_kept. Qed.
Print Assumptions C81_none.
(** ... but it goes to servers other than the source's too. *)
Theorem C81_refuted : exists o c h, process_options o true config0 = (c, Ok h) /\
  snd (configured_open c 0 $"http://source.example/a") = snd (configured_open c 1 $"http://other.example/b") /\
  snd (configured_open c 1 $"http://other.example/b") = Some $"Bearer secret".
Proof. exact token_everywhere. Qed.
Print Assumptions C81_refuted.

(** C82: a negative delay is refused and changes nothing, ... *)
Theorem C82_negative : forall o c d, o_delay o = Some d -> d < 0 ->
  exists c' e, process_options o true c = (c', Err e) /\ cf_delay c' = cf_delay c.
Proof. exact negative_delay. Qed.
Print Assumptions C82_negative.
(** ... any other but 0 takes effect and is positive, ... *)
Theorem C82_positive : forall o c c' h d, process_options o true c = (c', Ok h) ->
  o_delay o = Some d -> d <> 0 -> cf_delay c' = Some d /\ 0 < d.
Proof. exact delay_set. Qed.
Print Assumptions C82_positive.
(** ... and none, or 0, leaves the setting. *)
Theorem C82_none : forall o c c' h, process_options o true c = (c', Ok h) ->
  o_delay o = None \/ o_delay o = Some 0 -> cf_delay c' = cf_delay c.
Proof. exact delay_kept. Qed.
Print Assumptions C82_none.
(** Scripts that build documents never touch the request settings. *)
Theorem C82_local : forall o c c' r, process_options o false c = (c', r) -> c' = c.
Proof. exact local_options. Qed.
Print Assumptions C82_local.
Example C82_example :
  process_options (MkOptions None false (Some $"t") (Some (-1))) true config0
    = (MkConfig (Some $"t") None, Err PlainException)
  /\ process_options (MkOptions None false None (Some 3)) true config0 = (MkConfig None (Some 3), Ok None).
Proof. split; reflexivity. Qed.
