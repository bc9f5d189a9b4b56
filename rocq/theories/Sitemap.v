(** * Sitemap: model of resync/sitemap.py and the document part of list_base.py *)

From Verif Require Import Py Float64 W3C Resource Xml.

(** sitemap.py:13-14 *)
Definition SITEMAP_NS : str := $"http://www.sitemaps.org/schemas/sitemap/0.9".
Definition RS_NS : str := $"http://www.openarchives.org/rs/terms/".

(** Settings of a Sitemap object, sitemap.py:80-90.  Logging is not modelled. *)
Record settings : Type := MkSettings { s_pretty : bool; s_spec_1_0 : bool; s_add_lastmod : bool }.

(** XML_ATT_NAME and _xml_att_name, sitemap.py:16-22,475-483. *)
Definition xml_att_name (att : str) : str :=
  if str_eqb att $"mime_type" then $"type"
  else if str_eqb att $"md_at" then $"at"
  else if str_eqb att $"md_completed" then $"completed"
  else if str_eqb att $"md_from" then $"from"
  else if str_eqb att $"md_until" then $"until"
  else att.

(** self.md_att_keys, sitemap.py:91-94,102-103. *)
Definition md_att_keys (sm : settings) : list str :=
  [$"md_at"; $"capability"; $"change"] ++ (if s_spec_1_0 sm then [] else [$"datetime"])
  ++ [$"md_completed"; $"md_from"; $"hash"; $"length"; $"path"; $"mime_type"; $"md_until"].

(** ** Writing *)

(** str(val), None for values that are skipped. *)
Definition pv_text (v : pv) : option str :=
  match v with PStr s => Some s | PInt n => Some (print_int n) | PNone => None end.

(** xml_atts of add_element_with_atts_to_etree, sitemap.py:448-452. *)
Definition xml_atts (atts : link) : list (str * str) :=
  fold_left (fun d kv => match pv_text (snd kv) with
                         | Some s => sset (xml_att_name (fst kv)) s d
                         | None => d
                         end) atts [].

(** sorted(e.attrib.items()), sitemap.py:463: the keys are distinct. *)
Fixpoint insert_item (x : str * str) (l : list (str * str)) : list (str * str) :=
  match l with
  | [] => [x]
  | y :: l' => if str_leb (fst x) (fst y) then x :: l else y :: insert_item x l'
  end.
Definition sort_items (l : list (str * str)) : list (str * str) := fold_right insert_item [] l.

Definition newline (sm : settings) : option str := if s_pretty sm then Some [nl] else None.

(** add_element_with_atts_to_etree, sitemap.py:440-466: no element or one. *)
Definition element_with_atts (name : str) (atts : link) (tail : option str) : list xml :=
  match xml_atts atts with
  | [] => []
  | a => [El name (sort_items a) None [] tail]
  end.

(** getattr(resource, att, None) for the metadata attributes, sitemap.py:276-279,
    followed by str(). *)
Definition md_att (r : resource) (att : str) : res (option str) :=
  if str_eqb att $"md_at" then get_dt (r_ts_at r)
  else if str_eqb att $"capability" then Ok (r_capability r)
  else if str_eqb att $"change" then Ok (r_change r)
  else if str_eqb att $"datetime" then get_dt (r_ts_datetime r)
  else if str_eqb att $"md_completed" then get_dt (r_ts_completed r)
  else if str_eqb att $"md_from" then get_dt (r_ts_from r)
  else if str_eqb att $"hash" then Ok (get_hash r)
  else if str_eqb att $"length" then Ok (match r_length r with Some n => Some (print_int n) | None => None end)
  else if str_eqb att $"path" then Ok (r_path r)
  else if str_eqb att $"mime_type" then Ok (r_mime_type r)
  else if str_eqb att $"md_until" then get_dt (r_ts_until r)
  else Ok None.

(** md_atts, sitemap.py:275-279. *)
Fixpoint md_atts (r : resource) (keys : list str) : res link :=
  match keys with
  | [] => Ok []
  | k :: keys' =>
      let* v := md_att r k in
      let* rest := md_atts r keys' in
      Ok (match v with Some s => (k, PStr s) :: rest | None => rest end)
  end.

(** resource_etree_element, sitemap.py:251-288. *)
Definition resource_etree_element (sm : settings) (r : resource) (name : str) : res xml :=
  let* lm := get_dt (r_timestamp r) in
  let* lm := match lm with
             | Some _ => Ok lm
             | None => if s_spec_1_0 sm || s_add_lastmod sm then get_dt (r_ts_datetime r) else Ok None
             end in
  let* md := md_atts r (md_att_keys sm) in
  Ok (El name [] None
        ([El $"loc" [] (Some (r_uri r)) [] None]
         ++ match lm with Some s => [El $"lastmod" [] (Some s) [] None] | None => [] end
         ++ element_with_atts $"rs:md" md None
         ++ flat_map (fun l => element_with_atts $"rs:ln" l (newline sm))
              (match r_ln r with Some ln => ln | None => [] end))
        (newline sm)).

(** resource_as_xml, sitemap.py:290-298. *)
Definition resource_as_xml (sm : settings) (r : resource) : res str :=
  let* e := resource_etree_element sm r $"url" in Ok (serialize e).

(** A document: metadata, links and the resources in the order of iteration. *)
Record doc (C : Type) : Type := MkDoc { d_md : link; d_ln : list link; d_items : C }.
Arguments MkDoc {C}. Arguments d_md {C}. Arguments d_ln {C}. Arguments d_items {C}.

(** resources_as_xml up to serialization, sitemap.py:117-137. *)
Definition resources_tree (sm : settings) (sitemapindex : bool) (d : doc (list resource)) : res xml :=
  let* items := mapM (fun r => resource_etree_element sm r (if sitemapindex then $"sitemap" else $"url"))
                  (d_items d) in
  Ok (El (if sitemapindex then $"sitemapindex" else $"urlset")
         [($"xmlns", SITEMAP_NS); ($"xmlns:rs", RS_NS)]
         (newline sm)
         (flat_map (fun l => element_with_atts $"rs:ln" l (newline sm)) (d_ln d)
          ++ element_with_atts $"rs:md" (d_md d) (newline sm)
          ++ items)
         None).

(** resources_as_xml, sitemap.py:107-150. *)
Definition resources_as_xml (sm : settings) (sitemapindex : bool) (d : doc (list resource)) : res str :=
  let* t := resources_tree sm sitemapindex d in Ok (write_xml t).

(** ** Reading *)

(** "{" + NS + "}" + name *)
Definition sm_name (n : str) : str := expand SITEMAP_NS n.
Definition rs_name (n : str) : str := expand RS_NS n.

(** The attributes that are understood, under the names of this library. *)
Fixpoint understood (keys : list str) (e : xml) : link :=
  match keys with
  | [] => []
  | k :: keys' =>
      match sget (xml_att_name k) (x_atts e) with
      | Some v => (k, PStr v) :: understood keys' e
      | None => understood keys' e
      end
  end.

(** d[k] = int(d[k]) if k in d; None if that raises ValueError.  The values are
    strings at this point. *)
Definition int_att (k : str) (d : link) : option link :=
  match sget k d with
  | None => Some d
  | Some (PStr s) => match parse_int s with Some n => Some (sset k (PInt n) d) | None => None end
  | Some _ => Some d
  end.

(** md_from_etree, sitemap.py:356-390. *)
Definition md_from_etree (sm : settings) (e : xml) : res link :=
  let md := understood (md_att_keys sm) e in
  if match sget $"change" md with
     | Some (PStr c) => negb (in_strs c [$"created"; $"updated"; $"deleted"])
     | _ => false
     end
  then Err SitemapParseError
  else match int_att $"length" md with Some md => Ok md | None => Err SitemapParseError end.

(** ln_from_etree, sitemap.py:392-436. *)
Definition ln_att_keys : list str :=
  [$"hash"; $"href"; $"length"; $"modified"; $"path"; $"rel"; $"pri"; $"mime_type"].
Definition ln_from_etree (e : xml) : res link :=
  let ln := understood ln_att_keys e in
  if negb (smem $"href" ln) then Err SitemapParseError
  else if negb (smem $"rel" ln) then Err SitemapParseError
  else
    match int_att $"length" ln with
    | None => Err SitemapParseError
    | Some ln =>
        match int_att $"pri" ln with
        | None => Err SitemapParseError
        | Some ln =>
            match sget $"pri" ln with
            | Some (PInt p) => if (p <? 1) || (999999 <? p) then Err SitemapParseError else Ok ln
            | _ => Ok ln
            end
        end
    end.

Definition pv_str (v : option pv) : option str :=
  match v with Some (PStr s) => Some s | _ => None end.

(** if att in md: setattr(resource, att, md[att]), sitemap.py:334-336. *)
Definition copy_str (att : str) (set : option str -> resource -> res resource) (md : link)
    (r : resource) : res resource :=
  match sget att md with Some (PStr s) => set (Some s) r | _ => Ok r end.

(** sitemap.py:331-344: what the <rs:md> element says about a resource. *)
Definition apply_md (md : link) (r : resource) : res resource :=
  let* r := copy_str $"capability" (fun v r => Ok (set_capability v r)) md r in
  let* r := copy_str $"change" set_change md r in
  let* r := copy_str $"datetime" set_datetime md r in
  let r := match sget $"length" md with Some (PInt n) => set_length (Some n) r | _ => r end in
  let* r := copy_str $"path" (fun v r => Ok (set_path v r)) md r in
  let* r := copy_str $"mime_type" (fun v r => Ok (set_mime_type v r)) md r in
  copy_str $"hash" (fun v r => Ok (fst (set_hash v r))) md r.   (* ValueError is logged only *)

(** resource_from_etree, sitemap.py:300-354, with resource_class = Resource. *)
Definition resource_from_etree (sm : settings) (e : xml) : res resource :=
  match findall (sm_name $"loc") e with
  | [loc] =>
      match x_text loc with
      | Some (c :: s) =>
          let r := new_resource (c :: s) in
          let* r := match findall (sm_name $"lastmod") e with
                    | [] => Ok r
                    | [lm] => set_lastmod (x_text lm) r
                    | _ => Err SitemapParseError
                    end in
          let* r := match findall (rs_name $"md") e with
                    | [] => Ok r
                    | [m] => let* md := md_from_etree sm m in apply_md md r
                    | _ => Err SitemapParseError
                    end in
          match findall (rs_name $"ln") e with
          | [] => Ok r
          | ls => let* ln := mapM ln_from_etree ls in Ok (set_ln (Some ln) r)
          end
      | _ => Err SitemapParseError
      end
  | _ => Err SitemapParseError
  end.

(** The loop over the children of the root, sitemap.py:206-234.  [add] is the add
    method of the container the resources go to.  Simplification: what a container
    holds after an exception is not modelled. *)
Fixpoint parse_kids {C} (sm : settings) (add : resource -> C -> res C) (resource_tag : str)
    (kids : list xml) (in_preamble seen_md : bool) (d : doc C) : res (doc C) :=
  match kids with
  | [] => Ok d
  | e :: kids' =>
      if str_eqb (x_tag e) resource_tag then
        let* r := resource_from_etree sm e in
        let* items := add r (d_items d) in
        parse_kids sm add resource_tag kids' false seen_md (MkDoc (d_md d) (d_ln d) items)
      else if str_eqb (x_tag e) (rs_name $"md") then
        if negb in_preamble then Err SitemapParseError
        else if seen_md then Err SitemapParseError
        else
          let* md := md_from_etree sm e in
          parse_kids sm add resource_tag kids' in_preamble true (MkDoc md (d_ln d) (d_items d))
      else if str_eqb (x_tag e) (rs_name $"ln") then
        if negb in_preamble then Err SitemapParseError
        else
          let* l := ln_from_etree e in
          parse_kids sm add resource_tag kids' in_preamble seen_md (MkDoc (d_md d) (d_ln d ++ [l]) (d_items d))
      else parse_kids sm add resource_tag kids' in_preamble seen_md d
  end.

(** The capability check, sitemap.py:236-247. *)
Definition check_capability {C} (capability : option str) (d : doc C) : res (doc C) :=
  match capability with
  | None => Ok d
  | Some c =>
      let* d := match sget $"capability" (d_md d) with
                | Some _ => Ok d
                | None =>
                    if str_eqb c $"resourcelist"
                    then Ok (MkDoc (sset $"capability" (PStr $"resourcelist") (d_md d)) (d_ln d) (d_items d))
                    else Err SitemapParseError
                end in
      match sget $"capability" (d_md d) with
      | Some v => if pv_eqb v (PStr c) then Ok d else Err SitemapParseError
      | None => Err KeyError
      end
  end.

(** parse_xml on a tree, sitemap.py:154-249: the document and self.parsed_index. *)
Definition parse_tree {C} (sm : settings) (add : resource -> C -> res C) (capability : option str)
    (sitemapindex : option bool) (d : doc C) (root : xml) : res (doc C * bool) :=
  let run (resource_tag : str) (index : bool) :=
    let* d := parse_kids sm add resource_tag (x_kids root) true false d in
    let* d := check_capability capability d in
    Ok (d, index) in
  if str_eqb (x_tag root) (sm_name $"urlset") then
    match sitemapindex with
    | Some true => Err SitemapIndexError
    | _ => run (sm_name $"url") false
    end
  else if str_eqb (x_tag root) (sm_name $"sitemapindex") then
    match sitemapindex with
    | Some false => Err SitemapIndexError
    | _ => run (sm_name $"sitemap") true
    end
  else Err SitemapParseError.

(** parse_xml on text.  defusedxml only adds checks for document types. *)
Definition parse_xml {C} (sm : settings) (add : resource -> C -> res C) (capability : option str)
    (sitemapindex : option bool) (d : doc C) (text : str) : res (doc C * bool) :=
  let* root := parse_text text in parse_tree sm add capability sitemapindex d root.

(** ** list_base.py *)

(** default_capability, resource_container.py:184-191. *)
Definition default_capability {C} (name : option str) (d : doc C) : doc C :=
  match name with
  | Some c => if smem $"capability" (d_md d) then d
              else MkDoc (sset $"capability" (PStr c) (d_md d)) (d_ln d) (d_items d)
  | None => d
  end.

(** ListBase.as_xml, list_base.py:124-132, for a container iterated over by [iter]. *)
Definition as_xml {C} (iter : C -> list resource) (sm : settings) (name : option str)
    (sitemapindex : bool) (d : doc C) : res str :=
  let d := default_capability name d in
  resources_as_xml sm sitemapindex (MkDoc (d_md d) (d_ln d) (iter (d_items d))).

(** ListBase.parse(str_data=...), list_base.py:87-120. *)
Definition list_parse {C} (add : resource -> C -> res C) (sm : settings) (name : option str)
    (d : doc C) (text : str) : res (doc C) :=
  let* (d, _) := parse_xml sm add name (Some false) d text in Ok d.
