(** * Url: the parts of urllib.parse (Python 3.12) that resync calls *)

From Verif Require Import Py.

(** Longest prefix of characters not satisfying [p], and the rest. *)
Fixpoint cut_at (p : ascii -> bool) (s : str) : str * str :=
  match s with
  | [] => ([], [])
  | c :: s' => if p c then ([], s) else let '(a, b) := cut_at p s' in (c :: a, b)
  end.

(** scheme_chars, urllib/parse.py:82-85. *)
Definition is_scheme_char (c : ascii) : bool :=
  is_alpha_az c || is_digit c || has_char c $"+-.".

(** lstrip of C0 controls and space, and removal of TAB, CR, LF: urlsplit,
    urllib/parse.py:489-494. *)
Fixpoint lstrip_c0 (s : str) : str :=
  match s with c :: s' => if (code c <=? 32)%N then lstrip_c0 s' else s | [] => [] end.
Definition url_unsafe (c : ascii) : bool := ceqb c tab || ceqb c cr || ceqb c nl.
Definition url_clean (s : str) : str := filter (fun c => negb (url_unsafe c)) (lstrip_c0 s).

(** The scheme, urllib/parse.py:498-504; [dflt] is the scheme argument. *)
Definition split_scheme (url dflt : str) : str * str :=
  match split1 ":" url with
  | Some (pre, post) =>
      match pre with
      | c :: _ => if is_alpha_az c && forallb is_scheme_char pre then (lower pre, post) else (dflt, url)
      | [] => (dflt, url)
      end
  | None => (dflt, url)
  end.

(** The network location, urllib/parse.py:414-420,505-511.  Simplification: the
    validity of a bracketed (IPv6) host is not decided; OutOfModel instead. *)
Definition is_netloc_end (c : ascii) : bool := has_char c $"/?#".
Definition split_netloc (url : str) : res (str * str) :=
  match url with
  | a :: b :: rest =>
      if ceqb a "/" && ceqb b "/" then
        let '(n, rest') := cut_at is_netloc_end rest in
        match has_char "[" n, has_char "]" n with
        | false, false => Ok (n, rest')
        | true, true => Err OutOfModel
        | _, _ => Err ValueError
        end
      else Ok ([], url)
  | _ => Ok ([], url)
  end.

Record usplit : Type := MkUS
  { us_scheme : str; us_netloc : str; us_path : str; us_query : str; us_frag : str }.

Definition cut_char (c : ascii) (s : str) : str * str :=
  match split1 c s with Some (a, b) => (a, b) | None => (s, []) end.

(** urlsplit(url, scheme), urllib/parse.py:465-518.  _checknetloc (NFKC
    normalization of non-ASCII hosts) never raises for characters below 256. *)
Definition urlsplit (url dflt : str) : res usplit :=
  let '(scheme, url) := split_scheme (url_clean url) dflt in
  let* (netloc, url) := split_netloc url in
  let '(url, frag) := cut_char "#" url in
  let '(url, query) := cut_char "?" url in
  Ok (MkUS scheme netloc url query frag).

(** uses_params, uses_relative, uses_netloc: urllib/parse.py:53-65. *)
Definition uses_params : list str :=
  [ []; $"ftp"; $"hdl"; $"prospero"; $"http"; $"imap"; $"https"; $"shttp"; $"rtsp"; $"rtsps";
    $"rtspu"; $"sip"; $"sips"; $"mms"; $"sftp"; $"tel" ].
Definition uses_relative : list str :=
  [ []; $"ftp"; $"http"; $"gopher"; $"nntp"; $"imap"; $"wais"; $"file"; $"https"; $"shttp";
    $"mms"; $"prospero"; $"rtsp"; $"rtsps"; $"rtspu"; $"sftp"; $"svn"; $"svn+ssh"; $"ws"; $"wss" ].
Definition uses_netloc : list str :=
  [ []; $"ftp"; $"http"; $"gopher"; $"nntp"; $"telnet"; $"imap"; $"wais"; $"file"; $"mms";
    $"https"; $"shttp"; $"snews"; $"prospero"; $"rtsp"; $"rtsps"; $"rtspu"; $"rsync"; $"svn";
    $"svn+ssh"; $"sftp"; $"nfs"; $"git"; $"git+ssh"; $"ws"; $"wss"; $"itms-services" ].

Record uparse : Type := MkUP
  { up_scheme : str; up_netloc : str; up_path : str; up_params : str; up_query : str; up_frag : str }.

(** _splitparams, urllib/parse.py:405-412: at the first ';' after the last '/'. *)
Definition splitparams (url : str) : str * str :=
  match rsplit1 "/" url with
  | Some (head, tail) => let '(a, b) := cut_char ";" tail in (head ++ a, b)
  | None => cut_char ";" url
  end.

(** urlparse(url, scheme), urllib/parse.py:374-403. *)
Definition urlparse (url dflt : str) : res uparse :=
  let* s := urlsplit url dflt in
  let '(path, params) :=
    if in_strs (us_scheme s) uses_params && has_char ";" (us_path s)
    then splitparams (us_path s) else (us_path s, []) in
  Ok (MkUP (us_scheme s) (us_netloc s) path params (us_query s) (us_frag s)).

Definition is_empty (s : str) : bool := match s with [] => true | _ => false end.

(** urlunsplit, urllib/parse.py:531-550. *)
Definition urlunsplit (u : usplit) : str :=
  let url := us_path u in
  let url :=
    if negb (is_empty (us_netloc u)) ||
       (negb (is_empty (us_scheme u)) && in_strs (us_scheme u) uses_netloc && negb (startswith $"//" url))
    then $"//" ++ us_netloc u ++
         (if negb (is_empty url) && negb (startswith $"/" url) then $"/" ++ url else url)
    else url in
  let url := if is_empty (us_scheme u) then url else us_scheme u ++ $":" ++ url in
  let url := if is_empty (us_query u) then url else url ++ $"?" ++ us_query u in
  if is_empty (us_frag u) then url else url ++ $"#" ++ us_frag u.

(** urlunparse, urllib/parse.py:520-529. *)
Definition urlunparse (u : uparse) : str :=
  let url := if is_empty (up_params u) then up_path u else up_path u ++ $";" ++ up_params u in
  urlunsplit (MkUS (up_scheme u) (up_netloc u) url (up_query u) (up_frag u)).

(** The loop over segments in urljoin, urllib/parse.py:599-611; [acc] reversed. *)
Fixpoint resolve_segs (segs : list str) (acc : list str) : list str :=
  match segs with
  | [] => rev acc
  | s :: segs' =>
      if str_eqb s $".." then resolve_segs segs' (match acc with [] => [] | _ :: a => a end)
      else if str_eqb s $"." then resolve_segs segs' acc
      else resolve_segs segs' (s :: acc)
  end.

(** segments[1:-1] = filter(None, segments[1:-1]), urllib/parse.py:595. *)
Definition filter_middle (l : list str) : list str :=
  match l with
  | [] => []
  | a :: l' =>
      match rev l' with
      | [] => [a]
      | z :: mid => a :: filter (fun s => negb (is_empty s)) (rev mid) ++ [z]
      end
  end.

(** urljoin(base, url), urllib/parse.py:552-621. *)
Definition urljoin (base url : str) : res str :=
  if is_empty base then Ok url
  else if is_empty url then Ok base
  else
    let* b := urlparse base [] in
    let* u := urlparse url (up_scheme b) in
    if negb (str_eqb (up_scheme u) (up_scheme b)) || negb (in_strs (up_scheme u) uses_relative)
    then Ok url
    else if in_strs (up_scheme u) uses_netloc && negb (is_empty (up_netloc u))
    then Ok (urlunparse u)
    else
      let netloc := if in_strs (up_scheme u) uses_netloc then up_netloc b else up_netloc u in
      if is_empty (up_path u) && is_empty (up_params u) then
        Ok (urlunparse (MkUP (up_scheme u) netloc (up_path b) (up_params b)
              (if is_empty (up_query u) then up_query b else up_query u) (up_frag u)))
      else
        let bp := split_on "/" (up_path b) in
        let bp := if is_empty (last bp []) then bp else removelast bp in
        let segs :=
          if startswith $"/" (up_path u) then split_on "/" (up_path u)
          else filter_middle (bp ++ split_on "/" (up_path u)) in
        let resolved := resolve_segs segs [] in
        let resolved :=
          if str_eqb (last segs []) $"." || str_eqb (last segs []) $".." then resolved ++ [[]] else resolved in
        let joined := join $"/" resolved in
        Ok (urlunparse (MkUP (up_scheme u) netloc (if is_empty joined then $"/" else joined)
              (up_params u) (up_query u) (up_frag u))).
