(** * Opener: model of url_or_file_open.py and of the parts of urllib.request it uses *)

From Verif Require Import Py Regex.

(** ** Files.  A file system is a dictionary from path to file.  Simplifications: every
    path can be written, a path denotes one file (no links, no "..", no current
    directory), and contents are characters rather than encoded bytes. *)
Record file : Type := MkFile { f_data : str; f_mtime : Z }.
Notation fsys := (list (str * file)).
Definition put_file (path data : str) (mtime : Z) (fs : fsys) : fsys :=
  sset path (MkFile data mtime) fs.

(** ** urllib.parse.unquote as used by url2pathname (urllib/request.py, nturl2path not
    modelled).  Simplification: escapes of bytes above 127, which urllib decodes as
    UTF-8, are outside the model. *)
Definition hex_val (c : ascii) : option N :=
  if in_range 48 57 c then Some (code c - 48)%N
  else if in_range 65 70 c then Some (code c - 55)%N
  else if in_range 97 102 c then Some (code c - 87)%N
  else None.
Fixpoint unquote (s : str) : res str :=
  match s with
  | "%"%char :: ((a :: b :: s2) as s1) =>
      match hex_val a, hex_val b with
      | Some x, Some y =>
          if (16 * x + y <? 128)%N then let* t := unquote s2 in Ok (ascii_of_N (16 * x + y) :: t)
          else Err OutOfModel
      | _, _ => let* t := unquote s1 in Ok ("%"%char :: t)
      end
  | c :: s1 => let* t := unquote s1 in Ok (c :: t)
  | [] => Ok []
  end.

(** unwrap, urllib/parse.py:1074-1084. *)
Definition unwrap (url : str) : str :=
  let url := strip_ws url in
  let url := if startswith $"<" url && endswith $">" url
             then strip_ws (removelast (skipn 1 url)) else url in
  if startswith $"URL:" url then strip_ws (skipn 4 url) else url.
(** _splittag, urllib/parse.py:1226-1231, without the fragment. *)
Definition strip_tag (url : str) : str :=
  match rsplit1 "#" url with Some (u, _) => removelast u | None => url end.
(** _splittype, urllib/parse.py:1095-1105: what stands before the first colon, unless
    that is empty or contains a slash. *)
Definition split_type (url : str) : option (str * str) :=
  match split1 ":" url with
  | Some (c :: t, rest) => if has_char "/" (c :: t) then None else Some (lower (c :: t), rest)
  | _ => None
  end.
(** _splithost, urllib/parse.py:1116-1128. *)
Fixpoint take_host (s : str) : str * str :=
  match s with
  | c :: s' => if has_char c $"/#?" then ([], s) else let '(h, p) := take_host s' in (c :: h, p)
  | [] => ([], [])
  end.
Definition split_host (rest : str) : option str * str :=
  if startswith $"//" rest then
    let '(h, p) := take_host (skipn 2 rest) in
    (Some h, match p with [] => [] | "/"%char :: _ => p | _ => "/"%char :: p end)
  else (None, rest).

(** What urlopen opens for a URI. *)
Inductive target : Type :=
| Local (path : str)
| Web (url : str)
| Unopenable (e : exn).

(** Request(url) and the choice of handler, urllib/request.py:340-376,1475-1524.
    Simplification: the only host that is this machine is localhost. *)
Definition url_target (uri : str) : target :=
  let url := strip_tag (unwrap uri) in
  match split_type url with
  | None => Unopenable ValueError
  | Some (scheme, rest) =>
      if str_eqb scheme $"file" then
        let '(host, selector) := split_host rest in
        let here := match host with
                    | None => true
                    | Some h => str_eqb h [] || str_eqb h $"localhost"
                    end in
        if here then match unquote selector with Ok p => Local p | Err e => Unopenable e end
        else Unopenable IOError
      else Web url
  end.

(** The URI given to urlopen, url_or_file_open.py:33-34. *)
Definition with_scheme (uri : str) : str :=
  match re_match (re_const $"\w+:") uri with Some _ => uri | None => $"file:" ++ uri end.

(** The contents read through url_or_file_open(uri); [web] answers requests that go to
    the network.  A directory or missing file raises URLError, an IOError. *)
Definition open_uri (fs : fsys) (web : str -> res str) (uri : str) : res str :=
  match url_target (with_scheme uri) with
  | Local p => match sget p fs with Some f => Ok (f_data f) | None => Err IOError end
  | Web u => web u
  | Unopenable e => Err e
  end.

(** ** Pacing, url_or_file_open.py:42-46.  Events of one call: how long it slept, if at
    all, and what it opened.  [n] is NUM_REQUESTS. *)
Inductive event : Type := Slept (delay : Z) | Opened (t : target).
Definition paced_open (delay : option Z) (n : Z) (uri : str) : Z * list event :=
  let u := with_scheme uri in
  let slept := match delay with
               | Some d => if negb (n =? 0) && negb (startswith $"file:" u) then [Slept d] else []
               | None => []
               end in
  (n + 1, slept ++ [Opened (url_target u)]).
Fixpoint paced_opens (delay : option Z) (n : Z) (uris : list str) : list (list event) :=
  match uris with
  | [] => []
  | u :: uris' => let '(n, ev) := paced_open delay n u in ev :: paced_opens delay n uris'
  end.
