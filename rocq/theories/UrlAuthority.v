(** * UrlAuthority: model of url_authority.py *)

From Verif Require Import Py Url OsPath.

Record authority : Type := MkAuth
  { au_strict : bool; au_scheme : str; au_netloc : str; au_path : str }.

(** UrlAuthority(url, strict), url_authority.py:36-52. *)
Definition make_authority (url : option str) (strict : bool) : res authority :=
  match url with
  | Some u =>
      let* m := urlparse u [] in
      Ok (MkAuth strict (up_scheme m) (up_netloc m) (os_dirname (up_path m)))
  | None => Ok (MkAuth strict $"none" $"none.none.none" $"/not/very/likely")
  end.

(** has_authority_over(url), url_authority.py:54-73. *)
Definition has_authority_over (a : authority) (url : str) : res bool :=
  let* s := urlparse url [] in
  if negb (str_eqb (up_scheme s) (au_scheme a)) then Ok false
  else if negb (str_eqb (up_netloc s) (au_netloc a)) && negb (endswith ($"." ++ au_netloc a) (up_netloc s))
  then Ok false
  else
    let path := os_dirname (up_path s) in
    if au_strict a && negb (str_eqb path (au_path a)) && negb (startswith (au_path a) path)
    then Ok false else Ok true.

(** The way resync uses it: UrlAuthority(master, strict).has_authority_over(url). *)
Definition authority_over (strict : bool) (master url : str) : res bool :=
  let* a := make_authority (Some master) strict in has_authority_over a url.
