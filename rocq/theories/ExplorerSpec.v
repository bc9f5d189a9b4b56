(** * ExplorerSpec: what exploring means *)

From Verif Require Import Py Url UrlSpec Resource Sitemap Explorer.

(** How many entries of a document are offered: all of up to 21, else 20. *)
Definition offered (entries : nat) : nat := if (entries <=? 21)%nat then entries else 20%nat.

(** The entry a number stands for: the resource listed, its URI made absolute in the
    context of the document; a capability that is not given is the only one the
    document type allows, if there is only one. *)
Definition entry_of (context : str) (allowed : list str) (listed shown : resource) : Prop :=
  exists uri, urljoin context (r_uri listed) = Ok uri /\
  shown = set_capability (match r_capability listed, allowed with
                          | Some c, _ => Some c
                          | None, [c] => Some c
                          | None, _ => None
                          end) (set_uri uri listed).

(** What a link of the document is offered as: the resource with the URI of its href,
    made absolute. *)
Definition link_option (context : str) (ln : list link) (rel : str) (capability : option str)
    (o : option resource) : Prop :=
  match find_link rel ln with
  | None => o = None
  | Some lk =>
      match sget $"href" lk with
      | None => o = None
      | Some h => exists u uri, h = PStr u /\ urljoin context u = Ok uri /\
                  o = Some (set_capability capability (new_resource uri))
      end
  end.

(** Texts that end in a suffix, with something before it. *)
Definition ends_in (suffix s : str) : Prop := exists x, x <> [] /\ s = x ++ suffix.

(** Where exploring stands: lines printed, documents read so far, input not read yet. *)
Notation progress := (list line * nat * list str * ending)%type.
Definition after (l : list line) (p : progress) : progress :=
  let '(l', n, rest, r) := p in (l ++ l', n, rest, r).

(** The prompt below a page: a number is offered if there is a menu, going back if there
    is something to go back to. *)
Definition prompt {A B} (options : list A) (history : list B) : line :=
  Prompt (negb (Nat.eqb (List.length options) 0)) (negb (Nat.eqb (List.length history) 0)).

(** Excursions: inputs that follow an entry of a document, make excursions from there and
    come back, any number of times.  [excursion e n x ins n']: beginning at document
    [x] when [n] documents have been read, and ending there when [n'] have. *)
Inductive excursion (e : xenv) : nat -> xresource -> list str -> nat -> Prop :=
| stay n x : excursion e n x [] n
| go_and_return n x key ins n1 ins' n2 l o t r y l' o' t' :
    show_page e n x = (l, Ok (o, t)) -> sget key o = Some r -> follow t r = Ok y ->
    excursion e (S n) y ins n1 ->
    show_page e n1 y = (l', Ok (o', t')) ->
    excursion e (S n1) x ins' n2 ->
    excursion e n x (key :: ins ++ $"b" :: ins') n2.

(** The entries shown on a page, with their numbers, and how many it says are left out. *)
Definition entries_shown (l : list line) : list (Z * str) :=
  flat_map (fun x => match x with EntryShown n u => [(n, u)] | _ => [] end) l.
Definition left_out (l : list line) : list Z :=
  flat_map (fun x => match x with NotShowing n => [n] | _ => [] end) l.

(** The document types ResourceSync defines: descriptions and capability lists, lists and
    dumps and the archives and indexes of these, and the manifests of dumps. *)
Definition defined_types : list str :=
  let lists := [$"resourcelist"; $"changelist"; $"resourcedump"; $"changedump"] in
  [$"description"; $"descriptionindex"; $"capabilitylist"; $"resourcedump-manifest"; $"changedump-manifest"]
  ++ lists ++ map (fun x => x ++ $"index") lists ++ map (fun x => x ++ $"-archive") lists.
(** Those the explorer does not know. *)
Definition overlooked_types : list str :=
  [$"descriptionindex"; $"resourcedump-manifest"; $"changedump-manifest"].


(** What begins with letters, digits or underscores and a colon, as URIs do; anything
    else is taken as the path of a local file. *)
Definition looks_like_uri (s : str) : Prop :=
  exists w rest, w <> [] /\ (forall c, In c w -> is_word c = true) /\ s = w ++ ":"%char :: rest.

(** Statuses and headers shown on a page. *)
Definition statuses (l : list line) : list str :=
  flat_map (fun x => match x with HeadStatus s => [s] | _ => [] end) l.
Definition headers_shown (l : list line) : list (str * hval * check) :=
  flat_map (fun x => match x with HeadLine h v c => [(h, v, c)] | _ => [] end) l.
(** How a value found compares with the one listed, if there is one. *)
Definition compared (found : hval) (listed : option hval) (c : check) : Prop :=
  match listed with
  | None => c = NotChecked
  | Some v => (v = found /\ c = Matches) \/ (v <> found /\ c = Expected v)
  end.

(** The well-known URI of a server. *)
Definition well_known_uri (scheme host : str) : str := scheme ++ $"://" ++ host ++ $"/.well-known/resourcesync".

(** Absolute paths of local files and directories, without characters that mean something
    in a URI. *)
Definition absolute_path (p : str) : Prop :=
  (exists c rest, p = "/"%char :: c :: rest /\ c <> "/"%char) /\ avoids $"?#;:" p /\ no_breaks p.
(** Names under which a source is likely to keep its documents, in the order tried. *)
Definition likely_files : list str := [$"resourcesync"; $"capabilities.xml"; $"resourcelist.xml"; $"changelist.xml"].
Definition is_file (e : xenv) (f : str) : bool := match xe_file e f with Some _ => true | None => false end.

(** Going about: [reaches e n h ins n' h'] if the inputs [ins], each an entry of the menu
    shown or b, lead from the document at the top of [h] with the others below it to go back
    to, when [n] documents have been read, to those of [h'], when [n'] have. *)
Inductive reaches (e : xenv) : nat -> list xresource -> list str -> nat -> list xresource -> Prop :=
| here n h : reaches e n h [] n h
| goes_on n x h key ins n' h' l o t r y :
    show_page e n x = (l, Ok (o, t)) -> sget key o = Some r -> follow t r = Ok y ->
    reaches e (S n) (y :: x :: h) ins n' h' ->
    reaches e n (x :: h) (key :: ins) n' h'
| goes_back n x h ins n' h' l o t :
    show_page e n x = (l, Ok (o, t)) ->
    reaches e (S n) h ins n' h' ->
    reaches e n (x :: h) ($"b" :: ins) n' h'.

(** Resources numbered in order, with their URIs as listed. *)
Definition numbered_uris (from : nat) (rs : list resource) : list (Z * str) :=
  combine (map Z.of_nat (seq from (List.length rs))) (map r_uri rs).
