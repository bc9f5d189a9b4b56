(** * ClientExamples: concrete sources and destinations *)

From Verif Require Import Py PyFacts Float64 W3C Url UrlAuthority PathSpec OsPath Mapper MapperSpec MapperFacts2 Resource Container
  Hashes Disk DiskSpec Builder BuilderSpec BuilderFacts ClientState ClientStateSpec ClientStateFacts Client ClientSpec.

(** Documents of a source. *)
Definition list_text (cap : str) (entries : list str) : str :=
  $"<?xml version='1.0' encoding='UTF-8'?><urlset xmlns='http://www.sitemaps.org/schemas/sitemap/0.9' xmlns:rs='http://www.openarchives.org/rs/terms/'><rs:md capability='"
  ++ cap ++ $"' />" ++ List.concat entries ++ $"</urlset>".
Definition entry (loc lastmod md : str) : str :=
  $"<url><loc>" ++ loc ++ $"</loc><lastmod>" ++ lastmod ++ $"</lastmod><rs:md " ++ md ++ $" /></url>".

Definition fetch_from (docs : list (str * str)) (u : str) : res str :=
  match sget u docs with Some t => Ok t | None => Err IOError end.
(** Every request for a resource in the list is answered with its content. *)
Definition get_from (docs : list (str * str)) (n : nat) (u : str) : outcome :=
  match sget u docs with Some t => Data t | None => Refused IOError end.

Definition plain_digests : digests := MkDigests (fun s => $"m" ++ s) (fun s => $"s" ++ s) (fun s => $"t" ++ s).
Definition ex_env (docs files : list (str * str)) : env :=
  MkEnv [] (fetch_from docs) (get_from files) (2000000000 * SEC) plain_digests unit_floats.
Definition ex_client (ms : mapper) : client :=
  MkClient ms (Some $"http://s.org/r/resourcelist.xml") None $"resourcelist.xml" $"changelist.xml" true false false false false 2 false.
Definition dry (c : client) : client :=
  MkClient (c_mapper c) (c_sitemap_name c) (c_capability_list c) (c_resource_list_name c) (c_change_list_name c)
    (c_multifile c) (c_noauth c) (c_strictauth c) true (c_ignore_failures c) (c_tries c) (c_spec_1_0 c).
Definition one_mapping : mapper := [MkMap $"http://s.org/r" $"/d"].
Definition start (root : node) (state : option str) : world := MkWorld root state [] 0 [] [].

(** A source with two resources, one of them new, and a destination with a third. *)
Definition two_resources : list (str * str) :=
  [($"http://s.org/r/resourcelist.xml",
    list_text $"resourcelist" [entry $"http://s.org/r/a" $"2001-01-01T00:00:00Z" $"length='1'";
                               entry $"http://s.org/r/x/b" $"2001-01-01T00:00:01.5Z" $"length='3'"]);
   ($"http://s.org/r/changelist.xml",
    list_text $"changelist" [entry $"http://s.org/r/a" $"2001-01-01T00:00:00Z" $"change='updated' datetime='2001-01-01T00:00:00Z'";
                             entry $"http://s.org/r/x/b" $"2001-01-01T00:00:01.5Z" $"change='created' datetime='2001-01-01T00:00:01.5Z'";
                             entry $"http://s.org/r/old" $"2001-01-01T00:00:02Z" $"change='deleted' datetime='2001-01-01T00:00:02Z'"])].
Definition two_contents : list (str * str) := [($"http://s.org/r/a", $"A"); ($"http://s.org/r/x/b", $"BBB")].
Definition day : Z := 978307200 * SEC.
Definition old_tree : node :=
  Dir [($"etc", Dir [($"passwd", File $"root" 1)]);
       ($"d", Dir [($"a", File $"A" day); ($"old", File $"OLD" (day - SEC))])].


(** A source that lists a URI with two dots. *)
Definition dotdot_list : list (str * str) :=
  [($"http://s.org/r/resourcelist.xml",
    list_text $"resourcelist" [entry $"http://s.org/r/../etc/passwd" $"2001-01-01T00:00:00Z" $"length='5'"])].
Definition dotdot_contents : list (str * str) := [($"http://s.org/r/../etc/passwd", $"mine!")].

(** A change list that was asked for by its URI and names a resource of another host. *)
Definition two_mappings : mapper := [MkMap $"http://s.org/r" $"/d"; MkMap $"http://other.net/r" $"/e"].
Definition foreign_changes : list (str * str) :=
  [($"http://s.org/r/recent.xml",
    list_text $"changelist" [entry $"http://other.net/r/x" $"2001-01-01T00:00:00Z" $"change='created' datetime='2001-01-01T00:00:00Z'"])].
Definition foreign_list : list (str * str) :=
  [($"http://s.org/r/resourcelist.xml",
    list_text $"resourcelist" [entry $"http://other.net/r/x" $"2001-01-01T00:00:00Z" $"length='7'"])].
Definition foreign_contents : list (str * str) := [($"http://other.net/r/x", $"foreign")].
Definition foreign_env : env := ex_env foreign_changes foreign_contents.
Definition foreign_client : client := ex_client two_mappings.

(** The first answer for a resource stops in the middle with a timeout, the second
    with an error. *)
Definition broken_get (n : nat) (u : str) : outcome :=
  match n with O => Broken $"pa" SocketTimeout | _ => Broken $"par" IOError end.
Definition broken_env : env :=
  MkEnv [] (fetch_from two_resources) broken_get (2000000000 * SEC) plain_digests unit_floats.

(** A network that gives the resource after one timeout. *)
Definition slow_get (n : nat) (u : str) : outcome :=
  match n with O => Refused SocketTimeout | _ => Data $"A2" end.
Definition slow_env : env :=
  MkEnv [] (fetch_from two_resources) slow_get (2000000000 * SEC) plain_digests unit_floats.
Definition resource_a : resource :=
  MkR $"http://s.org/r/a" (Some day) (Some 2) None None None None None None None None None None None None None.

Lemma old_tree_ok : tree_ok old_tree /\ one_line_names old_tree.
Proof. apply names_okb_ok. vm_compute. reflexivity. Qed.
Lemma old_world_ok docs files state : world_ok (ex_env docs files) (start old_tree state).
Proof. split; [apply old_tree_ok|]. split; [|constructor]. unfold dir_at. eexists. reflexivity. Qed.
Lemma one_mapping_apart : mappings_apart one_mapping.
Proof.
  split.
  - intros k [<-|[]]. vm_compute src_uri. vm_compute dst_path. repeat split.
    + apply plainb_ok. reflexivity.
    + apply plainb_ok. reflexivity.
    + apply has_char_false. reflexivity.
    + apply has_char_false. reflexivity.
    + apply no_end_slash_ok. reflexivity.
  - intros [|[|i]] [|[|j]] a b s ne; cbn; congruence.
Qed.
