(** * DiscoveryEx: sources that are found and sources that are not *)

From Verif Require Import Py PyFacts Url UrlSpec UrlFacts Mapper Resource Container Capability Xml Sitemap ListIndex Client ClientExamples
  DiscoverySpec DiscoveryFacts.

Definition seeker (src : str) : client :=
  MkClient [MkMap src $"/d"] None None $"resourcelist.xml" $"changelist.xml" true false false false false 2 false.
Definition one_entry (u : str) : str := list_text $"resourcelist" [entry u $"2001-01-01T00:00:00Z" $"length='1'"].

(** A directory with an absolute path that has a resource list: it is not found. *)
Definition data_docs : list (str * str) := [($"/data/src/resourcelist.xml", one_entry $"/data/src/a")].
(** A directory the path of which starts with letters of the word file: the list of
    another directory is taken. *)
Definition lib_docs : list (str * str) :=
  [($"lib/src/resourcelist.xml", one_entry $"lib/src/a"); ($"b/src/resourcelist.xml", one_entry $"other/x")].
Definition keys (r : res rdict) : list str := match r with Ok d => map fst d | Err _ => [] end.

Lemma seeker_unspecified src : unspecified (seeker src) src.
Proof.
  split; [reflexivity|]. split; [reflexivity|]. split; [reflexivity|]. split; [|apply has_char_false; reflexivity].
  apply name_part; try discriminate; reflexivity.
Qed.
Lemma local_lost : exists fetch c dir, unspecified c dir /\ startswith $"/" dir = true
  /\ (exists d, read_resource_list fetch c (dir ++ $"/resourcelist.xml") = Ok d /\ d <> [])
  /\ find_resource_list fetch c = Err ClientFatalError.
Proof.
  exists (fetch_from data_docs), (seeker $"/data/src"), $"/data/src". split.
  { split; [reflexivity|]. split; [reflexivity|]. split; [reflexivity|]. split; [|apply has_char_false; reflexivity].
    apply name_part; try discriminate; reflexivity. }
  split; [reflexivity|]. split; [|vm_compute; reflexivity]. eexists. split; [vm_compute; reflexivity|]. discriminate.
Qed.
Lemma local_other : exists fetch c dir u other, unspecified c dir
  /\ (forall d, read_resource_list fetch c (dir ++ $"/resourcelist.xml") = Ok d -> ~ In u (map fst d))
  /\ fetch (dir ++ $"/resourcelist.xml") <> Err IOError
  /\ find_resource_list fetch c = Ok other /\ In u (map fst other).
Proof.
  exists (fetch_from lib_docs), (seeker $"lib/src"), $"lib/src", $"other/x".
  assert (exists other, find_resource_list (fetch_from lib_docs) (seeker $"lib/src") = Ok other /\ In $"other/x" (map fst other)) as (other & F & I).
  { eexists. split; [vm_compute; reflexivity|]. left. reflexivity. }
  exists other. split; [apply seeker_unspecified|].
  split. { intros d H J. assert (keys (read_resource_list (fetch_from lib_docs) (seeker $"lib/src") ($"lib/src" ++ $"/resourcelist.xml")) = [$"lib/src/a"]) as K by (vm_compute; reflexivity).
    rewrite H in K. cbn [keys] in K. rewrite K in J. destruct J as [J|[]]. discriminate J. }
  split; [discriminate|]. auto.
Qed.

Lemma example_source : web_source $"http" $"s.org" [$"r"; $"x"].
Proof.
  split; [auto|]. split; [discriminate|]. split; [apply forallb_avoids; reflexivity|]. split; [unfold no_breaks; apply forallb_avoids; reflexivity|].
  repeat constructor; try discriminate; apply forallb_avoids; reflexivity.
Qed.
Lemma example_unspecified : unspecified (seeker $"http://s.org/r/x") $"http://s.org/r/x".
Proof.
  split; [reflexivity|]. split; [reflexivity|]. split; [reflexivity|]. split; [|apply has_char_false; reflexivity].
  apply name_part; try discriminate; reflexivity.
Qed.
Definition host_docs : list (str * str) := [($"http://s.org/sitemap.xml", one_entry $"http://s.org/r/x/a")].
(** A source description that leads to a resource list elsewhere. *)
Definition described_docs : list (str * str) :=
  [($"http://s.org/.well-known/resourcesync",
    list_text $"description" [$"<url><loc>http://s.org/caps.xml</loc><rs:md capability='capabilitylist' /></url>"]);
   ($"http://s.org/caps.xml",
    list_text $"capabilitylist" [$"<url><loc>lists/list1.xml</loc><rs:md capability='resourcelist' /></url>"]);
   ($"http://s.org/lists/list1.xml", one_entry $"http://s.org/r/x/b"); ($"http://s.org/sitemap.xml", one_entry $"http://s.org/r/x/a")].
