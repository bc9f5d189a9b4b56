(** * Properties C27 and C28: URL authority *)

From Verif Require Import Py Url UrlSpec OsPath UrlAuthority UrlFacts.

(** C27: non-strict authority is same scheme and same host or a name within it ... *)
Theorem C27_authority : forall m u, wf_url m -> wf_url u ->
  authority_over false (url_text m) (url_text u) = Ok true <-> same_scheme u m /\ host_within m u.
Proof. exact authority_nonstrict. Qed.
Print Assumptions C27_authority.

(** ... reflexive and transitive for all strings that can be parsed. *)
Theorem C27_reflexive : forall strict u v,
  urlparse u [] = Ok v -> authority_over strict u u = Ok true.
Proof. exact authority_refl. Qed.
Print Assumptions C27_reflexive.

Theorem C27_transitive : forall strict a b c,
  authority_over strict a b = Ok true -> authority_over strict b c = Ok true ->
  authority_over strict a c = Ok true.
Proof. exact authority_trans. Qed.
Print Assumptions C27_transitive.

Example C27_example :
  let m := MkUrl $"http" $"example.org" $"/a/b" [] in
  let u := MkUrl $"HTTP" $"www.example.org" [] $"?q#f" in
  let v := MkUrl $"http" $"notexample.org" $"/a/b" [] in
  wf_url m /\ wf_url u /\ wf_url v /\ url_text u = $"HTTP://www.example.org?q#f" /\
  authority_over false (url_text m) (url_text u) = Ok true /\
  authority_over false (url_text m) (url_text v) = Ok false.
Proof. repeat split; try (now apply wf_urlb_ok); vm_compute; reflexivity. Qed.

(** C28: strict authority covers everything in or below the master's directory ... *)
Theorem C28_strict_covers_directory : forall m u dir, wf_url m -> wf_url u ->
  same_scheme u m -> host_within m u -> in_directory dir m -> below_directory dir u ->
  authority_over true (url_text m) (url_text u) = Ok true.
Proof. exact authority_strict_below. Qed.
Print Assumptions C28_strict_covers_directory.

(** ... never reaches beyond URLs whose directory name starts with the master's ... *)
Theorem C28_strict_exact : forall m u, wf_url m -> wf_url u ->
  authority_over true (url_text m) (url_text u) = Ok true <->
  same_scheme u m /\ host_within m u /\
  exists t, os_dirname (q_path u) = os_dirname (q_path m) ++ t.
Proof. exact authority_strict_exact. Qed.
Print Assumptions C28_strict_exact.

(** ... but that includes siblings such as /data-private for /data. *)
Theorem C28_path_boundary_refuted :
  exists m u dir, wf_url m /\ wf_url u /\ in_directory dir m /\
    authority_over true (url_text m) (url_text u) = Ok true /\ ~ below_directory dir u.
Proof. exact authority_strict_sibling. Qed.
Print Assumptions C28_path_boundary_refuted.

Example C28_example :
  let m := MkUrl $"http" $"example.org" $"/a/sitemap.xml" [] in
  let u := MkUrl $"http" $"example.org" $"/a/b/c" [] in
  let v := MkUrl $"http" $"example.org" $"/b/c" [] in
  wf_url m /\ wf_url u /\ same_scheme u m /\ host_within m u /\
  in_directory $"/a" m /\ below_directory $"/a" u /\
  authority_over true (url_text m) (url_text v) = Ok false.
Proof.
  repeat split; try (now apply wf_urlb_ok).
  - now left.
  - exists $"sitemap.xml". split; [reflexivity|]. vm_compute. intuition discriminate.
  - now exists $"b/c".
Qed.
