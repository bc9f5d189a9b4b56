(** * DiscoveryFacts: the locations tried for the source's resource list *)

From Verif Require Import Py PyFacts Url UrlAuthority UrlSpec UrlFacts PathSpec OsPath OsPathFacts Regex RegexFacts Mapper Resource Container ContainerFacts
  Capability Xml Sitemap ListIndex ListIndexFacts Client DiscoverySpec.

(** ** Joining names to plain locations *)

Lemma part_no_slash p : path_part p -> ~ In "/"%char p.
Proof. intros (_ & _ & _ & A & _) I. apply A in I. apply I. vm_compute; auto 10. Qed.
Lemma parts_no_slash ps : Forall path_part ps -> Forall (fun c => ~ In "/"%char c) ps.
Proof. intros F. eapply Forall_impl; [|exact F]. intros p. apply part_no_slash. Qed.
Lemma slashed_join p ps : slashed (p :: ps) = $"/" ++ join $"/" (p :: ps).
Proof.
  revert p. induction ps as [|q ps IH]; intros p; unfold slashed in *; cbn [map List.concat] in *; [now rewrite app_nil_r|].
  rewrite IH. cbn [join]. rewrite <- !app_assoc. reflexivity.
Qed.
Lemma slashed_join0 ps : slashed ps = join $"/" ([] :: ps).
Proof. destruct ps as [|p ps]; [reflexivity|]. rewrite slashed_join. reflexivity. Qed.
Lemma slashed_app a b : slashed (a ++ b) = slashed a ++ slashed b.
Proof. unfold slashed. rewrite map_app, concat_app. reflexivity. Qed.

Lemma slashed_one l : slashed [l] = $"/" ++ l.
Proof. unfold slashed. cbn [map List.concat]. apply app_nil_r. Qed.

Lemma resolve_parts ps : forall acc, Forall path_part ps -> resolve_segs ps acc = rev acc ++ ps.
Proof.
  induction ps as [|p ps IH]; intros acc F; [cbn; now rewrite app_nil_r|]. inversion F as [|? ? (N & D & DD & _) F']; subst. cbn [resolve_segs].
  destruct (str_eqb_spec p $".."); [contradiction|]. destruct (str_eqb_spec p $"."); [contradiction|].
  rewrite (IH (p :: acc) F'). cbn. now rewrite <- app_assoc.
Qed.
Lemma filter_parts ps : Forall path_part ps -> filter (fun s => negb (is_empty s)) ps = ps.
Proof. intros F. apply filter_id. intros p I. rewrite Forall_forall in F. destruct (F p I) as (N & _). destruct p; [contradiction|reflexivity]. Qed.
Lemma filter_middle_parts a ps : Forall path_part ps -> filter_middle (a :: ps) = a :: ps.
Proof.
  intros F. cbn. destruct (rev ps) as [|z mid] eqn:R.
  - apply (f_equal (@rev str)) in R. rewrite rev_involutive in R. now subst.
  - apply (f_equal (@rev str)) in R. rewrite rev_involutive in R. cbn in R. subst. apply Forall_app in F. destruct F as [F _].
    now rewrite (filter_parts _ F).
Qed.

Definition plain_rel (rel : list str) : Prop :=
  Forall path_part rel /\ rel <> [] /\ ~ In ":"%char (join $"/" rel)
  /\ exists a s, join $"/" rel = a :: s /\ (32 < code a)%N.

Lemma join_chars ps c : In c (join $"/" ps) -> c = "/"%char \/ exists p, In p ps /\ In c p.
Proof.
  induction ps as [|p ps IH]; cbn [join]; [intros []|]. destruct ps as [|q ps].
  - intros I. right. exists p. split; [left; reflexivity|exact I].
  - intros I. apply in_app_iff in I. destruct I as [I|I]; [right; exists p; split; [left; reflexivity|exact I]|].
    apply in_app_iff in I. destruct I as [I|I]; [left; destruct I as [<-|[]]; reflexivity|].
    destruct (IH I) as [->|(r & J & K)]; [auto|]. right. exists r. split; [right; exact J|exact K].
Qed.
Lemma join_avoids ps : Forall path_part ps -> avoids $"?#;" (join $"/" ps) /\ no_breaks (join $"/" ps).
Proof.
  intros F. rewrite Forall_forall in F. split; intros c I; apply join_chars in I; destruct I as [->|(p & J & I)].
  - vm_compute. intuition discriminate.
  - destruct (F p J) as (_ & _ & _ & A & _). apply A in I. intros X. apply I. vm_compute in X |- *. tauto.
  - vm_compute. intuition discriminate.
  - destruct (F p J) as (_ & _ & _ & _ & B). apply B in I. exact I.
Qed.
Lemma clean_id s : no_breaks s -> match s with a :: _ => (32 < code a)%N | [] => True end -> url_clean s = s.
Proof.
  intros B H. unfold url_clean. replace (lstrip_c0 s) with s.
  - apply filter_id. intros c I. apply B in I. apply unsafe_false in I. now rewrite I.
  - destruct s as [|a s]; [reflexivity|]. cbn. destruct (N.leb_spec (code a) 32); [lia|reflexivity].
Qed.
Lemma avoid_char bad c s : avoids bad s -> has_char c bad = true -> ~ In c s.
Proof. intros A H I. apply A in I. apply I. now apply has_char_In. Qed.
Lemma head_slash p ps : Forall path_part (p :: ps) -> exists a s, join $"/" (p :: ps) = a :: s /\ a <> "/"%char.
Proof.
  intros F. inversion F as [|? ? (N & _ & _ & A & _) _]; subst. destruct p as [|a p]; [contradiction|].
  exists a. assert (a <> "/"%char) as X by (intros ->; apply (A "/"%char); [left; reflexivity|vm_compute; auto]).
  destruct ps; eexists; (split; [reflexivity|exact X]).
Qed.

(** A path without scheme. *)
Lemma parse_local ps dflt : Forall path_part ps -> ps <> [] -> ~ In ":"%char (join $"/" ps) ->
  (exists a s, join $"/" ps = a :: s /\ (32 < code a)%N) ->
  urlsplit (join $"/" ps) dflt = Ok (MkUS dflt [] (join $"/" ps) [] []).
Proof.
  intros F N C (a & s & J & A). destruct (join_avoids _ F) as [AV BR]. unfold urlsplit.
  rewrite clean_id by (auto; rewrite J; exact A). unfold split_scheme.
  assert (split1 ":" (join $"/" ps) = None) as -> by (apply split1_none; exact C).
  destruct ps as [|p ps]; [contradiction|]. destruct (head_slash _ _ F) as (a' & s' & J' & NS). rewrite J in J'. injection J' as <- <-.
  assert (split_netloc (join $"/" (p :: ps)) = Ok ([], join $"/" (p :: ps))) as ->.
  { rewrite J. unfold split_netloc. destruct s as [|b s]; [reflexivity|]. destruct (ceqb a "/") eqn:Q; [apply Ascii.eqb_eq in Q; contradiction|reflexivity]. }
  cbn [bind]. rewrite (cut_char_no "#") by (apply (avoid_char _ _ _ AV); reflexivity).
  rewrite (cut_char_no "?") by (apply (avoid_char _ _ _ AV); reflexivity). reflexivity.
Qed.
Lemma urlparse_of s d us : urlsplit s d = Ok us -> ~ In ";"%char (us_path us) ->
  urlparse s d = Ok (MkUP (us_scheme us) (us_netloc us) (us_path us) [] (us_query us) (us_frag us)).
Proof.
  intros H N. unfold urlparse. rewrite H. cbn [bind]. assert (has_char ";" (us_path us) = false) as -> by (now apply has_char_false).
  rewrite andb_false_r. reflexivity.
Qed.

Lemma web_wf scheme host ps : web_source scheme host ps -> wf_url (MkUrl scheme host (slashed ps) []).
Proof.
  intros (S & HN & HA & HB & F). unfold wf_url. cbn [q_scheme q_host q_path q_tail].
  assert (avoids $"?#;" (slashed ps) /\ no_breaks (slashed ps)) as [A B].
  { rewrite slashed_join0. destruct ps as [|p ps]; [split; intros c []|]. destruct (join_avoids _ F) as [A B].
    change (join $"/" ([] :: p :: ps)) with ("/"%char :: join $"/" (p :: ps)).
    split; intros c [<-|I]; try (apply A in I; exact I); try (apply B in I; exact I); vm_compute; intuition discriminate. }
  split; [destruct S as [-> | ->]; do 2 eexists; split; reflexivity|].
  split. { intros c I. left. destruct S as [-> | ->]; vm_compute in I; intuition (subst; reflexivity). }
  split; [exact HA|]. split; [exact HB|]. split. { destruct ps as [|p ps]; [left; reflexivity|right]. rewrite slashed_join. eexists. reflexivity. }
  split; [intros c I X; apply (A c I); vm_compute in X |- *; tauto|]. split; [exact B|]. split; [left; reflexivity|]. intros c [].
Qed.
Lemma web_split scheme host ps dflt : web_source scheme host ps ->
  urlsplit (web_root scheme host ++ slashed ps) dflt = Ok (MkUS scheme host (slashed ps) [] []).
Proof.
  intros W. pose proof (web_wf _ _ _ W) as U. set (u := MkUrl scheme host (slashed ps) []) in *.
  assert (web_root scheme host ++ slashed ps = url_text u) as ->.
  { unfold web_root, url_text, u. cbn [q_scheme q_host q_path q_tail]. rewrite app_nil_r, <- !app_assoc. reflexivity. }
  unfold urlsplit. rewrite url_clean_text, split_scheme_text, split_netloc_text by auto. cbn [bind]. unfold u. cbn [q_scheme q_host q_path q_tail].
  rewrite app_nil_r. destruct U as (_ & _ & _ & _ & _ & A & _). cbn [q_path u] in A.
  rewrite (cut_char_no "#") by (apply (avoid_char _ _ _ A); reflexivity).
  rewrite (cut_char_no "?") by (apply (avoid_char _ _ _ A); reflexivity).
  destruct W as ([-> | ->] & _); reflexivity.
Qed.
Lemma slashed_no_semi ps : Forall path_part ps -> ~ In ";"%char (slashed ps).
Proof.
  intros F. rewrite slashed_join0. destruct ps as [|p ps]; [intros []|]. change (join $"/" ([] :: p :: ps)) with ("/"%char :: join $"/" (p :: ps)).
  intros [X|I]; [discriminate|]. destruct (join_avoids _ F) as [A _]. apply A in I. apply I. vm_compute. auto.
Qed.
Lemma last_part ps d : Forall path_part ps -> ps <> [] -> path_part (last ps d).
Proof.
  intros F N. induction F as [|p ps P F IH]; [contradiction|]. destruct ps; [exact P|]. apply IH. discriminate.
Qed.

(** The part of urljoin after both are parsed. *)
Lemma joined_segs a dirs rel : Forall path_part dirs -> Forall path_part rel -> rel <> [] -> a = [] \/ path_part a ->
  let segs := filter_middle ((a :: dirs) ++ rel) in
  (if str_eqb (last segs []) $"." || str_eqb (last segs []) $".." then resolve_segs segs [] ++ [[]] else resolve_segs segs []) = (a :: dirs) ++ rel.
Proof.
  intros FD FR N A segs. subst segs. rewrite <- app_comm_cons. assert (Forall path_part (dirs ++ rel)) as F by (apply Forall_app; auto).
  assert (dirs ++ rel <> []) as NE by (destruct dirs; [exact N|discriminate]).
  rewrite (filter_middle_parts a _ F). replace (last (a :: dirs ++ rel) []) with (last (dirs ++ rel) []) by (destruct (dirs ++ rel); [contradiction|reflexivity]).
  destruct (last_part _ [] F NE) as (_ & L1 & L2 & _).
  destruct (str_eqb_spec (last (dirs ++ rel) []) $"."); [contradiction|]. destruct (str_eqb_spec (last (dirs ++ rel) []) $".."); [contradiction|].
  cbn [orb]. cbn [resolve_segs]. destruct (str_eqb_spec a $"..") as [->|]; [destruct A as [A|(_ & _ & A & _)]; [discriminate|contradiction]|].
  destruct (str_eqb_spec a $".") as [->|]; [destruct A as [A|(_ & A & _)]; [discriminate|contradiction]|].
  rewrite (resolve_parts _ [a] F). reflexivity.
Qed.
Lemma plain_path_of rel : plain_rel rel -> is_empty (join $"/" rel) = false /\ startswith $"/" (join $"/" rel) = false /\ split_on "/" (join $"/" rel) = rel.
Proof.
  intros (F & N & _ & a & s & J & _). destruct rel as [|p ps]; [contradiction|]. destruct (head_slash _ _ F) as (a' & s' & J' & NS).
  rewrite J in J'. injection J' as <- <-. split; [now rewrite J|]. split.
  - rewrite J. destruct (startswith $"/" (a :: s)) eqn:Q; [|reflexivity]. apply startswith_spec in Q. destruct Q as [t Q]. injection Q as -> _. contradiction.
  - apply split_join; [discriminate|apply parts_no_slash, F].
Qed.

Lemma base_segs a dirs l : path_part l -> Forall path_part dirs -> (a = [] \/ path_part a) ->
  (let bp := split_on "/" (join $"/" (a :: dirs ++ [l])) in if is_empty (last bp []) then bp else removelast bp) = a :: dirs.
Proof.
  intros L F A. rewrite split_join.
  - cbv zeta. rewrite app_comm_cons, last_last, removelast_last. destruct l; [destruct L; contradiction|reflexivity].
  - discriminate.
  - constructor; [destruct A as [->|A]; [intros []|apply part_no_slash, A]|]. apply parts_no_slash. apply Forall_app. auto.
Qed.

Lemma join_web scheme host dirs l rel : web_source scheme host dirs -> path_part l -> plain_rel rel ->
  urljoin (web_root scheme host ++ slashed (dirs ++ [l])) (join $"/" rel) = Ok (web_root scheme host ++ slashed (dirs ++ rel)).
Proof.
  intros W L R. pose proof W as (S & HN & HA & HB & F).
  assert (web_source scheme host (dirs ++ [l])) as W' by (repeat split; try tauto; apply Forall_app; auto).
  destruct (plain_path_of _ R) as (RE & RS & RP). destruct R as (RF & RN & RC & RH).
  unfold urljoin. assert (is_empty (web_root scheme host ++ slashed (dirs ++ [l])) = false) as -> by (destruct S as [-> | ->]; reflexivity).
  rewrite RE. rewrite (urlparse_of _ _ _ (web_split _ _ _ [] W')) by (apply slashed_no_semi; apply Forall_app; auto).
  cbn [bind us_scheme us_netloc us_path us_query us_frag up_scheme].
  rewrite (urlparse_of _ _ _ (parse_local _ scheme RF RN RC RH)).
  2:{ cbn [us_path]. destruct (join_avoids _ RF) as [A _]. apply (avoid_char _ _ _ A). reflexivity. }
  cbn [bind us_scheme us_netloc us_path us_query us_frag up_scheme up_netloc up_path up_params up_query up_frag].
  rewrite str_eqb_refl. assert (in_strs scheme uses_relative = true) as -> by (destruct S as [-> | ->]; reflexivity).
  assert (in_strs scheme uses_netloc = true) as -> by (destruct S as [-> | ->]; reflexivity).
  cbn [negb orb andb is_empty]. rewrite RE, RS, RP. cbn [andb].
  pose proof (base_segs [] dirs l L F (or_introl eq_refl)) as BS. rewrite <- slashed_join0 in BS. cbv zeta in BS. rewrite BS.
  pose proof (joined_segs [] dirs rel F RF RN (or_introl eq_refl)) as JS. cbv zeta in JS. rewrite JS.
  rewrite <- app_comm_cons, <- slashed_join0. unfold urlunparse, urlunsplit. cbn [up_params is_empty up_path up_scheme up_netloc up_query up_frag us_path us_netloc us_scheme us_query us_frag].
  assert (exists s, slashed (dirs ++ rel) = "/"%char :: s) as (s & E).
  { destruct (dirs ++ rel) as [|p q] eqn:Q; [destruct dirs; [contradiction|discriminate]|]. rewrite slashed_join. eexists. reflexivity. }
  rewrite E. cbn [is_empty]. assert (is_empty host = false) as -> by (destruct host; [contradiction|reflexivity]). cbn [negb orb].
  change (startswith $"/" ("/"%char :: s)) with true. cbn [negb andb].
  assert (is_empty scheme = false) as -> by (destruct S as [-> | ->]; reflexivity). unfold web_root. rewrite <- !app_assoc. reflexivity.
Qed.
Lemma join_host scheme host rel : web_source scheme host [] -> plain_rel rel ->
  urljoin (web_root scheme host) (join $"/" rel) = Ok (web_root scheme host ++ slashed rel).
Proof.
  intros W R. pose proof W as (S & HN & HA & HB & F).
  destruct (plain_path_of _ R) as (RE & RS & RP). destruct R as (RF & RN & RC & RH).
  unfold urljoin. assert (is_empty (web_root scheme host) = false) as -> by (destruct S as [-> | ->]; reflexivity).
  rewrite RE. pose proof (web_split _ _ _ [] W) as WS. unfold slashed in WS at 1. cbn [map List.concat] in WS. rewrite app_nil_r in WS.
  rewrite (urlparse_of _ _ _ WS) by (intros []).
  cbn [bind us_scheme us_netloc us_path us_query us_frag up_scheme].
  rewrite (urlparse_of _ _ _ (parse_local _ scheme RF RN RC RH)).
  2:{ cbn [us_path]. destruct (join_avoids _ RF) as [A _]. apply (avoid_char _ _ _ A). reflexivity. }
  cbn [bind us_scheme us_netloc us_path us_query us_frag up_scheme up_netloc up_path up_params up_query up_frag].
  rewrite str_eqb_refl. assert (in_strs scheme uses_relative = true) as -> by (destruct S as [-> | ->]; reflexivity).
  assert (in_strs scheme uses_netloc = true) as -> by (destruct S as [-> | ->]; reflexivity).
  cbn [negb orb andb is_empty]. rewrite RE, RS, RP. cbn [andb].
  change (let bp := split_on "/" (slashed []) in if is_empty (last bp []) then bp else removelast bp) with [@nil ascii]. cbv zeta.
  pose proof (joined_segs [] [] rel F RF RN (or_introl eq_refl)) as JS. cbv zeta in JS.
  change (if is_empty (last (split_on "/" (slashed [])) []) then split_on "/" (slashed []) else removelast (split_on "/" (slashed []))) with [@nil ascii]. rewrite JS.
  cbn [app]. rewrite <- slashed_join0. unfold urlunparse, urlunsplit. cbn [up_params is_empty up_path up_scheme up_netloc up_query up_frag us_path us_netloc us_scheme us_query us_frag].
  assert (exists s, slashed rel = "/"%char :: s) as (s & E).
  { destruct rel as [|p q]; [contradiction|]. rewrite slashed_join. eexists. reflexivity. }
  rewrite E. cbn [is_empty]. assert (is_empty host = false) as -> by (destruct host; [contradiction|reflexivity]). cbn [negb orb].
  change (startswith $"/" ("/"%char :: s)) with true. cbn [negb andb].
  assert (is_empty scheme = false) as -> by (destruct S as [-> | ->]; reflexivity). unfold web_root. rewrite <- !app_assoc. reflexivity.
Qed.

Lemma local_join ps : join $"/" ps = match ps with [] => [] | p :: q => p ++ slashed q end.
Proof.
  destruct ps as [|p q]; [reflexivity|]. destruct q as [|r q]; [unfold slashed; cbn; now rewrite app_nil_r|]. rewrite slashed_join. reflexivity.
Qed.
Lemma head_of_first first dirs l : (exists a s, first = a :: s /\ (32 < code a)%N) -> exists a s, join $"/" (first :: dirs ++ l) = a :: s /\ (32 < code a)%N.
Proof. intros (a & s & -> & H). rewrite local_join. cbn. eauto. Qed.

Lemma join_local first dirs l rel : local_source first dirs -> path_part l -> ~ In ":"%char l -> plain_rel rel ->
  urljoin (local_dir first dirs ++ $"/" ++ l) (join $"/" rel) = Ok (local_dir first dirs ++ slashed rel).
Proof.
  intros (F & C & H) L LC R. inversion F as [|? ? F1 F2]; subst.
  assert (local_dir first dirs ++ $"/" ++ l = join $"/" (first :: dirs ++ [l])) as E.
  { rewrite local_join, slashed_app. rewrite slashed_one. unfold local_dir. now rewrite <- app_assoc. }
  assert (Forall path_part (first :: dirs ++ [l])) as FA by (constructor; [exact F1|apply Forall_app; auto]).
  assert (~ In ":"%char (join $"/" (first :: dirs ++ [l]))) as CA.
  { rewrite <- E. intros I. apply in_app_iff in I. destruct I as [I|I]; [contradiction|]. destruct I as [I|I]; [discriminate|contradiction]. }
  pose proof (head_of_first first dirs [l] H) as HA.
  destruct (plain_path_of _ R) as (RE & RS & RP). destruct R as (RF & RN & RC & RH).
  unfold urljoin. rewrite E. assert (is_empty (join $"/" (first :: dirs ++ [l])) = false) as -> by (destruct HA as (a & s & -> & _); reflexivity).
  rewrite RE. rewrite (urlparse_of _ _ _ (parse_local _ [] FA ltac:(discriminate) CA HA)).
  2:{ cbn [us_path]. destruct (join_avoids _ FA) as [A _]. apply (avoid_char _ _ _ A). reflexivity. }
  cbn [bind us_scheme us_netloc us_path us_query us_frag up_scheme].
  rewrite (urlparse_of _ _ _ (parse_local _ [] RF RN RC RH)).
  2:{ cbn [us_path]. destruct (join_avoids _ RF) as [A _]. apply (avoid_char _ _ _ A). reflexivity. }
  cbn [bind us_scheme us_netloc us_path us_query us_frag up_scheme up_netloc up_path up_params up_query up_frag].
  change (in_strs [] uses_relative) with true. change (in_strs [] uses_netloc) with true.
  cbn [str_eqb negb orb andb is_empty]. rewrite RE, RS, RP. cbn [andb].
  pose proof (base_segs first dirs l L F2 (or_intror F1)) as BS. cbv zeta in BS. rewrite BS.
  pose proof (joined_segs first dirs rel F2 RF RN (or_intror F1)) as JS. cbv zeta in JS. rewrite JS.
  unfold urlunparse, urlunsplit. cbn [up_params is_empty up_path up_scheme up_netloc up_query up_frag us_path us_netloc us_scheme us_query us_frag negb orb andb].
  rewrite <- app_comm_cons. destruct (head_of_first first dirs rel H) as (a & s & J & _). rewrite J. cbn [is_empty]. rewrite <- J.
  rewrite local_join, slashed_app. unfold local_dir. now rewrite <- app_assoc.
Qed.

(** ** The sitemap and the host *)

Lemma scheme_colon s : ~ In ":"%char s -> re_match (re_const $"\w+:") s = None.
Proof.
  intros N. apply re_match_none. intros w k c -> H. apply N. vm_compute in H. rinv. rewrite ?cls_single in *.
  repeat match goal with E : ceqb _ _ = true |- _ => apply Ascii.eqb_eq in E; subst end. repeat (rewrite in_app_iff; cbn). auto 10.
Qed.
Lemma part_start p : path_part p -> startswith $"/" p = false.
Proof.
  intros P. destruct (startswith $"/" p) eqn:Q; [|reflexivity]. apply startswith_spec in Q. destruct Q as [t ->]. elim (part_no_slash _ P). left. reflexivity.
Qed.
Lemma sitemap_of c src : unspecified c src -> sitemap c = Ok (src ++ $"/" ++ c_resource_list_name c).
Proof.
  intros (A & _ & B & P & C). unfold sitemap. rewrite A. unfold sitemap_uri. rewrite (scheme_colon _ C), (part_start _ P), B. reflexivity.
Qed.
Lemma web_host scheme host ps : web_source scheme host ps -> uri_host (web_root scheme host ++ slashed ps) = Ok (web_root scheme host).
Proof.
  intros W. unfold uri_host. rewrite (web_split _ _ _ _ W). cbn [bind us_scheme us_netloc]. unfold urlunsplit. cbn [us_path us_netloc us_scheme us_query us_frag is_empty].
  destruct W as (S & HN & _). assert (is_empty host = false) as -> by (destruct host; [contradiction|reflexivity]). cbn [negb orb andb].
  assert (is_empty scheme = false) as -> by (destruct S as [-> | ->]; reflexivity). rewrite app_nil_r. reflexivity.
Qed.
Lemma local_host first dirs l : local_source first dirs -> path_part l -> ~ In ":"%char l -> uri_host (local_dir first dirs ++ $"/" ++ l) = Ok [].
Proof.
  intros (F & C & H) L LC. inversion F as [|? ? F1 F2]; subst.
  assert (local_dir first dirs ++ $"/" ++ l = join $"/" (first :: dirs ++ [l])) as E.
  { rewrite local_join, slashed_app. rewrite slashed_one. unfold local_dir. now rewrite <- app_assoc. }
  unfold uri_host. rewrite E, parse_local; [reflexivity| | | |].
  - constructor; [exact F1|apply Forall_app; auto].
  - discriminate.
  - rewrite <- E. intros I. apply in_app_iff in I. destruct I as [I|I]; [contradiction|]. destruct I as [I|I]; [discriminate|contradiction].
  - apply head_of_first, H.
Qed.
Lemma strip_kept s : match s with a :: _ => has_char a $"file:///" = false | [] => True end -> strip_file s = s.
Proof. unfold strip_file. destruct s as [|a s]; [reflexivity|]. cbn [lstrip]. now intros ->. Qed.

(** ** The order *)

Lemma first_decides (fetch : str -> res str) c ps : forall f otherwise x, f ps otherwise = x ->
  (forall o, f [] o = o) ->
  (forall p ps o, f (p :: ps) o = match attempt fetch c p with Err ClientError => f ps o | y => y end) ->
  (exists before p after, ps = before ++ p :: after /\ Forall (fun q => attempt fetch c q = Err ClientError) before
     /\ attempt fetch c p <> Err ClientError /\ x = attempt fetch c p)
  \/ (Forall (fun q => attempt fetch c q = Err ClientError) ps /\ x = otherwise).
Proof.
  intros f o x <- FN FC. induction ps as [|p ps IH]; [right; split; [constructor|apply FN]|]. rewrite FC.
  assert ({attempt fetch c p = Err ClientError} + {attempt fetch c p <> Err ClientError}) as [Q|Q].
  { destruct (attempt fetch c p) as [d|e]; [right; discriminate|]. destruct e; try (right; discriminate). left. reflexivity. }
  - rewrite Q. destruct IH as [(b & p' & a & -> & F & N & E)|[F E]].
    + left. exists (p :: b), p', a. split; [reflexivity|]. split; [constructor; auto|]. auto.
    + right. split; [constructor; auto|exact E].
  - left. exists [], p, ps. split; [reflexivity|]. split; [constructor|]. split; [exact Q|].
    destruct (attempt fetch c p) as [d|e]; [reflexivity|]. destruct e; try reflexivity. contradiction.
Qed.
Definition chosen (fetch : str -> res str) (c : client) : list candidate -> res rdict -> res rdict :=
  fix go ps o := match ps with [] => o | p :: ps => match attempt fetch c p with Err ClientError => go ps o | y => y end end.
Lemma chosen_first fetch c ps : decided_by_first fetch c ps (chosen fetch c ps (Err ClientFatalError)).
Proof. apply (first_decides fetch c ps (chosen fetch c) (Err ClientFatalError)); reflexivity. Qed.

Lemma well_known_rel : plain_rel [$".well-known"; $"resourcesync"].
Proof.
  unfold plain_rel. split; [|split; [discriminate|split; [apply has_char_false; reflexivity|do 2 eexists; split; [reflexivity|reflexivity]]]].
  repeat constructor; try discriminate; apply forallb_avoids; reflexivity.
Qed.
Lemma xml_rel s : path_part s -> ~ In ":"%char s -> (exists a t, s = a :: t /\ (32 < code a)%N) -> plain_rel [s].
Proof. intros P C H. split; [auto|]. split; [discriminate|]. split; [exact C|exact H]. Qed.
Lemma name_part s : s <> [] -> s <> $"." -> s <> $".." -> forallb (fun c => negb (has_char c $"/?#;")) s = true ->
  forallb (fun c => negb (has_char c [tab; cr; nl])) s = true -> path_part s.
Proof. intros A B C D F. repeat split; auto; [apply forallb_avoids, D|unfold no_breaks; apply forallb_avoids, F]. Qed.
Lemma list_rel : plain_rel [$"resourcelist.xml"].
Proof. apply xml_rel; [apply name_part; try discriminate; reflexivity|apply has_char_false; reflexivity|do 2 eexists; split; reflexivity]. Qed.
Lemma map_rel : plain_rel [$"sitemap.xml"].
Proof. apply xml_rel; [apply name_part; try discriminate; reflexivity|apply has_char_false; reflexivity|do 2 eexists; split; reflexivity]. Qed.

Lemma discovery_web fetch c scheme host dirs : web_source scheme host dirs -> unspecified c (web_root scheme host ++ slashed dirs) ->
  decided_by_first fetch c (documented (web_root scheme host ++ slashed dirs) (web_root scheme host)) (find_resource_list fetch c).
Proof.
  intros W U. pose proof (sitemap_of _ _ U) as SM. destruct U as (A & B & _ & P & _).
  unfold find_resource_list. rewrite A, B, SM. cbn [bind]. set (l := c_resource_list_name c) in *.
  assert ((web_root scheme host ++ slashed dirs) ++ $"/" ++ l = web_root scheme host ++ slashed (dirs ++ [l])) as ->.
  { rewrite slashed_app, <- app_assoc. now rewrite slashed_one. }
  assert (web_source scheme host (dirs ++ [l])) as W' by (destruct W as (? & ? & ? & ? & F); repeat split; auto; apply Forall_app; auto).
  assert (web_source scheme host []) as W0 by (destruct W as (? & ? & ? & ? & F); repeat split; auto).
  rewrite (web_host _ _ _ W'). cbn [bind].
  rewrite (join_web _ _ _ _ _ W P well_known_rel : urljoin _ $".well-known/resourcesync" = _). cbn [bind].
  rewrite (join_host _ _ _ W0 well_known_rel : urljoin _ $".well-known/resourcesync" = _). cbn [bind].
  rewrite (join_web _ _ _ _ _ W P list_rel : urljoin _ $"resourcelist.xml" = _). cbn [bind].
  rewrite (join_web _ _ _ _ _ W P map_rel : urljoin _ $"sitemap.xml" = _). cbn [bind].
  rewrite (join_host _ _ _ W0 map_rel : urljoin _ $"sitemap.xml" = _). cbn [bind].
  assert (forall x, strip_file (web_root scheme host ++ x) = web_root scheme host ++ x) as SK.
  { intros x. apply strip_kept. destruct W as ([-> | ->] & _); reflexivity. }
  match goal with |- decided_by_first _ _ _ ?x => replace x with (chosen fetch c (documented (web_root scheme host ++ slashed dirs) (web_root scheme host)) (Err ClientFatalError)) end; [apply chosen_first|].
  unfold documented, chosen, first_found, attempt. rewrite !slashed_app, !SK, <- !app_assoc. reflexivity.
Qed.
Lemma discovery_local fetch c first dirs : local_source first dirs -> (exists a s, first = a :: s /\ ~ In a $"file:/") -> unspecified c (local_dir first dirs) ->
  decided_by_first fetch c (local_candidates (local_dir first dirs)) (find_resource_list fetch c).
Proof.
  intros L H U. pose proof (sitemap_of _ _ U) as SM. destruct U as (A & B & _ & P & C).
  unfold find_resource_list. rewrite A, B, SM. cbn [bind]. set (l := c_resource_list_name c) in *.
  rewrite (local_host _ _ _ L P C). cbn [bind].
  rewrite (join_local _ _ _ _ L P C well_known_rel : urljoin _ $".well-known/resourcesync" = _). cbn [bind].
  rewrite (join_local _ _ _ _ L P C list_rel : urljoin _ $"resourcelist.xml" = _). cbn [bind].
  rewrite (join_local _ _ _ _ L P C map_rel : urljoin _ $"sitemap.xml" = _). cbn [bind].
  change (urljoin [] $".well-known/resourcesync") with (Ok $".well-known/resourcesync").
  change (urljoin [] $"sitemap.xml") with (Ok $"sitemap.xml"). cbn [bind].
  assert (forall x, strip_file (local_dir first dirs ++ x) = local_dir first dirs ++ x) as SK.
  { intros x. apply strip_kept. unfold local_dir. destruct H as (a & s & -> & N). cbn [app]. apply has_char_false. intros I. apply N. vm_compute in I |- *. tauto. }
  match goal with |- decided_by_first _ _ _ ?x => replace x with (chosen fetch c (local_candidates (local_dir first dirs)) (Err ClientFatalError)) end; [apply chosen_first|].
  unfold local_candidates, chosen, first_found, attempt. rewrite !SK. reflexivity.
Qed.

(** ** What is consulted *)

Lemma read_components_agree {C} (k : kind C) fetch fetch' l iu b us : forall c,
  (forall v, In v us -> (forall u, u = v \/ (exists ms, l_mapper l = Some ms /\ src_to_dst ms v = Ok u) -> fetch' u = fetch u)) ->
  read_components k fetch' l iu b us c = read_components k fetch l iu b us c.
Proof.
  induction us as [|v us IH]; intros c H; [reflexivity|]. cbn [read_components].
  assert (read_component k fetch' l iu b c v = read_component k fetch l iu b c v) as ->.
  { unfold read_component. specialize (H v (or_introl eq_refl)). destruct b; [|cbn [bind]; rewrite (H v (or_introl eq_refl)); reflexivity].
    destruct (negb (is_file_uri v)).
    - destruct (l_mapper l) as [ms|]; [|reflexivity]. destruct (src_to_dst ms v) as [p|e] eqn:S; [|reflexivity]. cbn [bind].
      rewrite (H p); [reflexivity|]. right. exists ms. auto.
    - destruct (l_check l).
      + destruct (authority_over false iu v) as [[]|]; cbn [bind negb]; try reflexivity. rewrite (H v (or_introl eq_refl)). reflexivity.
      + cbn [bind]. rewrite (H v (or_introl eq_refl)). reflexivity. }
  destruct (read_component k fetch l iu b c v) as [c'|e]; [|reflexivity]. cbn [bind]. apply IH. intros v' I. apply H. right. exact I.
Qed.
Lemma read_agree fetch fetch' c uri : (forall u, consulted fetch c uri u -> fetch' u = fetch u) ->
  read_resource_list fetch' c uri = read_resource_list fetch c uri.
Proof.
  intros H. unfold read_resource_list. f_equal. f_equal. unfold list_read. rewrite (H uri (or_introl eq_refl)).
  destruct (fetch uri) as [text|e] eqn:F; [|reflexivity]. cbn [bind]. cbn [l_sm l_name l_doc new_list k_add resource_list_kind k_empty].
  destruct (parse_xml plain_settings (fun r => rl_add r false) (Some $"resourcelist") None (MkDoc [] [] []) text) as [[d i]|e] eqn:P; [|reflexivity].
  cbn [bind]. destruct i; cbn [negb]; [|reflexivity]. cbn [l_allow new_list]. destruct (c_multifile c); cbn [negb]; [|reflexivity].
  cbn [k_uris resource_list_kind bind]. f_equal. apply read_components_agree. intros v I u [->|(ms & Q & S)].
  - apply H. right. exists text, d, v. split; [exact F|]. split; [exact P|]. split; [|left; reflexivity].
    unfold rl_uris in I. rewrite !sort_strs_In in I. exact I.
  - cbn [l_mapper new_list] in Q. injection Q as <-. apply H. right. exists text, d, v. split; [exact F|]. split; [exact P|]. split; [|right; exact S].
    unfold rl_uris in I. rewrite !sort_strs_In in I. exact I.
Qed.
Lemma explicit_sitemap fetch fetch' c s : c_sitemap_name c = Some s -> (forall u, consulted fetch c s u -> fetch' u = fetch u) ->
  find_resource_list fetch' c = find_resource_list fetch c.
Proof. intros S H. unfold find_resource_list. rewrite S. apply read_agree, H. Qed.
Lemma explicit_capability fetch fetch' c s : c_sitemap_name c = None -> c_capability_list c = Some s -> fetch' s = fetch s ->
  (forall rl u, find_from_capability_list fetch s = Ok rl -> consulted fetch c rl u -> fetch' u = fetch u) ->
  find_resource_list fetch' c = find_resource_list fetch c.
Proof.
  intros S C F H. unfold find_resource_list. rewrite S, C.
  assert (find_from_capability_list fetch' s = find_from_capability_list fetch s) as -> by (unfold find_from_capability_list; rewrite F; reflexivity).
  destruct (find_from_capability_list fetch s) as [rl|e] eqn:Q; [|reflexivity]. cbn [bind]. apply read_agree. intros u. apply H. reflexivity.
Qed.

(** ** Unreadable locations *)

Lemma attempt_unreadable fetch c p : unreadable fetch p -> attempt fetch c p = Err ClientError.
Proof.
  intros (e & F & N). destruct p as [u|u]; cbn [attempt].
  - unfold find_from_source_description, list_read. rewrite F. cbn [bind]. destruct e; cbn [wrapped bind]; try reflexivity. contradiction.
  - unfold read_resource_list, list_read. rewrite F. cbn [bind]. destruct e; cbn [wrapped bind]; try reflexivity. contradiction.
Qed.
Lemma chosen_skip fetch c before rest : Forall (fun q => attempt fetch c q = Err ClientError) before ->
  chosen fetch c (before ++ rest) (Err ClientFatalError) = chosen fetch c rest (Err ClientFatalError).
Proof. induction 1 as [|q before Q F IH]; [reflexivity|]. cbn. rewrite Q. exact IH. Qed.
Lemma chosen_here fetch c p rest o : attempt fetch c p <> Err ClientError -> chosen fetch c (p :: rest) o = attempt fetch c p.
Proof.
  intros N. cbn. destruct (attempt fetch c p) as [d|e]; [reflexivity|]. destruct e; try reflexivity. contradiction.
Qed.
Lemma decided_chosen fetch c ps x : decided_by_first fetch c ps x -> x = chosen fetch c ps (Err ClientFatalError).
Proof.
  intros [(b & p & a & -> & B & N & ->)|[B ->]].
  - rewrite (chosen_skip _ _ _ _ B). symmetry. apply chosen_here, N.
  - rewrite <- (app_nil_r ps), (chosen_skip _ _ _ _ B). reflexivity.
Qed.
Lemma unreadable_skipped fetch c before : Forall (unreadable fetch) before -> Forall (fun q => attempt fetch c q = Err ClientError) before.
Proof. intros F. eapply Forall_impl; [|exact F]. intros q. apply attempt_unreadable. Qed.
Lemma decided_first_readable fetch c before u after x d : decided_by_first fetch c (before ++ ResourceList u :: after) x ->
  Forall (unreadable fetch) before -> read_resource_list fetch c u = Ok d -> x = Ok d.
Proof.
  intros D F R. rewrite (decided_chosen _ _ _ _ D), (chosen_skip _ _ _ _ (unreadable_skipped _ _ _ F)). rewrite chosen_here; cbn [attempt]; congruence.
Qed.
Lemma decided_none fetch c ps x : decided_by_first fetch c ps x -> Forall (unreadable fetch) ps -> x = Err ClientFatalError.
Proof.
  intros D F. rewrite (decided_chosen _ _ _ _ D), <- (app_nil_r ps), (chosen_skip _ _ _ _ (unreadable_skipped _ _ _ F)). reflexivity.
Qed.

(** The property for sources on the web. *)
Lemma web_first fetch c scheme host dirs before u after d : web_source scheme host dirs -> unspecified c (web_root scheme host ++ slashed dirs) ->
  documented (web_root scheme host ++ slashed dirs) (web_root scheme host) = before ++ ResourceList u :: after ->
  Forall (unreadable fetch) before -> read_resource_list fetch c u = Ok d -> find_resource_list fetch c = Ok d.
Proof.
  intros W U P F R. pose proof (discovery_web fetch c _ _ _ W U) as D. rewrite P in D. apply (decided_first_readable _ _ _ _ _ _ _ D F R).
Qed.
Lemma web_none fetch c scheme host dirs : web_source scheme host dirs -> unspecified c (web_root scheme host ++ slashed dirs) ->
  Forall (unreadable fetch) (documented (web_root scheme host ++ slashed dirs) (web_root scheme host)) -> find_resource_list fetch c = Err ClientFatalError.
Proof. intros W U F. apply (decided_none _ _ _ _ (discovery_web fetch c _ _ _ W U) F). Qed.
