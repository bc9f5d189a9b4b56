(** * ClientPlaces: where mapped paths lead *)

From Verif Require Import Py PyFacts PathSpec OsPath OsPathFacts Regex RegexFacts Mapper MapperSpec MapperFacts MapperFacts2
  Resource Disk DiskSpec DiskFacts DiskChange Builder BuilderSpec BuilderFacts Client ClientSpec ClientFacts ClientRuns.

Lemma split_on_app_any c a b : split_on c (a ++ c :: b) = split_on c a ++ split_on c b.
Proof.
  induction a as [|x a IH]; cbn [app split_on].
  - now rewrite ceqb_refl.
  - rewrite IH. destruct (ceqb x c); [reflexivity|]. pose proof (split_on_nonempty c a).
    destruct (split_on c a); [congruence|]. reflexivity.
Qed.

(** The path of a base and what follows. *)
Lemma denotes_base cwd d x : denotes cwd (d ++ $"/" ++ x) = walk (denotes cwd (d ++ $"/")) (split_on "/" x).
Proof.
  unfold denotes. change ($"/" ++ x) with ("/"%char :: x). change $"/" with ["/"%char].
  assert (startswith ["/"%char] (d ++ ["/"%char]) = startswith ["/"%char] (d ++ "/"%char :: x)) as -> by (destruct d; reflexivity).
  rewrite !split_on_app_any, !walk_app. reflexivity.
Qed.
Lemma denotes_slash cwd d : d <> [] -> denotes cwd (d ++ $"/") = denotes cwd d.
Proof.
  intros N. unfold denotes. assert (startswith $"/" (d ++ $"/") = startswith $"/" d) as -> by (destruct d; [congruence|reflexivity]).
  change $"/" with ["/"%char]. rewrite split_on_app_any, walk_app. reflexivity.
Qed.
Lemma walk_inside comps : (forall c, In c comps -> c <> $"..") -> forall dir, inside dir (walk dir comps).
Proof.
  intros N. induction comps as [|c comps IH]; intros dir; [exists []; now rewrite app_nil_r|]. cbn [walk].
  assert (forall x, In x comps -> x <> $"..") as N' by (intros x I; apply N; right; exact I).
  destruct (str_eqb c [] || str_eqb c $"."); [auto|].
  destruct (str_eqb_spec c $"..") as [->|_]; [destruct (N $".."); [left|]; reflexivity|].
  destruct (IH N' (dir ++ [c])) as (rest & ->). exists (c :: rest). now rewrite <- app_assoc.
Qed.

(** The path the mapper gives is a destination followed by a slash and something. *)
Lemma map_base_form b d s out : plain b -> map_base b d s = Ok (Some out) ->
  exists w rest t, s = w ++ rest ++ t /\ like b w /\ (t = [] \/ t = [nl]) /\
  ((rest = [] /\ out = d ++ $"/") \/ (exists x, rest = "/"%char :: x /\ out = d ++ rest)).
Proof.
  intros P H. unfold map_base in H. rewrite compile_base in H by auto. cbn [bind] in H.
  destruct (re_match _ s) as [st|] eqn:E; [|discriminate].
  apply re_match_sound in E as (w & k & c & E & -> & H').
  apply R_cats_base in H' as (w1 & w2 & -> & L & H'); [|easy]. apply R_tail in H' as (K & H').
  exists w1, w2, k. split; [rewrite app_assoc; exact E|]. split; [exact L|]. split; [exact K|].
  destruct H' as [[-> ->]|(x & -> & _ & ->)]; injection H as <-; [left; auto|right].
  exists x. auto.
Qed.
Lemma src_to_dst_form ms u p : (forall k, In k ms -> plain (src_uri k)) -> src_to_dst ms u = Ok p ->
  exists m x, In m ms /\ p = dst_path m ++ $"/" ++ x /\ (one_line u -> incl (split_on "/" x) ([] :: split_on "/" u)).
Proof.
  intros P. induction ms as [|m ms IH]; cbn [src_to_dst]; [discriminate|].
  destruct (map_src_to_dst m u) as [[q|]|e] eqn:M; cbn [bind]; [|intros H|discriminate].
  - intros [= ->]. unfold map_src_to_dst in M. apply map_base_form in M; [|apply P; left; reflexivity].
    destruct M as (w & rest & t & E & _ & K & [[-> ->]|(x & -> & ->)]).
    + exists m, []. split; [left; reflexivity|]. split; [reflexivity|]. intros _ c [<-|[]]. left. reflexivity.
    + exists m, x. split; [left; reflexivity|]. split; [reflexivity|]. intros O c I. right.
      assert (t = []) as -> by (destruct K as [|K]; [assumption|]; exfalso; apply O; rewrite E, K, !in_app_iff; right; right; left; reflexivity).
      rewrite app_nil_r in E. rewrite E, split_on_app_any. apply in_app_iff. right. exact I.
  - destruct IH as (m' & x & I & R); [intros k I; apply P; right; exact I|exact H|]. exists m', x. split; [right; exact I|exact R].
Qed.

Lemma place_inside E c u q : (forall k, In k (c_mapper c) -> plain (src_uri k)) -> one_line u -> no_dotdot u ->
  place_of E c u q -> in_mapped_dir E c q.
Proof.
  intros P O N (p & S & ->). apply src_to_dst_form in S; [|exact P]. destruct S as (m & x & I & -> & C).
  exists m. split; [exact I|]. rewrite denotes_base. apply walk_inside. intros y Iy ->.
  apply (C O) in Iy. destruct Iy as [Iy|Iy]; [discriminate|]. exact (N Iy).
Qed.

(** ** Files below the mapped directories *)

Lemma found_inside E root m rel file n : found_at [] (e_cwd E) root (dst_path m) rel file n -> tree_ok root ->
  no_end_slash (dst_path m) ->
  Forall file_name rel /\ dst_path m <> [] /\
  resolve (e_cwd E) file = denotes (e_cwd E) (dst_path m) ++ rel /\ leaf_at root (resolve (e_cwd E) file) = Some n
  /\ (rel <> [] -> file = dst_path m ++ $"/" ++ rel_path rel).
Proof.
  intros (IF & F) T NS. destruct rel as [|x rel].
  - destruct F as (L & -> & _). split; [constructor|].
    assert (dst_path m <> []) as NE by (intros Z; rewrite Z in L; discriminate).
    split; [exact NE|]. rewrite resolve_denotes, app_nil_r. split; [reflexivity|].
    split; [|congruence]. rewrite <- resolve_denotes. unfold lstat in L. destruct (dst_path m) as [|ch p]; [congruence|].
    unfold leaf_at. destruct (lookup _ root) as [[d mt|es|b|mt]|]; try discriminate; try (destruct (means_dir (ch :: p)); congruence).
    injection L as <-. destruct IF as [(? & ? & ?)|(? & ?)]; discriminate.
  - destruct F as (es & L & G & -> & _). apply lstat_dir in L. destruct L as [NE L].
    assert (tree_ok (Dir es)) as TD.
    { intros names es' Q. apply (T (resolve (e_cwd E) (dst_path m) ++ names)). rewrite lookup_app, L. exact Q. }
    assert (Forall file_name (x :: rel)) as FN by (apply (lookup_names (x :: rel) (Dir es) n TD G)).
    split; [exact FN|]. split; [exact NE|].
    assert (resolve (e_cwd E) (below (dst_path m) (x :: rel)) = denotes (e_cwd E) (dst_path m) ++ x :: rel) as R.
    { rewrite below_no_slash by exact NS. rewrite resolve_denotes, denotes_base, denotes_slash by exact NE.
      unfold rel_path. rewrite walk_split_join.
      - apply walk_names, FN.
      - eapply Forall_impl; [|exact FN]. intros a (_ & _ & _ & Q). exact Q. }
    split; [exact R|]. split; [|intros _; apply below_no_slash; exact NS].
    rewrite R. unfold leaf_at. rewrite <- resolve_denotes, lookup_app, L, G.
    destruct n; auto. destruct IF as [(? & ? & ?)|(? & ?)]; discriminate.
Qed.

(** The URI of a destination that is itself a file. *)
Lemma dst_to_src_base ms m : In m ms -> (forall k, In k ms -> plain (dst_path k)) -> one_line (dst_path m) ->
  (forall i j a b s, i <> j -> nth_error ms i = Some a -> nth_error ms j = Some b -> ~ (applies (dst_path a) s /\ applies (dst_path b) s)) ->
  dst_to_src ms (dst_path m) = Ok (src_uri m ++ $"/").
Proof.
  intros I P O D. apply In_nth_error in I as (i & E).
  assert (applies (dst_path m) (dst_path m)) as A.
  { exists (dst_path m), []. rewrite app_nil_r. split; [reflexivity|]. split; [now apply like_self|auto]. }
  assert (forall j k, (j < i)%nat -> nth_error ms j = Some k -> ~ applies (dst_path k) (dst_path m)) as N.
  { intros j k J Ek B. apply (D j i k m (dst_path m)); auto; lia. }
  clear D. revert i E N P. induction ms as [|k ms IH]; intros [|i]; cbn [nth_error]; try discriminate; intros E N P; cbn [dst_to_src].
  - injection E as ->. unfold map_dst_to_src. rewrite (map_base_applies (dst_path m) (src_uri m) _ (dst_path m) []); auto;
      [apply P; now left|now rewrite app_nil_r|now apply like_self].
  - unfold map_dst_to_src. rewrite map_base_none; auto; [|apply P; now left|apply (N 0%nat k); [lia|reflexivity]]. cbn [bind].
    apply (IH i E).
    + intros j k' J Ek. apply (N (S j)); [lia|exact Ek].
    + intros k' I. apply P. now right.
Qed.

(** The place of a local file's URI is where the file is. *)
Lemma local_file_uri E c w file u : world_ok E w -> mappings_apart (c_mapper c) -> one_line_names (w_root w) ->
  local_file E c w file u ->
  exists m rel n, In m (c_mapper c) /\ found_at [] (e_cwd E) (w_root w) (dst_path m) rel file n
    /\ Forall file_name rel /\ Forall one_line rel /\ leaf_at (w_root w) (denotes (e_cwd E) file) = Some n
    /\ denotes (e_cwd E) file = denotes (e_cwd E) (dst_path m) ++ rel
    /\ u = src_uri m ++ $"/" ++ rel_path rel
    /\ exists p, src_to_dst (c_mapper c) u = Ok p /\ denotes (e_cwd E) p = denotes (e_cwd E) file.
Proof.
  intros (T & _ & _) MA OL (m & rel & n & I & F & D). pose proof MA as [M1 M2]. destruct (M1 m I) as (P1 & P2 & O1 & O2 & NS).
  pose proof (found_inside _ _ _ _ _ _ F T NS) as (FN & NE & R & L & Q).
  assert (Forall one_line rel) as OR.
  { destruct rel as [|x rel]; [constructor|]. destruct F as (_ & es & LS & G & _). apply lstat_dir in LS. destruct LS as [_ LS].
    assert (lookup (resolve (e_cwd E) (dst_path m) ++ x :: rel) (w_root w) = Some n) as K by (rewrite lookup_app, LS; exact G).
    apply OL in K. apply Forall_app in K. apply K. }
  assert (one_line (rel_path rel)) as ORP by (apply rel_path_one_line, OR).
  exists m, rel, n. split; [exact I|]. split; [exact F|]. split; [exact FN|]. split; [exact OR|].
  rewrite resolve_denotes in R, L. split; [exact L|]. split; [exact R|].
  assert (forall k, In k (c_mapper c) -> plain (src_uri k) /\ plain (dst_path k) /\ one_line (src_uri k) /\ one_line (dst_path k)) as M1'
    by (intros k K; destruct (M1 k K) as (? & ? & ? & ? & _); auto).
  destruct (multi_round_trip_plain _ _ (rel_path rel) I M1' M2 ORP) as [RT1 RT2].
  assert (u = src_uri m ++ $"/" ++ rel_path rel) as ->.
  { destruct rel as [|x rel]; [|rewrite Q in D by discriminate; congruence].
    destruct F as (_ & _ & -> & _). rewrite (dst_to_src_base _ _ I) in D; [injection D as <-; reflexivity| | |].
    - intros k K. apply (M1 k K).
    - exact O2.
    - intros i j a b s NJ A B. apply (M2 i j a b s NJ A B). }
  split; [reflexivity|]. exists (dst_path m ++ $"/" ++ rel_path rel). split; [exact RT1|].
  destruct rel as [|x rel]; [|rewrite <- Q by discriminate; reflexivity].
  rewrite R, app_nil_r. change (rel_path []) with (@nil ascii). rewrite app_nil_r. apply denotes_slash, NE.
Qed.
Lemma local_file_place E c w file u q : world_ok E w -> mappings_apart (c_mapper c) -> one_line_names (w_root w) ->
  local_file E c w file u -> place_of E c u q -> q = denotes (e_cwd E) file.
Proof.
  intros W A O L (p & S & ->). destruct (local_file_uri _ _ _ _ _ W A O L) as (m & rel & n & _ & _ & _ & _ & _ & _ & _ & p' & S' & D).
  congruence.
Qed.
Lemma local_file_inside E c w file u q : world_ok E w -> mappings_apart (c_mapper c) -> one_line_names (w_root w) ->
  local_file E c w file u -> place_of E c u q -> in_mapped_dir E c q.
Proof.
  intros W A O L P. rewrite (local_file_place _ _ _ _ _ _ W A O L P).
  destruct (local_file_uri _ _ _ _ _ W A O L) as (m & rel & n & I & F & _ & _ & _ & D & _).
  exists m. split; [exact I|]. exists rel. rewrite D, denotes_slash; [reflexivity|].
  destruct (proj1 A m I) as (_ & _ & _ & _ & NS). destruct (found_inside _ _ _ _ _ _ F (proj1 W) NS) as (_ & NE & _). exact NE.
Qed.
