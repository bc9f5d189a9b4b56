(** * ExplorerMainFacts: proofs about resync-explorer *)

From Verif Require Import Py Float64 Mapper Opener ClientUtils Build Sync Explorer ExplorerSpec ExplorerFacts ExplorerEx ExplorerMain.

(** The options that concern all scripts are in order: --checksum comes with --hash, and
    the delay is not negative. *)
Definition shared_ok (a : explorer_args) : Prop :=
  (xa_checksum a = true -> xa_hash a <> None) /\ match xa_delay a with Some d => 0 <= d | None => True end.

Lemma shared_processed a : shared_ok a ->
  exists h, snd (process_options (MkOptions (xa_hash a) (xa_checksum a) (xa_token a) (xa_delay a)) true config0) = Ok h.
Proof.
  intros [C D]. unfold process_options. cbn [o_checksum o_hash o_token o_delay].
  assert (exists h, (if xa_checksum a then match xa_hash a with Some l => Ok (Some (l ++ [$"md5"])) | None => Err AttributeError end
                     else Ok (xa_hash a)) = Ok h) as (h & ->).
  { destruct (xa_checksum a); [|eauto]. destruct (xa_hash a); [eauto|]. now elim (C eq_refl). }
  destruct (xa_delay a) as [d|]; [|cbn; eauto]. destruct (d =? 0); [cbn; eauto|].
  replace (d <? 0) with false by (symmetry; apply Z.ltb_ge; exact D). cbn. eauto.
Qed.

Lemma without_sitemap e a inputs : shared_ok a -> xa_sitemap a = None \/ xa_sitemap a = Some [] ->
  resync_explorer e a inputs = ([], FatalShown).
Proof.
  intros S N. destruct (shared_processed a S) as (h & H). unfold resync_explorer. rewrite H.
  assert (G : given (xa_sitemap a) = None) by (destruct N as [->| ->]; reflexivity). rewrite G. reflexivity.
Qed.

Lemma with_sitemap e a inputs s : shared_ok a -> xa_sitemap a = Some s -> s <> [] ->
  exists l rest o, explore_all e 0 [MkX s AnyDocument None] inputs = (l, rest, o)
    /\ resync_explorer e a inputs =
       (l, match o with Finished => Done | EndOfInput => Died PlainException
           | Failed ClientFatalError => FatalShown | Failed x => Died x end).
Proof.
  intros S N NE. destruct (shared_processed a S) as (h & H). unfold resync_explorer. rewrite H, N.
  destruct s as [|c s]; [now elim NE|]. cbn [given]. unfold explore. cbn [start_points].
  destruct (explore_all e 0 [MkX (c :: s) AnyDocument None] inputs) as [[l rest] o]. exists l, rest, o. split; [reflexivity|].
  destruct o as [| |x]; try reflexivity. destruct x; reflexivity.
Qed.

Definition same_start (a b : explorer_args) : Prop :=
  xa_sitemap a = xa_sitemap b /\ xa_hash a = xa_hash b /\ xa_checksum a = xa_checksum b
  /\ xa_token a = xa_token b /\ xa_delay a = xa_delay b.
Lemma same_explored e a b inputs : same_start a b -> resync_explorer e a inputs = resync_explorer e b inputs.
Proof. intros (A & B & C & D & F). unfold resync_explorer. now rewrite A, B, C, D, F. Qed.

Definition no_args : explorer_args := MkExplorerArgs None None false None None None false false None.
Definition ex_args : explorer_args := MkExplorerArgs (Some $"/s/c.xml") None false None None None false false None.

Lemma script_quits e a s ins n' x h l o t rest : shared_ok a -> xa_sitemap a = Some s -> s <> [] ->
  reaches e 0 [MkX s AnyDocument None] ins n' (x :: h) -> show_page e n' x = (l, Ok (o, t)) ->
  exists ls, resync_explorer e a (ins ++ $"q" :: rest) = (ls ++ [Bye], Done).
Proof.
  intros S N NE R P. destruct (with_sitemap e a (ins ++ $"q" :: rest) s S N NE) as (l' & rest' & o' & E & X).
  destruct (quit_anywhere e 0 (MkX s AnyDocument None) [] ins n' x h l o t rest R P) as (ls & Q).
  rewrite Q in E. injection E as <- <- <-. rewrite X. eauto.
Qed.

Lemma input_ends e a : shared_ok a -> forall s, xa_sitemap a = Some s -> s <> [] -> forall l o t,
  show_page e 0 (MkX s AnyDocument None) = (l, Ok (o, t)) -> exists ls, resync_explorer e a [] = (ls, Died PlainException).
Proof.
  intros S s N NE l o t P. destruct (with_sitemap e a [] s S N NE) as (l' & rest & o' & E & X).
  unfold explore_all, explore_from in E. cbn [List.length explore_loop] in E. unfold explore_uri in E. rewrite P in E. cbn [choose] in E.
  injection E as <- <- <-. rewrite X. eauto.
Qed.
