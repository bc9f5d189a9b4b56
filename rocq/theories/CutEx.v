(** * CutEx: a resource list cut in the middle *)

From Verif Require Import Py PyFacts Xml Sitemap SitemapSpec SitemapExamples SitemapProps Client ClientExamples CutSpec.

(** The documents without their last characters. *)
Definition cut_fetch (n : nat) (fetch : str -> res str) (u : str) : res str :=
  let* t := fetch u in Ok (firstn (List.length t - n) t).

Lemma cut_fetch_cut fetch n : (forall u t, fetch u = Ok t -> t <> []) -> (0 < n)%nat -> cut_documents fetch (cut_fetch n fetch).
Proof.
  intros NE N u. unfold cut_fetch. destruct (fetch u) as [t|e] eqn:F; [right|now left]. cbn [bind].
  exists t, (firstn (List.length t - n) t). split; [reflexivity|]. split; [reflexivity|].
  exists (skipn (List.length t - n) t). split; [|now rewrite firstn_skipn].
  intros E. apply (f_equal (@List.length ascii)) in E. rewrite skipn_length in E. cbn in E.
  destruct t as [|a t]; [now elim (NE u [] F)|]. cbn [List.length] in E. lia.
Qed.

Lemma two_nonempty u t : e_fetch (ex_env two_resources two_contents) u = Ok t -> t <> [].
Proof.
  cbn [ex_env e_fetch]. unfold fetch_from, two_resources. cbn [sget]. 
  intros H ->. revert H. repeat (destruct (str_eqb _ _); [vm_compute; discriminate|]). discriminate.
Qed.

Definition cut_env : env := with_fetch (cut_fetch 1 (e_fetch (ex_env two_resources two_contents))) (ex_env two_resources two_contents).

Lemma cut_refused_run : baseline_or_audit cut_env (ex_client one_mapping) true false (start old_tree None)
  = (start old_tree None, Err ClientError).
Proof. vm_compute. reflexivity. Qed.

Lemma whole_read : exists src, find_resource_list (e_fetch (ex_env two_resources two_contents)) (ex_client one_mapping) = Ok src.
Proof. eexists. vm_compute. reflexivity. Qed.
