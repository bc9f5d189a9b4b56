(** * DiskFacts: proofs about directory trees *)

From Verif Require Import Py PyFacts PathSpec OsPath MapperSpec OsPathFacts MapperFacts MapperFacts2 Disk DiskSpec.

Section NodeInd.
  Variable P : node -> Prop.
  Hypothesis HF : forall d m, P (File d m).
  Hypothesis HL : forall b, P (Link b).
  Hypothesis HS : forall m, P (Special m).
  Hypothesis HD : forall es, Forall (fun e => P (snd e)) es -> P (Dir es).
  Fixpoint node_ind2 (n : node) : P n :=
    match n with
    | File d m => HF d m
    | Link b => HL b
    | Special m => HS m
    | Dir es => HD es ((fix go (es : list (str * node)) : Forall (fun e => P (snd e)) es :=
                          match es with
                          | [] => Forall_nil _
                          | e :: es' => Forall_cons e (node_ind2 (snd e)) (go es')
                          end) es)
    end.
End NodeInd.

Lemma tree_sub root x es m : tree_ok root -> root = Dir es -> sget x es = Some m -> tree_ok m.
Proof.
  intros T -> G names es' L. apply (T (x :: names)). cbn. rewrite G. exact L.
Qed.
Lemma tree_lookup names : forall root m, tree_ok root -> lookup names root = Some m -> tree_ok m.
Proof.
  induction names as [|x names IH]; cbn; intros root m T L; [injection L as <-; exact T|].
  destruct root as [| es | |]; try discriminate. destruct (sget x es) as [k|] eqn:G; [|discriminate].
  apply (IH k); auto. apply (tree_sub (Dir es) x es); auto.
Qed.
Lemma lookup_app a : forall b n, lookup (a ++ b) n = match lookup a n with Some m => lookup b m | None => None end.
Proof.
  induction a as [|x a IH]; cbn; intros b n; [reflexivity|].
  destruct n as [| es | |]; auto. destruct (sget x es); auto.
Qed.
Lemma lookup_names names : forall n m, tree_ok n -> lookup names n = Some m -> Forall file_name names.
Proof.
  induction names as [|x names IH]; cbn; intros n m T L; constructor.
  - destruct n as [| es | |]; try discriminate. destruct (sget x es) as [k|] eqn:G; [|discriminate].
    destruct (T [] es eq_refl) as [_ F]. rewrite Forall_forall in F. apply F. apply sget_in in G.
    apply in_map_iff. exists (x, k). auto.
  - destruct n as [| es | |]; try discriminate. destruct (sget x es) as [k|] eqn:G; [|discriminate].
    apply (IH k m); auto. apply (tree_sub (Dir es) x es); auto.
Qed.

(** ** Walking *)

Definition walk_rest (skip : str -> bool) (top : str) : list (str * node) -> list (str * str * node) :=
  fix go es := match es with
               | [] => []
               | (x, m) :: es' => (if skip x then [] else os_walk skip (os_join top x) m) ++ go es'
               end.
Lemma os_walk_dir skip top es : os_walk skip top (Dir es) =
  map (fun e => (top, fst e, snd e)) (filter (fun e => negb (entry_is_dir (snd e))) es) ++ walk_rest skip top es.
Proof. reflexivity. Qed.
Lemma in_walk_rest skip top es w : In w (walk_rest skip top es) <->
  exists x m, In (x, m) es /\ skip x = false /\ In w (os_walk skip (os_join top x) m).
Proof.
  induction es as [|[x m] es IH]; cbn [walk_rest].
  - cbn. split; [tauto|intros (? & ? & [] & _)].
  - rewrite in_app_iff, IH. split.
    + intros [H|(y & k & H & S & W)].
      * exists x, m. destruct (skip x); [destruct H|]. cbn. auto.
      * exists y, k. cbn. auto.
    + intros (y & k & [E|H] & S & W).
      * injection E as -> ->. left. rewrite S. exact W.
      * right. exists y, k. auto.
Qed.

Lemma sget_iff {A} (es : list (str * A)) x m : NoDup (map fst es) -> (In (x, m) es <-> sget x es = Some m).
Proof.
  intros N. split; [|apply sget_in].
  induction es as [|[y k] es IH]; cbn; [tauto|]. inversion N as [|? ? H N']; subst.
  intros [E|I].
  - injection E as -> ->. rewrite str_eqb_refl. reflexivity.
  - destruct (str_eqb_spec x y) as [->|ne]; [|auto]. exfalso. apply H. apply in_map_iff. exists (y, m). auto.
Qed.

Lemma os_walk_in skip n : forall top d x k, tree_ok n -> (In (d, x, k) (os_walk skip top n) <->
  exists rel es, lookup rel n = Some (Dir es) /\ sget x es = Some k /\ entry_is_dir k = false
    /\ Forall (fun c => skip c = false) rel /\ d = fold_left os_join rel top).
Proof.
  induction n as [fd fm|fb|fm|es IH] using node_ind2; intros top d x k T.
  1-3: cbn; split; [tauto|]; intros (rel & es & L & _); destruct rel; discriminate.
  rewrite os_walk_dir, in_app_iff, in_walk_rest. destruct (T [] es eq_refl) as [N _]. split.
  - intros [H|(y & m & I & S & W)].
    + apply in_map_iff in H. destruct H as ([y m] & E & I). apply filter_In in I. destruct I as [I F].
      cbn in *. injection E as <- <- <-. exists [], es. cbn. repeat split; auto.
      * apply sget_iff; auto.
      * apply negb_true_iff. exact F.
    + rewrite Forall_forall in IH. apply (IH (y, m)) in W; auto.
      2:{ apply (tree_sub (Dir es) y es); auto. apply sget_iff; auto. }
      destruct W as (rel & es' & L & G & E & F & ->). exists (y :: rel), es'. cbn.
      apply sget_iff in I; auto. rewrite I. repeat split; auto.
  - intros (rel & es' & L & G & E & F & ->). destruct rel as [|y rel]; cbn in L.
    + injection L as <-. left. apply in_map_iff. exists (x, k). split; [reflexivity|].
      apply filter_In. split; [apply sget_iff; auto|]. cbn. rewrite E. reflexivity.
    + right. destruct (sget y es) as [m|] eqn:Gy; [|discriminate]. exists y, m.
      inversion F as [|? ? Sy F']; subst. split; [apply sget_iff; auto|]. split; [auto|].
      rewrite Forall_forall in IH. apply (IH (y, m)); [apply sget_iff; auto| |].
      * apply (tree_sub (Dir es) y es); auto.
      * exists rel, es'. cbn. auto.
Qed.

(** ** Paths below a directory *)

Lemma endswith_slash s : endswith $"/" s = true <-> exists t, s = t ++ $"/".
Proof.
  unfold endswith. split.
  - intros H. apply startswith_spec in H. destruct H as [t H]. exists (rev t).
    rewrite <- (rev_involutive s), H, rev_app_distr. reflexivity.
  - intros [t ->]. apply startswith_spec. rewrite rev_app_distr. eexists. reflexivity.
Qed.
Lemma name_not_rooted x : file_name x -> startswith $"/" x = false.
Proof.
  intros (N & _ & _ & S). destruct x as [|c x]; [congruence|]. change (ceqb "/" c && true = false).
  destruct (ceqb "/"%char c) eqn:E; [|reflexivity]. apply ceqb_eq in E. subst c. exfalso. apply S. left. reflexivity.
Qed.
Lemma name_no_end_slash x : file_name x -> endswith $"/" x = false.
Proof.
  intros (_ & _ & _ & S). destruct (endswith $"/" x) eqn:E; [|reflexivity].
  apply endswith_slash in E. destruct E as [t ->]. exfalso. apply S. apply in_or_app. right. left. reflexivity.
Qed.
Lemma join_below top x : top <> [] -> file_name x -> os_join top x = below top [x].
Proof.
  intros N F. unfold os_join, below. rewrite (name_not_rooted _ F). cbn [rel_path join].
  destruct top as [|c t]; [congruence|]. destruct (endswith $"/" (c :: t)); [reflexivity|].
  rewrite <- app_assoc. reflexivity.
Qed.
Lemma endswith_app_name t x : file_name x -> endswith $"/" (t ++ x) = false.
Proof.
  intros F. destruct (endswith $"/" (t ++ x)) eqn:E; [|reflexivity].
  apply endswith_slash in E. destruct E as [s E]. destruct F as (N & _ & _ & S).
  destruct (exists_last N) as (x' & c & ->). rewrite app_assoc in E. apply app_inj_tail in E.
  destruct E as [_ ->]. exfalso. apply S. apply in_or_app. right. left. reflexivity.
Qed.
Lemma below_below top x rel : file_name x -> rel <> [] -> below (below top [x]) rel = below top (x :: rel).
Proof.
  intros F N. unfold below at 1. replace (endswith $"/" (below top [x])) with false.
  2:{ symmetry. unfold below. apply endswith_app_name. cbn. exact F. }
  unfold below. cbn [rel_path]. destruct rel as [|y rel]; [congruence|].
  change (join $"/" (x :: y :: rel)) with (x ++ $"/" ++ join $"/" (y :: rel)).
  rewrite <- !app_assoc. reflexivity.
Qed.
Lemma below_nonempty top rel : below top rel <> [].
Proof.
  unfold below. destruct (endswith $"/" top) eqn:E.
  - apply endswith_slash in E. destruct E as [t ->]. destruct t; discriminate.
  - destruct top; discriminate.
Qed.
Lemma fold_join_below rel : forall top, top <> [] -> Forall file_name rel -> rel <> [] ->
  fold_left os_join rel top = below top rel.
Proof.
  induction rel as [|x rel IH]; [congruence|]. intros top N F _. inversion F as [|? ? Fx F']; subst.
  cbn [fold_left]. rewrite join_below; auto. destruct rel as [|y rel].
  - reflexivity.
  - rewrite IH; auto; [|apply below_nonempty|discriminate]. apply below_below; [auto|discriminate].
Qed.
Lemma walk_file_path top rel x : top <> [] -> Forall file_name rel -> file_name x ->
  os_join (fold_left os_join rel top) x = below top (rel ++ [x]).
Proof.
  intros N F Fx. rewrite <- fold_join_below; auto.
  - rewrite fold_left_app. reflexivity.
  - apply Forall_app. auto.
  - destruct rel; discriminate.
Qed.
Lemma rel_path_inj a b : Forall file_name a -> Forall file_name b -> a <> [] -> b <> [] -> rel_path a = rel_path b -> a = b.
Proof.
  intros Fa Fb Na Nb E. rewrite <- (split_join a), <- (split_join b); auto; [|apply names_no_slash; auto..].
  unfold rel_path in E. rewrite E. reflexivity.
Qed.
Lemma below_inj top a b : Forall file_name a -> Forall file_name b -> a <> [] -> b <> [] -> below top a = below top b -> a = b.
Proof. intros Fa Fb Na Nb E. apply app_inv_head in E. apply rel_path_inj; auto. Qed.
