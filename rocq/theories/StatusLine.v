(** * StatusLine: the lines that tell how a run went *)

From Verif Require Import Py PyFacts W3C Url UrlAuthority OsPath Mapper Resource Container Capability Xml Sitemap Hashes ListIndex
  Disk Builder ClientState Client ClientSpec.

(** ** Specification *)

(** The words with which a run ends, and those for what it did or would do. *)
Definition ends : list str := [$"IN SYNC"; $"NO CHANGES"; $"NOT IN SYNC"; $"SYNCED"; $"PART SYNCED"; $"CHANGES APPLIED"; $"PART APPLIED"].
Definition deeds : list (str * str * str) :=
  [($"created", $"updated", $"deleted"); ($"to create", $"to update", $"to delete"); ($"created", $"updated", $"to delete (--delete)")].
Definition standard (s : status) : Prop := In (st_word s) ends /\ In (st_words s) deeds.

(** ** What is logged *)

Section Logs.
Variable old : list event.
Definition fine (ev : event) : Prop := match ev with Logged s => In ev old \/ standard s | _ => True end.
Definition keeps {A} (m : act A) : Prop := forall w w' x, m w = (w', x) -> Forall fine (w_log w) -> Forall fine (w_log w').
Lemma keeps_same {A} (m : act A) : (forall w, w_log (fst (m w)) = w_log w) -> keeps m.
Proof. intros S w w' x H L. specialize (S w). rewrite H in S. cbn [fst] in S. now rewrite S. Qed.
Lemma keeps_bind {A B} (m : act A) (k : A -> act B) : keeps m -> (forall a, keeps (k a)) -> keeps (andthen m k).
Proof.
  intros M K w w' x H L. unfold andthen in H. destruct (m w) as [w1 [a|e]] eqn:E.
  - apply (K a _ _ _ H), (M _ _ _ E L).
  - injection H as <- _. exact (M _ _ _ E L).
Qed.
Lemma keeps_lift {A} (r : res A) : keeps (lift r). Proof. now apply keeps_same. Qed.
Lemma keeps_ret {A} (a : A) : keeps (ret a). Proof. now apply keeps_same. Qed.
Lemma keeps_raise {A} e : keeps (@raise A e). Proof. now apply keeps_same. Qed.
Lemma keeps_status in_sync incremental audit same c u d t : keeps (log_status in_sync incremental audit same c u d t).
Proof.
  intros w w' x H L. unfold log_status in H. injection H as <- _. cbn [w_log with_log]. apply Forall_app. split; [exact L|].
  constructor; [|constructor]. cbn [fine]. right. unfold standard, ends, deeds.
  destruct in_sync, incremental, audit, (d <? t); cbn [st_word st_words In]; auto 12.
Qed.
Lemma keeps_download E c left uri fn : keeps (download E c left uri fn).
Proof.
  apply keeps_same. induction left as [|left IH]; intros w; [reflexivity|]. cbn [download].
  assert (A : w_log (fst (attempt E uri fn w)) = w_log w).
  { unfold attempt. destruct (e_get _ _ _); [reflexivity|destruct (write_file _ _ _ _ _); reflexivity|destruct (write_file _ _ _ _ _); reflexivity]. }
  destruct (attempt E uri fn w) as [w1 [u|e]]; cbn [fst] in A; [exact A|].
  destruct e; try exact A. destruct left; [exact A|]. rewrite IH. exact A.
Qed.
Lemma keeps_log ev : (forall s, ev <> Logged s) -> keeps (log ev).
Proof.
  intros N w w' x [= <- _] L. cbn [w_log with_log]. apply Forall_app. split; [exact L|]. constructor; [|constructor]. destruct ev; [now elim (N s)|exact I|exact I].
Qed.
Lemma keeps_check E d r : keeps (check_hashes E d r).
Proof.
  intros w w' x [= <- _] L. cbn [w_log with_log]. apply Forall_app. split; [exact L|].
  assert (H : forall name (o : option str) (f : str -> str), Forall fine (match o with
    | Some x => if in_strs name (w_hashes w) && negb (str_eqb x (f d)) then [HashDiffers name (r_uri r)] else [] | None => [] end)).
  { intros name [y|] f; [|constructor]. destruct (_ && _); repeat constructor. }
  apply Forall_app. split; [apply H|]. apply Forall_app. split; apply H.
Qed.
Lemma keeps_update E c r fn : keeps (update_resource E c r fn).
Proof.
  unfold update_resource. apply keeps_bind; [apply keeps_same; intros w; destruct (mkpath _ _ _); reflexivity|intros _].
  destruct (c_dryrun c); [apply keeps_ret|]. apply keeps_bind; [apply keeps_download|]. intros [b|]; [|apply keeps_ret].
  apply keeps_bind.
  - destruct (r_timestamp r); [|apply keeps_ret]. apply keeps_bind; [apply keeps_same; intros w; destruct (utime _ _ _ _); reflexivity|intros _].
    apply keeps_same. intros w. unfold modify. cbn [fst]. destruct (_ <? _); reflexivity.
  - intros _. apply keeps_bind; [now apply keeps_same|]. intros data. apply keeps_bind.
    + destruct (r_length r); [|apply keeps_ret]. destruct (_ =? _); [apply keeps_ret|apply keeps_log; discriminate].
    + intros _. apply keeps_bind; [apply keeps_check|]. intros _. apply keeps_ret.
Qed.
Lemma keeps_delete E c allow r fn : keeps (delete_resource E c allow r fn).
Proof.
  unfold delete_resource. apply keeps_bind.
  - apply keeps_same. intros w. unfold modify. cbn [fst]. destruct (r_timestamp r); [destruct (_ <? _)|]; reflexivity.
  - intros _. destruct (_ && _); [|apply keeps_ret]. apply keeps_same. intros w. destruct (unlink _ _ _); reflexivity.
Qed.
Lemma keeps_each c f rs : (forall r fn, keeps (f r fn)) -> keeps (for_each c f rs).
Proof.
  intros F. induction rs as [|r rs IH]; cbn [for_each]; [apply keeps_ret|]. apply keeps_bind; [apply keeps_lift|]. intros fn.
  apply keeps_bind; [apply F|]. intros n. apply keeps_bind; [exact IH|]. intros m. apply keeps_ret.
Qed.
Lemma keeps_store E c : keeps (store_last E c).
Proof.
  unfold store_last. apply keeps_bind; [apply keeps_lift|]. intros sm. apply keeps_bind.
  - apply keeps_same. intros w. destruct (set_state _ _ _ _) as [f [e|]]; reflexivity.
  - intros _. apply keeps_same. intros w. destruct (datetime_to_str _ _); reflexivity.
Qed.
Lemma keeps_store_if E c : keeps (fun w => if 0 <? w_last w then store_last E c w else (w, Ok tt)).
Proof. intros w w' x H L. destruct (0 <? w_last w); [apply (keeps_store _ _ _ _ _ H L)|injection H as <- _; exact L]. Qed.
Lemma keeps_baseline E c allow audit : keeps (baseline_or_audit E c allow audit).
Proof.
  unfold baseline_or_audit. destruct (match c_mapper c with [] => _ | _ => _ end); [apply keeps_raise|].
  apply keeps_bind; [apply keeps_lift|]. intros [|]; [apply keeps_raise|]. apply keeps_bind; [apply keeps_lift|]. intros src.
  destruct (match src with [] => _ | _ => _ end); [apply keeps_raise|].
  apply keeps_bind; [apply keeps_same; intros w; destruct (w_hashes w); reflexivity|]. intros _.
  apply keeps_bind; [now apply keeps_same|]. intros dst. apply keeps_bind; [apply keeps_lift|]. intros cmp. apply keeps_bind; [apply keeps_status|]. intros _.
  destruct (_ || _); [apply keeps_ret|]. unfold synchronize. apply keeps_bind; [apply keeps_lift|]. intros _. apply keeps_bind; [now apply keeps_same|]. intros _.
  apply keeps_bind; [apply keeps_each, keeps_update|]. intros nc. apply keeps_bind; [apply keeps_each, keeps_update|]. intros nu.
  apply keeps_bind; [apply keeps_each, keeps_delete|]. intros nd. apply keeps_bind; [apply keeps_store_if|]. intros _. apply keeps_status.
Qed.
Lemma keeps_changes E c allow rs : keeps (apply_changes E c allow rs).
Proof.
  induction rs as [|r rs IH]; cbn [apply_changes]; [apply keeps_ret|]. apply keeps_bind; [apply keeps_lift|]. intros fn. apply keeps_bind.
  - destruct (change_is $"updated" r); [apply keeps_bind; [apply keeps_update|intros _; apply keeps_ret]|].
    destruct (change_is $"created" r); [apply keeps_bind; [apply keeps_update|intros _; apply keeps_ret]|].
    destruct (change_is $"deleted" r); [apply keeps_bind; [apply keeps_delete|intros k; apply keeps_ret]|apply keeps_raise].
  - intros n. apply keeps_bind; [exact IH|]. intros m. apply keeps_ret.
Qed.
Lemma keeps_incremental E c allow clu from_dt : keeps (incremental E c allow clu from_dt).
Proof.
  unfold incremental. destruct (match c_mapper c with [] => _ | _ => _ end); [apply keeps_raise|].
  apply keeps_bind; [apply keeps_lift|]. intros [|]; [apply keeps_raise|]. apply keeps_bind; [now apply keeps_same|]. intros from. cbv zeta.
  apply keeps_bind; [apply keeps_lift|]. intros uri. apply keeps_bind; [apply keeps_lift|]. intros l.
  apply keeps_bind; [apply keeps_same; intros w; destruct (w_hashes w); reflexivity|]. intros _. apply keeps_bind; [now apply keeps_same|]. intros _.
  apply keeps_bind; [apply keeps_lift|]. intros last. apply keeps_bind; [now apply keeps_same|]. intros _. apply keeps_bind; [apply keeps_lift|]. intros _.
  unfold apply_change_list. apply keeps_bind; [apply keeps_lift|]. intros pruned. apply keeps_bind; [apply keeps_lift|]. intros _. cbv zeta.
  destruct (negb _); [apply keeps_raise|]. apply keeps_bind; [apply keeps_status|]. intros _. destruct (_ || _); [apply keeps_ret|].
  apply keeps_bind; [apply keeps_changes|]. intros n. apply keeps_bind; [apply keeps_status|]. intros _. apply keeps_store_if.
Qed.
End Logs.
Lemma old_fine l : Forall (fine l) l.
Proof. apply Forall_forall. intros [s| |] I; cbn [fine]; auto. Qed.
Lemma baseline_standard E c allow audit w w' x s : baseline_or_audit E c allow audit w = (w', x) ->
  In (Logged s) (w_log w') -> In (Logged s) (w_log w) \/ standard s.
Proof.
  intros H I. pose proof (keeps_baseline (w_log w) E c allow audit w w' x H (old_fine _)) as F. rewrite Forall_forall in F. exact (F _ I).
Qed.
Lemma incremental_standard E c allow clu from_dt w w' x s : incremental E c allow clu from_dt w = (w', x) ->
  In (Logged s) (w_log w') -> In (Logged s) (w_log w) \/ standard s.
Proof.
  intros H I. pose proof (keeps_incremental (w_log w) E c allow clu from_dt w w' x H (old_fine _)) as F. rewrite Forall_forall in F. exact (F _ I).
Qed.

(** ** The text *)

Definition head (word : str) : str := $"Status: " ++ repeat " "%char (15 - List.length word)%nat ++ word.
Definition tail (s : status) : str :=
  match st_same s with None => [] | Some n => $"same=" ++ print_int n ++ $", " end
  ++ fst (fst (st_words s)) ++ $"=" ++ print_int (st_created s) ++ $", "
  ++ snd (fst (st_words s)) ++ $"=" ++ print_int (st_updated s) ++ $", "
  ++ snd (st_words s) ++ $"=" ++ print_int (st_deleted s) ++ $")".
Lemma line_parts s : status_line s = head (st_word s) ++ $" (" ++ tail s.
Proof. unfold status_line, head, tail. destruct (st_words s) as [[c u] d]. cbn [fst snd]. rewrite <- !app_assoc. reflexivity. Qed.
Lemma head_length word : In word ends -> List.length (head word) = 23%nat /\ ~ In "("%char (head word).
Proof.
  intros I. cbn [ends In] in I. destruct I as [<-|[<-|[<-|[<-|[<-|[<-|[<-|[]]]]]]]]; (split; [vm_compute; reflexivity|vm_compute; intuition discriminate]).
Qed.
Lemma line_column s : standard s -> exists first rest, status_line s = first ++ $" (" ++ rest /\ List.length first = 23%nat /\ ~ In "("%char first
  /\ exists pad, first = $"Status: " ++ repeat " "%char pad ++ st_word s.
Proof.
  intros [W _]. exists (head (st_word s)), (tail s). split; [apply line_parts|]. destruct (head_length _ W) as [L N]. split; [exact L|]. split; [exact N|].
  exists (15 - List.length (st_word s))%nat. reflexivity.
Qed.

Lemma app_same_length {A} (a b x y : list A) : List.length a = List.length b -> a ++ x = b ++ y -> a = b /\ x = y.
Proof.
  revert b. induction a as [|c a IH]; intros [|d b] L E; try discriminate; [auto|]. injection E as -> E. injection L as L.
  destruct (IH _ L E) as [-> ->]. auto.
Qed.
Lemma before_char c (a b x y : str) : ~ In c a -> ~ In c b -> a ++ c :: x = b ++ c :: y -> a = b /\ x = y.
Proof.
  revert b. induction a as [|d a IH]; intros [|e b] NA NB E.
  - injection E as ->. auto.
  - injection E as -> _. elim NB. left. reflexivity.
  - injection E as -> _. elim NA. left. reflexivity.
  - injection E as -> E. destruct (IH b) as [-> ->]; auto; intros I; [apply NA|apply NB]; right; exact I.
Qed.
Lemma int_chars c n : is_digit c = false -> c <> "-"%char -> ~ In c (print_int n).
Proof.
  intros D M I. unfold print_int in I.
  assert (X : forall k, ~ In c (print_nat k)) by (intros k J; pose proof (proj1 (forallb_forall _ _) (print_nat_digits k) c J); congruence).
  destruct (n <? 0); [destruct I as [I|I]; [congruence|]|]; elim (X _ I).
Qed.
Lemma int_before c a b x y : is_digit c = false -> c <> "-"%char -> print_int a ++ c :: x = print_int b ++ c :: y -> a = b /\ x = y.
Proof.
  intros D M E. destruct (before_char c _ _ _ _ (int_chars c a D M) (int_chars c b D M) E) as [P ->]. split; [|reflexivity].
  pose proof (parse_print_int a) as A. rewrite P, parse_print_int in A. congruence.
Qed.
Definition numbers (t : str * str * str) (c u d : Z) : str :=
  fst (fst t) ++ $"=" ++ print_int c ++ $", " ++ snd (fst t) ++ $"=" ++ print_int u ++ $", " ++ snd t ++ $"=" ++ print_int d ++ $")".
Lemma numbers_same p q r c u d c' u' d' : numbers (p, q, r) c u d = numbers (p, q, r) c' u' d' -> c = c' /\ u = u' /\ d = d'.
Proof.
  unfold numbers. cbn [fst snd]. intros E. apply app_inv_head in E. injection E as E.
  apply (int_before ","%char) in E; [|reflexivity|discriminate]. destruct E as [-> E]. injection E as E.
  apply app_inv_head in E. injection E as E. apply (int_before ","%char) in E; [|reflexivity|discriminate]. destruct E as [-> E]. injection E as E.
  apply app_inv_head in E. injection E as E. apply (int_before ")"%char) in E; [|reflexivity|discriminate]. destruct E as [-> _]. auto.
Qed.
Lemma numbers_words t t' c u d c' u' d' : In t deeds -> In t' deeds -> numbers t c u d = numbers t' c' u' d' -> t = t' /\ c = c' /\ u = u' /\ d = d'.
Proof.
  intros I I' E. assert (Q : t = t').
  { cbn [deeds In] in I, I'. destruct I as [<-|[<-|[<-|[]]]], I' as [<-|[<-|[<-|[]]]]; try reflexivity; try discriminate E; exfalso.
    - unfold numbers in E. cbn [fst snd] in E. apply app_inv_head in E. injection E as E. apply (int_before ","%char) in E; [|reflexivity|discriminate].
      destruct E as [_ E]. injection E as E. apply (int_before ","%char) in E; [|reflexivity|discriminate]. destruct E as [_ E]. discriminate E.
    - unfold numbers in E. cbn [fst snd] in E. apply app_inv_head in E. injection E as E. apply (int_before ","%char) in E; [|reflexivity|discriminate].
      destruct E as [_ E]. injection E as E. apply (int_before ","%char) in E; [|reflexivity|discriminate]. destruct E as [_ E]. discriminate E. }
  subst t'. split; [reflexivity|]. destruct t as [[p q] r]. exact (numbers_same _ _ _ _ _ _ _ _ _ E).
Qed.
Lemma line_told s s' : standard s -> standard s' -> status_line s = status_line s' -> s = s'.
Proof.
  intros [W D] [W' D'] E. rewrite !line_parts in E. destruct (head_length _ W) as [L _]. destruct (head_length _ W') as [L' _].
  apply app_same_length in E; [|congruence]. destruct E as [H T]. apply app_inv_head in T.
  assert (QW : st_word s = st_word s').
  { revert W W' H. generalize (st_word s), (st_word s'). intros a b W W' H. cbn [ends In] in W, W'.
    destruct W as [<-|[<-|[<-|[<-|[<-|[<-|[<-|[]]]]]]]], W' as [<-|[<-|[<-|[<-|[<-|[<-|[<-|[]]]]]]]]; try reflexivity; vm_compute in H; discriminate H. }
  destruct s as [w sm c u d t], s' as [w' sm' c' u' d' t']. cbn [st_word st_words] in *. subst w'.
  assert (QS : sm = sm' /\ numbers t c u d = numbers t' c' u' d').
  { unfold tail in T. cbn [st_same st_words st_created st_updated st_deleted] in T. fold (numbers t c u d) in T. fold (numbers t' c' u' d') in T.
    destruct sm as [n|], sm' as [n'|]; cbn [app] in T.
    - rewrite <- !app_assoc in T. apply app_inv_head in T. apply (int_before ","%char) in T; [|reflexivity|discriminate]. destruct T as [-> T].
      injection T as T. auto.
    - exfalso. cbn [deeds In] in D'. destruct D' as [<-|[<-|[<-|[]]]]; discriminate T.
    - exfalso. cbn [deeds In] in D. destruct D as [<-|[<-|[<-|[]]]]; discriminate T.
    - auto. }
  destruct QS as [-> N]. destruct (numbers_words _ _ _ _ _ _ _ _ D D' N) as (-> & -> & -> & ->). reflexivity.
Qed.
Lemma run_standard E c allow audit clu from_dt w w' x s :
  (baseline_or_audit E c allow audit w = (w', x) \/ incremental E c allow clu from_dt w = (w', x)) ->
  In (Logged s) (w_log w') -> In (Logged s) (w_log w) \/ standard s.
Proof. intros [H|H] I; [exact (baseline_standard _ _ _ _ _ _ _ _ H I)|exact (incremental_standard _ _ _ _ _ _ _ _ _ H I)]. Qed.
Lemma run_column E c allow audit clu from_dt w w' x s :
  (baseline_or_audit E c allow audit w = (w', x) \/ incremental E c allow clu from_dt w = (w', x)) ->
  In (Logged s) (w_log w') -> ~ In (Logged s) (w_log w) ->
  In (st_word s) ends
  /\ exists first rest, status_line s = first ++ $" (" ++ rest /\ List.length first = 23%nat /\ ~ In "("%char first
     /\ exists pad, first = $"Status: " ++ repeat " "%char pad ++ st_word s.
Proof.
  intros H I N. destruct (run_standard _ _ _ _ _ _ _ _ _ _ H I) as [O|S]; [now elim N|]. split; [apply S|exact (line_column s S)].
Qed.
