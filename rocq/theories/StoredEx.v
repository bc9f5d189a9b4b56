(** * StoredEx: times that are not whole microseconds *)

From Verif Require Import Py PyFacts Float64 Float64Facts W3C W3CSpec Mapper Resource ResourceSpec Container ContainerSpec Xml Sitemap SitemapSpec
  SitemapText SitemapExamples Opener ListIndex ListIndexSpec ListIndexExamples StoredSpec.

(** The floating point number nearest to 1325376000 seconds and a third. *)
Definition third : Z := float_of_ratio 3976128001 3.
Definition third_resource' : resource := set_timestamp (Some third) (new_resource $"http://ex.org/t").
Definition third_change : resource := store_change (Some $"created") third_resource'.
Definition clock_rl : doc rdict := MkDoc some_md [] [($"http://ex.org/t", third_resource')].
Definition clock_cl : doc (list resource) := MkDoc some_md [] [third_change].

Lemma third_text : datetime_to_str false third = Ok $"2012-01-01T00:00:00.333333Z" /\ str_to_datetime $"2012-01-01T00:00:00.333333Z" <> Ok third.
Proof. split; vm_compute; [reflexivity|discriminate]. Qed.
Lemma third_range : 2 ^ 15 * SEC <= third <= 2 ^ 32 * SEC.
Proof. split; vm_compute; discriminate. Qed.

Lemma clock_some t : 2 ^ 15 * SEC <= t <= 2 ^ 32 * SEC -> clock_time (Some t).
Proof. intros H. right. intros u [= <-]. exact H. Qed.
Lemma third_recorded ch : ch = None \/ ch = Some $"created" ->
  recorded (store_change ch third_resource') /\ legal_resource (store_change ch third_resource').
Proof.
  intros Ch.
  assert (N : clock_time None) by (right; intros t H; discriminate).
  split.
  - split; [discriminate|]. split; [|split; [|split]].
    + split; [exact (clock_some third third_range)|]. repeat split; exact N.
    + split; [|split]; intros v c H; discriminate.
    + destruct Ch as [-> | ->]; [left; reflexivity|right; left; reflexivity].
    + constructor.
  - assert (U : uri_text $"http://ex.org/t") by (apply textb_ok; reflexivity).
    split; [exact U|]. split; [|split; [|constructor]]; (split; [|split]); intros s H; discriminate H.
Qed.

Lemma clock_rl_recorded : wf_rl (d_items clock_rl) /\ recorded_list rl_iter $"resourcelist" clock_rl.
Proof.
  destruct (third_recorded None (or_introl eq_refl)) as [R L]. destruct some_md_good. split.
  - split; [constructor; [intros []|constructor]|]. intros u r [E|[]]. injection E as <- <-. reflexivity.
  - split; [auto|]. split; [split; constructor|]. split; [constructor; [exact R|constructor]|].
    split; [constructor; [exact L|constructor]|]. left. reflexivity.
Qed.
Lemma clock_cl_recorded : Forall (fun r => r_change r <> None) (d_items clock_cl) /\ recorded_list (fun l => l) $"changelist" clock_cl.
Proof.
  destruct (third_recorded _ (or_intror eq_refl)) as [R L]. destruct some_md_good. split.
  - constructor; [intros Ch; discriminate Ch|constructor].
  - split; [auto|]. split; [split; constructor|]. split; [constructor; [exact R|constructor]|].
    split; [constructor; [exact L|constructor]|]. left. reflexivity.
Qed.
