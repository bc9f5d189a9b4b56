(** * Prop_Mirror: publishing a tree of files and copying it *)

From Verif Require Import Py Float64 W3C PathSpec OsPath UrlAuthority Mapper MapperSpec Resource ResourceSpec Container Xml Sitemap
  Opener ListIndex ListIndexSpec Hashes Disk DiskSpec Builder BuilderSpec ClientState Client ClientSpec ClientExamples ClientThms ConvergeSpec SucceedSpec
  Build PublishSpec PublishFacts PublishEx MirrorSpec Mirror MirrorEx.

(** C99: the resource list that is written for a directory, served together with the files,
    makes a baseline synchronization into an empty directory succeed and leaves there the
    same files, and no others, with the same contents and times to a second; whoever asks
    again is told that all is in sync, and nothing is changed. *)
Theorem C99_mirror : forall e bc links f wp base srcdir l, publisher e bc base srcdir l -> fine_links links -> plain_path f ->
  exists fs' file, write_resource_list e bc None (Some f) links false wp = (with_fs fs' wp, Ok tt) /\ sget f fs' = Some file
    /\ forall E c w dstdir sm, copier E c w base dstdir sm -> serves E c e base srcdir sm (f_data file) ->
       exists w', baseline_or_audit E c true false w = (w', Ok tt) /\ mirrored E w' dstdir e srcdir
       /\ forall E' allow audit, e_fetch E' = e_fetch E -> e_cwd E' = e_cwd E ->
          exists w2 s, baseline_or_audit E' c allow audit w' = (w2, Ok tt) /\ no_effect w' w2
            /\ w_log w2 = w_log w' ++ [Logged s] /\ st_word s = $"IN SYNC".
Proof. exact mirror. Qed.
Print Assumptions C99_mirror.

(** Three files, one of them in a subdirectory; whatever the text of the list is. *)
Example C99_example : publisher (pub_env before_tree) pub_client mirror_base $"/d" (listed_at before_tree false)
  /\ fine_links (Some [up]) /\ plain_path rl_file
  /\ forall text, copier (mirror_env text) (ex_client one_mapping) (start (Dir []) None) mirror_base $"/d" mirror_sm
       /\ serves (mirror_env text) (ex_client one_mapping) (pub_env before_tree) mirror_base $"/d" mirror_sm text.
Proof.
  split; [exact mirror_publisher|]. split; [exact up_fine|]. split; [exact rl_plain|].
  intros text. split; [apply mirror_copier|apply mirror_serves].
Qed.
