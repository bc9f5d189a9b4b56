(** * StoredSpec: times as clocks give them, and how they are read back *)

From Verif Require Import Py Float64 W3C W3CSpec Resource ResourceSpec Container Xml Sitemap SitemapSpec.

(** Any floating point number of seconds between 1970-01-01T09:07 and 2106, such as the
    modification time of a file, or a time that has no more than microseconds. *)
Definition clock_time (o : option Z) : Prop :=
  plain_time o \/ (forall t, o = Some t -> 2 ^ 15 * SEC <= t <= 2 ^ 32 * SEC).

(** Less than two microseconds apart. *)
Definition close_to (o o' : option Z) : Prop :=
  match o, o' with
  | None, None => True
  | Some t, Some t' => 1000000 * Z.abs (t' - t) < 2 * SEC
  | _, _ => False
  end.

(** As [good_resource], with such times. *)
Definition recorded (r : resource) : Prop :=
  r_uri r <> []
  /\ (clock_time (r_timestamp r) /\ clock_time (r_ts_datetime r) /\ clock_time (r_ts_at r)
      /\ clock_time (r_ts_completed r) /\ clock_time (r_ts_from r) /\ clock_time (r_ts_until r))
  /\ (ws_free (r_md5 r) /\ ws_free (r_sha1 r) /\ ws_free (r_sha256 r))
  /\ valid_change (r_change r)
  /\ Forall good_link (links r).

Definition recorded_list {C} (iter : C -> list resource) (name : str) (d : doc C) : Prop :=
  (good_md (d_md d) /\ legal_atts (md_keys false) (d_md d))
  /\ (Forall good_link (d_ln d) /\ Forall (legal_atts link_keys) (d_ln d))
  /\ Forall recorded (iter (d_items d)) /\ Forall legal_resource (iter (d_items d))
  /\ (sget $"capability" (d_md d) = None \/ sget $"capability" (d_md d) = Some (PStr name)).

(** What is expected to be read back: as [read_back], with times close to the ones
    that were written. *)
Definition read_close (sm : settings) (r r' : resource) : Prop :=
  r_uri r' = r_uri r
  /\ close_to (match r_timestamp r with
               | Some t => Some t
               | None => if s_spec_1_0 sm || s_add_lastmod sm then r_ts_datetime r else None
               end) (r_timestamp r')
  /\ close_to (if s_spec_1_0 sm then None else r_ts_datetime r) (r_ts_datetime r')
  /\ r_length r' = r_length r /\ r_mime_type r' = r_mime_type r
  /\ r_md5 r' = r_md5 r /\ r_sha1 r' = r_sha1 r /\ r_sha256 r' = r_sha256 r
  /\ r_change r' = r_change r /\ r_path r' = r_path r /\ r_capability r' = r_capability r
  /\ Forall2 (same_atts link_keys) (links r) (links r')
  /\ r_ts_at r' = None /\ r_ts_completed r' = None /\ r_ts_from r' = None /\ r_ts_until r' = None.
