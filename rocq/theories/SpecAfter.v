(** * What each component is after [n >= 1] generations of saving and loading.

    [X_after n v w]: [w] is what became of [v]. Generated from the field lists of
    SpecLoss; the meaning of each line is in SpecHistory. *)
From Verif Require Import Base Env Chrono Types Ser SpecText SpecLine Components SpecComp SpecFields SpecRound SpecHistory.

Section Env.
Context {E : Env}.
(** src/components/valarm.rs:73-84 *)
Definition audio_after (n : nat) (v w : audio) : Prop :=
  text_after n (au_action v) (au_action w) /\
  trigger_after n (au_trigger v) (au_trigger w) /\
  kept (duration_after n) (au_duration v) (au_duration w) /\
  au_repeat w = au_repeat v /\
  texts_after n (au_attach v) (au_attach w) /\
  ext_after (lit "X-PROP") n (au_x_prop v) (au_x_prop w) /\
  ext_after (lit "IANA-PROP") n (au_iana_prop v) (au_iana_prop w).
(** src/components/valarm.rs:101-112 *)
Definition display_after (n : nat) (v w : display) : Prop :=
  text_after n (di_action v) (di_action w) /\
  trigger_after n (di_trigger v) (di_trigger w) /\
  text_after n (di_description v) (di_description w) /\
  kept (duration_after n) (di_duration v) (di_duration w) /\
  di_repeat w = di_repeat v /\
  ext_after (lit "X-PROP") n (di_x_prop v) (di_x_prop w) /\
  ext_after (lit "IANA-PROP") n (di_iana_prop v) (di_iana_prop w).
(** src/components/valarm.rs:129-143 *)
Definition email_after (n : nat) (v w : email) : Prop :=
  text_after n (em_action v) (em_action w) /\
  trigger_after n (em_trigger v) (em_trigger w) /\
  text_after n (em_description v) (em_description w) /\
  text_after n (em_summary v) (em_summary w) /\
  uris_after n (em_attendee v) (em_attendee w) /\
  kept (duration_after n) (em_duration v) (em_duration w) /\
  em_repeat w = em_repeat v /\
  texts_after n (em_attach v) (em_attach w) /\
  ext_after (lit "X-PROP") n (em_x_prop v) (em_x_prop w) /\
  ext_after (lit "IANA-PROP") n (em_iana_prop v) (em_iana_prop w).
(** src/components/vevent.rs:4-45 *)
Definition vevent_after (n : nat) (v w : vevent) : Prop :=
  datetime_after n (ev_dtstamp v) (ev_dtstamp w) /\
  text_after n (ev_uid v) (ev_uid w) /\
  date_after n (ev_dtstart v) (ev_dtstart w) /\
  maybe class_show (class_after n) (ev_class v) (ev_class w) /\
  kept (datetime_after n) (ev_created v) (ev_created w) /\
  maybe text_shown (text_after n) (ev_description v) (ev_description w) /\
  kept (geo_after n) (ev_geo v) (ev_geo w) /\
  kept (datetime_after n) (ev_last_modified v) (ev_last_modified w) /\
  maybe text_shown (text_after n) (ev_location v) (ev_location w) /\
  maybe uri_shown (uri_after n) (ev_organizer v) (ev_organizer w) /\
  ev_priority w = ev_priority v /\
  ev_sequence w = ev_sequence v /\
  ev_status w = ev_status v /\
  maybe text_shown (text_after n) (ev_summary v) (ev_summary w) /\
  ev_transp w = ev_transp v /\
  maybe uri_shown (uri_after n) (ev_url v) (ev_url w) /\
  kept (date_after n) (ev_recurid v) (ev_recurid w) /\
  kept (rule_after n) (ev_rrule v) (ev_rrule w) /\
  kept (date_after n) (ev_dtend v) (ev_dtend w) /\
  kept (duration_after n) (ev_duration v) (ev_duration w) /\
  texts_after n (ev_attach v) (ev_attach w) /\
  uris_after n (ev_attendee v) (ev_attendee w) /\
  names_after n (ev_categories v) (ev_categories w) /\
  texts_after n (ev_comment v) (ev_comment w) /\
  texts_after n (ev_contact v) (ev_contact w) /\
  Forall2 (date_after n) (ev_exdate v) (ev_exdate w) /\
  rstatus_after n (ev_rstatus v) (ev_rstatus w) /\
  texts_after n (ev_related_to v) (ev_related_to w) /\
  names_after n (ev_resources v) (ev_resources w) /\
  (ev_rdate v = [] /\ ev_rdate w = []) /\
  ev_alarms w = [] /\
  ext_after (lit "X-PROP") n (ev_x_prop v) (ev_x_prop w) /\
  ext_after (lit "IANA-PROP") n (ev_iana_prop v) (ev_iana_prop w).
(** src/components/vfreebusy.rs:4-22 *)
Definition vfreebusy_after (n : nat) (v w : vfreebusy) : Prop :=
  datetime_after n (fb_dtstamp v) (fb_dtstamp w) /\
  text_after n (fb_uid v) (fb_uid w) /\
  maybe text_shown (text_after n) (fb_contact v) (fb_contact w) /\
  kept (date_after n) (fb_dtstart v) (fb_dtstart w) /\
  kept (date_after n) (fb_dtend v) (fb_dtend w) /\
  maybe uri_shown (uri_after n) (fb_organizer v) (fb_organizer w) /\
  maybe uri_shown (uri_after n) (fb_url v) (fb_url w) /\
  uris_after n (fb_attendee v) (fb_attendee w) /\
  texts_after n (fb_comment v) (fb_comment w) /\
  Forall2 (period_after n) (fb_freebusy v) (fb_freebusy w) /\
  rstatus_after n (fb_rstatus v) (fb_rstatus w) /\
  ext_after (lit "X-PROP") n (fb_x_prop v) (fb_x_prop w) /\
  ext_after (lit "IANA-PROP") n (fb_iana_prop v) (fb_iana_prop w).
(** src/components/vjournal.rs:4-35 *)
Definition vjournal_after (n : nat) (v w : vjournal) : Prop :=
  datetime_after n (jo_dtstamp v) (jo_dtstamp w) /\
  text_after n (jo_uid v) (jo_uid w) /\
  maybe class_show (class_after n) (jo_class v) (jo_class w) /\
  kept (datetime_after n) (jo_created v) (jo_created w) /\
  date_after n (jo_dtstart v) (jo_dtstart w) /\
  kept (datetime_after n) (jo_last_modified v) (jo_last_modified w) /\
  maybe uri_shown (uri_after n) (jo_organizer v) (jo_organizer w) /\
  kept (date_after n) (jo_recurid v) (jo_recurid w) /\
  jo_sequence w = jo_sequence v /\
  jo_status w = jo_status v /\
  maybe text_shown (text_after n) (jo_summary v) (jo_summary w) /\
  maybe uri_shown (uri_after n) (jo_url v) (jo_url w) /\
  kept (rule_after n) (jo_rrule v) (jo_rrule w) /\
  texts_after n (jo_attach v) (jo_attach w) /\
  uris_after n (jo_attendee v) (jo_attendee w) /\
  names_after n (jo_categories v) (jo_categories w) /\
  texts_after n (jo_comment v) (jo_comment w) /\
  texts_after n (jo_contact v) (jo_contact w) /\
  texts_after n (jo_description v) (jo_description w) /\
  Forall2 (date_after n) (jo_exdate v) (jo_exdate w) /\
  texts_after n (jo_related_to v) (jo_related_to w) /\
  (jo_rdate v = [] /\ jo_rdate w = []) /\
  rstatus_after n (jo_rstatus v) (jo_rstatus w) /\
  ext_after (lit "X-PROP") n (jo_x_prop v) (jo_x_prop w) /\
  ext_after (lit "IANA-PROP") n (jo_iana_prop v) (jo_iana_prop w).
(** src/components/vtodo.rs:4-43 *)
Definition vtodo_after (n : nat) (v w : vtodo) : Prop :=
  datetime_after n (to_dtstamp v) (to_dtstamp w) /\
  text_after n (to_uid v) (to_uid w) /\
  maybe class_show (class_after n) (to_class v) (to_class w) /\
  kept (datetime_after n) (to_completed v) (to_completed w) /\
  kept (datetime_after n) (to_created v) (to_created w) /\
  kept (date_after n) (to_dtstart v) (to_dtstart w) /\
  kept (geo_after n) (to_geo v) (to_geo w) /\
  kept (datetime_after n) (to_last_modified v) (to_last_modified w) /\
  maybe text_shown (text_after n) (to_location v) (to_location w) /\
  maybe uri_shown (uri_after n) (to_organizer v) (to_organizer w) /\
  to_percent_complete w = to_percent_complete v /\
  to_priority w = to_priority v /\
  kept (date_after n) (to_recurid v) (to_recurid w) /\
  to_sequence w = to_sequence v /\
  to_status w = to_status v /\
  maybe text_shown (text_after n) (to_summary v) (to_summary w) /\
  maybe uri_shown (uri_after n) (to_url v) (to_url w) /\
  kept (rule_after n) (to_rrule v) (to_rrule w) /\
  kept (date_after n) (to_due v) (to_due w) /\
  kept (duration_after n) (to_duration v) (to_duration w) /\
  texts_after n (to_attach v) (to_attach w) /\
  uris_after n (to_attendee v) (to_attendee w) /\
  names_after n (to_categories v) (to_categories w) /\
  texts_after n (to_comment v) (to_comment w) /\
  texts_after n (to_contact v) (to_contact w) /\
  Forall2 (date_after n) (to_exdate v) (to_exdate w) /\
  rstatus_after n (to_rstatus v) (to_rstatus w) /\
  texts_after n (to_related_to v) (to_related_to w) /\
  names_after n (to_resources v) (to_resources w) /\
  (to_rdate v = [] /\ to_rdate w = []) /\
  ext_after (lit "X-PROP") n (to_x_prop v) (to_x_prop w) /\
  ext_after (lit "IANA-PROP") n (to_iana_prop v) (to_iana_prop w).
(** src/components/vtimezone.rs:34-49,76 *)
Definition standard_after (n : nat) (v w : standard) : Prop :=
  date_after n (st_dtstart v) (st_dtstart w) /\
  offset_after n (st_tzoffsetto v) (st_tzoffsetto w) /\
  offset_after n (st_tzoffsetfrom v) (st_tzoffsetfrom w) /\
  kept (rule_after n) (st_rrule v) (st_rrule w) /\
  texts_after n (st_comment v) (st_comment w) /\
  (st_rdate v = [] /\ st_rdate w = []) /\
  texts_after n (st_tzname v) (st_tzname w) /\
  ext_after (lit "X-PROP") n (st_x_prop v) (st_x_prop w) /\
  ext_after (lit "IANA-PROP") n (st_iana_prop v) (st_iana_prop w).
(** src/components/vtimezone.rs:34-49,77 *)
Definition daylight_after (n : nat) (v w : daylight) : Prop :=
  date_after n (dl_dtstart v) (dl_dtstart w) /\
  offset_after n (dl_tzoffsetto v) (dl_tzoffsetto w) /\
  offset_after n (dl_tzoffsetfrom v) (dl_tzoffsetfrom w) /\
  kept (rule_after n) (dl_rrule v) (dl_rrule w) /\
  texts_after n (dl_comment v) (dl_comment w) /\
  (dl_rdate v = [] /\ dl_rdate w = []) /\
  texts_after n (dl_tzname v) (dl_tzname w) /\
  ext_after (lit "X-PROP") n (dl_x_prop v) (dl_x_prop w) /\
  ext_after (lit "IANA-PROP") n (dl_iana_prop v) (dl_iana_prop w).
(** src/components/vtimezone.rs:6-19 *)
Definition vtimezone_after (n : nat) (v w : vtimezone) : Prop :=
  text_after n (tz_tzid v) (tz_tzid w) /\
  kept (datetime_after n) (tz_last_modified v) (tz_last_modified w) /\
  maybe uri_shown (uri_after n) (tz_tzurl v) (tz_tzurl w) /\
  ext_after (lit "X-PROP") n (tz_x_prop v) (tz_x_prop w) /\
  ext_after (lit "IANA-PROP") n (tz_iana_prop v) (tz_iana_prop w).
(** src/components/vcalendar.rs:4-26 *)
Definition vcalendar_after (n : nat) (v w : vcalendar) : Prop :=
  text_after n (ca_prodid v) (ca_prodid w) /\
  text_after n (ca_version v) (ca_version w) /\
  maybe text_shown (text_after n) (ca_calscale v) (ca_calscale w) /\
  maybe text_shown (text_after n) (ca_method v) (ca_method w) /\
  ext_after (lit "X-PROP") n (ca_x_prop v) (ca_x_prop w) /\
  ext_after (lit "IANA-PROP") n (ca_iana_prop v) (ca_iana_prop w).
(** With children: each one separately, in place. *)
Definition timezone_after (n : nat) (v w : vtimezone) : Prop :=
  vtimezone_after n v w /\ Forall2 (standard_after n) (tz_standard v) (tz_standard w) /\ Forall2 (daylight_after n) (tz_daylight v) (tz_daylight w).
Definition calendar_after (n : nat) (v w : vcalendar) : Prop :=
  vcalendar_after n v w /\ ca_alarms w = [] /\ Forall2 (vevent_after n) (ca_events v) (ca_events w) /\
  Forall2 (vfreebusy_after n) (ca_freebusy v) (ca_freebusy w) /\ Forall2 (vjournal_after n) (ca_journals v) (ca_journals w) /\
  Forall2 (vtodo_after n) (ca_todo v) (ca_todo w) /\ Forall2 (timezone_after n) (ca_timezones v) (ca_timezones w).
End Env.
