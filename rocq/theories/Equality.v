(** * Equality: the derived [PartialEq] of the types of the crate.

    [#[derive(PartialEq)]] compares the variants, then the fields one by one; [Vec], [Option] and
    [BTreeMap] compare their elements in order.  The equality of [Date] and [DateTime] is in Types.v;
    that of [Error] (src/errors.rs:3) is left out. *)
From Verif Require Import Base Env Chrono Types Components.
(** The [PartialEq] of [Option], [Vec] and [BTreeMap]. *)
Definition opt_eqb {A} (q : A -> A -> bool) (a b : option A) : bool :=
  match a, b with Some x, Some y => q x y | None, None => true | _, _ => false end.
Fixpoint list_eqb {A} (q : A -> A -> bool) (a b : list A) : bool :=
  match a, b with [], [] => true | x :: a', y :: b' => q x y && list_eqb q a' b' | _, _ => false end.
Definition map_eqb {V} (q : V -> V -> bool) (a b : smap V) : bool :=
  list_eqb (fun x y => str_eqb (fst x) (fst y) && q (snd x) (snd y)) a b.
(** The [PartialEq] of [f32], on the bits: without the sign, numbers are at most 0x7f800000 (infinity),
    what is above is not a number. *)
Definition f32_abs (x : f32) : Z := x mod 2147483648.
Definition f32_eqb (x y : f32) : bool :=
  (f32_abs x <=? 2139095040) && (f32_abs y <=? 2139095040) && ((x =? y) || ((f32_abs x =? 0) && (f32_abs y =? 0))).
(** src/content_line.rs:7 *)
Definition line_eqb (a b : content_line) : bool := str_eqb (cl_key a) (cl_key b) && map_eqb str_eqb (cl_params a) (cl_params b) && str_eqb (cl_value a) (cl_value b).
(** src/properties/text.rs:6 *)
Definition text_eqb (a b : text) : bool := map_eqb str_eqb (t_params a) (t_params b) && str_eqb (t_text a) (t_text b).
(** src/properties/uri.rs:6 *)
Definition uri_eqb (a b : uri) : bool := map_eqb str_eqb (u_params a) (u_params b) && str_eqb (u_uri a) (u_uri b).
(** src/properties/class.rs:4 *)
Definition class_eqb (a b : class) : bool :=
  match a, b with Public, Public | Private, Private | Confidential, Confidential => true | Custom s, Custom t => str_eqb s t | _, _ => false end.
(** src/properties/status.rs:4 *)
Definition status_eqb (a b : status) : bool :=
  match a, b with
  | Tentative, Tentative | Confirmed, Confirmed | Cancelled, Cancelled | NeedsAction, NeedsAction
  | Completed, Completed | InProcess, InProcess | Draft, Draft | Final, Final => true
  | _, _ => false
  end.
(** src/properties/time_transparency.rs:4 *)
Definition transp_eqb (a b : transparency) : bool := match a, b with Opaque, Opaque | Transparent, Transparent => true | _, _ => false end.
(** src/properties/recur.rs:138 *)
Definition freq_eqb (a b : freq) : bool :=
  match a, b with
  | Secondly, Secondly | Minutely, Minutely | Hourly, Hourly | Daily, Daily | Weekly, Weekly | Monthly, Monthly | Yearly, Yearly => true
  | _, _ => false
  end.
(** src/properties/recur.rs:248 *)
Definition weekday_eqb (a b : weekday) : bool :=
  match a, b with
  | Sunday, Sunday | Monday, Monday | Tuesday, Tuesday | Wednesday, Wednesday | Thursday, Thursday | Friday, Friday | Saturday, Saturday => true
  | _, _ => false
  end.
(** src/properties/recur.rs:204 *)
Definition wdn_eqb (a b : weekdaynum) : bool := weekday_eqb (wn_weekday a) (wn_weekday b) && opt_eqb Z.eqb (wn_ord a) (wn_ord b).
(** src/properties/period.rs:4,69,98 *)
Definition period_eqb (a b : period) : bool :=
  match a, b with
  | StartEnd s e, StartEnd s' e' => dt_eqb s s' && dt_eqb e e'
  | StartDur s d, StartDur s' d' => dt_eqb s s' && (d =? d')
  | _, _ => false
  end.
(** src/properties/rdate.rs:1 *)
Definition rdate_eqb (a b : rdate) : bool :=
  match a, b with RDates x, RDates y => list_eqb date_eqb x y | RPeriods x, RPeriods y => list_eqb period_eqb x y | _, _ => false end.
(** src/properties/trigger.rs:5 *)
Definition trigger_eqb (a b : trigger) : bool :=
  match a, b with TrDateTime x, TrDateTime y => dt_eqb x y | TrDuration x, TrDuration y => x =? y | _, _ => false end.
(** src/components/valarm.rs:73 *)
Definition audio_eqb (a b : audio) : bool :=
  text_eqb (au_action a) (au_action b) &&
  trigger_eqb (au_trigger a) (au_trigger b) &&
  opt_eqb Z.eqb (au_duration a) (au_duration b) &&
  opt_eqb Z.eqb (au_repeat a) (au_repeat b) &&
  list_eqb text_eqb (au_attach a) (au_attach b) &&
  map_eqb line_eqb (au_x_prop a) (au_x_prop b) &&
  map_eqb line_eqb (au_iana_prop a) (au_iana_prop b).
(** src/components/valarm.rs:101 *)
Definition display_eqb (a b : display) : bool :=
  text_eqb (di_action a) (di_action b) &&
  trigger_eqb (di_trigger a) (di_trigger b) &&
  text_eqb (di_description a) (di_description b) &&
  opt_eqb Z.eqb (di_duration a) (di_duration b) &&
  opt_eqb Z.eqb (di_repeat a) (di_repeat b) &&
  map_eqb line_eqb (di_x_prop a) (di_x_prop b) &&
  map_eqb line_eqb (di_iana_prop a) (di_iana_prop b).
(** src/components/valarm.rs:129 *)
Definition email_eqb (a b : email) : bool :=
  text_eqb (em_action a) (em_action b) &&
  trigger_eqb (em_trigger a) (em_trigger b) &&
  text_eqb (em_description a) (em_description b) &&
  text_eqb (em_summary a) (em_summary b) &&
  list_eqb uri_eqb (em_attendee a) (em_attendee b) &&
  opt_eqb Z.eqb (em_duration a) (em_duration b) &&
  opt_eqb Z.eqb (em_repeat a) (em_repeat b) &&
  list_eqb text_eqb (em_attach a) (em_attach b) &&
  map_eqb line_eqb (em_x_prop a) (em_x_prop b) &&
  map_eqb line_eqb (em_iana_prop a) (em_iana_prop b).
(** src/components/valarm.rs:4 *)
Definition valarm_eqb (a b : valarm) : bool :=
  match a, b with AAudio x, AAudio y => audio_eqb x y | ADisplay x, ADisplay y => display_eqb x y | AEmail x, AEmail y => email_eqb x y | _, _ => false end.
(** src/properties/recur.rs:6 *)
Definition recur_eqb (a b : recur) : bool :=
  freq_eqb (r_freq a) (r_freq b) &&
  opt_eqb date_eqb (r_until a) (r_until b) &&
  opt_eqb Z.eqb (r_count a) (r_count b) &&
  Z.eqb (r_interval a) (r_interval b) &&
  list_eqb Z.eqb (r_by_second a) (r_by_second b) &&
  list_eqb Z.eqb (r_by_minute a) (r_by_minute b) &&
  list_eqb Z.eqb (r_by_hour a) (r_by_hour b) &&
  list_eqb wdn_eqb (r_by_day a) (r_by_day b) &&
  list_eqb Z.eqb (r_by_monthday a) (r_by_monthday b) &&
  list_eqb Z.eqb (r_by_yearday a) (r_by_yearday b) &&
  list_eqb Z.eqb (r_by_weekno a) (r_by_weekno b) &&
  list_eqb Z.eqb (r_by_month a) (r_by_month b) &&
  list_eqb Z.eqb (r_by_setpos a) (r_by_setpos b) &&
  opt_eqb weekday_eqb (r_wkst a) (r_wkst b).
(** src/components/vtimezone.rs:36 *)
Definition standard_eqb (a b : standard) : bool :=
  date_eqb (st_dtstart a) (st_dtstart b) &&
  Z.eqb (st_tzoffsetto a) (st_tzoffsetto b) &&
  Z.eqb (st_tzoffsetfrom a) (st_tzoffsetfrom b) &&
  opt_eqb recur_eqb (st_rrule a) (st_rrule b) &&
  list_eqb text_eqb (st_comment a) (st_comment b) &&
  list_eqb rdate_eqb (st_rdate a) (st_rdate b) &&
  list_eqb text_eqb (st_tzname a) (st_tzname b) &&
  map_eqb line_eqb (st_x_prop a) (st_x_prop b) &&
  map_eqb line_eqb (st_iana_prop a) (st_iana_prop b).
(** src/components/vtimezone.rs:36 *)
Definition daylight_eqb (a b : daylight) : bool :=
  date_eqb (dl_dtstart a) (dl_dtstart b) &&
  Z.eqb (dl_tzoffsetto a) (dl_tzoffsetto b) &&
  Z.eqb (dl_tzoffsetfrom a) (dl_tzoffsetfrom b) &&
  opt_eqb recur_eqb (dl_rrule a) (dl_rrule b) &&
  list_eqb text_eqb (dl_comment a) (dl_comment b) &&
  list_eqb rdate_eqb (dl_rdate a) (dl_rdate b) &&
  list_eqb text_eqb (dl_tzname a) (dl_tzname b) &&
  map_eqb line_eqb (dl_x_prop a) (dl_x_prop b) &&
  map_eqb line_eqb (dl_iana_prop a) (dl_iana_prop b).
(** src/components/vtimezone.rs:6 *)
Definition vtimezone_eqb (a b : vtimezone) : bool :=
  text_eqb (tz_tzid a) (tz_tzid b) &&
  opt_eqb dt_eqb (tz_last_modified a) (tz_last_modified b) &&
  opt_eqb uri_eqb (tz_tzurl a) (tz_tzurl b) &&
  list_eqb standard_eqb (tz_standard a) (tz_standard b) &&
  list_eqb daylight_eqb (tz_daylight a) (tz_daylight b) &&
  map_eqb line_eqb (tz_x_prop a) (tz_x_prop b) &&
  map_eqb line_eqb (tz_iana_prop a) (tz_iana_prop b).
(** src/properties/geo.rs:4 *)
Definition geo_eqb (a b : geo) : bool :=
  f32_eqb (g_lat a) (g_lat b) &&
  f32_eqb (g_lon a) (g_lon b).
(** src/properties/request_status.rs:4 *)
Definition request_status_eqb (a b : request_status) : bool :=
  f32_eqb (rs_code a) (rs_code b) &&
  str_eqb (rs_desc a) (rs_desc b) &&
  opt_eqb str_eqb (rs_ext a) (rs_ext b).
(** src/components/vevent.rs:4 *)
Definition vevent_eqb (a b : vevent) : bool :=
  dt_eqb (ev_dtstamp a) (ev_dtstamp b) &&
  text_eqb (ev_uid a) (ev_uid b) &&
  date_eqb (ev_dtstart a) (ev_dtstart b) &&
  opt_eqb class_eqb (ev_class a) (ev_class b) &&
  opt_eqb dt_eqb (ev_created a) (ev_created b) &&
  opt_eqb text_eqb (ev_description a) (ev_description b) &&
  opt_eqb geo_eqb (ev_geo a) (ev_geo b) &&
  opt_eqb dt_eqb (ev_last_modified a) (ev_last_modified b) &&
  opt_eqb text_eqb (ev_location a) (ev_location b) &&
  opt_eqb uri_eqb (ev_organizer a) (ev_organizer b) &&
  opt_eqb Z.eqb (ev_priority a) (ev_priority b) &&
  opt_eqb Z.eqb (ev_sequence a) (ev_sequence b) &&
  opt_eqb status_eqb (ev_status a) (ev_status b) &&
  opt_eqb text_eqb (ev_summary a) (ev_summary b) &&
  opt_eqb transp_eqb (ev_transp a) (ev_transp b) &&
  opt_eqb uri_eqb (ev_url a) (ev_url b) &&
  opt_eqb date_eqb (ev_recurid a) (ev_recurid b) &&
  opt_eqb recur_eqb (ev_rrule a) (ev_rrule b) &&
  opt_eqb date_eqb (ev_dtend a) (ev_dtend b) &&
  opt_eqb Z.eqb (ev_duration a) (ev_duration b) &&
  list_eqb text_eqb (ev_attach a) (ev_attach b) &&
  list_eqb uri_eqb (ev_attendee a) (ev_attendee b) &&
  list_eqb text_eqb (ev_categories a) (ev_categories b) &&
  list_eqb text_eqb (ev_comment a) (ev_comment b) &&
  list_eqb text_eqb (ev_contact a) (ev_contact b) &&
  list_eqb date_eqb (ev_exdate a) (ev_exdate b) &&
  list_eqb request_status_eqb (ev_rstatus a) (ev_rstatus b) &&
  list_eqb text_eqb (ev_related_to a) (ev_related_to b) &&
  list_eqb text_eqb (ev_resources a) (ev_resources b) &&
  list_eqb rdate_eqb (ev_rdate a) (ev_rdate b) &&
  list_eqb valarm_eqb (ev_alarms a) (ev_alarms b) &&
  map_eqb line_eqb (ev_x_prop a) (ev_x_prop b) &&
  map_eqb line_eqb (ev_iana_prop a) (ev_iana_prop b).
(** src/components/vfreebusy.rs:4 *)
Definition vfreebusy_eqb (a b : vfreebusy) : bool :=
  dt_eqb (fb_dtstamp a) (fb_dtstamp b) &&
  text_eqb (fb_uid a) (fb_uid b) &&
  opt_eqb text_eqb (fb_contact a) (fb_contact b) &&
  opt_eqb date_eqb (fb_dtstart a) (fb_dtstart b) &&
  opt_eqb date_eqb (fb_dtend a) (fb_dtend b) &&
  opt_eqb uri_eqb (fb_organizer a) (fb_organizer b) &&
  opt_eqb uri_eqb (fb_url a) (fb_url b) &&
  list_eqb uri_eqb (fb_attendee a) (fb_attendee b) &&
  list_eqb text_eqb (fb_comment a) (fb_comment b) &&
  list_eqb period_eqb (fb_freebusy a) (fb_freebusy b) &&
  list_eqb request_status_eqb (fb_rstatus a) (fb_rstatus b) &&
  map_eqb line_eqb (fb_x_prop a) (fb_x_prop b) &&
  map_eqb line_eqb (fb_iana_prop a) (fb_iana_prop b).
(** src/components/vjournal.rs:4 *)
Definition vjournal_eqb (a b : vjournal) : bool :=
  dt_eqb (jo_dtstamp a) (jo_dtstamp b) &&
  text_eqb (jo_uid a) (jo_uid b) &&
  opt_eqb class_eqb (jo_class a) (jo_class b) &&
  opt_eqb dt_eqb (jo_created a) (jo_created b) &&
  date_eqb (jo_dtstart a) (jo_dtstart b) &&
  opt_eqb dt_eqb (jo_last_modified a) (jo_last_modified b) &&
  opt_eqb uri_eqb (jo_organizer a) (jo_organizer b) &&
  opt_eqb date_eqb (jo_recurid a) (jo_recurid b) &&
  opt_eqb Z.eqb (jo_sequence a) (jo_sequence b) &&
  opt_eqb status_eqb (jo_status a) (jo_status b) &&
  opt_eqb text_eqb (jo_summary a) (jo_summary b) &&
  opt_eqb uri_eqb (jo_url a) (jo_url b) &&
  opt_eqb recur_eqb (jo_rrule a) (jo_rrule b) &&
  list_eqb text_eqb (jo_attach a) (jo_attach b) &&
  list_eqb uri_eqb (jo_attendee a) (jo_attendee b) &&
  list_eqb text_eqb (jo_categories a) (jo_categories b) &&
  list_eqb text_eqb (jo_comment a) (jo_comment b) &&
  list_eqb text_eqb (jo_contact a) (jo_contact b) &&
  list_eqb text_eqb (jo_description a) (jo_description b) &&
  list_eqb date_eqb (jo_exdate a) (jo_exdate b) &&
  list_eqb text_eqb (jo_related_to a) (jo_related_to b) &&
  list_eqb rdate_eqb (jo_rdate a) (jo_rdate b) &&
  list_eqb request_status_eqb (jo_rstatus a) (jo_rstatus b) &&
  map_eqb line_eqb (jo_x_prop a) (jo_x_prop b) &&
  map_eqb line_eqb (jo_iana_prop a) (jo_iana_prop b).
(** src/components/vtodo.rs:4 *)
Definition vtodo_eqb (a b : vtodo) : bool :=
  dt_eqb (to_dtstamp a) (to_dtstamp b) &&
  text_eqb (to_uid a) (to_uid b) &&
  opt_eqb class_eqb (to_class a) (to_class b) &&
  opt_eqb dt_eqb (to_completed a) (to_completed b) &&
  opt_eqb dt_eqb (to_created a) (to_created b) &&
  opt_eqb date_eqb (to_dtstart a) (to_dtstart b) &&
  opt_eqb geo_eqb (to_geo a) (to_geo b) &&
  opt_eqb dt_eqb (to_last_modified a) (to_last_modified b) &&
  opt_eqb text_eqb (to_location a) (to_location b) &&
  opt_eqb uri_eqb (to_organizer a) (to_organizer b) &&
  opt_eqb Z.eqb (to_percent_complete a) (to_percent_complete b) &&
  opt_eqb Z.eqb (to_priority a) (to_priority b) &&
  opt_eqb date_eqb (to_recurid a) (to_recurid b) &&
  opt_eqb Z.eqb (to_sequence a) (to_sequence b) &&
  opt_eqb status_eqb (to_status a) (to_status b) &&
  opt_eqb text_eqb (to_summary a) (to_summary b) &&
  opt_eqb uri_eqb (to_url a) (to_url b) &&
  opt_eqb recur_eqb (to_rrule a) (to_rrule b) &&
  opt_eqb date_eqb (to_due a) (to_due b) &&
  opt_eqb Z.eqb (to_duration a) (to_duration b) &&
  list_eqb text_eqb (to_attach a) (to_attach b) &&
  list_eqb uri_eqb (to_attendee a) (to_attendee b) &&
  list_eqb text_eqb (to_categories a) (to_categories b) &&
  list_eqb text_eqb (to_comment a) (to_comment b) &&
  list_eqb text_eqb (to_contact a) (to_contact b) &&
  list_eqb date_eqb (to_exdate a) (to_exdate b) &&
  list_eqb request_status_eqb (to_rstatus a) (to_rstatus b) &&
  list_eqb text_eqb (to_related_to a) (to_related_to b) &&
  list_eqb text_eqb (to_resources a) (to_resources b) &&
  list_eqb rdate_eqb (to_rdate a) (to_rdate b) &&
  map_eqb line_eqb (to_x_prop a) (to_x_prop b) &&
  map_eqb line_eqb (to_iana_prop a) (to_iana_prop b).
(** src/components/vcalendar.rs:4 *)
Definition vcalendar_eqb (a b : vcalendar) : bool :=
  text_eqb (ca_prodid a) (ca_prodid b) &&
  text_eqb (ca_version a) (ca_version b) &&
  opt_eqb text_eqb (ca_calscale a) (ca_calscale b) &&
  opt_eqb text_eqb (ca_method a) (ca_method b) &&
  list_eqb valarm_eqb (ca_alarms a) (ca_alarms b) &&
  list_eqb vevent_eqb (ca_events a) (ca_events b) &&
  list_eqb vfreebusy_eqb (ca_freebusy a) (ca_freebusy b) &&
  list_eqb vjournal_eqb (ca_journals a) (ca_journals b) &&
  list_eqb vtodo_eqb (ca_todo a) (ca_todo b) &&
  list_eqb vtimezone_eqb (ca_timezones a) (ca_timezones b) &&
  map_eqb line_eqb (ca_x_prop a) (ca_x_prop b) &&
  map_eqb line_eqb (ca_iana_prop a) (ca_iana_prop b).
(** src/components/vtimezone.rs:28 *)
Definition tz_part_eqb (a b : tz_part) : bool :=
  match a, b with TStandard x, TStandard y => standard_eqb x y | TDaylight x, TDaylight y => daylight_eqb x y | _, _ => false end.
(** src/components/mod.rs:21 *)
Definition component_eqb (a b : component) : bool :=
  match a, b with
  | CAlarm x, CAlarm y => valarm_eqb x y | CEvent x, CEvent y => vevent_eqb x y | CFreebusy x, CFreebusy y => vfreebusy_eqb x y
  | CJournal x, CJournal y => vjournal_eqb x y | CTimezone x, CTimezone y => vtimezone_eqb x y | CTodo x, CTodo y => vtodo_eqb x y
  | _, _ => false
  end.
