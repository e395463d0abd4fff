(** * Writing a component: the content lines of its text.

    [X_written v] lists the content lines (name, parameters, value) that the text
    of [v] is made of; [X_tidy v] says that the strings in [v] can stand on one
    line; [X_safe v] that nothing in [v] is altered by writing. Nothing here refers
    to folding, to the [Serialize] trait or to the generated code. *)
From Verif Require Import Base Env Chrono Types Ser SpecText SpecLine SpecDur PropLine PropVocab PropRule PropPeriod PropList Components SpecComp SpecFields.

(** The line of a property; an empty value is not written. *)
Definition line (n : str) (params : smap str) (value : str) : list content_line :=
  match value with [] => [] | _ => [mk_cl n params value] end.
Definition plain_line {T} (show : T -> str) (n : str) (x : T) : list content_line := line n [] (show x).
Definition opt_lines {T} (one : str -> T -> list content_line) (n : str) (o : option T) : list content_line :=
  match o with Some x => one n x | None => [] end.
(** One entry is written with its parameters, several on one line without. *)
Definition list_lines {T} (one : str -> T -> list content_line) (show : T -> str) (n : str) (l : list T) : list content_line :=
  match l with [x] => one n x | _ => line n [] (join [44] (map show l)) end.
Definition escaped (s : str) : str := flat_map escaped_char s.
Definition text_shown (t : text) : str := escaped (t_text t).
Definition text_line (n : str) (t : text) := line n (t_params t) (text_shown t).
Definition uri_shown (u : uri) : str := escaped (u_uri u).
Definition uri_line (n : str) (u : uri) := line n (u_params u) (uri_shown u).
(** All the extension properties go to one line. *)
Definition ext_line (n : str) (m : smap content_line) : list content_line :=
  line n [] (join [59] (map (fun kl => fst kl ++ [61] ++ escaped (cl_value (snd kl))) m)).

Section Values.
Context {E : Env}.
Definition date_line (n : str) (d : date) := line n (date_params d) (date_str d).
Definition trigger_params (t : trigger) : smap str :=
  [(lit "VALUE", match t with TrDateTime _ => lit "DATE-TIME" | TrDuration _ => lit "DURATION" end)].
Definition trigger_line (n : str) (t : trigger) := line n (trigger_params t) (trigger_text t).
(** FREQ=...;UNTIL=... : the parts that are not empty. *)
Definition rule_shown (r : recur) : str :=
  join [59] (map (fun kv => fst kv ++ [61] ++ snd kv) (filter (fun kv => negb (str_eqb (snd kv) [])) (rule_fields r))).
Definition rs_shown (r : request_status) : str :=
  f32_show1 (rs_code r) ++ [59] ++ escaped (rs_desc r) ++ match rs_ext r with Some e => [59] ++ escaped e | None => [] end.

(** ** Tidy: one line each. *)
Definition holds {T} (P : T -> Prop) (o : option T) : Prop := forall x, o = Some x -> P x.
Definition tidy_text (t : text) : Prop := good_params (t_params t) /\ ~ In CR (t_text t).
Definition tidy_uri (u : uri) : Prop := good_params (u_params u) /\ ~ In CR (u_uri u).
Definition tidy_class (c : class) : Prop := no_eol (class_show c).
Definition tidy_geo (g : geo) : Prop := no_eol (f32_show (g_lat g)) /\ no_eol (f32_show (g_lon g)).
Definition tidy_rs (r : request_status) : Prop :=
  no_eol (f32_show1 (rs_code r)) /\ ~ In CR (rs_desc r) /\ holds (fun e => ~ In CR e) (rs_ext r).
Definition tidy_rule (r : recur) : Prop := holds real_date (r_until r).
Definition real_trigger (t : trigger) : Prop := match t with TrDateTime d => real_datetime d | TrDuration _ => True end.
Definition real_period (p : period) : Prop :=
  match p with StartEnd s e => real_datetime s /\ real_datetime e | StartDur s _ => real_datetime s end.
Definition real_offset (off : Z) : Prop := -86400 < off < 86400.
Definition tidy_ext (m : smap content_line) : Prop := forall k l, In (k, l) m -> no_eol k /\ ~ In CR (cl_value l).

(** ** Safe: read back as written. *)
Definition at_most_one {T} (P : T -> Prop) (l : list T) : Prop := l = [] \/ exists x, l = [x] /\ P x.
(** A non-empty string without ',', ';' and line breaks. *)
Definition safe_string (s : str) : Prop := s <> [] /\ ~ In 59 s /\ ~ In 44 s /\ ~ In LF s /\ ~ In CR s.
Definition safe_text (t : text) : Prop := good_params (t_params t) /\ safe_string (t_text t).
Definition safe_uri (u : uri) : Prop := good_params (u_params u) /\ safe_string (u_uri u).
(** An entry of a comma list: its parameters would be lost. *)
Definition safe_entry (t : text) : Prop := t_params t = [] /\ safe_string (t_text t).
Definition safe_duration (d : tdelta) : Prop := exists n, d = n * sec /\ Z.abs n * sec <= longest.
Definition number (max n : Z) : Prop := 0 <= n <= max.
Definition safe_class (c : class) : Prop :=
  match c with
  | Custom s => s <> [] /\ no_eol s /\ to_uppercase s = s /\ ~ In s [lit "PUBLIC"; lit "PRIVATE"; lit "CONFIDENTIAL"]
  | _ => True
  end.
(** The text of the float is read as the same float and nothing more. *)
Definition float_back (show : f32 -> str) (x : f32) : Prop :=
  no_eol (show x) /\ forall rest, rest = [] \/ (exists r, rest = 59 :: r) -> f32_parse (show x ++ rest) = Some (rest, x).
Definition safe_geo (g : geo) : Prop := float_back f32_show (g_lat g) /\ float_back f32_show (g_lon g).
Definition safe_rs (r : request_status) : Prop :=
  float_back f32_show1 (rs_code r) /\ (rs_desc r = [] \/ safe_string (rs_desc r)) /\ holds (fun e => e = [] \/ safe_string e) (rs_ext r).
Definition safe_offset (off : Z) : Prop := -86400 < off < 86400 /\ off mod 60 = 0.

(** ** The components *)

(** src/components/valarm.rs:73-84 *)
Definition audio_written (v : audio) : list content_line :=
  text_line (lit "ACTION") (au_action v) ++
  trigger_line (lit "TRIGGER") (au_trigger v) ++
  opt_lines (plain_line td_show) (lit "DURATION") (au_duration v) ++
  opt_lines (plain_line show_int) (lit "REPEAT") (au_repeat v) ++
  list_lines text_line text_shown (lit "ATTACH") (au_attach v) ++
  ext_line (lit "X-PROP") (au_x_prop v) ++
  ext_line (lit "IANA-PROP") (au_iana_prop v).
Definition audio_tidy (v : audio) : Prop :=
  tidy_text (au_action v) /\
  real_trigger (au_trigger v) /\
  Forall tidy_text (au_attach v) /\
  tidy_ext (au_x_prop v) /\
  tidy_ext (au_iana_prop v).
Definition audio_safe (v : audio) : Prop :=
  safe_text (au_action v) /\
  writable_trigger (au_trigger v) /\
  holds safe_duration (au_duration v) /\
  holds (number 4294967295) (au_repeat v) /\
  at_most_one safe_text (au_attach v) /\
  au_x_prop v = [] /\
  au_iana_prop v = [].

(** src/components/valarm.rs:101-112 *)
Definition display_written (v : display) : list content_line :=
  text_line (lit "ACTION") (di_action v) ++
  trigger_line (lit "TRIGGER") (di_trigger v) ++
  text_line (lit "DESCRIPTION") (di_description v) ++
  opt_lines (plain_line td_show) (lit "DURATION") (di_duration v) ++
  opt_lines (plain_line show_int) (lit "REPEAT") (di_repeat v) ++
  ext_line (lit "X-PROP") (di_x_prop v) ++
  ext_line (lit "IANA-PROP") (di_iana_prop v).
Definition display_tidy (v : display) : Prop :=
  tidy_text (di_action v) /\
  real_trigger (di_trigger v) /\
  tidy_text (di_description v) /\
  tidy_ext (di_x_prop v) /\
  tidy_ext (di_iana_prop v).
Definition display_safe (v : display) : Prop :=
  safe_text (di_action v) /\
  writable_trigger (di_trigger v) /\
  safe_text (di_description v) /\
  holds safe_duration (di_duration v) /\
  holds (number 4294967295) (di_repeat v) /\
  di_x_prop v = [] /\
  di_iana_prop v = [].

(** src/components/valarm.rs:129-143 *)
Definition email_written (v : email) : list content_line :=
  text_line (lit "ACTION") (em_action v) ++
  trigger_line (lit "TRIGGER") (em_trigger v) ++
  text_line (lit "DESCRIPTION") (em_description v) ++
  text_line (lit "SUMMARY") (em_summary v) ++
  list_lines uri_line uri_shown (lit "ATTENDEE") (em_attendee v) ++
  opt_lines (plain_line td_show) (lit "DURATION") (em_duration v) ++
  opt_lines (plain_line show_int) (lit "REPEAT") (em_repeat v) ++
  list_lines text_line text_shown (lit "ATTACH") (em_attach v) ++
  ext_line (lit "X-PROP") (em_x_prop v) ++
  ext_line (lit "IANA-PROP") (em_iana_prop v).
Definition email_tidy (v : email) : Prop :=
  tidy_text (em_action v) /\
  real_trigger (em_trigger v) /\
  tidy_text (em_description v) /\
  tidy_text (em_summary v) /\
  Forall tidy_uri (em_attendee v) /\
  Forall tidy_text (em_attach v) /\
  tidy_ext (em_x_prop v) /\
  tidy_ext (em_iana_prop v).
Definition email_safe (v : email) : Prop :=
  safe_text (em_action v) /\
  writable_trigger (em_trigger v) /\
  safe_text (em_description v) /\
  safe_text (em_summary v) /\
  at_most_one safe_uri (em_attendee v) /\
  holds safe_duration (em_duration v) /\
  holds (number 4294967295) (em_repeat v) /\
  at_most_one safe_text (em_attach v) /\
  em_x_prop v = [] /\
  em_iana_prop v = [].

(** src/components/vevent.rs:4-45 *)
Definition vevent_written (v : vevent) : list content_line :=
  plain_line dt_show (lit "DTSTAMP") (ev_dtstamp v) ++
  text_line (lit "UID") (ev_uid v) ++
  date_line (lit "DTSTART") (ev_dtstart v) ++
  opt_lines (plain_line class_show) (lit "CLASS") (ev_class v) ++
  opt_lines (plain_line dt_show) (lit "CREATED") (ev_created v) ++
  opt_lines text_line (lit "DESCRIPTION") (ev_description v) ++
  opt_lines (plain_line geo_show) (lit "GEO") (ev_geo v) ++
  opt_lines (plain_line dt_show) (lit "LAST-MODIFIED") (ev_last_modified v) ++
  opt_lines text_line (lit "LOCATION") (ev_location v) ++
  opt_lines uri_line (lit "ORGANIZER") (ev_organizer v) ++
  opt_lines (plain_line show_int) (lit "PRIORITY") (ev_priority v) ++
  opt_lines (plain_line show_int) (lit "SEQUENCE") (ev_sequence v) ++
  opt_lines (plain_line status_show) (lit "STATUS") (ev_status v) ++
  opt_lines text_line (lit "SUMMARY") (ev_summary v) ++
  opt_lines (plain_line transp_show) (lit "TRANSP") (ev_transp v) ++
  opt_lines uri_line (lit "URL") (ev_url v) ++
  opt_lines date_line (lit "RECURID") (ev_recurid v) ++
  opt_lines (plain_line rule_shown) (lit "RRULE") (ev_rrule v) ++
  opt_lines date_line (lit "DTEND") (ev_dtend v) ++
  opt_lines (plain_line td_show) (lit "DURATION") (ev_duration v) ++
  list_lines text_line text_shown (lit "ATTACH") (ev_attach v) ++
  list_lines uri_line uri_shown (lit "ATTENDEE") (ev_attendee v) ++
  list_lines text_line text_shown (lit "CATEGORIES") (ev_categories v) ++
  list_lines text_line text_shown (lit "COMMENT") (ev_comment v) ++
  list_lines text_line text_shown (lit "CONTACT") (ev_contact v) ++
  list_lines date_line date_str (lit "EXDATE") (ev_exdate v) ++
  list_lines (plain_line rs_shown) rs_shown (lit "RSTATUS") (ev_rstatus v) ++
  list_lines text_line text_shown (lit "RELATED-TO") (ev_related_to v) ++
  list_lines text_line text_shown (lit "RESOURCES") (ev_resources v) ++
  list_lines (plain_line rdate_show) rdate_show (lit "RDATE") (ev_rdate v) ++
  ext_line (lit "X-PROP") (ev_x_prop v) ++
  ext_line (lit "IANA-PROP") (ev_iana_prop v).
Definition vevent_tidy (v : vevent) : Prop :=
  real_datetime (ev_dtstamp v) /\
  tidy_text (ev_uid v) /\
  real_date (ev_dtstart v) /\
  holds tidy_class (ev_class v) /\
  holds real_datetime (ev_created v) /\
  holds tidy_text (ev_description v) /\
  holds tidy_geo (ev_geo v) /\
  holds real_datetime (ev_last_modified v) /\
  holds tidy_text (ev_location v) /\
  holds tidy_uri (ev_organizer v) /\
  holds tidy_text (ev_summary v) /\
  holds tidy_uri (ev_url v) /\
  holds real_date (ev_recurid v) /\
  holds tidy_rule (ev_rrule v) /\
  holds real_date (ev_dtend v) /\
  Forall tidy_text (ev_attach v) /\
  Forall tidy_uri (ev_attendee v) /\
  Forall tidy_text (ev_categories v) /\
  Forall tidy_text (ev_comment v) /\
  Forall tidy_text (ev_contact v) /\
  Forall real_date (ev_exdate v) /\
  Forall tidy_rs (ev_rstatus v) /\
  Forall tidy_text (ev_related_to v) /\
  Forall tidy_text (ev_resources v) /\
  Forall real_rdate (ev_rdate v) /\
  ev_alarms v = [] /\
  tidy_ext (ev_x_prop v) /\
  tidy_ext (ev_iana_prop v).
Definition vevent_safe (v : vevent) : Prop :=
  writable_datetime (ev_dtstamp v) /\
  safe_text (ev_uid v) /\
  writable_date (ev_dtstart v) /\
  holds safe_class (ev_class v) /\
  holds writable_datetime (ev_created v) /\
  holds safe_text (ev_description v) /\
  holds safe_geo (ev_geo v) /\
  holds writable_datetime (ev_last_modified v) /\
  holds safe_text (ev_location v) /\
  holds safe_uri (ev_organizer v) /\
  holds (number 9) (ev_priority v) /\
  holds (number 4294967295) (ev_sequence v) /\
  holds safe_text (ev_summary v) /\
  holds safe_uri (ev_url v) /\
  holds writable_date (ev_recurid v) /\
  holds writable_rule (ev_rrule v) /\
  holds writable_date (ev_dtend v) /\
  holds safe_duration (ev_duration v) /\
  at_most_one safe_text (ev_attach v) /\
  at_most_one safe_uri (ev_attendee v) /\
  Forall safe_entry (ev_categories v) /\
  at_most_one safe_text (ev_comment v) /\
  at_most_one safe_text (ev_contact v) /\
  Forall writable_date (ev_exdate v) /\
  at_most_one safe_rs (ev_rstatus v) /\
  at_most_one safe_text (ev_related_to v) /\
  Forall safe_entry (ev_resources v) /\
  ev_rdate v = [] /\
  ev_alarms v = [] /\
  ev_x_prop v = [] /\
  ev_iana_prop v = [].

(** src/components/vfreebusy.rs:4-22 *)
Definition vfreebusy_written (v : vfreebusy) : list content_line :=
  plain_line dt_show (lit "DTSTAMP") (fb_dtstamp v) ++
  text_line (lit "UID") (fb_uid v) ++
  opt_lines text_line (lit "CONTACT") (fb_contact v) ++
  opt_lines date_line (lit "DTSTART") (fb_dtstart v) ++
  opt_lines date_line (lit "DTEND") (fb_dtend v) ++
  opt_lines uri_line (lit "ORGANIZER") (fb_organizer v) ++
  opt_lines uri_line (lit "URL") (fb_url v) ++
  list_lines uri_line uri_shown (lit "ATTENDEE") (fb_attendee v) ++
  list_lines text_line text_shown (lit "COMMENT") (fb_comment v) ++
  list_lines (plain_line period_show) period_show (lit "FREEBUSY") (fb_freebusy v) ++
  list_lines (plain_line rs_shown) rs_shown (lit "RSTATUS") (fb_rstatus v) ++
  ext_line (lit "X-PROP") (fb_x_prop v) ++
  ext_line (lit "IANA-PROP") (fb_iana_prop v).
Definition vfreebusy_tidy (v : vfreebusy) : Prop :=
  real_datetime (fb_dtstamp v) /\
  tidy_text (fb_uid v) /\
  holds tidy_text (fb_contact v) /\
  holds real_date (fb_dtstart v) /\
  holds real_date (fb_dtend v) /\
  holds tidy_uri (fb_organizer v) /\
  holds tidy_uri (fb_url v) /\
  Forall tidy_uri (fb_attendee v) /\
  Forall tidy_text (fb_comment v) /\
  Forall real_period (fb_freebusy v) /\
  Forall tidy_rs (fb_rstatus v) /\
  tidy_ext (fb_x_prop v) /\
  tidy_ext (fb_iana_prop v).
Definition vfreebusy_safe (v : vfreebusy) : Prop :=
  writable_datetime (fb_dtstamp v) /\
  safe_text (fb_uid v) /\
  holds safe_text (fb_contact v) /\
  holds writable_date (fb_dtstart v) /\
  holds writable_date (fb_dtend v) /\
  holds safe_uri (fb_organizer v) /\
  holds safe_uri (fb_url v) /\
  at_most_one safe_uri (fb_attendee v) /\
  at_most_one safe_text (fb_comment v) /\
  Forall writable_period (fb_freebusy v) /\
  at_most_one safe_rs (fb_rstatus v) /\
  fb_x_prop v = [] /\
  fb_iana_prop v = [].

(** src/components/vjournal.rs:4-35 *)
Definition vjournal_written (v : vjournal) : list content_line :=
  plain_line dt_show (lit "DTSTAMP") (jo_dtstamp v) ++
  text_line (lit "UID") (jo_uid v) ++
  opt_lines (plain_line class_show) (lit "CLASS") (jo_class v) ++
  opt_lines (plain_line dt_show) (lit "CREATED") (jo_created v) ++
  date_line (lit "DTSTART") (jo_dtstart v) ++
  opt_lines (plain_line dt_show) (lit "LAST-MODIFIED") (jo_last_modified v) ++
  opt_lines uri_line (lit "ORGANIZER") (jo_organizer v) ++
  opt_lines date_line (lit "RECURID") (jo_recurid v) ++
  opt_lines (plain_line show_int) (lit "SEQUENCE") (jo_sequence v) ++
  opt_lines (plain_line status_show) (lit "STATUS") (jo_status v) ++
  opt_lines text_line (lit "SUMMARY") (jo_summary v) ++
  opt_lines uri_line (lit "URL") (jo_url v) ++
  opt_lines (plain_line rule_shown) (lit "RRULE") (jo_rrule v) ++
  list_lines text_line text_shown (lit "ATTACH") (jo_attach v) ++
  list_lines uri_line uri_shown (lit "ATTENDEE") (jo_attendee v) ++
  list_lines text_line text_shown (lit "CATEGORIES") (jo_categories v) ++
  list_lines text_line text_shown (lit "COMMENT") (jo_comment v) ++
  list_lines text_line text_shown (lit "CONTACT") (jo_contact v) ++
  list_lines text_line text_shown (lit "DESCRIPTION") (jo_description v) ++
  list_lines date_line date_str (lit "EXDATE") (jo_exdate v) ++
  list_lines text_line text_shown (lit "RELATED-TO") (jo_related_to v) ++
  list_lines (plain_line rdate_show) rdate_show (lit "RDATE") (jo_rdate v) ++
  list_lines (plain_line rs_shown) rs_shown (lit "RSTATUS") (jo_rstatus v) ++
  ext_line (lit "X-PROP") (jo_x_prop v) ++
  ext_line (lit "IANA-PROP") (jo_iana_prop v).
Definition vjournal_tidy (v : vjournal) : Prop :=
  real_datetime (jo_dtstamp v) /\
  tidy_text (jo_uid v) /\
  holds tidy_class (jo_class v) /\
  holds real_datetime (jo_created v) /\
  real_date (jo_dtstart v) /\
  holds real_datetime (jo_last_modified v) /\
  holds tidy_uri (jo_organizer v) /\
  holds real_date (jo_recurid v) /\
  holds tidy_text (jo_summary v) /\
  holds tidy_uri (jo_url v) /\
  holds tidy_rule (jo_rrule v) /\
  Forall tidy_text (jo_attach v) /\
  Forall tidy_uri (jo_attendee v) /\
  Forall tidy_text (jo_categories v) /\
  Forall tidy_text (jo_comment v) /\
  Forall tidy_text (jo_contact v) /\
  Forall tidy_text (jo_description v) /\
  Forall real_date (jo_exdate v) /\
  Forall tidy_text (jo_related_to v) /\
  Forall real_rdate (jo_rdate v) /\
  Forall tidy_rs (jo_rstatus v) /\
  tidy_ext (jo_x_prop v) /\
  tidy_ext (jo_iana_prop v).
Definition vjournal_safe (v : vjournal) : Prop :=
  writable_datetime (jo_dtstamp v) /\
  safe_text (jo_uid v) /\
  holds safe_class (jo_class v) /\
  holds writable_datetime (jo_created v) /\
  writable_date (jo_dtstart v) /\
  holds writable_datetime (jo_last_modified v) /\
  holds safe_uri (jo_organizer v) /\
  holds writable_date (jo_recurid v) /\
  holds (number 4294967295) (jo_sequence v) /\
  holds safe_text (jo_summary v) /\
  holds safe_uri (jo_url v) /\
  holds writable_rule (jo_rrule v) /\
  at_most_one safe_text (jo_attach v) /\
  at_most_one safe_uri (jo_attendee v) /\
  Forall safe_entry (jo_categories v) /\
  at_most_one safe_text (jo_comment v) /\
  at_most_one safe_text (jo_contact v) /\
  at_most_one safe_text (jo_description v) /\
  Forall writable_date (jo_exdate v) /\
  at_most_one safe_text (jo_related_to v) /\
  jo_rdate v = [] /\
  at_most_one safe_rs (jo_rstatus v) /\
  jo_x_prop v = [] /\
  jo_iana_prop v = [].

(** src/components/vtodo.rs:4-43 *)
Definition vtodo_written (v : vtodo) : list content_line :=
  plain_line dt_show (lit "DTSTAMP") (to_dtstamp v) ++
  text_line (lit "UID") (to_uid v) ++
  opt_lines (plain_line class_show) (lit "CLASS") (to_class v) ++
  opt_lines (plain_line dt_show) (lit "COMPLETED") (to_completed v) ++
  opt_lines (plain_line dt_show) (lit "CREATED") (to_created v) ++
  opt_lines date_line (lit "DTSTART") (to_dtstart v) ++
  opt_lines (plain_line geo_show) (lit "GEO") (to_geo v) ++
  opt_lines (plain_line dt_show) (lit "LAST-MODIFIED") (to_last_modified v) ++
  opt_lines text_line (lit "LOCATION") (to_location v) ++
  opt_lines uri_line (lit "ORGANIZER") (to_organizer v) ++
  opt_lines (plain_line show_int) (lit "PERCENT-COMPLETE") (to_percent_complete v) ++
  opt_lines (plain_line show_int) (lit "PRIORITY") (to_priority v) ++
  opt_lines date_line (lit "RECURID") (to_recurid v) ++
  opt_lines (plain_line show_int) (lit "SEQUENCE") (to_sequence v) ++
  opt_lines (plain_line status_show) (lit "STATUS") (to_status v) ++
  opt_lines text_line (lit "SUMMARY") (to_summary v) ++
  opt_lines uri_line (lit "URL") (to_url v) ++
  opt_lines (plain_line rule_shown) (lit "RRULE") (to_rrule v) ++
  opt_lines date_line (lit "DUE") (to_due v) ++
  opt_lines (plain_line td_show) (lit "DURATION") (to_duration v) ++
  list_lines text_line text_shown (lit "ATTACH") (to_attach v) ++
  list_lines uri_line uri_shown (lit "ATTENDEE") (to_attendee v) ++
  list_lines text_line text_shown (lit "CATEGORIES") (to_categories v) ++
  list_lines text_line text_shown (lit "COMMENT") (to_comment v) ++
  list_lines text_line text_shown (lit "CONTACT") (to_contact v) ++
  list_lines date_line date_str (lit "EXDATE") (to_exdate v) ++
  list_lines (plain_line rs_shown) rs_shown (lit "RSTATUS") (to_rstatus v) ++
  list_lines text_line text_shown (lit "RELATED-TO") (to_related_to v) ++
  list_lines text_line text_shown (lit "RESOURCES") (to_resources v) ++
  list_lines (plain_line rdate_show) rdate_show (lit "RDATE") (to_rdate v) ++
  ext_line (lit "X-PROP") (to_x_prop v) ++
  ext_line (lit "IANA-PROP") (to_iana_prop v).
Definition vtodo_tidy (v : vtodo) : Prop :=
  real_datetime (to_dtstamp v) /\
  tidy_text (to_uid v) /\
  holds tidy_class (to_class v) /\
  holds real_datetime (to_completed v) /\
  holds real_datetime (to_created v) /\
  holds real_date (to_dtstart v) /\
  holds tidy_geo (to_geo v) /\
  holds real_datetime (to_last_modified v) /\
  holds tidy_text (to_location v) /\
  holds tidy_uri (to_organizer v) /\
  holds real_date (to_recurid v) /\
  holds tidy_text (to_summary v) /\
  holds tidy_uri (to_url v) /\
  holds tidy_rule (to_rrule v) /\
  holds real_date (to_due v) /\
  Forall tidy_text (to_attach v) /\
  Forall tidy_uri (to_attendee v) /\
  Forall tidy_text (to_categories v) /\
  Forall tidy_text (to_comment v) /\
  Forall tidy_text (to_contact v) /\
  Forall real_date (to_exdate v) /\
  Forall tidy_rs (to_rstatus v) /\
  Forall tidy_text (to_related_to v) /\
  Forall tidy_text (to_resources v) /\
  Forall real_rdate (to_rdate v) /\
  tidy_ext (to_x_prop v) /\
  tidy_ext (to_iana_prop v).
Definition vtodo_safe (v : vtodo) : Prop :=
  writable_datetime (to_dtstamp v) /\
  safe_text (to_uid v) /\
  holds safe_class (to_class v) /\
  holds writable_datetime (to_completed v) /\
  holds writable_datetime (to_created v) /\
  holds writable_date (to_dtstart v) /\
  holds safe_geo (to_geo v) /\
  holds writable_datetime (to_last_modified v) /\
  holds safe_text (to_location v) /\
  holds safe_uri (to_organizer v) /\
  holds (number 255) (to_percent_complete v) /\
  holds (number 9) (to_priority v) /\
  holds writable_date (to_recurid v) /\
  holds (number 4294967295) (to_sequence v) /\
  holds safe_text (to_summary v) /\
  holds safe_uri (to_url v) /\
  holds writable_rule (to_rrule v) /\
  holds writable_date (to_due v) /\
  holds safe_duration (to_duration v) /\
  at_most_one safe_text (to_attach v) /\
  at_most_one safe_uri (to_attendee v) /\
  Forall safe_entry (to_categories v) /\
  at_most_one safe_text (to_comment v) /\
  at_most_one safe_text (to_contact v) /\
  Forall writable_date (to_exdate v) /\
  at_most_one safe_rs (to_rstatus v) /\
  at_most_one safe_text (to_related_to v) /\
  Forall safe_entry (to_resources v) /\
  to_rdate v = [] /\
  to_x_prop v = [] /\
  to_iana_prop v = [].

(** src/components/vtimezone.rs:34-49,76 *)
Definition standard_written (v : standard) : list content_line :=
  date_line (lit "DTSTART") (st_dtstart v) ++
  plain_line offset_show (lit "TZOFFSETTO") (st_tzoffsetto v) ++
  plain_line offset_show (lit "TZOFFSETFROM") (st_tzoffsetfrom v) ++
  opt_lines (plain_line rule_shown) (lit "RRULE") (st_rrule v) ++
  list_lines text_line text_shown (lit "COMMENT") (st_comment v) ++
  list_lines (plain_line rdate_show) rdate_show (lit "RDATE") (st_rdate v) ++
  list_lines text_line text_shown (lit "TZNAME") (st_tzname v) ++
  ext_line (lit "X-PROP") (st_x_prop v) ++
  ext_line (lit "IANA-PROP") (st_iana_prop v).
Definition standard_tidy (v : standard) : Prop :=
  real_date (st_dtstart v) /\
  real_offset (st_tzoffsetto v) /\
  real_offset (st_tzoffsetfrom v) /\
  holds tidy_rule (st_rrule v) /\
  Forall tidy_text (st_comment v) /\
  Forall real_rdate (st_rdate v) /\
  Forall tidy_text (st_tzname v) /\
  tidy_ext (st_x_prop v) /\
  tidy_ext (st_iana_prop v).
Definition standard_safe (v : standard) : Prop :=
  writable_date (st_dtstart v) /\
  safe_offset (st_tzoffsetto v) /\
  safe_offset (st_tzoffsetfrom v) /\
  holds writable_rule (st_rrule v) /\
  at_most_one safe_text (st_comment v) /\
  st_rdate v = [] /\
  at_most_one safe_text (st_tzname v) /\
  st_x_prop v = [] /\
  st_iana_prop v = [].

(** src/components/vtimezone.rs:34-49,77 *)
Definition daylight_written (v : daylight) : list content_line :=
  date_line (lit "DTSTART") (dl_dtstart v) ++
  plain_line offset_show (lit "TZOFFSETTO") (dl_tzoffsetto v) ++
  plain_line offset_show (lit "TZOFFSETFROM") (dl_tzoffsetfrom v) ++
  opt_lines (plain_line rule_shown) (lit "RRULE") (dl_rrule v) ++
  list_lines text_line text_shown (lit "COMMENT") (dl_comment v) ++
  list_lines (plain_line rdate_show) rdate_show (lit "RDATE") (dl_rdate v) ++
  list_lines text_line text_shown (lit "TZNAME") (dl_tzname v) ++
  ext_line (lit "X-PROP") (dl_x_prop v) ++
  ext_line (lit "IANA-PROP") (dl_iana_prop v).
Definition daylight_tidy (v : daylight) : Prop :=
  real_date (dl_dtstart v) /\
  real_offset (dl_tzoffsetto v) /\
  real_offset (dl_tzoffsetfrom v) /\
  holds tidy_rule (dl_rrule v) /\
  Forall tidy_text (dl_comment v) /\
  Forall real_rdate (dl_rdate v) /\
  Forall tidy_text (dl_tzname v) /\
  tidy_ext (dl_x_prop v) /\
  tidy_ext (dl_iana_prop v).
Definition daylight_safe (v : daylight) : Prop :=
  writable_date (dl_dtstart v) /\
  safe_offset (dl_tzoffsetto v) /\
  safe_offset (dl_tzoffsetfrom v) /\
  holds writable_rule (dl_rrule v) /\
  at_most_one safe_text (dl_comment v) /\
  dl_rdate v = [] /\
  at_most_one safe_text (dl_tzname v) /\
  dl_x_prop v = [] /\
  dl_iana_prop v = [].

(** src/components/vtimezone.rs:6-19 *)
Definition vtimezone_written (v : vtimezone) : list content_line :=
  text_line (lit "TZID") (tz_tzid v) ++
  opt_lines (plain_line dt_show) (lit "LAST-MODIFIED") (tz_last_modified v) ++
  opt_lines uri_line (lit "TZURL") (tz_tzurl v) ++
  ext_line (lit "X-PROP") (tz_x_prop v) ++
  ext_line (lit "IANA-PROP") (tz_iana_prop v).
Definition vtimezone_tidy (v : vtimezone) : Prop :=
  tidy_text (tz_tzid v) /\
  holds real_datetime (tz_last_modified v) /\
  holds tidy_uri (tz_tzurl v) /\
  tidy_ext (tz_x_prop v) /\
  tidy_ext (tz_iana_prop v).

(** src/components/vcalendar.rs:4-26 *)
Definition vcalendar_written (v : vcalendar) : list content_line :=
  text_line (lit "PRODID") (ca_prodid v) ++
  text_line (lit "VERSION") (ca_version v) ++
  opt_lines text_line (lit "CALSCALE") (ca_calscale v) ++
  opt_lines text_line (lit "METHOD") (ca_method v) ++
  ext_line (lit "X-PROP") (ca_x_prop v) ++
  ext_line (lit "IANA-PROP") (ca_iana_prop v).
Definition vcalendar_tidy (v : vcalendar) : Prop :=
  tidy_text (ca_prodid v) /\
  tidy_text (ca_version v) /\
  holds tidy_text (ca_calscale v) /\
  holds tidy_text (ca_method v) /\
  tidy_ext (ca_x_prop v) /\
  tidy_ext (ca_iana_prop v).

(** A timezone or a calendar with children: at most one child of each kind, and
    no extension property when there is one (they would be written after it). *)
Definition one_each_tz (v : vtimezone) : Prop := (length (tz_standard v) <= 1)%nat /\ (length (tz_daylight v) <= 1)%nat.
Definition childless_tz (v : vtimezone) : Prop := tz_standard v = [] /\ tz_daylight v = [].
Definition vtimezone_fit (v : vtimezone) : Prop :=
  vtimezone_tidy v /\ one_each_tz v /\ Forall standard_tidy (tz_standard v) /\ Forall daylight_tidy (tz_daylight v) /\
  (childless_tz v \/ tz_x_prop v = [] /\ tz_iana_prop v = []).
Definition one_each (v : vcalendar) : Prop :=
  ca_alarms v = [] /\ (length (ca_events v) <= 1)%nat /\ (length (ca_freebusy v) <= 1)%nat /\ (length (ca_journals v) <= 1)%nat /\
  (length (ca_todo v) <= 1)%nat /\ (length (ca_timezones v) <= 1)%nat.
Definition childless (v : vcalendar) : Prop :=
  ca_alarms v = [] /\ ca_events v = [] /\ ca_freebusy v = [] /\ ca_journals v = [] /\ ca_todo v = [] /\ ca_timezones v = [].
Definition vcalendar_fit (v : vcalendar) : Prop :=
  vcalendar_tidy v /\ one_each v /\ Forall vevent_tidy (ca_events v) /\ Forall vfreebusy_tidy (ca_freebusy v) /\
  Forall vjournal_tidy (ca_journals v) /\ Forall vtodo_tidy (ca_todo v) /\ Forall vtimezone_fit (ca_timezones v) /\
  (childless v \/ ca_x_prop v = [] /\ ca_iana_prop v = []).
(** What the text of [v] says of the timezone (calendar) [w]. *)
Definition vtimezone_back (v w : vtimezone) : Prop :=
  vtimezone_read (vtimezone_written v) (set_tz_daylight (set_tz_standard w []) []) /\
  Forall2 (fun a b => standard_read (standard_written a) b) (tz_standard v) (tz_standard w) /\
  Forall2 (fun a b => daylight_read (daylight_written a) b) (tz_daylight v) (tz_daylight w).
Definition vcalendar_back (v w : vcalendar) : Prop :=
  vcalendar_read (vcalendar_written v)
    (mk_vcalendar (ca_prodid w) (ca_version w) (ca_calscale w) (ca_method w) [] [] [] [] [] [] (ca_x_prop w) (ca_iana_prop w)) /\
  ca_alarms w = [] /\
  Forall2 (fun a b => vevent_read (vevent_written a) b) (ca_events v) (ca_events w) /\
  Forall2 (fun a b => vfreebusy_read (vfreebusy_written a) b) (ca_freebusy v) (ca_freebusy w) /\
  Forall2 (fun a b => vjournal_read (vjournal_written a) b) (ca_journals v) (ca_journals w) /\
  Forall2 (fun a b => vtodo_read (vtodo_written a) b) (ca_todo v) (ca_todo w) /\
  Forall2 vtimezone_back (ca_timezones v) (ca_timezones w).
Definition vtimezone_safe (v : vtimezone) : Prop :=
  safe_text (tz_tzid v) /\ holds writable_datetime (tz_last_modified v) /\ holds safe_uri (tz_tzurl v) /\
  one_each_tz v /\ Forall standard_safe (tz_standard v) /\ Forall daylight_safe (tz_daylight v) /\
  tz_x_prop v = [] /\ tz_iana_prop v = [].
Definition vcalendar_safe (v : vcalendar) : Prop :=
  safe_text (ca_prodid v) /\ safe_text (ca_version v) /\ holds safe_text (ca_calscale v) /\ holds safe_text (ca_method v) /\
  one_each v /\ Forall vevent_safe (ca_events v) /\ Forall vfreebusy_safe (ca_freebusy v) /\
  Forall vjournal_safe (ca_journals v) /\ Forall vtodo_safe (ca_todo v) /\ Forall vtimezone_safe (ca_timezones v) /\
  ca_x_prop v = [] /\ ca_iana_prop v = [].
(** An alarm: the lines of its content. *)
Definition valarm_written (a : valarm) : list content_line :=
  match a with AAudio x => audio_written x | ADisplay x => display_written x | AEmail x => email_written x end.
Definition valarm_tidy (a : valarm) : Prop :=
  match a with AAudio x => audio_tidy x | ADisplay x => display_tidy x | AEmail x => email_tidy x end.
Definition valarm_safe (a : valarm) : Prop :=
  match a with
  | AAudio x => audio_safe x /\ t_text (au_action x) = lit "AUDIO"
  | ADisplay x => display_safe x /\ t_text (di_action x) = lit "DISPLAY"
  | AEmail x => email_safe x /\ t_text (em_action x) = lit "EMAIL"
  end.
End Values.
(** A line that needs no multi-byte char. *)
Definition ascii_line (l : content_line) : Prop := ascii (cl_value l) /\ Forall (fun kv => ascii (snd kv)) (cl_params l).
