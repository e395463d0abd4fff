(** * C77: what [#[derive(Component)]] and [#[derive(Serialize)]] generate.

    The code generated from the declarations of the crate is what the rest of the
    model takes it to be (first part), and what is generated from any declaration
    follows the rules of SpecGenerator.v (second part). *)
From Verif Require Import Base BaseFacts Env Chrono Nom Types Ser Parser Derive Components SpecLine PropComp PropDate Macros SpecMacro MacroFacts Generator GenFacts SpecGenerator.

Section Schemas.
Context {E : Env}.
Definition cs_audio : cschema := [
  (lit "action", CReq TText ser_text parse_text);
  (lit "trigger", CReq TTrigger ser_trigger parse_trigger);
  (lit "duration", COpt TDuration ser_td parse_dur);
  (lit "repeat", COpt TU32 ser_u32 parse_u32);
  (lit "attach", CVec TText ser_text parse_text)].

Lemma cs_audio_schema : schema_of cs_audio = audio_schema.
Proof. reflexivity. Defined.

Definition cs_display : cschema := [
  (lit "action", CReq TText ser_text parse_text);
  (lit "trigger", CReq TTrigger ser_trigger parse_trigger);
  (lit "description", CReq TText ser_text parse_text);
  (lit "duration", COpt TDuration ser_td parse_dur);
  (lit "repeat", COpt TU32 ser_u32 parse_u32)].

Lemma cs_display_schema : schema_of cs_display = display_schema.
Proof. reflexivity. Defined.

Definition cs_email : cschema := [
  (lit "action", CReq TText ser_text parse_text);
  (lit "trigger", CReq TTrigger ser_trigger parse_trigger);
  (lit "description", CReq TText ser_text parse_text);
  (lit "summary", CReq TText ser_text parse_text);
  (lit "attendee", CVec TUri ser_uri parse_uri);
  (lit "duration", COpt TDuration ser_td parse_dur);
  (lit "repeat", COpt TU32 ser_u32 parse_u32);
  (lit "attach", CVec TText ser_text parse_text)].

Lemma cs_email_schema : schema_of cs_email = email_schema.
Proof. reflexivity. Defined.

Definition cs_vcalendar : cschema := [
  (lit "prodid", CReq TText ser_text parse_text);
  (lit "version", CReq TText ser_text parse_text);
  (lit "calscale", COpt TText ser_text parse_text);
  (lit "method", COpt TText ser_text parse_text);
  (lit "alarms", CIgn TAlarm ser_valarm);
  (lit "events", CIgn (TStruct SEvent) ser_vevent);
  (lit "freebusy", CIgn (TStruct SFreebusy) ser_vfreebusy);
  (lit "journals", CIgn (TStruct SJournal) ser_vjournal);
  (lit "todo", CIgn (TStruct STodo) ser_vtodo);
  (lit "timezones", CIgn (TStruct STimezone) ser_vtimezone)].

Lemma cs_vcalendar_schema : schema_of cs_vcalendar = vcalendar_schema.
Proof. reflexivity. Defined.

Definition cs_vevent : cschema := [
  (lit "dtstamp", CReq TDateTime ser_datetime parse_datetime);
  (lit "uid", CReq TText ser_text parse_text);
  (lit "dtstart", CReq TDate ser_date parse_date);
  (lit "class", COpt TClass ser_class parse_class);
  (lit "created", COpt TDateTime ser_datetime parse_datetime);
  (lit "description", COpt TText ser_text parse_text);
  (lit "geo", COpt (TStruct SGeo) ser_geo parse_geo);
  (lit "last_modified", COpt TDateTime ser_datetime parse_datetime);
  (lit "location", COpt TText ser_text parse_text);
  (lit "organizer", COpt TUri ser_uri parse_uri);
  (lit "priority", COpt TU8 ser_u8 parse_priority);
  (lit "sequence", COpt TU32 ser_u32 parse_u32);
  (lit "status", COpt TStatus ser_status parse_status);
  (lit "summary", COpt TText ser_text parse_text);
  (lit "transp", COpt TTransp ser_transp parse_transp);
  (lit "url", COpt TUri ser_uri parse_uri);
  (lit "recurid", COpt TDate ser_date parse_date);
  (lit "rrule", COpt (TStruct SRecur) ser_recur parse_rrule);
  (lit "dtend", COpt TDate ser_date parse_date);
  (lit "duration", COpt TDuration ser_td parse_dur);
  (lit "attach", CVec TText ser_text parse_text);
  (lit "attendee", CVec TUri ser_uri parse_uri);
  (lit "categories", CApp TText ser_text parse_texts);
  (lit "comment", CVec TText ser_text parse_text);
  (lit "contact", CVec TText ser_text parse_text);
  (lit "exdate", CApp TDate ser_date parse_exdate);
  (lit "rstatus", CVec (TStruct SRStatus) ser_rs parse_rstatus);
  (lit "related_to", CVec TText ser_text parse_text);
  (lit "resources", CApp TText ser_text parse_texts);
  (lit "rdate", CVec TRDate ser_rdate parse_rdate);
  (lit "alarms", CIgn TAlarm ser_valarm)].

Lemma cs_vevent_schema : schema_of cs_vevent = vevent_schema.
Proof. reflexivity. Defined.

Definition cs_vfreebusy : cschema := [
  (lit "dtstamp", CReq TDateTime ser_datetime parse_datetime);
  (lit "uid", CReq TText ser_text parse_text);
  (lit "contact", COpt TText ser_text parse_text);
  (lit "dtstart", COpt TDate ser_date parse_date);
  (lit "dtend", COpt TDate ser_date parse_date);
  (lit "organizer", COpt TUri ser_uri parse_uri);
  (lit "url", COpt TUri ser_uri parse_uri);
  (lit "attendee", CVec TUri ser_uri parse_uri);
  (lit "comment", CVec TText ser_text parse_text);
  (lit "freebusy", CApp TPeriod ser_period parse_freebusy);
  (lit "rstatus", CVec (TStruct SRStatus) ser_rs parse_rstatus)].

Lemma cs_vfreebusy_schema : schema_of cs_vfreebusy = vfreebusy_schema.
Proof. reflexivity. Defined.

Definition cs_vjournal : cschema := [
  (lit "dtstamp", CReq TDateTime ser_datetime parse_datetime);
  (lit "uid", CReq TText ser_text parse_text);
  (lit "class", COpt TClass ser_class parse_class);
  (lit "created", COpt TDateTime ser_datetime parse_datetime);
  (lit "dtstart", CReq TDate ser_date parse_date);
  (lit "last_modified", COpt TDateTime ser_datetime parse_datetime);
  (lit "organizer", COpt TUri ser_uri parse_uri);
  (lit "recurid", COpt TDate ser_date parse_date);
  (lit "sequence", COpt TU32 ser_u32 parse_u32);
  (lit "status", COpt TStatus ser_status parse_status);
  (lit "summary", COpt TText ser_text parse_text);
  (lit "url", COpt TUri ser_uri parse_uri);
  (lit "rrule", COpt (TStruct SRecur) ser_recur parse_rrule);
  (lit "attach", CVec TText ser_text parse_text);
  (lit "attendee", CVec TUri ser_uri parse_uri);
  (lit "categories", CApp TText ser_text parse_texts);
  (lit "comment", CVec TText ser_text parse_text);
  (lit "contact", CVec TText ser_text parse_text);
  (lit "description", CVec TText ser_text parse_text);
  (lit "exdate", CApp TDate ser_date parse_exdate);
  (lit "related_to", CVec TText ser_text parse_text);
  (lit "rdate", CVec TRDate ser_rdate parse_rdate);
  (lit "rstatus", CVec (TStruct SRStatus) ser_rs parse_rstatus)].

Lemma cs_vjournal_schema : schema_of cs_vjournal = vjournal_schema.
Proof. reflexivity. Defined.

Definition cs_vtimezone : cschema := [
  (lit "tzid", CReq TText ser_text parse_text);
  (lit "last_modified", COpt TDateTime ser_datetime parse_datetime);
  (lit "tzurl", COpt TUri ser_uri parse_uri);
  (lit "standard", CIgn (TStruct SStandard) ser_standard);
  (lit "daylight", CIgn (TStruct SDaylight) ser_daylight)].

Lemma cs_vtimezone_schema : schema_of cs_vtimezone = vtimezone_schema.
Proof. reflexivity. Defined.

Definition cs_vtodo : cschema := [
  (lit "dtstamp", CReq TDateTime ser_datetime parse_datetime);
  (lit "uid", CReq TText ser_text parse_text);
  (lit "class", COpt TClass ser_class parse_class);
  (lit "completed", COpt TDateTime ser_datetime parse_datetime);
  (lit "created", COpt TDateTime ser_datetime parse_datetime);
  (lit "dtstart", COpt TDate ser_date parse_date);
  (lit "geo", COpt (TStruct SGeo) ser_geo parse_geo);
  (lit "last_modified", COpt TDateTime ser_datetime parse_datetime);
  (lit "location", COpt TText ser_text parse_text);
  (lit "organizer", COpt TUri ser_uri parse_uri);
  (lit "percent_complete", COpt TU8 ser_u8 parse_percent);
  (lit "priority", COpt TU8 ser_u8 parse_priority);
  (lit "recurid", COpt TDate ser_date parse_date);
  (lit "sequence", COpt TU32 ser_u32 parse_u32);
  (lit "status", COpt TStatus ser_status parse_status);
  (lit "summary", COpt TText ser_text parse_text);
  (lit "url", COpt TUri ser_uri parse_uri);
  (lit "rrule", COpt (TStruct SRecur) ser_recur parse_rrule);
  (lit "due", COpt TDate ser_date parse_date);
  (lit "duration", COpt TDuration ser_td parse_dur);
  (lit "attach", CVec TText ser_text parse_text);
  (lit "attendee", CVec TUri ser_uri parse_uri);
  (lit "categories", CApp TText ser_text parse_texts);
  (lit "comment", CVec TText ser_text parse_text);
  (lit "contact", CVec TText ser_text parse_text);
  (lit "exdate", CApp TDate ser_date parse_exdate);
  (lit "rstatus", CVec (TStruct SRStatus) ser_rs parse_rstatus);
  (lit "related_to", CVec TText ser_text parse_text);
  (lit "resources", CApp TText ser_text parse_texts);
  (lit "rdate", CVec TRDate ser_rdate parse_rdate)].

Lemma cs_vtodo_schema : schema_of cs_vtodo = vtodo_schema.
Proof. reflexivity. Defined.

Definition cs_standard : cschema := [
  (lit "dtstart", CReq TDate ser_date parse_date);
  (lit "tzoffsetto", CReq TOffset ser_offset parse_offset);
  (lit "tzoffsetfrom", CReq TOffset ser_offset parse_offset);
  (lit "rrule", COpt (TStruct SRecur) ser_recur parse_rrule);
  (lit "comment", CVec TText ser_text parse_text);
  (lit "rdate", CVec TRDate ser_rdate parse_rdate);
  (lit "tzname", CVec TText ser_text parse_text)].

Lemma cs_standard_schema : schema_of cs_standard = standard_schema.
Proof. reflexivity. Defined.

Definition cs_daylight : cschema := [
  (lit "dtstart", CReq TDate ser_date parse_date);
  (lit "tzoffsetto", CReq TOffset ser_offset parse_offset);
  (lit "tzoffsetfrom", CReq TOffset ser_offset parse_offset);
  (lit "rrule", COpt (TStruct SRecur) ser_recur parse_rrule);
  (lit "comment", CVec TText ser_text parse_text);
  (lit "rdate", CVec TRDate ser_rdate parse_rdate);
  (lit "tzname", CVec TText ser_text parse_text)].

Lemma cs_daylight_schema : schema_of cs_daylight = daylight_schema.
Proof. reflexivity. Defined.
End Schemas.
Ltac by_known := repeat (apply Forall_cons; [first [reflexivity|split; reflexivity]|]); apply Forall_nil.
Ltac by_blank := repeat (apply Forall_cons; [first [exact I|reflexivity]|]); apply Forall_nil.

(** ** The structs of the crate *)
(** For each: the macro accepts the declaration; the generated [try_from], [ical], [component] and [from_str] are those of Components.v. *)

Theorem C77_audio : forall E : Env, exists c, component_macro decl_audio = GOk c /\
  (forall ls, run_read SAudio c ls = Some (audio_of_lines ls)) /\
  (forall v, run_write SAudio c v = Some (s_ical ser_audio v)) /\ s_component ser_audio = Some (k_component c) /\
  (forall s, run_from_str SAudio c s = Some (audio_of_str s)).
Proof.
  intros E. exists (code_for cs_audio (lit "AUDIO") (lit "audio")). split; [vm_compute; reflexivity|].
  destruct (generated SAudio cs_audio audio_schema cs_audio_schema audio_to audio_of (lit "AUDIO") (lit "audio") audio_of_to audio_to_of) as [HR HW];
    [intros v; destruct v; reflexivity|by_known|by_blank|reflexivity|reflexivity|].
  split; [exact HR|]. split; [exact HW|]. split; [reflexivity|]. intros s. reflexivity.
Qed.

Theorem C77_display : forall E : Env, exists c, component_macro decl_display = GOk c /\
  (forall ls, run_read SDisplay c ls = Some (display_of_lines ls)) /\
  (forall v, run_write SDisplay c v = Some (s_ical ser_display_alarm v)) /\ s_component ser_display_alarm = Some (k_component c) /\
  (forall s, run_from_str SDisplay c s = Some (display_of_str s)).
Proof.
  intros E. exists (code_for cs_display (lit "DISPLAY") (lit "display")). split; [vm_compute; reflexivity|].
  destruct (generated SDisplay cs_display display_schema cs_display_schema display_to display_of (lit "DISPLAY") (lit "display") display_of_to display_to_of) as [HR HW];
    [intros v; destruct v; reflexivity|by_known|by_blank|reflexivity|reflexivity|].
  split; [exact HR|]. split; [exact HW|]. split; [reflexivity|]. intros s. reflexivity.
Qed.

Theorem C77_email : forall E : Env, exists c, component_macro decl_email = GOk c /\
  (forall ls, run_read SEmail c ls = Some (email_of_lines ls)) /\
  (forall v, run_write SEmail c v = Some (s_ical ser_email v)) /\ s_component ser_email = Some (k_component c) /\
  (forall s, run_from_str SEmail c s = Some (email_of_str s)).
Proof.
  intros E. exists (code_for cs_email (lit "EMAIL") (lit "email")). split; [vm_compute; reflexivity|].
  destruct (generated SEmail cs_email email_schema cs_email_schema email_to email_of (lit "EMAIL") (lit "email") email_of_to email_to_of) as [HR HW];
    [intros v; destruct v; reflexivity|by_known|by_blank|reflexivity|reflexivity|].
  split; [exact HR|]. split; [exact HW|]. split; [reflexivity|]. intros s. reflexivity.
Qed.

Theorem C77_vcalendar : forall E : Env, exists c, component_macro decl_vcalendar = GOk c /\
  (forall ls, run_read SCalendar c ls = Some (vcalendar_of_lines ls)) /\
  (forall v, run_write SCalendar c v = Some (s_ical ser_vcalendar v)) /\ s_component ser_vcalendar = Some (k_component c) /\
  (forall s, run_from_str SCalendar c s = Some (vcalendar_of_str s)).
Proof.
  intros E. exists (code_for cs_vcalendar (lit "VCALENDAR") (lit "vcalendar")). split; [vm_compute; reflexivity|].
  destruct (generated SCalendar cs_vcalendar vcalendar_schema cs_vcalendar_schema vcalendar_to vcalendar_of (lit "VCALENDAR") (lit "vcalendar") vcalendar_of_to vcalendar_to_of) as [HR HW];
    [intros v; destruct v; reflexivity|by_known|by_blank|reflexivity|reflexivity|].
  split; [exact HR|]. split; [exact HW|]. split; [reflexivity|]. intros s. reflexivity.
Qed.

Theorem C77_vevent : forall E : Env, exists c, component_macro decl_vevent = GOk c /\
  (forall ls, run_read SEvent c ls = Some (vevent_of_lines ls)) /\
  (forall v, run_write SEvent c v = Some (s_ical ser_vevent v)) /\ s_component ser_vevent = Some (k_component c) /\
  (forall s, run_from_str SEvent c s = Some (vevent_of_str s)).
Proof.
  intros E. exists (code_for cs_vevent (lit "VEVENT") (lit "vevent")). split; [vm_compute; reflexivity|].
  destruct (generated SEvent cs_vevent vevent_schema cs_vevent_schema vevent_to vevent_of (lit "VEVENT") (lit "vevent") vevent_of_to vevent_to_of) as [HR HW];
    [intros v; destruct v; reflexivity|by_known|by_blank|reflexivity|reflexivity|].
  split; [exact HR|]. split; [exact HW|]. split; [reflexivity|]. intros s. reflexivity.
Qed.

Theorem C77_vfreebusy : forall E : Env, exists c, component_macro decl_vfreebusy = GOk c /\
  (forall ls, run_read SFreebusy c ls = Some (vfreebusy_of_lines ls)) /\
  (forall v, run_write SFreebusy c v = Some (s_ical ser_vfreebusy v)) /\ s_component ser_vfreebusy = Some (k_component c) /\
  (forall s, run_from_str SFreebusy c s = Some (vfreebusy_of_str s)).
Proof.
  intros E. exists (code_for cs_vfreebusy (lit "VFREEBUSY") (lit "vfreebusy")). split; [vm_compute; reflexivity|].
  destruct (generated SFreebusy cs_vfreebusy vfreebusy_schema cs_vfreebusy_schema vfreebusy_to vfreebusy_of (lit "VFREEBUSY") (lit "vfreebusy") vfreebusy_of_to vfreebusy_to_of) as [HR HW];
    [intros v; destruct v; reflexivity|by_known|by_blank|reflexivity|reflexivity|].
  split; [exact HR|]. split; [exact HW|]. split; [reflexivity|]. intros s. reflexivity.
Qed.

Theorem C77_vjournal : forall E : Env, exists c, component_macro decl_vjournal = GOk c /\
  (forall ls, run_read SJournal c ls = Some (vjournal_of_lines ls)) /\
  (forall v, run_write SJournal c v = Some (s_ical ser_vjournal v)) /\ s_component ser_vjournal = Some (k_component c) /\
  (forall s, run_from_str SJournal c s = Some (vjournal_of_str s)).
Proof.
  intros E. exists (code_for cs_vjournal (lit "VJOURNAL") (lit "vjournal")). split; [vm_compute; reflexivity|].
  destruct (generated SJournal cs_vjournal vjournal_schema cs_vjournal_schema vjournal_to vjournal_of (lit "VJOURNAL") (lit "vjournal") vjournal_of_to vjournal_to_of) as [HR HW];
    [intros v; destruct v; reflexivity|by_known|by_blank|reflexivity|reflexivity|].
  split; [exact HR|]. split; [exact HW|]. split; [reflexivity|]. intros s. reflexivity.
Qed.

Theorem C77_vtimezone : forall E : Env, exists c, component_macro decl_vtimezone = GOk c /\
  (forall ls, run_read STimezone c ls = Some (vtimezone_of_lines ls)) /\
  (forall v, run_write STimezone c v = Some (s_ical ser_vtimezone v)) /\ s_component ser_vtimezone = Some (k_component c) /\
  (forall s, run_from_str STimezone c s = Some (vtimezone_of_str s)).
Proof.
  intros E. exists (code_for cs_vtimezone (lit "VTIMEZONE") (lit "vtimezone")). split; [vm_compute; reflexivity|].
  destruct (generated STimezone cs_vtimezone vtimezone_schema cs_vtimezone_schema vtimezone_to vtimezone_of (lit "VTIMEZONE") (lit "vtimezone") vtimezone_of_to vtimezone_to_of) as [HR HW];
    [intros v; destruct v; reflexivity|by_known|by_blank|reflexivity|reflexivity|].
  split; [exact HR|]. split; [exact HW|]. split; [reflexivity|]. intros s. reflexivity.
Qed.

Theorem C77_vtodo : forall E : Env, exists c, component_macro decl_vtodo = GOk c /\
  (forall ls, run_read STodo c ls = Some (vtodo_of_lines ls)) /\
  (forall v, run_write STodo c v = Some (s_ical ser_vtodo v)) /\ s_component ser_vtodo = Some (k_component c) /\
  (forall s, run_from_str STodo c s = Some (vtodo_of_str s)).
Proof.
  intros E. exists (code_for cs_vtodo (lit "VTODO") (lit "vtodo")). split; [vm_compute; reflexivity|].
  destruct (generated STodo cs_vtodo vtodo_schema cs_vtodo_schema vtodo_to vtodo_of (lit "VTODO") (lit "vtodo") vtodo_of_to vtodo_to_of) as [HR HW];
    [intros v; destruct v; reflexivity|by_known|by_blank|reflexivity|reflexivity|].
  split; [exact HR|]. split; [exact HW|]. split; [reflexivity|]. intros s. reflexivity.
Qed.

Theorem C77_standard : forall E : Env, exists c, component_macro decl_standard = GOk c /\
  (forall ls, run_read SStandard c ls = Some (standard_of_lines ls)) /\
  (forall v, run_write SStandard c v = Some (s_ical ser_standard v)) /\ s_component ser_standard = Some (k_component c) /\
  (forall s, run_from_str SStandard c s = Some (standard_of_str s)).
Proof.
  intros E. exists (code_for cs_standard (lit "STANDARD") (lit "standard")). split; [vm_compute; reflexivity|].
  destruct (generated SStandard cs_standard standard_schema cs_standard_schema standard_to standard_of (lit "STANDARD") (lit "standard") standard_of_to standard_to_of) as [HR HW];
    [intros v; destruct v; reflexivity|by_known|by_blank|reflexivity|reflexivity|].
  split; [exact HR|]. split; [exact HW|]. split; [reflexivity|]. intros s. reflexivity.
Qed.

Theorem C77_daylight : forall E : Env, exists c, component_macro decl_daylight = GOk c /\
  (forall ls, run_read SDaylight c ls = Some (daylight_of_lines ls)) /\
  (forall v, run_write SDaylight c v = Some (s_ical ser_daylight v)) /\ s_component ser_daylight = Some (k_component c) /\
  (forall s, run_from_str SDaylight c s = Some (daylight_of_str s)).
Proof.
  intros E. exists (code_for cs_daylight (lit "DAYLIGHT") (lit "daylight")). split; [vm_compute; reflexivity|].
  destruct (generated SDaylight cs_daylight daylight_schema cs_daylight_schema daylight_to daylight_of (lit "DAYLIGHT") (lit "daylight") daylight_of_to daylight_to_of) as [HR HW];
    [intros v; destruct v; reflexivity|by_known|by_blank|reflexivity|reflexivity|].
  split; [exact HR|]. split; [exact HW|]. split; [reflexivity|]. intros s. reflexivity.
Qed.
(** The derived [Serialize] of [Recur]. *)
Theorem C77_recur : forall E : Env, exists names, serialize_macro decl_recur = GOk names /\
  forall v, run_parts SRecur names v = Some (s_ical ser_recur v).
Proof.
  intros E. eexists. split; [vm_compute; reflexivity|]. intros v. destruct v as [f u c i bs bm bh bd bmd byd bw bmo bsp w].
  unfold run_parts. change (s_ical ser_recur ?r) with (recur_ical r).
  match goal with |- option_map _ ?l = _ => change l with (seq_list
    [Some (ser_part ser_freq (lit "FREQ") f); Some (ser_part (ser_opt ser_date) (lit "UNTIL") u); Some (ser_part (ser_opt ser_u8) (lit "COUNT") c); Some (ser_part ser_u8 (lit "INTERVAL") i);
     Some (ser_part (ser_vec ser_i8) (lit "BYSECOND") bs); Some (ser_part (ser_vec ser_i8) (lit "BYMINUTE") bm); Some (ser_part (ser_vec ser_i8) (lit "BYHOUR") bh);
     Some (ser_part (ser_vec ser_wdn) (lit "BYDAY") bd); Some (ser_part (ser_vec ser_i8) (lit "BYMONTHDAY") bmd); Some (ser_part (ser_vec ser_i8) (lit "BYYEARDAY") byd);
     Some (ser_part (ser_vec ser_i8) (lit "BYWEEKNO") bw); Some (ser_part (ser_vec ser_i8) (lit "BYMONTH") bmo); Some (ser_part (ser_vec ser_i8) (lit "BYSETPOS") bsp);
     Some (ser_part (ser_opt ser_weekday) (lit "WKST") w)]) end.
  unfold recur_ical. cbn [r_freq r_until r_count r_interval r_by_second r_by_minute r_by_hour r_by_day r_by_monthday r_by_yearday r_by_weekno r_by_month r_by_setpos r_wkst].
  repeat match goal with |- context [ser_part ?a ?b ?c] => let o := fresh "o" in generalize (ser_part a b c); intros o end.
  cbn [seq_list fold_right option_map]. f_equal.
  repeat match goal with |- context [obind ?o _] => is_var o; destruct o; cbn [obind omap]; try reflexivity end.
  unfold omap. cbn [obind concat]. rewrite app_nil_r. reflexivity.
Qed.

(** ** Every declaration *)
Section Any.
Context {E : Env}.
Lemma lit_no_colon n : ~ In 58 n -> forall segs : list (str * list rtype), join (lit "::") (map fst segs) = n -> n <> [] -> exists args, segs = [(n, args)].
Proof.
  intros H segs J N. destruct segs as [|[a xs] [|[b ys] r]].
  - cbn in J. congruence.
  - cbn in J. subst. eauto.
  - exfalso. apply H. rewrite <- J. cbn [map fst join]. apply in_or_app. right. apply in_or_app. left. left. reflexivity.
Qed.
Lemma type_iff n t : ~ In 58 n -> n <> [] -> str_eqb (tyname t) n = true <-> is_type n t.
Proof.
  intros H N. rewrite str_eqb_eq. split.
  - destruct t as [segs|]; cbn [tyname]; intros J; [|congruence]. destruct (lit_no_colon n H segs J N) as [args ->]. exists args. reflexivity.
  - intros [args ->]. reflexivity.
Qed.
Lemma vec_iff t : ty_is_vec t = true <-> is_type (lit "Vec") t.
Proof. apply type_iff; vm_compute; intuition discriminate. Qed.
Lemma option_iff t : ty_is_option t = true <-> is_type (lit "Option") t.
Proof. apply type_iff; vm_compute; intuition discriminate. Qed.
Lemma key_spelt f : snake f -> named_after f (field_key f).
Proof.
  intros [_ H]. unfold named_after, field_key, replace_char, to_uppercase. induction H as [|c f C _ IH]; [constructor|].
  cbn [flat_map]. destruct (Z.ltb_spec c 128); [|lia]. cbn [app flat_map]. unfold ascii_upper.
  destruct ((97 <=? c) && (c <=? 122)) eqn:U; destruct (_ =? 95) eqn:Q; cbn [app]; (constructor; [|exact IH]);
    rewrite ?andb_true_iff, ?andb_false_iff, ?Z.eqb_eq, ?Z.eqb_neq, ?Z.leb_le, ?Z.leb_gt in *; unfold spelt; lia.
Qed.
Lemma spelt_fun f k k' : named_after f k -> named_after f k' -> k = k'.
Proof.
  intros H. revert k'. induction H as [|c x f k C H IH]; intros k' H'; inversion H'; subst; [reflexivity|]. f_equal; [|apply IH; assumption]. unfold spelt in *. lia.
Qed.
Lemma spelt_inj f g k : named_after f k -> named_after g k -> f = g.
Proof.
  intros H. revert g. induction H as [|c x f k C H IH]; intros g H'; inversion H'; subst; [reflexivity|]. f_equal; [|apply IH; assumption]. unfold spelt in *. lia.
Qed.

Lemma flags_iff ws : forall a i a' i', flags ws a i = GOk (a', i') <->
  (NoDup ws /\ (forall w, In w ws -> w = lit "append" \/ w = lit "ignore") /\ (a = true -> ~ In (lit "append") ws) /\ (i = true -> ~ In (lit "ignore") ws)) /\
  (a' = true <-> a = true \/ In (lit "append") ws) /\ (i' = true <-> i = true \/ In (lit "ignore") ws).
Proof.
  induction ws as [|w r IH]; intros a i a' i'; cbn [flags].
  - split.
    + intros H. injection H as -> ->. cbn [In]. repeat split; try tauto; try constructor.
    + intros (_ & A & I). cbn [In] in *. f_equal. f_equal; [destruct a, a'|destruct i, i']; try reflexivity; exfalso; intuition discriminate.
  - assert (D : lit "append" <> lit "ignore") by (vm_compute; discriminate).
    destruct (str_eqb w (lit "append")) eqn:W1; [|destruct (str_eqb w (lit "ignore")) eqn:W2].
    + apply str_eqb_eq in W1. subst w. destruct a.
      * split; [discriminate|]. intros ((_ & _ & A & _) & _). exfalso. apply A; [reflexivity|left; reflexivity].
      * rewrite IH. cbn [In]. split.
        -- intros ((N & O & A & I) & P & Q). split; [split; [constructor; auto|split; [intros x [<-|X]; auto|split; [discriminate|]]]|split].
           ++ intros i1 [X|X]; [congruence|]. apply (I i1). exact X.
           ++ rewrite P. intuition.
           ++ rewrite Q. intuition congruence.
        -- intros ((N & O & A & I) & P & Q). inversion N as [|? ? N1 N2]; subst. split; [split; [exact N2|split; [auto|split; [auto|]]]|split].
           ++ intros i1 X. apply (I i1). auto.
           ++ rewrite P. intuition.
           ++ rewrite Q. intuition congruence.
    + apply str_eqb_eq in W2. subst w. destruct i.
      * split; [discriminate|]. intros ((_ & _ & _ & A) & _). exfalso. apply A; [reflexivity|left; reflexivity].
      * rewrite IH. cbn [In]. split.
        -- intros ((N & O & A & I) & P & Q). split; [split; [constructor; auto|split; [intros x [<-|X]; auto|split; [|discriminate]]]|split].
           ++ intros a1 [X|X]; [congruence|]. apply (A a1). exact X.
           ++ rewrite P. intuition congruence.
           ++ rewrite Q. intuition.
        -- intros ((N & O & A & I) & P & Q). inversion N as [|? ? N1 N2]; subst. split; [split; [exact N2|split; [auto|split; [|auto]]]|split].
           ++ intros a1 X. apply (A a1). auto.
           ++ rewrite P. intuition congruence.
           ++ rewrite Q. intuition.
    + split; [discriminate|]. intros ((_ & O & _) & _). exfalso. destruct (O w (or_introl eq_refl)) as [-> | ->]; rewrite str_eqb_refl in *; discriminate.
Qed.
Lemma flags_total ws a i : flags ws a i = GError \/ exists r, flags ws a i = GOk r.
Proof.
  revert a i. induction ws as [|w r IH]; intros a i; cbn [flags]; [right; eauto|].
  destruct (str_eqb w (lit "append")); [destruct a; auto|]. destruct (str_eqb w (lit "ignore")); [destruct i; auto|]. auto.
Qed.
Lemma words_iff ws : words_ok ws <-> exists r, flags ws false false = GOk r.
Proof.
  split.
  - intros [N O]. destruct (in_dec (list_eq_dec Z.eq_dec) (lit "append") ws) as [A|A]; destruct (in_dec (list_eq_dec Z.eq_dec) (lit "ignore") ws) as [I|I];
      [exists (true, true)|exists (true, false)|exists (false, true)|exists (false, false)]; apply flags_iff; repeat split; auto; try discriminate; try tauto; intuition discriminate.
  - intros [[a i] F]. apply flags_iff in F. destruct F as ((N & O & _) & _). split; auto.
Qed.
Lemma gen_ok d : field_ok d <-> exists p, gen_field d = GOk p.
Proof.
  unfold field_ok. rewrite words_iff. unfold gen_field. split.
  - intros [[[a i] ->] [f ->]]. cbn [gbind]. eauto.
  - intros [p H]. destruct (flags_total (fd_words d) false false) as [F|[[a i] F]]; rewrite F in H; cbn [gbind] in H; [discriminate|].
    destruct (fd_ident d) as [f|] eqn:I; [|discriminate]. split; eauto.
Qed.
Lemma gen_treated d p f : fd_ident d = Some f -> snake f -> gen_field d = GOk p -> treated d p.
Proof.
  intros I S. unfold gen_field. destruct (flags (fd_words d) false false) as [[a i]| |] eqn:F; cbn [gbind]; try discriminate. rewrite I. intros H. injection H as <-.
  apply flags_iff in F. destruct F as (_ & A & G). exists f, (field_key f). split; [exact I|]. split; [apply key_spelt; exact S|].
  assert (X : ~ (ty_is_vec (fd_type d) = true /\ ty_is_option (fd_type d) = true)).
  { unfold ty_is_vec, ty_is_option. rewrite !str_eqb_eq. intros [X Y]. rewrite X in Y. vm_compute in Y. discriminate. }
  assert (FA : a = true <-> In (lit "append") (fd_words d)) by intuition discriminate.
  assert (FI : i = true <-> In (lit "ignore") (fd_words d)) by intuition discriminate.
  pose proof (vec_iff (fd_type d)) as V. pose proof (option_iff (fd_type d)) as O.
  destruct (ty_is_vec (fd_type d)), (ty_is_option (fd_type d)), a, i; cbn [pc_ser pc_new pc_arm]; intuition discriminate.
Qed.
Lemma gens_ok ds : Forall field_ok ds <-> exists ps, gen_fields ds = GOk ps.
Proof.
  induction ds as [|d r IH]; cbn [gen_fields].
  - split; eauto.
  - split.
    + intros H. inversion H as [|? ? H1 H2]; subst. apply gen_ok in H1. destruct H1 as [p ->]. apply IH in H2. destruct H2 as [ps ->]. cbn [gbind]. eauto.
    + intros [ps H]. destruct (gen_field d) as [p| |] eqn:D; try discriminate. cbn [gbind] in H. destruct (gen_fields r) as [qs| |] eqn:R; try discriminate.
      constructor; [apply gen_ok; eauto|apply IH; eauto].
Qed.
Lemma gens_treated ds : forall ps, (forall d, In d ds -> exists f, fd_ident d = Some f /\ snake f) -> gen_fields ds = GOk ps -> Forall2 treated ds ps.
Proof.
  induction ds as [|d r IH]; intros ps S; cbn [gen_fields].
  - intros H. injection H as <-. constructor.
  - destruct (gen_field d) as [p| |] eqn:D; try discriminate. cbn [gbind]. destruct (gen_fields r) as [qs| |]; try discriminate. cbn [gbind]. intros H. injection H as <-.
    constructor; [|apply IH; auto; intros x X; apply S; right; exact X]. destruct (S d (or_introl eq_refl)) as (f & I & F). eapply gen_treated; eauto.
Qed.
(** The first field that is not fine decides. *)
Lemma gens_bad ds : gen_fields ds = GError \/ gen_fields ds = GPanic ->
  exists pre d post, ds = pre ++ d :: post /\ Forall field_ok pre /\
    (gen_fields ds = GError /\ ~ words_ok (fd_words d) \/ gen_fields ds = GPanic /\ words_ok (fd_words d) /\ fd_ident d = None).
Proof.
  induction ds as [|d r IH]; cbn [gen_fields]; [intros [H|H]; discriminate|].
  destruct (gen_field d) as [p| |] eqn:D; cbn [gbind].
  - destruct (gen_fields r) as [qs| |]; cbn [gbind]; [intros [H|H]; discriminate| |];
      (intros _; destruct IH as (pre & e & post & -> & P & Q); [auto|]; exists (d :: pre), e, post; split; [reflexivity|]; split; [constructor; [apply gen_ok; eauto|exact P]|]);
      destruct Q as [[Q1 Q2]|[Q1 Q2]]; try discriminate; auto.
  - intros _. exists [], d, r. split; [reflexivity|]. split; [constructor|]. left. split; [reflexivity|]. rewrite words_iff. intros [[a i] F]. unfold gen_field in D. rewrite F in D. cbn [gbind] in D.
    destruct (fd_ident d); discriminate.
  - intros _. exists [], d, r. split; [reflexivity|]. split; [constructor|]. right. split; [reflexivity|]. unfold gen_field in D.
    destruct (flags_total (fd_words d) false false) as [F|[[a i] F]]; rewrite F in D; cbn [gbind] in D; [discriminate|]. rewrite words_iff. split; [eauto|]. destruct (fd_ident d); [discriminate|reflexivity].
Qed.
Lemma gens_first pre d post : Forall field_ok pre -> ~ field_ok d -> gen_fields (pre ++ d :: post) = match gen_field d with GOk _ => GError | GError => GError | GPanic => GPanic end.
Proof.
  intros P N. induction P as [|e pre O P IH]; cbn [app gen_fields].
  - rewrite gen_ok in N. destruct (gen_field d) as [p| |]; [exfalso; eauto|reflexivity|reflexivity].
  - apply gen_ok in O. destruct O as [p ->]. cbn [gbind]. rewrite IH. destruct (gen_field d); reflexivity.
Qed.
End Any.

(** The types of the declared fields are those that the model gives them. *)
Theorem C77_types : forall (st : strct) (d : ddecl), decl_of st = Some d ->
  exists fs, dd_data d = Struct fs /\ map fd_ident fs = map (fun p => Some (fst p)) (struct_fields st) /\ map (fun f => resolve (fd_type f)) fs = map (fun p => Some (snd p)) (struct_fields st).
Proof. intros st d H. destruct st; inversion H; (eexists; split; [reflexivity|]; split; vm_compute; reflexivity). Qed.

(** Which declarations are accepted. *)
Theorem C77_accepted : forall (E : Env) (d : ddecl),
  (exists c, component_macro d = GOk c) <-> exists fs, dd_data d = Struct fs /\ Forall field_ok fs.
Proof.
  intros E d. unfold component_macro. destruct (dd_data d) as [fs|].
  - split.
    + intros [c H]. exists fs. split; [reflexivity|]. apply gens_ok. destruct (gen_fields fs); try discriminate. eauto.
    + intros (fs' & Q & H). injection Q as <-. apply gens_ok in H. destruct H as [ps ->]. cbn [gbind]. eauto.
  - split; [intros [c H]; discriminate|intros (fs & H & _); discriminate].
Qed.
(** A declaration that is refused: not a struct, or the first field that is not fine has wrong words. *)
Theorem C77_error : forall (E : Env) (d : ddecl),
  component_macro d = GError <-> dd_data d = NotStruct \/
    exists pre f post, dd_data d = Struct (pre ++ f :: post) /\ Forall field_ok pre /\ ~ words_ok (fd_words f).
Proof.
  intros E d. unfold component_macro. destruct (dd_data d) as [fs|].
  - split.
    + intros H. right. assert (G : gen_fields fs = GError) by (destruct (gen_fields fs); [discriminate|reflexivity|discriminate]).
      destruct (gens_bad fs (or_introl G)) as (pre & f & post & -> & P & [[_ Q]|[Q _]]); [|congruence]. exists pre, f, post. auto.
    + intros [H|(pre & f & post & H & P & W)]; [discriminate|]. injection H as ->. rewrite gens_first; auto; [|intros [X _]; auto].
      unfold gen_field. destruct (flags_total (fd_words f) false false) as [F|[r F]]; [rewrite F; reflexivity|]. exfalso. apply W. apply words_iff. eauto.
  - split; auto.
Qed.
(** A declaration on which the macro panics: the first field that is not fine has no name. *)
Theorem C77_panic : forall (E : Env) (d : ddecl),
  component_macro d = GPanic <->
    exists pre f post, dd_data d = Struct (pre ++ f :: post) /\ Forall field_ok pre /\ words_ok (fd_words f) /\ fd_ident f = None.
Proof.
  intros E d. unfold component_macro. destruct (dd_data d) as [fs|].
  - split.
    + intros H. assert (G : gen_fields fs = GPanic) by (destruct (gen_fields fs); [discriminate|discriminate|reflexivity]).
      destruct (gens_bad fs (or_intror G)) as (pre & f & post & -> & P & [[Q _]|[_ [Q R]]]); [congruence|]. exists pre, f, post. auto.
    + intros (pre & f & post & H & P & W & N). injection H as ->. rewrite gens_first; auto; [|intros [_ [x X]]; congruence].
      unfold gen_field. apply words_iff in W. destruct W as [[a i] ->]. cbn [gbind]. rewrite N. reflexivity.
  - split; [discriminate|]. intros (pre & f & post & H & _). discriminate.
Qed.
(** What is generated for the fields, in the order they are declared. *)
Theorem C77_fields : forall (E : Env) (d : ddecl) (c : code) (fs : list fdecl),
  component_macro d = GOk c -> dd_data d = Struct fs -> (forall x, In x fs -> exists f, fd_ident x = Some f /\ snake f) ->
  exists ps, Forall2 treated fs ps /\ k_ser c = map pc_ser ps /\
    k_arms c = flat_map (fun p => match pc_arm p with Some a => [a] | None => [] end) ps /\
    k_new c = flat_map (fun p => match pc_new p with Some n => [n] | None => [] end) ps.
Proof.
  intros E d c fs H D S. unfold component_macro in H. rewrite D in H. destruct (gen_fields fs) as [ps| |] eqn:G; try discriminate. cbn [gbind] in H. injection H as <-.
  exists ps. split; [apply gens_treated; auto|]. split; [reflexivity|]. cbn [k_arms k_new].
  split; unfold kept; clear; induction ps as [|p ps IH]; cbn [map flat_map]; congruence.
Qed.
(** The name of the component is the name of the struct in capitals, the name of its parser the same in small letters. *)
Theorem C77_names : forall (E : Env) (d : ddecl) (c : code), component_macro d = GOk c ->
  Forall (fun x => 65 <= x <= 90 \/ 97 <= x <= 122) (dd_ident d) ->
  Forall2 (fun x u => 65 <= u <= 90 /\ (u = x \/ u = x - 32)) (dd_ident d) (k_component c) /\
  Forall2 (fun x l => 97 <= l <= 122 /\ (l = x \/ l = x + 32)) (dd_ident d) (k_parser c).
Proof.
  intros E d c H L. unfold component_macro in H. destruct (dd_data d) as [fs|]; [|discriminate]. destruct (gen_fields fs); try discriminate. cbn [gbind] in H. injection H as <-.
  cbn [k_component k_parser]. unfold to_uppercase. induction L as [|x n X L [I1 I2]]; cbn [flat_map map]; [split; constructor|].
  split.
  - destruct (Z.ltb_spec x 128); [|lia]. cbn [app]. constructor; [|exact I1]. unfold ascii_upper. destruct ((97 <=? x) && (x <=? 122)) eqn:U;
      rewrite ?andb_true_iff, ?andb_false_iff, ?Z.leb_le, ?Z.leb_gt in U; lia.
  - constructor; [|exact I2]. unfold ascii_lower. destruct ((65 <=? x) && (x <=? 90)) eqn:U; rewrite ?andb_true_iff, ?andb_false_iff, ?Z.leb_le, ?Z.leb_gt in U; lia.
Qed.
(** Fields with distinct names have distinct property names: no arm hides another. *)
Theorem C77_distinct : forall (E : Env) (d : ddecl) (c : code) (fs : list fdecl),
  component_macro d = GOk c -> dd_data d = Struct fs -> (forall x, In x fs -> exists f, fd_ident x = Some f /\ snake f) ->
  NoDup (map fd_ident fs) -> NoDup (map fst (k_arms c)) /\ NoDup (map (fun w => match w with WVec k _ | WOne k _ => k end) (k_ser c)).
Proof.
  intros E d c fs H D S N. destruct (C77_fields E d c fs H D S) as (ps & T & -> & -> & _). clear H D S.
  assert (M : forall x p, treated x p -> exists f k, fd_ident x = Some f /\ named_after f k /\ (pc_arm p = None \/ exists a, pc_arm p = Some (k, a)) /\
             match pc_ser p with WVec k' _ | WOne k' _ => k' end = k).
  { intros x p (f & k & I & K & V1 & V2 & G1 & G2). exists f, k. split; [exact I|]. split; [exact K|]. split.
    - destruct (in_dec (list_eq_dec Z.eq_dec) (lit "ignore") (fd_words x)) as [W|W]; [left; apply G1; exact W|]. right. destruct (G2 W) as (A & B & C).
      destruct (ty_is_option (fd_type x)) eqn:O; [apply option_iff in O; destruct (A O) as [_ ->]; eauto|].
      destruct (ty_is_vec (fd_type x)) eqn:V; [apply vec_iff in V; destruct (B V) as (_ & P & Q); destruct (in_dec (list_eq_dec Z.eq_dec) (lit "append") (fd_words x)) as [R|R]; [rewrite (P R)|rewrite (Q R)]; eauto|].
      destruct C as [_ ->]; eauto; rewrite <- ?option_iff, <- ?vec_iff; congruence.
    - destruct (ty_is_vec (fd_type x)) eqn:V; [apply vec_iff in V; rewrite (V1 V); reflexivity|]. rewrite V2; [reflexivity|]. rewrite <- vec_iff. congruence. }
  assert (U : forall x p, treated x p -> forall y q k, treated y q -> (exists a, pc_arm q = Some (k, a)) \/ match pc_ser q with WVec k' _ | WOne k' _ => k' end = k ->
             (exists a, pc_arm p = Some (k, a)) \/ match pc_ser p with WVec k' _ | WOne k' _ => k' end = k -> fd_ident x = fd_ident y).
  { intros x p X y q k Y HQ HP. destruct (M x p X) as (f & k1 & I & K & A & B). destruct (M y q Y) as (g & k2 & J & K' & A' & B').
    assert (k = k1) by (destruct HP as [[a HP]|HP]; [destruct A as [A|[b A]]; rewrite A in HP; [discriminate|injection HP; congruence]|congruence]).
    assert (k = k2) by (destruct HQ as [[a HQ]|HQ]; [destruct A' as [A'|[b A']]; rewrite A' in HQ; [discriminate|injection HQ; congruence]|congruence]).
    rewrite I, J. f_equal. apply (spelt_inj f g k); congruence. }
  split.
  - induction T as [|x p fs ps X T IH]; [constructor|]. cbn [map] in N. inversion N as [|? ? N1 N2]; subst. specialize (IH N2). cbn [flat_map]. rewrite map_app.
    destruct (pc_arm p) as [[k a]|] eqn:PA; [|exact IH]. cbn [map fst app]. constructor; [|exact IH]. intros Z0. apply in_map_iff in Z0. destruct Z0 as ([k' b] & Q & Z0). cbn [fst] in Q. subst k'.
    apply in_flat_map in Z0. destruct Z0 as (q & Q1 & Q2). apply N1. clear IH N N1 N2. induction T as [|y r fs ps Y T IH]; [destruct Q1|]. destruct Q1 as [->|Q1].
    + left. symmetry. apply (U x p X y q k Y); left; [|eauto]. destruct (pc_arm q) as [[k' b']|]; [|destruct Q2]. destruct Q2 as [Q2|[]]. injection Q2 as -> ->. eauto.
    + right. apply IH. exact Q1.
  - induction T as [|x p fs ps X T IH]; [constructor|]. cbn [map] in N. inversion N as [|? ? N1 N2]; subst. specialize (IH N2). cbn [map]. constructor; [|exact IH].
    intros Z0. apply in_map_iff in Z0. destruct Z0 as (w & Q & Z0). apply in_map_iff in Z0. destruct Z0 as (q & <- & Q1). apply N1. clear IH N N1 N2.
    induction T as [|y r fs ps Y T IH]; [destruct Q1|]. destruct Q1 as [->|Q1].
    + left. symmetry. apply (U x p X y q (match pc_ser p with WVec k _ | WOne k _ => k end) Y); right; [exact Q|reflexivity].
    + right. apply IH. exact Q1.
Qed.
(** The property name of a field can be read back as the name of a content line. *)
Theorem C77_readable : forall (E : Env) (f : str), snake f -> field_key f <> [] /\ key_text (field_key f) /\ named_after f (field_key f).
Proof.
  intros E f S. pose proof (key_spelt f S) as K. split; [|split; [|exact K]].
  - destruct S as [N _]. inversion K; congruence.
  - unfold key_text. clear S. induction K as [|c k f ks C _ IH]; constructor; auto. unfold spelt in C. unfold key_char. lia.
Qed.
(** The parts of a derived [Serialize]. *)
Theorem C77_parts : forall (E : Env) (d : ddecl) (fs : list fdecl), dd_data d = Struct fs -> (forall x, In x fs -> exists f, fd_ident x = Some f /\ snake f) ->
  exists names, serialize_macro d = GOk names /\ Forall2 part_of fs names.
Proof.
  intros E d fs D S. unfold serialize_macro. rewrite D. clear D. induction fs as [|x fs IH]; cbn [part_names]; [exists []; split; [reflexivity|constructor]|].
  destruct IH as (ns & R & F); [intros y Y; apply S; right; exact Y|]. destruct (S x (or_introl eq_refl)) as (f & I & K). rewrite I, R.
  destruct (fd_rename x) as [n|] eqn:Q; cbn [gbind].
  - exists ((f, n) :: ns). split; [reflexivity|]. constructor; [|exact F]. split; [exact I|]. left. exact Q.
  - exists ((f, field_key f) :: ns). split; [reflexivity|]. constructor; [|exact F]. split; [exact I|]. right. split; [exact Q|apply key_spelt; exact K].
Qed.
Theorem C77_parts_refused : forall (E : Env) (d : ddecl), (dd_data d = NotStruct -> serialize_macro d = GError) /\
  forall f r, dd_data d = Struct (f :: r) -> fd_ident f = None -> fd_rename f = None -> serialize_macro d = GPanic.
Proof. intros E d. unfold serialize_macro. split; [intros ->; reflexivity|]. intros f r -> I R. cbn [part_names]. rewrite I, R. reflexivity. Qed.

(** *** The hypotheses are met *)
Definition snake_check (f : str) : bool := negb (Nat.eqb (length f) 0) && forallb (fun c => (97 <=? c) && (c <=? 122) || (48 <=? c) && (c <=? 57) || (c =? 95)) f.
Lemma snake_checked f : snake_check f = true -> snake f.
Proof.
  intros P. apply andb_true_iff in P. destruct P as [P1 P2]. split; [destruct f; discriminate|]. apply Forall_forall. intros c C.
  pose proof (proj1 (forallb_forall _ _) P2 c C) as K. cbn beta in K. rewrite !orb_true_iff, !andb_true_iff, !Z.leb_le, Z.eqb_eq in K. tauto.
Qed.
Example C77_nonvacuous :
  snake (lit "last_modified") /\ @field_key env_east (lit "last_modified") = lit "LAST-MODIFIED" /\
  (forall x, In x (match dd_data decl_vevent with Struct fs => fs | NotStruct => [] end) -> exists f, fd_ident x = Some f /\ snake f) /\
  NoDup (map fd_ident (match dd_data decl_vevent with Struct fs => fs | NotStruct => [] end)) /\
  (exists c, @component_macro env_east decl_vevent = GOk c /\ In (lit "LAST-MODIFIED", ASome (lit "last_modified")) (k_arms c) /\ In (lit "CATEGORIES", AAppend (lit "categories")) (k_arms c) /\
     In (lit "ATTACH", APush (lit "attach")) (k_arms c) /\ In (lit "UID", AUnit) (k_arms c) /\ In (lit "uid", lit "UID") (k_new c) /\ In (WVec (lit "ALARMS") (lit "alarms")) (k_ser c)) /\
  component_macro (E := env_east) (mk_ddecl (lit "Shape") NotStruct) = GError /\
  component_macro (E := env_east) (mk_ddecl (lit "Pair") (Struct [mk_fdecl None (RTPath [(lit "u8", [])]) [] None])) = GPanic /\
  component_macro (E := env_east) (mk_ddecl (lit "Wrong") (Struct [mk_fdecl (Some (lit "a")) (RTPath [(lit "u8", [])]) [lit "skip"] None])) = GError.
Proof.
  split; [apply snake_checked; vm_compute; reflexivity|]. split; [vm_compute; reflexivity|].
  split; [|split; [|split; [|repeat split; vm_compute; reflexivity]]].
  - assert (Q : forallb (fun x => match fd_ident x with Some f => snake_check f | None => false end)
        (match dd_data decl_vevent with Struct fs => fs | NotStruct => [] end) = true) by (vm_compute; reflexivity).
    intros x X. pose proof (proj1 (forallb_forall _ _) Q x X) as P. cbn beta in P. destruct (fd_ident x) as [f|]; [|discriminate]. exists f. split; [reflexivity|].
    apply snake_checked. exact P.
  - assert (Q : map fd_ident (match dd_data decl_vevent with Struct fs => fs | NotStruct => [] end) = map Some (map fst (struct_fields SEvent))) by (vm_compute; reflexivity).
    rewrite Q. apply FinFun.Injective_map_NoDup; [intros a b; congruence|]. apply names_nodup.
  - eexists. split; [vm_compute; reflexivity|]. cbn [k_arms k_new k_ser]. repeat split; vm_compute; tauto.
Qed.
