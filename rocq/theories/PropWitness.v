(** * Concrete components of every kind: the hypotheses of C10-C13, C53, C55-C57, C85 and C86 are met by each *)
From Verif Require Import Base Env Chrono Nom Types Ser Parser Derive BaseFacts SpecLine SpecText PropText PropLine PropDate PropPanic
  SpecCal SpecDur PropVocab PropRule PropPeriod PropList Components SpecComp SpecFields SpecFile SpecRound SpecHistory SpecLoss SpecAfter SpecCrowd PropLoss PropRound PropTidy PropTidyEx FieldFacts CalFacts SpecEqual Equality PropEqual.

(** ** Safe values, most of their fields in use *)
Section Safe.
Context {E : Env}.
Definition tx (s : String.string) : text := text_of_str (lit s).
Definition ur (s : String.string) : uri := uri_of_str (lit s).
Definition when : datetime := Naive (mk_ndt (days_of_ymd 2024 2 29) 43200 0).
Definition stamp : datetime := Naive (mk_ndt (days_of_ymd 2024 1 1) 0 0).
Definition noon : date := DDateTime when.
Definition leap_day : date := DDate (days_of_ymd 2024 2 29).
Definition weekly : recur := mk_recur Weekly (Some (DDate (days_of_ymd 2025 1 1))) (Some 10) 2 [] [] [] [mk_wdn Monday (Some (-1))] [] [] [] [1; 12] [] (Some Sunday).
Definition a_task : vtodo := mk_vtodo stamp (tx "uid-2") (Some Private) (Some when) (Some stamp) (Some leap_day) None (Some when) (Some (tx "somewhere")) (Some (ur "mailto:a@b"))
  (Some 50) (Some 9) (Some noon) (Some 3) (Some NeedsAction) (Some (tx "summary")) (Some (ur "http://x")) (Some weekly) (Some noon) (Some (90 * sec)) [tx "file"] [ur "mailto:c@d"] [tx "one"; tx "two"] [tx "remark"] [tx "who"]
  [leap_day] [] [tx "uid-1"] [tx "room"; tx "desk"] [] [] [].
Definition a_note : vjournal := mk_vjournal stamp (tx "uid-3") (Some Confidential) (Some when) leap_day (Some when) (Some (ur "mailto:a@b")) (Some noon) (Some 4) (Some Draft) (Some (tx "summary")) (Some (ur "http://x")) (Some weekly)
  [tx "file"] [ur "mailto:c@d"] [tx "one"; tx "two"] [tx "remark"] [tx "who"] [tx "text"] [leap_day; noon] [tx "uid-1"] [] [] [] [].
Definition busy : vfreebusy := mk_vfreebusy stamp (tx "uid-4") (Some (tx "who")) (Some leap_day) (Some noon) (Some (ur "mailto:a@b")) (Some (ur "http://x")) [ur "mailto:c@d"] [tx "remark"]
  [StartEnd stamp when; StartDur when (90 * sec)] [] [] [].
Definition winter : standard := mk_standard noon 3600 7200 (Some weekly) [tx "remark"] [] [tx "CET"] [] [].
Definition summer : daylight := mk_daylight noon 7200 3600 (Some weekly) [tx "remark"] [] [tx "CEST"] [] [].
Definition zone : vtimezone := mk_vtimezone (tx "Europe/Paris") (Some when) (Some (ur "http://x")) [winter] [summer] [] [].
Definition beep : valarm := AAudio (mk_audio (tx "AUDIO") (TrDuration (-300 * sec)) (Some (90 * sec)) (Some 4) [tx "Basso"] [] []).
Definition mail : valarm := AEmail (mk_email (tx "EMAIL") (TrDateTime when) (tx "text") (tx "subject") [ur "mailto:c@d"] (Some (90 * sec)) (Some 4) [tx "file"] [] []).
Definition year_book : vcalendar := mk_vcalendar (tx "-//x//y") (tx "2.0") (Some (tx "GREGORIAN")) (Some (tx "PUBLISH")) [] [] [busy] [a_note] [a_task] [zone] [] [].
Ltac no_in := let H := fresh in intros H; vm_compute in H; intuition discriminate.
Ltac str_safe := unfold safe_string; split; [discriminate|]; repeat split; no_in.
Ltac plain_params := split; [constructor|intros ? ? []].
Ltac tx_safe := split; [plain_params|str_safe].
Ltac day_ok := do 3 eexists; split; [vm_compute; reflexivity|lia].
Ltac dt_ok := split; [split; [cbn; lia|left; reflexivity]|eexists; split; [do 2 eexists; vm_compute; reflexivity|lia]].
Ltac some := let x := fresh in let H := fresh in intros x H; first [discriminate|injection H as <-].
Lemma when_ok : writable_datetime when. Proof. dt_ok. Qed.
Lemma stamp_ok : writable_datetime stamp. Proof. dt_ok. Qed.
Lemma noon_ok : writable_date noon. Proof. exact when_ok. Qed.
Lemma leap_ok : writable_date leap_day. Proof. day_ok. Qed.
Lemma weekly_ok : writable_rule weekly.
Proof.
  unfold weekly, writable_rule. cbn [r_until r_count r_interval r_by_second r_by_minute r_by_hour r_by_day r_by_monthday r_by_yearday r_by_weekno r_by_month r_by_setpos]. unfold small_ints.
  split; [some; day_ok|]. split; [some; lia|]. split; [lia|]. do 3 (split; [constructor|]). split; [constructor; [some; lia|constructor]|]. do 3 (split; [constructor|]). split; [repeat constructor; lia|constructor].
Qed.
Lemma ninety_ok : safe_duration (90 * sec). Proof. exists 90. split; [reflexivity|unfold sec, longest; lia]. Qed.
Lemma one_tx s : safe_text (tx s) -> at_most_one safe_text [tx s]. Proof. intros H. right. exists (tx s). auto. Qed.
Ltac field :=
  lazymatch goal with
  | |- writable_datetime _ => first [exact when_ok|exact stamp_ok]
  | |- writable_date _ => first [exact noon_ok|exact leap_ok]
  | |- writable_rule _ => exact weekly_ok
  | |- safe_duration _ => exact ninety_ok
  | |- safe_text _ => tx_safe
  | |- safe_uri _ => tx_safe
  | |- safe_entry _ => split; [reflexivity|str_safe]
  | |- safe_class _ => exact Logic.I
  | |- safe_offset _ => split; [lia|reflexivity]
  | |- writable_period (StartEnd _ _) => split; field
  | |- writable_period (StartDur _ _) => split; [field|exists 90; unfold sec, longest; split; [reflexivity|split; lia]]
  | |- writable_trigger (TrDateTime _) => exact when_ok
  | |- writable_trigger (TrDuration _) => exists (-300); unfold sec, longest; split; [reflexivity|lia]
  | |- number _ _ => split; lia
  | |- holds _ None => some
  | |- holds _ (Some _) => some; field
  | |- at_most_one _ [] => left; reflexivity
  | |- at_most_one _ _ => right; eexists; split; [reflexivity|field]
  | |- Forall _ [] => constructor
  | |- Forall _ _ => constructor; [field|field]
  | |- _ = _ => reflexivity
  | |- _ => idtac
  end.
Ltac fields := repeat match goal with |- writable_datetime _ /\ _ => split; [field|] | |- writable_date _ /\ _ => split; [field|] | |- safe_text _ /\ _ => split; [field|] | |- holds _ _ /\ _ => split; [field|] | |- at_most_one _ _ /\ _ => split; [field|] | |- Forall _ _ /\ _ => split; [field|] | |- safe_offset _ /\ _ => split; [field|] | |- writable_trigger _ /\ _ => split; [field|] | |- _ = _ /\ _ => split; [field|] end; try field.
Example C53_nonvacuous_todo : vtodo_safe a_task /\ exists out, s_ical ser_vtodo a_task = Ok out.
Proof.
  split; [|eexists; vm_compute; reflexivity]. unfold vtodo_safe, a_task.
  cbn [to_dtstamp to_uid to_class to_completed to_created to_dtstart to_geo to_last_modified to_location to_organizer to_percent_complete to_priority to_recurid to_sequence to_status to_summary to_url to_rrule to_due to_duration to_attach to_attendee to_categories to_comment to_contact to_exdate to_rstatus to_related_to to_resources to_rdate to_x_prop to_iana_prop].
  fields.
Qed.
Example C53_nonvacuous_journal : vjournal_safe a_note /\ exists out, s_ical ser_vjournal a_note = Ok out.
Proof.
  split; [|eexists; vm_compute; reflexivity]. unfold vjournal_safe, a_note.
  cbn [jo_dtstamp jo_uid jo_class jo_created jo_dtstart jo_last_modified jo_organizer jo_recurid jo_sequence jo_status jo_summary jo_url jo_rrule jo_attach jo_attendee jo_categories jo_comment jo_contact jo_description jo_exdate jo_related_to jo_rdate jo_rstatus jo_x_prop jo_iana_prop].
  fields.
Qed.
Example C53_nonvacuous_freebusy : vfreebusy_safe busy /\ exists out, s_ical ser_vfreebusy busy = Ok out.
Proof.
  split; [|eexists; vm_compute; reflexivity]. unfold vfreebusy_safe, busy.
  cbn [fb_dtstamp fb_uid fb_contact fb_dtstart fb_dtend fb_organizer fb_url fb_attendee fb_comment fb_freebusy fb_rstatus fb_x_prop fb_iana_prop].
  fields.
Qed.
Example C53_nonvacuous_standard : standard_safe winter /\ exists out, s_ical ser_standard winter = Ok out.
Proof.
  split; [|eexists; vm_compute; reflexivity]. unfold standard_safe, winter. cbn [st_dtstart st_tzoffsetto st_tzoffsetfrom st_rrule st_comment st_rdate st_tzname st_x_prop st_iana_prop].
  fields.
Qed.
Example C53_nonvacuous_daylight : daylight_safe summer /\ exists out, s_ical ser_daylight summer = Ok out.
Proof.
  split; [|eexists; vm_compute; reflexivity]. unfold daylight_safe, summer. cbn [dl_dtstart dl_tzoffsetto dl_tzoffsetfrom dl_rrule dl_comment dl_rdate dl_tzname dl_x_prop dl_iana_prop].
  fields.
Qed.
Example C53_nonvacuous_timezone : vtimezone_safe zone /\ exists out, s_ical ser_vtimezone zone = Ok out.
Proof.
  split; [|eexists; vm_compute; reflexivity]. unfold vtimezone_safe, zone, one_each_tz. cbn [tz_tzid tz_last_modified tz_tzurl tz_standard tz_daylight tz_x_prop tz_iana_prop length].
  split; [field|]. split; [field|]. split; [field|]. split; [split; lia|]. split; [constructor; [apply C53_nonvacuous_standard|constructor]|]. split; [constructor; [apply C53_nonvacuous_daylight|constructor]|]. auto.
Qed.
Example C53_nonvacuous_audio : valarm_safe beep /\ exists out, s_ical ser_valarm beep = Ok out.
Proof.
  split; [|eexists; vm_compute; reflexivity]. unfold valarm_safe, beep, audio_safe. cbn [au_action au_trigger au_duration au_repeat au_attach au_x_prop au_iana_prop].
  split; [|reflexivity]. fields.
Qed.
Example C53_nonvacuous_email : valarm_safe mail /\ exists out, s_ical ser_valarm mail = Ok out.
Proof.
  split; [|eexists; vm_compute; reflexivity]. unfold valarm_safe, mail, email_safe. cbn [em_action em_trigger em_description em_summary em_attendee em_duration em_repeat em_attach em_x_prop em_iana_prop].
  split; [|reflexivity]. fields.
Qed.
Example C53_nonvacuous_year_book : vcalendar_safe year_book /\ exists out, s_ical ser_vcalendar year_book = Ok out.
Proof.
  split; [|eexists; vm_compute; reflexivity]. unfold vcalendar_safe, year_book, one_each. cbn [ca_prodid ca_version ca_calscale ca_method ca_alarms ca_events ca_freebusy ca_journals ca_todo ca_timezones ca_x_prop ca_iana_prop length].
  split; [field|]. split; [field|]. split; [field|]. split; [field|]. split; [repeat split; lia|]. split; [constructor|]. split; [constructor; [apply C53_nonvacuous_freebusy|constructor]|]. split; [constructor; [apply C53_nonvacuous_journal|constructor]|].
  split; [constructor; [apply C53_nonvacuous_todo|constructor]|]. split; [constructor; [apply C53_nonvacuous_timezone|constructor]|]. auto.
Qed.
End Safe.

(** ** Texts of every kind, with repeated properties, unknown ones and parameters: what is read is tidy, is written, and comes back changed *)
Section Read.
#[local] Existing Instance env_east.
Definition block (name : String.string) (lines : list String.string) : str :=
  flat_map (fun l => l ++ [CR; LF]) ((lit "BEGIN:" ++ lit name) :: map lit lines ++ [lit "END:" ++ lit name]).
Definition task_text := block "VTODO" ["DTSTAMP:20240101T000000Z"; "UID;X-A=b:one"; "DUE;VALUE=DATE:20240229"; "SUMMARY:a, b"; "PERCENT-COMPLETE:200"; "COMMENT:one"; "COMMENT:two"; "ATTENDEE:mailto:a@b"; "ATTENDEE:mailto:c@d";
  "RRULE:FREQ=WEEKLY;BYDAY=2MO"; "RECURRENCE-ID:20240229"; "X-FOO;Y=z:1"; "X-FOO:2"; "SUMMARY:c, d"]%string.
Definition note_text := block "VJOURNAL" ["DTSTAMP:20240101T000000Z"; "UID;X-A=b:one"; "DTSTART;VALUE=DATE:20240229"; "SUMMARY:a, b"; "DESCRIPTION:one"; "DESCRIPTION:two"; "ATTENDEE:mailto:a@b"; "ATTENDEE:mailto:c@d";
  "EXDATE;VALUE=DATE:20240301,20240302"; "RECURRENCE-ID:20240229"; "X-FOO;Y=z:1"; "X-FOO:2"; "SUMMARY:c, d"]%string.
Definition busy_text := block "VFREEBUSY" ["DTSTAMP:20240101T000000Z"; "UID;X-A=b:one"; "DTSTART:20240229T000000Z"; "FREEBUSY:20240101T000000Z/PT1H,20240101T000000Z/20240102T000000Z"; "COMMENT:one"; "COMMENT:two"; "ATTENDEE:mailto:a@b"; "ATTENDEE:mailto:c@d";
  "X-FOO;Y=z:1"; "X-FOO:2"; "REQUEST-STATUS:2.0"; "CONTACT:c, d"]%string.
Definition event_text := block "VEVENT" ["DTSTAMP:20240101T000000Z"; "UID;X-A=b:one"; "DTSTART;VALUE=DATE:20240229"; "SUMMARY:a, b"; "COMMENT:one"; "COMMENT:two"; "ATTENDEE:mailto:a@b"; "ATTENDEE:mailto:c@d";
  "RRULE:FREQ=WEEKLY;BYDAY=2MO"; "CATEGORIES:a,b"; "CATEGORIES:c"; "RECURRENCE-ID:20240229"; "X-FOO;Y=z:1"; "X-FOO:2"; "SUMMARY:c, d"]%string.
Definition winter_text := block "STANDARD" ["DTSTART:20241027T030000"; "TZOFFSETTO:+0100"; "TZOFFSETFROM:+0200"; "TZNAME;LANGUAGE=fr:HNEC"; "TZNAME:CET"; "COMMENT:one"; "COMMENT:two"; "X-FOO;Y=z:1"; "X-FOO:2"; "FOO:c, d"]%string.
Definition summer_text := block "DAYLIGHT" ["DTSTART:20240331T020000"; "TZOFFSETTO:+0200"; "TZOFFSETFROM:+0100"; "TZNAME;LANGUAGE=fr:HAEC"; "TZNAME:CEST"; "COMMENT:one"; "COMMENT:two"; "X-FOO;Y=z:1"; "X-FOO:2"; "FOO:c, d"]%string.
Definition zone_text := lit "BEGIN:VTIMEZONE" ++ [CR; LF] ++ lit "TZID;X-A=b:Europe/Paris" ++ [CR; LF] ++ winter_text ++ summer_text ++ lit "END:VTIMEZONE" ++ [CR; LF].
Definition beep_text := block "VALARM" ["ACTION:AUDIO"; "TRIGGER:-PT5M"; "DURATION:PT5M"; "REPEAT:3"; "ATTACH;FMTTYPE=audio/basic:x"; "ATTACH:y, z"; "X-FOO;Y=z:1"; "X-FOO:2"; "FOO:c, d"]%string.
Definition show_text := block "VALARM" ["ACTION:DISPLAY"; "TRIGGER:-PT5M"; "DESCRIPTION:wake up, you"; "DURATION:PT5M"; "REPEAT:3"; "X-FOO;Y=z:1"; "X-FOO:2"; "FOO:c, d"]%string.
Definition mail_text := block "VALARM" ["ACTION:EMAIL"; "TRIGGER;VALUE=DATE-TIME:20240101T000000Z"; "DESCRIPTION:one"; "SUMMARY:two, three"; "ATTENDEE:mailto:a@b"; "ATTENDEE:mailto:c@d"; "ATTACH:x"; "ATTACH:y"; "X-FOO;Y=z:1"; "X-FOO:2"; "FOO:c, d"]%string.
(** Read; written; read again: not the same, a third time not the same as the second. *)
Ltac twice tidy of txt :=
  let o := eval vm_compute in (of txt) in
  lazymatch o with Ok ?v =>
    assert (R : of txt = Ok v) by (vm_compute; reflexivity);
    exists v; eexists; split; [exact R|]; split; [exact (tidy east_sane txt v (plain_check_file txt ltac:(vm_compute; reflexivity)) R)|];
    split; [eapply g_more; [eapply g_more; [apply g_here|vm_compute; reflexivity|vm_compute; reflexivity]|vm_compute; reflexivity|vm_compute; reflexivity]|]; vm_compute; reflexivity
  end.
Example C85_nonvacuous_todo : exists v w, vtodo_of_str task_text = Ok v /\ vtodo_tidy v /\ generations (s_ical ser_vtodo) vtodo_of_str 2 v w /\
  (map t_text (to_comment v), map t_text (to_comment w), option_map t_text (to_summary w), map fst (to_x_prop w), to_percent_complete w) = ([lit "one"; lit "two"], [lit "one\,two"], Some (lit "c\\, d"), [lit "X-PROP"], Some 200).
Proof. twice C85_loaded_todo vtodo_of_str task_text. Qed.
Example C85_nonvacuous_journal : exists v w, vjournal_of_str note_text = Ok v /\ vjournal_tidy v /\ generations (s_ical ser_vjournal) vjournal_of_str 2 v w /\
  (map t_text (jo_description v), map t_text (jo_description w), map u_uri (jo_attendee v), map u_uri (jo_attendee w), map fst (jo_iana_prop v), map fst (jo_iana_prop w)) = ([lit "one"; lit "two"], [lit "one\,two"], [lit "mailto:a@b"; lit "mailto:c@d"], [lit "mailto:a@b\,mailto:c@d"], [lit "RECURRENCE-ID"], [lit "IANA-PROP"]).
Proof. twice C85_loaded_journal vjournal_of_str note_text. Qed.
Example C85_nonvacuous_freebusy : exists v w, vfreebusy_of_str busy_text = Ok v /\ vfreebusy_tidy v /\ generations (s_ical ser_vfreebusy) vfreebusy_of_str 2 v w /\
  (length (fb_freebusy v), length (fb_freebusy w), map t_text (fb_comment v), map t_text (fb_comment w), map fst (fb_iana_prop v), map fst (fb_iana_prop w)) = (2%nat, 2%nat, [lit "one"; lit "two"], [lit "one\,two"], [lit "REQUEST-STATUS"], [lit "IANA-PROP"]).
Proof. twice C85_loaded_freebusy vfreebusy_of_str busy_text. Qed.
Example C85_nonvacuous_event : exists v w, vevent_of_str event_text = Ok v /\ event_tidy v /\ generations (s_ical ser_vevent) vevent_of_str 2 v w /\
  (map t_text (ev_categories v), map t_text (ev_categories w), map t_text (ev_comment v), map t_text (ev_comment w), map fst (ev_iana_prop v), map fst (ev_iana_prop w)) = ([lit "a"; lit "b"; lit "c"], [lit "a"; lit "b"; lit "c"], [lit "one"; lit "two"], [lit "one\,two"], [lit "RECURRENCE-ID"], [lit "IANA-PROP"]).
Proof. twice C85_loaded_event vevent_of_str event_text. Qed.
Example C85_nonvacuous_standard : exists v w, standard_of_str winter_text = Ok v /\ standard_tidy v /\ generations (s_ical ser_standard) standard_of_str 2 v w /\
  (map t_text (st_tzname v), map t_text (st_tzname w), map t_text (st_comment v), map t_text (st_comment w), map fst (st_iana_prop v), map fst (st_iana_prop w)) = ([lit "HNEC"; lit "CET"], [lit "HNEC\,CET"], [lit "one"; lit "two"], [lit "one\,two"], [lit "FOO"], [lit "IANA-PROP"]).
Proof. twice C85_loaded_standard standard_of_str winter_text. Qed.
Example C85_nonvacuous_daylight : exists v w, daylight_of_str summer_text = Ok v /\ daylight_tidy v /\ generations (s_ical ser_daylight) daylight_of_str 2 v w /\
  (map t_text (dl_tzname v), map t_text (dl_tzname w), map t_text (dl_comment v), map t_text (dl_comment w), map fst (dl_iana_prop v), map fst (dl_iana_prop w)) = ([lit "HAEC"; lit "CEST"], [lit "HAEC\,CEST"], [lit "one"; lit "two"], [lit "one\,two"], [lit "FOO"], [lit "IANA-PROP"]).
Proof. twice C85_loaded_daylight daylight_of_str summer_text. Qed.
Example C85_nonvacuous_timezone : exists v w, vtimezone_of_str zone_text = Ok v /\ timezone_tidy v /\ generations (s_ical ser_vtimezone) vtimezone_of_str 2 v w /\
  (map (fun x => map t_text (st_tzname x)) (tz_standard v), map (fun x => map t_text (dl_tzname x)) (tz_daylight w)) = ([[lit "HNEC"; lit "CET"]], [[lit "HAEC\,CEST"]]).
Proof. twice C85_loaded_timezone vtimezone_of_str zone_text. Qed.
(** The three kinds of alarm. *)
Definition repeats (a : valarm) : option Z := match a with AAudio x => au_repeat x | ADisplay x => di_repeat x | AEmail x => em_repeat x end.
Definition strangers (a : valarm) : list str := match a with AAudio x => map fst (au_iana_prop x) | ADisplay x => map fst (di_iana_prop x) | AEmail x => map fst (em_iana_prop x) end.
Example C85_nonvacuous_audio : exists v w, valarm_of_str beep_text = Ok v /\ valarm_tidy v /\ generations (s_ical ser_valarm) valarm_of_str 2 v w /\
  (repeats v, repeats w, strangers v, strangers w) = (Some 3, Some 3, [lit "FOO"], [lit "IANA-PROP"]).
Proof. twice C85_loaded_alarm valarm_of_str beep_text. Qed.
Example C85_nonvacuous_display : exists v w, valarm_of_str show_text = Ok v /\ valarm_tidy v /\ generations (s_ical ser_valarm) valarm_of_str 2 v w /\
  (repeats v, repeats w, strangers v, strangers w) = (Some 3, Some 3, [lit "FOO"], [lit "IANA-PROP"]).
Proof. twice C85_loaded_alarm valarm_of_str show_text. Qed.
Example C85_nonvacuous_email : exists v w, valarm_of_str mail_text = Ok v /\ valarm_tidy v /\ generations (s_ical ser_valarm) valarm_of_str 2 v w /\
  (repeats v, repeats w, strangers v, strangers w) = (None, None, [lit "FOO"], [lit "IANA-PROP"]).
Proof. twice C85_loaded_alarm valarm_of_str mail_text. Qed.
End Read.
