(** * Concrete cases for C02, C04, C12, C13, C35, C36, C37, C43, C45, C46, C56, C58 *)
From Verif Require Import Base Env Chrono Nom Types Ser Parser Derive BaseFacts SpecLine SpecText PropText PropLine PropDate PropPanic
  SpecCal SpecDur PropVocab PropRule PropPeriod PropList Components Iter SpecIter SpecComp SpecFields SpecFile SpecRound SpecHistory SpecLoss PropLoss PropRound PropTidy PropTidyEx PropComp PropTime PropIter PropWindow PropIterEx SpecAfter SpecCrowd FieldFacts CalFacts PropWitness SpecCrowd.
#[local] Existing Instance env_east.

(** A line of 192 bytes, with two bytes to each é and no cut inside one: 75, then a space and 75, then the rest. *)
Definition accents : text := mk_text [(lit "LANGUAGE", lit "fr")] (97 :: repeat 233 27 ++ 97 :: repeat 233 57).
Example C02_nonvacuous : exists out, ser_field ser_text (lit "SUMMARY") accents = Ok out /\
  octets (logical_line (lit "SUMMARY") (s_attr ser_text accents) (t_text accents)) = 192 /\ map octets (physical_lines out) = [75; 76; 41; 0] /\
  exists w, ser_field ser_text (lit "SUMMARY") (mk_text [] (lit "short")) = Ok w /\ physical_lines w = [lit "SUMMARY:short"; []].
Proof. eexists. split; [vm_compute; reflexivity|]. split; [vm_compute; reflexivity|]. split; [vm_compute; reflexivity|]. eexists. split; vm_compute; reflexivity. Qed.
Example C04_nonvacuous : let s := lit "a;b,c" ++ [LF] ++ lit "d" in
  ~ In BACKSLASH s /\ s_ical ser_string s = Ok (lit "a\;b\,c\nd") /\ rfc_decode (lit "a\;b\,c\nd") = s.
Proof. split; [intros H; vm_compute in H; intuition discriminate|]. split; vm_compute; reflexivity. Qed.
(** Repeated and unknown lines of an event, and of an alarm. *)
Definition ln (k v : String.string) : content_line := mk_cl (lit k) [(lit "A", lit "b")] (lit v).
Definition odd_event : list content_line :=
  [ln "DTSTAMP" "20240101T000000"; ln "UID" "1"; ln "DTSTART" "20240229"; ln "X-FOO" "1"; ln "FOO" "1"; ln "REQUEST-STATUS" "2.0;ok"; ln "RECURRENCE-ID" "20240229"; ln "X-FOO" "2"; ln "SUMMARY" "s"; ln "FOO" "2"].
Example C12_nonvacuous : exists v, vevent_of_lines odd_event = Ok v /\
  ev_x_prop v = [(lit "X-FOO", ln "X-FOO" "2")] /\
  ev_iana_prop v = [(lit "FOO", ln "FOO" "2"); (lit "RECURRENCE-ID", ln "RECURRENCE-ID" "20240229"); (lit "REQUEST-STATUS", ln "REQUEST-STATUS" "2.0;ok")].
Proof. eexists. split; [vm_compute; reflexivity|]. split; vm_compute; reflexivity. Qed.
Example C12_nonvacuous_audio : exists v, audio_of_lines [ln "ACTION" "AUDIO"; ln "TRIGGER" "-PT5M"; ln "SUMMARY" "no such field"; ln "X-A" "1"] = Ok v /\
  au_iana_prop v = [(lit "SUMMARY", ln "SUMMARY" "no such field")] /\ au_x_prop v = [(lit "X-A", ln "X-A" "1")].
Proof. eexists. split; [vm_compute; reflexivity|]. split; vm_compute; reflexivity. Qed.
(** RECURRENCE-ID and REQUEST-STATUS are not the fields of these names; RECURID is what is written. *)
Example C13_nonvacuous : exists v, vevent_of_lines odd_event = Ok v /\ ev_recurid v = None /\ ev_rstatus v = [] /\
  exists w, vevent_of_lines (odd_event ++ [ln "RECURID" "20240229"]) = Ok w /\ ev_recurid w = Some leap_day /\
  exists out, s_ical ser_vevent w = Ok out /\ contains (lit "RECURID;VALUE=DATE:20240229") out.
Proof.
  eexists. split; [vm_compute; reflexivity|]. split; [reflexivity|]. split; [reflexivity|].
  eexists. split; [vm_compute; reflexivity|]. split; [vm_compute; reflexivity|].
  eexists. split; [vm_compute; reflexivity|].
  match goal with |- contains ?p ?o => let n := eval vm_compute in (length (hd [] (filter (fun k => starts_with p (skipn (length k) o)) (map (fun n => firstn n o) (seq 0 (length o)))))) in
    exists (firstn n o), (skipn (n + length p) o) end. vm_compute. reflexivity.
Qed.
(** Order of date-times: by the local time, whatever the zone says they are. *)
Example C35_nonvacuous : dt_cmp stamp when = Lt /\ dt_cmp (Local (mk_ndt 19782 39600 0)) (Naive (mk_ndt 19782 43200 0)) = Eq /\ dt_cmp when (Local (mk_ndt 19782 39601 0)) = Lt.
Proof. repeat split; vm_compute; reflexivity. Qed.
Example C36_nonvacuous : date_cmp leap_day noon = Eq /\ date_cmp noon leap_day = Eq /\ date_cmp leap_day (DDateTime stamp) = Gt /\ date_cmp (DDateTime stamp) noon = Lt /\ leap_day <> noon.
Proof. repeat split; try (vm_compute; reflexivity). discriminate. Qed.
(** One day, or 24 hours from another start: equal; noon to noon is longer than 23 hours. *)
Example C37_nonvacuous : period_cmp (StartDur stamp (86400 * sec)) (StartDur when (86400 * sec)) = Eq /\
  period_cmp (StartEnd stamp (Naive (mk_ndt (days_of_ymd 2024 1 2) 0 0))) (StartDur when (86400 * sec)) = Eq /\
  period_cmp (StartEnd when stamp) (StartDur when 0) = Lt.
Proof. repeat split; vm_compute; reflexivity. Qed.

(** Every 36 hours, three times; the hypotheses of C43 and C46 at the first and the last. *)
Lemma instance_run : exists l, run (recur_next rec_vevent) hourly36 l Ended /\ map ev_dtstart l = [clock 2024 2 28 18 0 0; clock 2024 3 1 6 0 0; clock 2024 3 2 18 0 0].
Proof. eexists. split; [eapply (collect_run _ 9 9); vm_compute; reflexivity|reflexivity]. Qed.
Example C43_nonvacuous : exists l y z d, run (recur_next rec_vevent) hourly36 l Ended /\ tidy (ev_dtstart hourly36) /\ zone_fits env_east (ev_dtstart hourly36) /\
  nth_error l 0 = Some y /\ nth_error l 2 = Some z /\ second_of (ev_dtstart y) + d = second_of (ev_dtstart z) /\ d = 2 * 36 * 3600.
Proof.
  destruct instance_run as (l & H & M). destruct l as [|y [|u [|z [|? ?]]]]; try discriminate. exists [y; u; z], y, z, (2 * 36 * 3600).
  injection M as A B C. split; [exact H|]. split; [unfold tidy, tidy_time; cbn; repeat split; lia|]. split; [exact Logic.I|]. split; [reflexivity|]. split; [reflexivity|]. rewrite A, C. split; [vm_compute; reflexivity|reflexivity].
Qed.
(** The third occurrence has COUNT 0 left, and the end moved along; nothing else has changed. *)
Example C46_nonvacuous : exists l y r, run (recur_next rec_vevent) hourly36 l Ended /\ nth_error l 2 = Some y /\ ev_rrule hourly36 = Some r /\ r_count r = Some 3 /\
  ev_dtend y = Some (clock 2024 3 2 20 0 0) /\ option_map r_count (ev_rrule y) = Some (r_count (count_down r 2)) /\ r_count (count_down r 2) <> r_count r.
Proof.
  do 3 eexists. split; [eapply (collect_run _ 9 9); vm_compute; reflexivity|]. split; [reflexivity|]. split; [reflexivity|]. split; [reflexivity|]. split; [vm_compute; reflexivity|].
  split; [vm_compute; reflexivity|]. vm_compute. discriminate.
Qed.
(** After its last occurrence the event says that it has ended, and that again when asked again. *)
Definition last_one : vevent := plain_event (day 2024 1 1) None (Some (plain_rule Daily None (Some 0) 1)) [].
Example C45_nonvacuous : exists s, recur_next rec_vevent 5 last_one = IDone s /\ recur_next rec_vevent 9 s = IDone s /\
  exists l, run (recur_next rec_vevent) (plain_event (day 2024 1 1) None (Some (plain_rule Daily None (Some 2) 1)) []) l Ended /\ length l = 2%nat.
Proof.
  eexists. split; [vm_compute; reflexivity|]. split; [vm_compute; reflexivity|]. eexists. split; [eapply (collect_run _ 9 9); vm_compute; reflexivity|reflexivity].
Qed.
(** Two comments become one, in every kind that has them: what C56 says happens to these files. *)
Ltac collapses of ser tidy txt :=
  let o := eval vm_compute in (of txt) in
  lazymatch o with Ok ?v =>
    assert (R : of txt = Ok v) by (vm_compute; reflexivity);
    exists v; do 2 eexists; split; [exact (tidy east_sane txt v (plain_check_file txt ltac:(vm_compute; reflexivity)) R)|];
    split; [vm_compute; reflexivity|]; split; [vm_compute; reflexivity|]; vm_compute; reflexivity
  end.
Example C56_nonvacuous_event : exists v out w, event_tidy v /\ s_ical ser_vevent v = Ok out /\ vevent_of_str out = Ok w /\
  (map t_text (ev_comment v), ev_comment w, map u_uri (ev_attendee v), ev_attendee w) =
  ([lit "one"; lit "two"], [tx "one,two"], [lit "mailto:a@b"; lit "mailto:c@d"], [ur "mailto:a@b,mailto:c@d"]).
Proof. collapses vevent_of_str ser_vevent C85_loaded_event event_text. Qed.
Example C56_nonvacuous_todo : exists v out w, vtodo_tidy v /\ s_ical ser_vtodo v = Ok out /\ vtodo_of_str out = Ok w /\
  (map t_text (to_comment v), to_comment w, map u_uri (to_attendee v), to_attendee w) =
  ([lit "one"; lit "two"], [tx "one,two"], [lit "mailto:a@b"; lit "mailto:c@d"], [ur "mailto:a@b,mailto:c@d"]).
Proof. collapses vtodo_of_str ser_vtodo C85_loaded_todo task_text. Qed.
Example C56_nonvacuous_journal : exists v out w, vjournal_tidy v /\ s_ical ser_vjournal v = Ok out /\ vjournal_of_str out = Ok w /\
  (map t_text (jo_description v), jo_description w) = ([lit "one"; lit "two"], [tx "one,two"]).
Proof. collapses vjournal_of_str ser_vjournal C85_loaded_journal note_text. Qed.
Example C56_nonvacuous_freebusy : exists v out w, vfreebusy_tidy v /\ s_ical ser_vfreebusy v = Ok out /\ vfreebusy_of_str out = Ok w /\
  (map t_text (fb_comment v), fb_comment w) = ([lit "one"; lit "two"], [tx "one,two"]).
Proof. collapses vfreebusy_of_str ser_vfreebusy C85_loaded_freebusy busy_text. Qed.
Example C56_nonvacuous_standard : exists v out w, standard_tidy v /\ s_ical ser_standard v = Ok out /\ standard_of_str out = Ok w /\
  (map t_text (st_tzname v), st_tzname w) = ([lit "HNEC"; lit "CET"], [tx "HNEC,CET"]).
Proof. collapses standard_of_str ser_standard C85_loaded_standard winter_text. Qed.
Example C56_nonvacuous_daylight : exists v out w, daylight_tidy v /\ s_ical ser_daylight v = Ok out /\ daylight_of_str out = Ok w /\
  (map t_text (dl_tzname v), dl_tzname w) = ([lit "HAEC"; lit "CEST"], [tx "HAEC,CEST"]).
Proof. collapses daylight_of_str ser_daylight C85_loaded_daylight summer_text. Qed.
(** The text of an alarm, and what the struct inside would write. *)
Example C58_nonvacuous : exists out inner body x, beep = AAudio x /\ s_ical ser_valarm beep = Ok out /\ s_ical ser_audio x = Ok inner /\
  inner = lit "BEGIN:AUDIO" ++ [CR; LF] ++ body ++ lit "END:AUDIO" ++ [CR; LF] /\ out = lit "BEGIN:VALARM" ++ [CR; LF] ++ body ++ lit "END:VALARM" ++ [CR; LF] /\
  body = flat_map (fun l => lit l ++ [CR; LF]) ["ACTION:AUDIO"; "TRIGGER;VALUE=DURATION:-PT300S"; "DURATION:PT90S"; "REPEAT:4"; "ATTACH:Basso"]%string.
Proof.
  eexists. eexists. exists (flat_map (fun l => lit l ++ [CR; LF]) ["ACTION:AUDIO"; "TRIGGER;VALUE=DURATION:-PT300S"; "DURATION:PT90S"; "REPEAT:4"; "ATTACH:Basso"]%string).
  eexists. split; [reflexivity|]. split; [vm_compute; reflexivity|]. split; [vm_compute; reflexivity|]. split; [vm_compute; reflexivity|]. split; [vm_compute; reflexivity|reflexivity].
Qed.
