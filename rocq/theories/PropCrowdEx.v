(** * Concrete components: the hypotheses of C54 are met *)
From Verif Require Import Base Env Chrono Nom Types Ser Parser Derive BaseFacts SpecLine SpecText PropText PropLine PropDate
  SpecCal SpecDur PropVocab PropRule PropPeriod PropList Components SpecComp SpecFields SpecFile SpecRound SpecLoss PropLoss PropRound FieldFacts CalFacts PropRoundEx BackFacts SpecCrowd PropCrowd.
Section Ex.
Context {E : Env}.
Ltac no_in := let H := fresh in intros H; vm_compute in H; intuition discriminate.
Ltac str_safe := unfold safe_string; split; [discriminate|]; repeat split; no_in.
Ltac plain_params := split; [constructor|intros ? ? []].
Ltac tx_safe := split; [plain_params|str_safe].
Ltac day_ok := do 3 eexists; split; [vm_compute; reflexivity|lia].
Ltac dt_ok := split; [split; [cbn; lia|left; reflexivity]|eexists; split; [do 2 eexists; vm_compute; reflexivity|lia]].
Ltac some := let x := fresh in let H := fresh in intros x H; first [discriminate|injection H as <-].
Definition ringing_event : vevent := set_ev_alarms plain_event [plain_alarm "DISPLAY"].
Lemma plain_alarm_tidy : valarm_tidy (plain_alarm "DISPLAY").
Proof.
  unfold valarm_tidy, plain_alarm, display_tidy. cbn [di_action di_trigger di_description di_x_prop di_iana_prop].
  split; [split; [plain_params|no_in]|]. split; [exact I|]. split; [split; [plain_params|no_in]|]. split; intros ? ? [].
Qed.
Lemma plain_event_tidy : event_tidy plain_event.
Proof. split; [|constructor]. change (set_ev_alarms plain_event []) with plain_event. apply vevent_safe_tidy, plain_event_safe. Qed.
Lemma ringing_event_tidy : event_tidy ringing_event.
Proof.
  split; [|constructor; [apply plain_alarm_tidy|constructor]]. change (set_ev_alarms ringing_event []) with plain_event. apply vevent_safe_tidy, plain_event_safe.
Qed.
(** An event with an alarm: written, and its text is refused. *)
Example C54_nonvacuous_event : event_tidy ringing_event /\ event_crowded ringing_event /\
  exists out e, s_ical ser_vevent ringing_event = Ok out /\ vevent_of_str out = Err e.
Proof. split; [apply ringing_event_tidy|]. split; [discriminate|]. do 2 eexists. split; [vm_compute; reflexivity|vm_compute; reflexivity]. Qed.
(** A calendar with two events. *)
Definition two_events : vcalendar := mk_vcalendar (tx "-//x//y") (tx "2.0") None None [] [plain_event; plain_event] [] [] [] [] [] [].
Lemma two_events_tidy : calendar_tidy two_events.
Proof.
  unfold calendar_tidy, two_events. cbn [ca_alarms ca_events ca_freebusy ca_journals ca_todo ca_timezones]. split; [|split; [constructor|split; [|repeat split; constructor]]].
  - unfold vcalendar_tidy. cbn [ca_prodid ca_version ca_calscale ca_method ca_x_prop ca_iana_prop]. split; [split; [plain_params|no_in]|]. split; [split; [plain_params|no_in]|].
    split; [some|]. split; [some|]. split; intros ? ? [].
  - constructor; [apply plain_event_tidy|]. constructor; [apply plain_event_tidy|constructor].
Qed.
Example C54_nonvacuous_calendar : calendar_tidy two_events /\ calendar_crowded two_events /\
  exists out e, s_ical ser_vcalendar two_events = Ok out /\ vcalendar_of_str out = Err e.
Proof.
  split; [apply two_events_tidy|]. split; [right; left; unfold several; do 3 eexists; reflexivity|]. do 2 eexists. split; [vm_compute; reflexivity|vm_compute; reflexivity].
Qed.
(** A timezone with two STANDARD parts. *)
Definition part_of_zone : standard := mk_standard (DDateTime stamp) 3600 0 None [tx "winter"] [] [] [] [].
Definition two_parts : vtimezone := mk_vtimezone (tx "Europe/Paris") None None [part_of_zone; part_of_zone] [] [] [].
Lemma part_of_zone_tidy : standard_tidy part_of_zone.
Proof.
  unfold standard_tidy, part_of_zone. cbn [st_dtstart st_tzoffsetto st_tzoffsetfrom st_rrule st_comment st_rdate st_tzname st_x_prop st_iana_prop].
  split; [|split; [|split; [|split; [some|]]]].
  4: { split; [constructor; [split; [plain_params|no_in]|constructor]|]. split; [constructor|]. split; [constructor|]. split; intros ? ? []. }
  - exact (BackFacts.S_datetime stamp stamp_ok).
  - unfold real_offset. lia.
  - unfold real_offset. lia.
Qed.
Lemma two_parts_tidy : timezone_tidy two_parts.
Proof.
  unfold timezone_tidy, two_parts. cbn [tz_standard tz_daylight]. split; [|split; [|constructor]].
  - unfold vtimezone_tidy. cbn [tz_tzid tz_last_modified tz_tzurl tz_x_prop tz_iana_prop]. split; [split; [plain_params|no_in]|]. split; [some|]. split; [some|]. split; intros ? ? [].
  - constructor; [apply part_of_zone_tidy|]. constructor; [apply part_of_zone_tidy|constructor].
Qed.
Example C54_nonvacuous_timezone : timezone_tidy two_parts /\ timezone_crowded two_parts /\
  exists out e, s_ical ser_vtimezone two_parts = Ok out /\ vtimezone_of_str out = Err e.
Proof.
  split; [apply two_parts_tidy|]. split; [left; unfold several; do 3 eexists; reflexivity|]. do 2 eexists. split; [vm_compute; reflexivity|vm_compute; reflexivity].
Qed.
(** One event per kind and no alarm: not crowded, and read back. *)
Example C54_nonvacuous_calm : ~ event_crowded plain_event /\ exists out w, s_ical ser_vevent plain_event = Ok out /\ vevent_of_str out = Ok w.
Proof.
  split; [intros H; now apply H|]. destruct C53_nonvacuous as (out & H1 & H2 & _). eauto.
Qed.
End Ex.
