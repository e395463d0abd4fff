(** * Concrete components: the hypotheses of C90 are met *)
From Verif Require Import Base Env Chrono Nom Types Ser Parser Derive BaseFacts SpecLine SpecText PropText PropLine PropDate
  SpecCal SpecDur PropVocab PropRule PropPeriod PropList Components SpecComp SpecFields SpecFile SpecRound SpecLoss PropLoss PropRound FieldFacts CalFacts PropRoundEx BackFacts SpecCrowd PropCrowd PropCrowdEx
  SpecAssemble PropAssemble.
Section Ex.
Context {E : Env}.
Ltac no_in := let H := fresh in intros H; vm_compute in H; intuition discriminate.
Ltac str_safe := unfold safe_string; split; [discriminate|]; repeat split; no_in.
Ltac plain_params := split; [constructor|intros ? ? []].
Ltac tx_safe := split; [plain_params|str_safe].
Ltac some := let x := fresh in let H := fresh in intros x H; first [discriminate|injection H as <-].
(** An event with two alarms, a timezone with two STANDARD parts, another event. *)
Definition loud_event : vevent := set_ev_alarms plain_event [plain_alarm "DISPLAY"; plain_alarm "DISPLAY"].
Definition busy_children : list component := [CEvent loud_event; CTimezone two_parts; CEvent plain_event].
Definition busy_calendar : vcalendar := mk_vcalendar (tx "-//x//y") (tx "2.0") None None [] [loud_event; plain_event] [] [] [] [two_parts] [] [].
Lemma loud_event_safe : event_safe loud_event.
Proof. destruct C53_nonvacuous_alarm as [A _]. split; [exact plain_event_safe|]. repeat (constructor; [exact A|]). constructor. Qed.
Lemma plain_is_safe : event_safe plain_event.
Proof. split; [exact plain_event_safe|constructor]. Qed.
Lemma zone_part_safe : standard_safe part_of_zone.
Proof.
  unfold standard_safe, part_of_zone. cbn [st_dtstart st_tzoffsetto st_tzoffsetfrom st_rrule st_comment st_rdate st_tzname st_x_prop st_iana_prop].
  split; [exact stamp_ok|]. split; [unfold safe_offset; split; [lia|reflexivity]|]. split; [unfold safe_offset; split; [lia|reflexivity]|].
  split; [some|]. split; [right; eexists; split; [reflexivity|tx_safe]|]. repeat match goal with |- _ /\ _ => split end; try reflexivity; try (left; reflexivity); constructor.
Qed.
Lemma zone_safe : timezone_safe two_parts.
Proof.
  split; [|split; [repeat (constructor; [exact zone_part_safe|]); constructor|constructor]].
  unfold vtimezone_safe, timezone_bare, two_parts, set_tz_daylight, set_tz_standard, one_each_tz. cbn [tz_tzid tz_last_modified tz_tzurl tz_standard tz_daylight tz_x_prop tz_iana_prop length].
  split; [tx_safe|]. split; [some|]. split; [some|]. split; [split; lia|]. repeat split; constructor.
Qed.
Lemma busy_safe : calendar_safe busy_calendar.
Proof.
  unfold calendar_safe, busy_calendar. cbn [ca_alarms ca_events ca_freebusy ca_journals ca_todo ca_timezones].
  split; [|split; [constructor|split; [constructor; [exact loud_event_safe|constructor; [exact plain_is_safe|constructor]]|]]].
  - unfold vcalendar_safe, calendar_bare, calendar_with, one_each. cbn [ca_prodid ca_version ca_calscale ca_method ca_alarms ca_events ca_freebusy ca_journals ca_todo ca_timezones ca_x_prop ca_iana_prop alarms_of events_of freebusy_of journals_of todos_of timezones_of flat_map length].
    split; [tx_safe|]. split; [tx_safe|]. split; [some|]. split; [some|]. split; [repeat split; lia|]. repeat split; constructor.
  - split; [constructor|]. split; [constructor|]. split; [constructor|]. constructor; [exact zone_safe|constructor].
Qed.
Lemma event_put v : event_tidy v -> (exists h, s_ical ser_vevent (event_bare v) = Ok h) -> Forall (fun a => exists o, s_ical ser_valarm a = Ok o) (ev_alarms v) ->
  exists h outs o, event_assembled v h outs o.
Proof.
  intros [T _] [h H] F. destruct (event_header _ _ T H) as (b & Eh & _). destruct (F2_exist _ _ F) as [outs G].
  exists h, outs, (around (lit "VEVENT") (b ++ concat outs)). split; [exact H|]. split; [exact G|]. exists b. auto.
Qed.
Example C90_nonvacuous : calendar_safe busy_calendar /\ (exists out, s_ical ser_vcalendar busy_calendar = Ok out /\ forall w, vcalendar_of_str out <> Ok w) /\
  exists h outs out, calendar_assembled busy_calendar busy_children h outs out /\ vcalendar_of_str out = Ok busy_calendar.
Proof.
  split; [exact busy_safe|]. split.
  { assert (H : exists out, s_ical ser_vcalendar busy_calendar = Ok out) by (eexists; vm_compute; reflexivity). destruct H as [out H]. exists out. split; [exact H|].
    apply (C54_calendar_with_several busy_calendar out); [apply calendar_safe_is_tidy, busy_safe|right; left; do 3 eexists; reflexivity|exact H]. }
  assert (X : exists h outs out, calendar_assembled busy_calendar busy_children h outs out).
  { destruct (event_put loud_event) as (h1 & o1 & t1 & P1); [apply event_safe_is_tidy, loud_event_safe|eexists; vm_compute; reflexivity|repeat (constructor; [eexists; vm_compute; reflexivity|]); constructor|].
    destruct (event_put plain_event) as (h2 & o2 & t2 & P2); [apply event_safe_is_tidy, plain_is_safe|eexists; vm_compute; reflexivity|constructor|].
    assert (P3 : exists h outs o, timezone_assembled two_parts [TStandard part_of_zone; TStandard part_of_zone] h outs o).
    { assert (H : exists h, s_ical ser_vtimezone (timezone_bare two_parts) = Ok h) by (eexists; vm_compute; reflexivity). destruct H as [h H].
      destruct (timezone_header (timezone_bare two_parts) h) as (b & Eh & _); [apply (timezone_safe_is_tidy _ zone_safe)|split; reflexivity|exact H|].
      assert (P : exists o, s_ical ser_standard part_of_zone = Ok o) by (eexists; vm_compute; reflexivity). destruct P as [o P].
      exists h, [o; o], (around (lit "VTIMEZONE") (b ++ concat [o; o])). split; [reflexivity|]. split; [reflexivity|]. split; [exact H|]. split; [repeat (constructor; [exact P|]); constructor|]. exists b. auto. }
    destruct P3 as (h3 & o3 & t3 & P3).
    assert (H : exists h, s_ical ser_vcalendar (calendar_bare busy_calendar) = Ok h) by (eexists; vm_compute; reflexivity). destruct H as [h H].
    destruct (calendar_header (calendar_bare busy_calendar) h) as (b & Eh & _); [apply (calendar_safe_is_tidy _ busy_safe)|repeat split; reflexivity|exact H|].
    exists h, [t1; t3; t2], (around (lit "VCALENDAR") (b ++ concat [t1; t3; t2])). split; [reflexivity|]. split; [exact H|]. split; [|exists b; auto].
    constructor; [econstructor; exact P1|]. constructor; [econstructor; exact P3|]. constructor; [econstructor; exact P2|constructor]. }
  destruct X as (h & outs & out & X). exists h, outs, out. split; [exact X|]. eapply C90_calendar_round_trip; [exact busy_safe|exact X].
Qed.
End Ex.
