(** * Concrete components: the hypotheses of C53, C55-C58 are met *)
From Verif Require Import Base Env Chrono Nom Types Ser Parser Derive BaseFacts SpecLine SpecText PropText PropLine PropDate
  SpecCal SpecDur PropVocab PropRule PropPeriod PropList Components SpecComp SpecFields SpecFile SpecRound SpecLoss PropLoss PropRound FieldFacts CalFacts.

Section Ex.
Context {E : Env}.
Definition tx (s : String.string) : text := text_of_str (lit s).
Definition when : datetime := Naive (mk_ndt (days_of_ymd 2024 2 29) 43200 0).
Definition stamp : datetime := Naive (mk_ndt (days_of_ymd 2024 1 1) 0 0).
Definition event_of uid cats comments x :=
  mk_vevent stamp uid (DDate (days_of_ymd 2024 2 29)) (Some Private) None
    (Some (tx "a description long enough to be folded on two lines or so it seems at first sight: at least once")) None None (Some (tx "somewhere")) (Some (uri_of_str (lit "mailto:a@b")))
    (Some 9) (Some 3) (Some Confirmed) (Some (tx "summary")) (Some Transparent) None None
    (Some (mk_recur Weekly (Some (DDate (days_of_ymd 2025 1 1))) (Some 10) 2 [] [] [] [mk_wdn Monday (Some (-1))] [] [] [] [1; 12] [] (Some Sunday))) (Some (DDateTime when)) (Some (90 * sec))
    [] [uri_of_str (lit "mailto:c@d")] cats comments [] [DDate (days_of_ymd 2024 3 7); DDate (days_of_ymd 2024 3 14)] [] [] [] [] [] x [].
Definition plain_event : vevent := event_of (mk_text [(lit "LANGUAGE", lit "en")] (lit "uid-1@example.org")) [tx "one"; tx "two"] [] [].

Ltac no_in := let H := fresh in intros H; vm_compute in H; intuition discriminate.
Ltac str_safe := unfold safe_string; split; [discriminate|]; repeat split; no_in.
Ltac plain_params := split; [constructor|intros ? ? []].
Ltac tx_safe := split; [plain_params|str_safe].
Ltac day_ok := do 3 eexists; split; [vm_compute; reflexivity|lia].
Ltac dt_ok := split; [split; [cbn; lia|left; reflexivity]|eexists; split; [do 2 eexists; vm_compute; reflexivity|lia]].
Ltac some := let x := fresh in let H := fresh in intros x H; first [discriminate|injection H as <-].
Lemma when_ok : writable_datetime when. Proof. dt_ok. Qed.
Lemma stamp_ok : writable_datetime stamp. Proof. dt_ok. Qed.
Lemma plain_event_safe : vevent_safe plain_event.
Proof.
  unfold vevent_safe, plain_event, event_of. cbn [ev_dtstamp ev_uid ev_dtstart ev_class ev_created ev_description ev_geo ev_last_modified ev_location ev_organizer ev_priority ev_sequence ev_summary ev_url ev_recurid ev_rrule ev_dtend ev_duration ev_attach ev_attendee ev_categories ev_comment ev_contact ev_exdate ev_rstatus ev_related_to ev_resources ev_rdate ev_alarms ev_x_prop ev_iana_prop].
  split; [apply stamp_ok|].
  split. { split; [|str_safe]. split; [repeat constructor|]. intros k v [H|[]]. injection H as <- <-. split; [now apply key_text_lit|]. repeat split; try no_in; try discriminate. }
  split; [day_ok|].
  split; [some; exact I|]. split; [some|]. split; [some; tx_safe|]. split; [some|]. split; [some|]. split; [some; tx_safe|].
  split; [some; tx_safe|]. split; [some; split; lia|]. split; [some; split; lia|]. split; [some; tx_safe|]. split; [some|]. split; [some|].
  split. { some. unfold writable_rule. cbn [r_until r_count r_interval r_by_second r_by_minute r_by_hour r_by_day r_by_monthday r_by_yearday r_by_weekno r_by_month r_by_setpos]. unfold small_ints.
    split; [some; day_ok|]. split; [some; lia|]. split; [lia|]. do 3 (split; [constructor|]). split; [constructor; [some; lia|constructor]|]. do 3 (split; [constructor|]). split; [repeat constructor; lia|constructor]. }
  split; [some; apply when_ok|]. split; [some; exists 90; split; [reflexivity|unfold sec, longest; lia]|].
  split; [left; reflexivity|]. split; [right; eexists; split; [reflexivity|tx_safe]|]. split; [constructor; [|constructor; [|constructor]]; (split; [reflexivity|str_safe])|].
  split; [left; reflexivity|]. split; [left; reflexivity|]. split; [constructor; [day_ok|constructor; [day_ok|constructor]]|].
  split; [left; reflexivity|]. split; [left; reflexivity|]. split; [constructor|]. repeat split.
Qed.
(** An event with a folded description, parameters, lists, a recurrence: written and read back. *)
Example C53_nonvacuous : exists out, s_ical ser_vevent plain_event = Ok out /\ vevent_of_str out = Ok plain_event /\ length out = 559%nat.
Proof.
  assert (H : exists out, s_ical ser_vevent plain_event = Ok out /\ length out = 559%nat) by (eexists; split; vm_compute; reflexivity).
  destruct H as (out & H & L). exists out. split; [exact H|]. split; [apply (C53_vevent_round_trip _ _ plain_event_safe H)|exact L].
Qed.
(** A calendar with this event. *)
Definition plain_calendar : vcalendar := mk_vcalendar (tx "-//x//y") (tx "2.0") None (Some (tx "PUBLISH")) [] [plain_event] [] [] [] [] [] [].
Example C53_nonvacuous_calendar : vcalendar_safe plain_calendar /\ exists out, s_ical ser_vcalendar plain_calendar = Ok out.
Proof.
  split; [|eexists; vm_compute; reflexivity]. unfold vcalendar_safe, plain_calendar, one_each. cbn [ca_prodid ca_version ca_calscale ca_method ca_alarms ca_events ca_freebusy ca_journals ca_todo ca_timezones ca_x_prop ca_iana_prop length].
  split; [tx_safe|]. split; [tx_safe|]. split; [some|]. split; [some; tx_safe|]. split; [repeat split; lia|]. split; [constructor; [apply plain_event_safe|constructor]|]. repeat split; constructor.
Qed.
(** An alarm. *)
Definition plain_alarm (action : String.string) : valarm := ADisplay (mk_display (tx action) (TrDuration (-300 * sec)) (tx "wake up") None (Some 2) [] []).
Example C53_nonvacuous_alarm : valarm_safe (plain_alarm "DISPLAY") /\ exists out, s_ical ser_valarm (plain_alarm "DISPLAY") = Ok out.
Proof.
  split; [|eexists; vm_compute; reflexivity]. unfold valarm_safe, plain_alarm, display_safe. cbn [di_action di_trigger di_description di_duration di_repeat di_x_prop di_iana_prop].
  split; [|reflexivity]. split; [tx_safe|]. split; [exists (-300); split; [reflexivity|unfold sec, longest; lia]|]. split; [tx_safe|]. split; [some|]. split; [some; split; lia|auto].
Qed.
(** Two comments, an extension property with a name and a parameter: still tidy. *)
Definition lossy_event : vevent :=
  event_of (tx "u") [] [tx "first"; mk_text [(lit "LANGUAGE", lit "en")] (lit "second; third")] [(lit "X-FOO", mk_cl (lit "X-FOO") [(lit "A", lit "b")] (lit "bar"))].
Definition faceless_event : vevent := event_of (tx "") [] [] [].
Lemma like_plain_tidy uid cats comments x : tidy_text uid -> Forall tidy_text cats -> Forall tidy_text comments -> tidy_ext x -> vevent_tidy (event_of uid cats comments x).
Proof.
  intros H1 H2 H3 H4. pose proof (vevent_safe_tidy _ plain_event_safe) as T. unfold vevent_tidy in *. unfold plain_event, event_of in T. unfold event_of.
  cbn [ev_dtstamp ev_uid ev_dtstart ev_class ev_created ev_description ev_geo ev_last_modified ev_location ev_organizer ev_priority ev_sequence ev_summary ev_url ev_recurid ev_rrule ev_dtend ev_duration ev_attach ev_attendee ev_categories ev_comment ev_contact ev_exdate ev_rstatus ev_related_to ev_resources ev_rdate ev_alarms ev_x_prop ev_iana_prop] in *. tauto.
Qed.
Example C55_nonvacuous : vevent_tidy lossy_event /\ (exists out w, s_ical ser_vevent lossy_event = Ok out /\ vevent_of_str out = Ok w /\
  ev_comment w = [tx "first,second\; third"] /\ ev_x_prop w = [(lit "X-PROP", mk_cl (lit "X-PROP") [] (lit "X-FOO=bar"))]).
Proof.
  split; [|do 2 eexists; split; [vm_compute; reflexivity|]; split; [vm_compute; reflexivity|]; split; vm_compute; reflexivity].
  apply like_plain_tidy; [split; [plain_params|no_in]|constructor| |].
  - constructor; [split; [plain_params|no_in]|]. constructor; [|constructor]. split; [|no_in]. split; [repeat constructor|]. intros k v [H|[]]. injection H as <- <-. split; [now apply key_text_lit|]. repeat split; try no_in; try discriminate.
  - intros k l [H|[]]. injection H as <- <-. split; [split; no_in|no_in].
Qed.
Example C57_nonvacuous : vevent_tidy faceless_event /\ t_text (ev_uid faceless_event) = [] /\ exists out e, s_ical ser_vevent faceless_event = Ok out /\ vevent_of_str out = Err e.
Proof.
  split; [|split; [reflexivity|do 2 eexists; split; [vm_compute; reflexivity|vm_compute; reflexivity]]]. apply like_plain_tidy; [split; [plain_params|no_in]|constructor|constructor|intros ? ? []].
Qed.
Example C57_nonvacuous_alarm : valarm_tidy (plain_alarm "") /\ exists out, s_ical ser_valarm (plain_alarm "") = Ok out /\ valarm_of_str out = Panic.
Proof.
  split; [|eexists; split; [vm_compute; reflexivity|vm_compute; reflexivity]]. unfold valarm_tidy, plain_alarm, display_tidy. cbn [di_action di_trigger di_description di_x_prop di_iana_prop].
  split; [split; [plain_params|no_in]|]. split; [exact I|]. split; [split; [plain_params|no_in]|]. split; intros ? ? [].
Qed.
(** A calendar with an event and an extension property: its text is refused. *)
Example C55_nonvacuous_calendar : forall v, v = mk_vcalendar (tx "-//x//y") (tx "2.0") None None [] [plain_event] [] [] [] [] [(lit "X-FOO", mk_cl (lit "X-FOO") [] (lit "bar"))] [] ->
  ~ childless v /\ exists out e, s_ical ser_vcalendar v = Ok out /\ vcalendar_of_str out = Err e.
Proof. intros v ->. split; [intros (_ & H & _); discriminate|]. do 2 eexists. split; [vm_compute; reflexivity|vm_compute; reflexivity]. Qed.
End Ex.
