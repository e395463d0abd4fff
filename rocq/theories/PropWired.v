(** * The readers of C20-C34 in the components: which line, which reader, which field *)
From Verif Require Import Base Env Chrono Types SpecText SpecLine SpecComp SpecFields SpecFile SpecCal SpecDur SpecValue Parser Components PropVocab PropValue PropComp SpecMeaning PropMeaning.

Section Wired.
Context {E : Env}.
Ltac get H := repeat match goal with |- _ /\ _ => split end; repeat match type of H with ?a /\ _ => let h := fresh in destruct H as [h H]; try exact h end; exact H.
(** C20: dates and date-times. *)
Theorem C20_in_components :
  (forall ls v, vevent_of_lines ls = Ok v ->
     must says_datetime (lit "DTSTAMP") ls (ev_dtstamp v) /\
     must says_date (lit "DTSTART") ls (ev_dtstart v) /\
     may says_datetime (lit "CREATED") ls (ev_created v) /\
     may says_datetime (lit "LAST-MODIFIED") ls (ev_last_modified v) /\
     may says_date (lit "RECURID") ls (ev_recurid v) /\
     may says_date (lit "DTEND") ls (ev_dtend v)) /\
  (forall ls v, vfreebusy_of_lines ls = Ok v ->
     must says_datetime (lit "DTSTAMP") ls (fb_dtstamp v) /\
     may says_date (lit "DTSTART") ls (fb_dtstart v) /\
     may says_date (lit "DTEND") ls (fb_dtend v)) /\
  (forall ls v, vjournal_of_lines ls = Ok v ->
     must says_datetime (lit "DTSTAMP") ls (jo_dtstamp v) /\
     may says_datetime (lit "CREATED") ls (jo_created v) /\
     must says_date (lit "DTSTART") ls (jo_dtstart v) /\
     may says_datetime (lit "LAST-MODIFIED") ls (jo_last_modified v) /\
     may says_date (lit "RECURID") ls (jo_recurid v)) /\
  (forall ls v, vtodo_of_lines ls = Ok v ->
     must says_datetime (lit "DTSTAMP") ls (to_dtstamp v) /\
     may says_datetime (lit "COMPLETED") ls (to_completed v) /\
     may says_datetime (lit "CREATED") ls (to_created v) /\
     may says_date (lit "DTSTART") ls (to_dtstart v) /\
     may says_datetime (lit "LAST-MODIFIED") ls (to_last_modified v) /\
     may says_date (lit "RECURID") ls (to_recurid v) /\
     may says_date (lit "DUE") ls (to_due v)) /\
  (forall ls v, standard_of_lines ls = Ok v ->
     must says_date (lit "DTSTART") ls (st_dtstart v)) /\
  (forall ls v, daylight_of_lines ls = Ok v ->
     must says_date (lit "DTSTART") ls (dl_dtstart v)) /\
  (forall ls v, vtimezone_of_lines ls = Ok v ->
     may says_datetime (lit "LAST-MODIFIED") ls (tz_last_modified v)).
Proof.
  repeat match goal with |- _ /\ _ => split end; intros ls v H.
  - apply C11_vevent_read, vevent_iff in H. unfold vevent_means in H. get H.
  - apply C11_vfreebusy_read, vfreebusy_iff in H. unfold vfreebusy_means in H. get H.
  - apply C11_vjournal_read, vjournal_iff in H. unfold vjournal_means in H. get H.
  - apply C11_vtodo_read, vtodo_iff in H. unfold vtodo_means in H. get H.
  - apply C11_standard_read, standard_iff in H. unfold standard_means in H. get H.
  - apply C11_daylight_read, daylight_iff in H. unfold daylight_means in H. get H.
  - apply C11_vtimezone_read, vtimezone_iff in H. unfold vtimezone_means in H. get H.
Qed.
(** C24: durations. *)
Theorem C24_in_components :
  (forall ls v, audio_of_lines ls = Ok v ->
     may says_duration (lit "DURATION") ls (au_duration v)) /\
  (forall ls v, display_of_lines ls = Ok v ->
     may says_duration (lit "DURATION") ls (di_duration v)) /\
  (forall ls v, email_of_lines ls = Ok v ->
     may says_duration (lit "DURATION") ls (em_duration v)) /\
  (forall ls v, vevent_of_lines ls = Ok v ->
     may says_duration (lit "DURATION") ls (ev_duration v)) /\
  (forall ls v, vtodo_of_lines ls = Ok v ->
     may says_duration (lit "DURATION") ls (to_duration v)).
Proof.
  repeat match goal with |- _ /\ _ => split end; intros ls v H.
  - apply C11_audio_read, audio_iff in H. unfold audio_means in H. get H.
  - apply C11_display_read, display_iff in H. unfold display_means in H. get H.
  - apply C11_email_read, email_iff in H. unfold email_means in H. get H.
  - apply C11_vevent_read, vevent_iff in H. unfold vevent_means in H. get H.
  - apply C11_vtodo_read, vtodo_iff in H. unfold vtodo_means in H. get H.
Qed.
(** C27: rules. *)
Theorem C27_in_components :
  (forall ls v, vevent_of_lines ls = Ok v ->
     may says_rule (lit "RRULE") ls (ev_rrule v)) /\
  (forall ls v, vjournal_of_lines ls = Ok v ->
     may says_rule (lit "RRULE") ls (jo_rrule v)) /\
  (forall ls v, vtodo_of_lines ls = Ok v ->
     may says_rule (lit "RRULE") ls (to_rrule v)) /\
  (forall ls v, standard_of_lines ls = Ok v ->
     may says_rule (lit "RRULE") ls (st_rrule v)) /\
  (forall ls v, daylight_of_lines ls = Ok v ->
     may says_rule (lit "RRULE") ls (dl_rrule v)).
Proof.
  repeat match goal with |- _ /\ _ => split end; intros ls v H.
  - apply C11_vevent_read, vevent_iff in H. unfold vevent_means in H. get H.
  - apply C11_vjournal_read, vjournal_iff in H. unfold vjournal_means in H. get H.
  - apply C11_vtodo_read, vtodo_iff in H. unfold vtodo_means in H. get H.
  - apply C11_standard_read, standard_iff in H. unfold standard_means in H. get H.
  - apply C11_daylight_read, daylight_iff in H. unfold daylight_means in H. get H.
Qed.
(** C28: CLASS, STATUS and TRANSP. *)
Theorem C28_in_components :
  (forall ls v, vevent_of_lines ls = Ok v ->
     may says_class (lit "CLASS") ls (ev_class v) /\
     may says_status (lit "STATUS") ls (ev_status v) /\
     may says_transp (lit "TRANSP") ls (ev_transp v)) /\
  (forall ls v, vjournal_of_lines ls = Ok v ->
     may says_class (lit "CLASS") ls (jo_class v) /\
     may says_status (lit "STATUS") ls (jo_status v)) /\
  (forall ls v, vtodo_of_lines ls = Ok v ->
     may says_class (lit "CLASS") ls (to_class v) /\
     may says_status (lit "STATUS") ls (to_status v)).
Proof.
  repeat match goal with |- _ /\ _ => split end; intros ls v H.
  - apply C11_vevent_read, vevent_iff in H. unfold vevent_means in H. get H.
  - apply C11_vjournal_read, vjournal_iff in H. unfold vjournal_means in H. get H.
  - apply C11_vtodo_read, vtodo_iff in H. unfold vtodo_means in H. get H.
Qed.
(** C30: UTC offsets. *)
Theorem C30_in_components :
  (forall ls v, standard_of_lines ls = Ok v ->
     must says_offset (lit "TZOFFSETTO") ls (st_tzoffsetto v) /\
     must says_offset (lit "TZOFFSETFROM") ls (st_tzoffsetfrom v)) /\
  (forall ls v, daylight_of_lines ls = Ok v ->
     must says_offset (lit "TZOFFSETTO") ls (dl_tzoffsetto v) /\
     must says_offset (lit "TZOFFSETFROM") ls (dl_tzoffsetfrom v)).
Proof.
  repeat match goal with |- _ /\ _ => split end; intros ls v H.
  - apply C11_standard_read, standard_iff in H. unfold standard_means in H. get H.
  - apply C11_daylight_read, daylight_iff in H. unfold daylight_means in H. get H.
Qed.
(** C31: RDATE. *)
Theorem C31_in_components :
  (forall ls v, vevent_of_lines ls = Ok v ->
     each says_rdate (lit "RDATE") ls (ev_rdate v)) /\
  (forall ls v, vjournal_of_lines ls = Ok v ->
     each says_rdate (lit "RDATE") ls (jo_rdate v)) /\
  (forall ls v, vtodo_of_lines ls = Ok v ->
     each says_rdate (lit "RDATE") ls (to_rdate v)) /\
  (forall ls v, standard_of_lines ls = Ok v ->
     each says_rdate (lit "RDATE") ls (st_rdate v)) /\
  (forall ls v, daylight_of_lines ls = Ok v ->
     each says_rdate (lit "RDATE") ls (dl_rdate v)).
Proof.
  repeat match goal with |- _ /\ _ => split end; intros ls v H.
  - apply C11_vevent_read, vevent_iff in H. unfold vevent_means in H. get H.
  - apply C11_vjournal_read, vjournal_iff in H. unfold vjournal_means in H. get H.
  - apply C11_vtodo_read, vtodo_iff in H. unfold vtodo_means in H. get H.
  - apply C11_standard_read, standard_iff in H. unfold standard_means in H. get H.
  - apply C11_daylight_read, daylight_iff in H. unfold daylight_means in H. get H.
Qed.
(** C32: integers. *)
Theorem C32_in_components :
  (forall ls v, audio_of_lines ls = Ok v ->
     may (says_number 4294967295) (lit "REPEAT") ls (au_repeat v)) /\
  (forall ls v, display_of_lines ls = Ok v ->
     may (says_number 4294967295) (lit "REPEAT") ls (di_repeat v)) /\
  (forall ls v, email_of_lines ls = Ok v ->
     may (says_number 4294967295) (lit "REPEAT") ls (em_repeat v)) /\
  (forall ls v, vevent_of_lines ls = Ok v ->
     may (says_number 9) (lit "PRIORITY") ls (ev_priority v) /\
     may (says_number 4294967295) (lit "SEQUENCE") ls (ev_sequence v)) /\
  (forall ls v, vjournal_of_lines ls = Ok v ->
     may (says_number 4294967295) (lit "SEQUENCE") ls (jo_sequence v)) /\
  (forall ls v, vtodo_of_lines ls = Ok v ->
     may (says_number 255) (lit "PERCENT-COMPLETE") ls (to_percent_complete v) /\
     may (says_number 9) (lit "PRIORITY") ls (to_priority v) /\
     may (says_number 4294967295) (lit "SEQUENCE") ls (to_sequence v)).
Proof.
  repeat match goal with |- _ /\ _ => split end; intros ls v H.
  - apply C11_audio_read, audio_iff in H. unfold audio_means in H. get H.
  - apply C11_display_read, display_iff in H. unfold display_means in H. get H.
  - apply C11_email_read, email_iff in H. unfold email_means in H. get H.
  - apply C11_vevent_read, vevent_iff in H. unfold vevent_means in H. get H.
  - apply C11_vjournal_read, vjournal_iff in H. unfold vjournal_means in H. get H.
  - apply C11_vtodo_read, vtodo_iff in H. unfold vtodo_means in H. get H.
Qed.
(** C33: TRIGGER. *)
Theorem C33_in_components :
  (forall ls v, audio_of_lines ls = Ok v ->
     must says_trigger (lit "TRIGGER") ls (au_trigger v)) /\
  (forall ls v, display_of_lines ls = Ok v ->
     must says_trigger (lit "TRIGGER") ls (di_trigger v)) /\
  (forall ls v, email_of_lines ls = Ok v ->
     must says_trigger (lit "TRIGGER") ls (em_trigger v)).
Proof.
  repeat match goal with |- _ /\ _ => split end; intros ls v H.
  - apply C11_audio_read, audio_iff in H. unfold audio_means in H. get H.
  - apply C11_display_read, display_iff in H. unfold display_means in H. get H.
  - apply C11_email_read, email_iff in H. unfold email_means in H. get H.
Qed.
(** C34: comma lists. *)
Theorem C34_in_components :
  (forall ls v, vevent_of_lines ls = Ok v ->
     joined says_texts (lit "CATEGORIES") ls (ev_categories v) /\
     joined says_dates (lit "EXDATE") ls (ev_exdate v) /\
     joined says_texts (lit "RESOURCES") ls (ev_resources v)) /\
  (forall ls v, vfreebusy_of_lines ls = Ok v ->
     joined says_periods (lit "FREEBUSY") ls (fb_freebusy v)) /\
  (forall ls v, vjournal_of_lines ls = Ok v ->
     joined says_texts (lit "CATEGORIES") ls (jo_categories v) /\
     joined says_dates (lit "EXDATE") ls (jo_exdate v)) /\
  (forall ls v, vtodo_of_lines ls = Ok v ->
     joined says_texts (lit "CATEGORIES") ls (to_categories v) /\
     joined says_dates (lit "EXDATE") ls (to_exdate v) /\
     joined says_texts (lit "RESOURCES") ls (to_resources v)).
Proof.
  repeat match goal with |- _ /\ _ => split end; intros ls v H.
  - apply C11_vevent_read, vevent_iff in H. unfold vevent_means in H. get H.
  - apply C11_vfreebusy_read, vfreebusy_iff in H. unfold vfreebusy_means in H. get H.
  - apply C11_vjournal_read, vjournal_iff in H. unfold vjournal_means in H. get H.
  - apply C11_vtodo_read, vtodo_iff in H. unfold vtodo_means in H. get H.
Qed.
End Wired.
