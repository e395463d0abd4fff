(** * Concrete uses of the macros: the hypotheses of C59-C61 are met.
    One hour east of UTC, so that the examples compute. *)
From Verif Require Import Base Env Chrono Types Ser Parser Derive Components SpecRound Macros SpecMacro MacroFacts PropMacro PropNew PropDate.

#[local] Existing Instance env_east.
Definition empty_scope : str -> option typed := fun _ => None.
Definition s (x : String.string) : value := VSingle (EStr (lit x)).
(** The example of the documentation, src/lib.rs:47-61 *)
Definition doc : list (str * value) :=
  [(lit "version", s "2.0"); (lit "prodid", s "-//hacksw/handcal//NONSGML v1.0//EN");
   (lit "events", VCollection [VObject
     [(lit "uid", s "19970610T172345Z-AF23B2@example.com"); (lit "dtstamp", s "19970610T172345Z"); (lit "dtstart", s "19970714T170000Z");
      (lit "summary", s "Bastille Day Party"); (lit "status", VSingle (EVariant (VStatus Confirmed)))]])].
Example C59_nonvacuous_doc : exists v e, macro_value empty_scope SCalendar doc = Some (Ok v) /\ ca_events v = [e]
  /\ ev_summary e = Some (text_of_str (lit "Bastille Day Party")) /\ ev_status e = Some Confirmed /\ ev_location e = None
  /\ datetime_of_str (lit "19970610T172345Z") = Ok (ev_dtstamp e).
Proof. do 2 eexists. split; [vm_compute; reflexivity|]. repeat (split; [reflexivity|]). vm_compute. reflexivity. Qed.
(** The fields of an event of the test of the crate, vevent.rs:103-146 *)
Definition test_event : list (str * value) :=
  [(lit "uid", s "5UILHLI7RI6K2IDRAQX7O"); (lit "dtstart", s "20170209"); (lit "class", VSingle (EVariant (VClass Public)));
   (lit "geo", VObject [(lit "lat", VSingle (EFloat 1108707976)); (lit "lon", VSingle (EFloat 3270781494))]);
   (lit "priority", VSingle (EInt 1)); (lit "sequence", VSingle (EInt 0)); (lit "transp", VSingle (EVariant (VTransp Transparent)));
   (lit "rrule", VObject [(lit "freq", VSingle (EVariant (VFreq Yearly))); (lit "interval", VSingle (EInt 1))]);
   (lit "duration", s "P1Y"); (lit "categories", VCollection [s "a"; s "b"]); (lit "exdate", VCollection [s "20170209"]);
   (lit "rstatus", VCollection [VObject [(lit "statcode", VSingle (EFloat 1073741824)); (lit "statdesc", s "Success")]]); (lit "alarms", VCollection [])].
Example C59_nonvacuous_event : exists v, macro_value empty_scope SEvent test_event = Some (Ok v)
  /\ ev_geo v = Some (mk_geo 1108707976 3270781494) /\ ev_priority v = Some 1 /\ ev_duration v = Some (365 * 86400 * 1000000000)
  /\ ev_categories v = [text_of_str (lit "a"); text_of_str (lit "b")] /\ ev_rstatus v = [mk_rs 1073741824 (lit "Success") None].
Proof. eexists. split; [vm_compute; reflexivity|]. repeat (split; [reflexivity|]). reflexivity. Qed.
Example C59_nonvacuous_compiles : compiles empty_scope SEvent test_event /\ succeed empty_scope SEvent test_event.
Proof.
  destruct C59_nonvacuous_event as (v & H & _). split.
  - apply C59_compiles. rewrite H. discriminate.
  - apply C59_fields in H. destruct H as (_ & H & _). intros f x I. destruct (H f x I) as (t & y & A & B & _). eauto.
Qed.
(** The first error is given. *)
Example C59_nonvacuous_error :
  macro_value empty_scope SEvent [(lit "uid", s "u"); (lit "duration", s "1H"); (lit "dtstart", s "nonsense")] = Some (Err (EParseDuration (lit "1H"))).
Proof. vm_compute. reflexivity. Qed.
(** Entries that do not compile: an unknown field, a field twice, an optional text outside the table, a negative literal in a list, an
    object that the macro does not know, an alarm as an object. *)
Example C59_nonvacuous_rejected :
  macro_value empty_scope SEvent [(lit "color", s "red")] = None /\
  macro_value empty_scope SEvent [(lit "uid", s "1"); (lit "uid", s "2")] = None /\
  macro_value empty_scope SCalendar [(lit "method", s "PUBLISH")] = None /\
  macro_value empty_scope SRecur [(lit "by_monthday", VCollection [VSingle (EInt (-1))])] = None /\
  macro_value empty_scope SCalendar [(lit "journals", VCollection [VObject []])] = None /\
  macro_value empty_scope SEvent [(lit "alarms", VCollection [VObject []])] = None.
Proof. repeat split; vm_compute; reflexivity. Qed.
(** A calendar method can only be given as a [Text]. *)
Example C59_nonvacuous_method : exists v, macro_value empty_scope SCalendar [(lit "method", VSingle (EVal (existT den TText (text_of_str (lit "PUBLISH")))))] = Some (Ok v)
  /\ ca_method v = Some (text_of_str (lit "PUBLISH")).
Proof. eexists. split; [vm_compute; reflexivity|reflexivity]. Qed.
(** valarm.rs:203-209, with its variable *)
Definition duration_scope : str -> option typed := fun n => if str_eqb n (lit "duration") then Some (existT den (TOpt TDuration) (Some 0)) else None.
Example C61_nonvacuous : exists a out, valarm_macro duration_scope KAudio
    [(lit "action", s "DISPLAY"); (lit "trigger", s "-PT30M"); (lit "duration", VNone); (lit "repeat", VSingle (EInt 4));
     (lit "attach", VCollection [s "ftp://example.com/pub/sounds/bell-01.aud"])] = Some (Ok a)
  /\ named KAudio a /\ valarm_tidy a /\ s_ical ser_valarm a = Ok out /\ valarm_of_str out = Ok a.
Proof.
  do 2 eexists. split; [vm_compute; reflexivity|]. split; [split; [exact I|reflexivity]|]. split.
  - cbn [valarm_tidy]. unfold audio_tidy. cbn [au_action au_trigger au_attach au_x_prop au_iana_prop].
    split; [split; [split; [constructor|intros ? ? []]|intros H; vm_compute in H; intuition discriminate]|].
    split; [exact I|]. split; [constructor; [split; [split; [constructor|intros ? ? []]|intros H; vm_compute in H; intuition discriminate]|constructor]|].
    split; intros ? ? [].
  - split; [vm_compute; reflexivity|]. vm_compute. reflexivity.
Qed.
(** An alarm made by hand with another action reads back as another kind. *)
Example C61_nonvacuous_other : exists out w, s_ical ser_valarm (AAudio (mk_audio (text_of_str (lit "DISPLAY")) (TrDuration 0) None None [] [] [])) = Ok out
  /\ valarm_of_str out = Err EParser /\ s_ical ser_valarm (ADisplay (mk_display (text_of_str (lit "AUDIO")) (TrDuration 0) (text_of_str (lit "d")) None None [] [])) = Ok w
  /\ exists x, valarm_of_str w = Ok (AAudio x).
Proof. do 2 eexists. split; [vm_compute; reflexivity|]. split; [vm_compute; reflexivity|]. split; [vm_compute; reflexivity|]. eexists. vm_compute. reflexivity. Qed.
(** A default rule has interval 0 and frequency DAILY; a new event starts at the epoch, has no summary and no alarm. *)
Example C60_nonvacuous :
  In (lit "interval", TU8) (struct_fields SRecur) /\ field SRecur (default_of SRecur) (lit "interval") = Some (existT den TU8 0) /\
  field SRecur (default_of SRecur) (lit "freq") = Some (existT den TFreq Daily) /\
  In (lit "dtstart", TDate) (struct_fields SEvent) /\ field SEvent (default_of SEvent) (lit "dtstart") = Some (existT den TDate (DDateTime (Naive epoch))) /\
  In (lit "summary", TOpt TText) (struct_fields SEvent) /\ field SEvent (default_of SEvent) (lit "summary") = Some (existT den (TOpt TText) None) /\
  In (lit "alarms", TVec TAlarm) (struct_fields SEvent) /\ field SEvent (default_of SEvent) (lit "alarms") = Some (existT den (TVec TAlarm) []).
Proof. repeat match goal with |- _ /\ _ => split end; try reflexivity; cbn; tauto. Qed.
