(** * C60-C61: components made by default, and alarms made from their contents. *)
From Verif Require Import Base BaseFacts Env Chrono Nom Types Ser Parser Derive Components SpecLine SpecText SpecComp SpecFile SpecRound RoundFacts AlarmFacts PropRound
  Macros SpecMacro MacroFacts PropMacro.

Section Env.
Context {E : Env}.
(** ** C60: a component made by [new()] or [default()]: what is written, and that it does not read back. *)
Theorem C60_vevent_new : exists out, s_ical ser_vevent (default_of SEvent) = Ok out /\ out = lit "BEGIN:VEVENT" ++ [CR; LF] ++ lit "DTSTAMP:19700101T000000" ++ [CR; LF] ++ lit "DTSTART:19700101T000000" ++ [CR; LF] ++ lit "END:VEVENT" ++ [CR; LF] /\ vevent_of_str out = Err EParser.
Proof. eexists. split; [vm_compute; reflexivity|]. split; vm_compute; reflexivity. Qed.
Theorem C60_vfreebusy_new : exists out, s_ical ser_vfreebusy (default_of SFreebusy) = Ok out /\ out = lit "BEGIN:VFREEBUSY" ++ [CR; LF] ++ lit "DTSTAMP:19700101T000000" ++ [CR; LF] ++ lit "END:VFREEBUSY" ++ [CR; LF] /\ vfreebusy_of_str out = Err EParser.
Proof. eexists. split; [vm_compute; reflexivity|]. split; vm_compute; reflexivity. Qed.
Theorem C60_vjournal_new : exists out, s_ical ser_vjournal (default_of SJournal) = Ok out /\ out = lit "BEGIN:VJOURNAL" ++ [CR; LF] ++ lit "DTSTAMP:19700101T000000" ++ [CR; LF] ++ lit "DTSTART:19700101T000000" ++ [CR; LF] ++ lit "END:VJOURNAL" ++ [CR; LF] /\ vjournal_of_str out = Err EParser.
Proof. eexists. split; [vm_compute; reflexivity|]. split; vm_compute; reflexivity. Qed.
Theorem C60_vtodo_new : exists out, s_ical ser_vtodo (default_of STodo) = Ok out /\ out = lit "BEGIN:VTODO" ++ [CR; LF] ++ lit "DTSTAMP:19700101T000000" ++ [CR; LF] ++ lit "END:VTODO" ++ [CR; LF] /\ vtodo_of_str out = Err EParser.
Proof. eexists. split; [vm_compute; reflexivity|]. split; vm_compute; reflexivity. Qed.
Theorem C60_vtimezone_new : exists out, s_ical ser_vtimezone (default_of STimezone) = Ok out /\ out = lit "BEGIN:VTIMEZONE" ++ [CR; LF] ++ lit "END:VTIMEZONE" ++ [CR; LF] /\ vtimezone_of_str out = Err EParser.
Proof. eexists. split; [vm_compute; reflexivity|]. split; vm_compute; reflexivity. Qed.
Theorem C60_vcalendar_new : exists out, s_ical ser_vcalendar (default_of SCalendar) = Ok out /\ out = lit "BEGIN:VCALENDAR" ++ [CR; LF] ++ lit "END:VCALENDAR" ++ [CR; LF] /\ vcalendar_of_str out = Err EParser.
Proof. eexists. split; [vm_compute; reflexivity|]. split; vm_compute; reflexivity. Qed.

(** ** C61: alarms *)
(** [VAlarm::from]: the kind of the content, the action that names it, the other fields as given. *)
Definition kind_name (k : alarm_kind) : str := match k with KAudio => lit "AUDIO" | KDisplay => lit "DISPLAY" | KEmail => lit "EMAIL" end.
Definition alarm_of_kind (k : alarm_kind) (a : valarm) : Prop :=
  match k, a with KAudio, AAudio _ | KDisplay, ADisplay _ | KEmail, AEmail _ => True | _, _ => False end.
(** The fields of the content of an alarm, by name. *)
Definition alarm_field (a : valarm) (f : str) : option typed :=
  match a with AAudio x => field SAudio x f | ADisplay x => field SDisplay x f | AEmail x => field SEmail x f end.
Definition named (k : alarm_kind) (a : valarm) : Prop :=
  alarm_of_kind k a /\ alarm_field a (lit "action") = Some (existT den TText (mk_text [] (kind_name k))).
Theorem C61_from_audio : forall x, named KAudio (valarm_of_audio x) /\ (forall f, f <> lit "action" -> alarm_field (valarm_of_audio x) f = field SAudio x f).
Proof. intros x. split; [split; [exact I|reflexivity]|]. intros f N. refine (proj2 (field_put SAudio (lit "action") TText _ x _ (or_introl eq_refl) _) f N). reflexivity. Qed.
Theorem C61_from_display : forall x, named KDisplay (valarm_of_display x) /\ (forall f, f <> lit "action" -> alarm_field (valarm_of_display x) f = field SDisplay x f).
Proof. intros x. split; [split; [exact I|reflexivity]|]. intros f N. refine (proj2 (field_put SDisplay (lit "action") TText _ x _ (or_introl eq_refl) _) f N). reflexivity. Qed.
Theorem C61_from_email : forall x, named KEmail (valarm_of_email x) /\ (forall f, f <> lit "action" -> alarm_field (valarm_of_email x) f = field SEmail x f).
Proof. intros x. split; [split; [exact I|reflexivity]|]. intros f N. refine (proj2 (field_put SEmail (lit "action") TText _ x _ (or_introl eq_refl) _) f N). reflexivity. Qed.
(** [valarm! { @kind, ... }]: an alarm of this kind, with the action that names it even when the entries give another one; the other
    fields are those of the entries, or defaults. *)
Definition kind_struct (k : alarm_kind) : strct := match k with KAudio => SAudio | KDisplay => SDisplay | KEmail => SEmail end.
Theorem C61_valarm_macro : forall scope k l a, valarm_macro scope k l = Some (Ok a) ->
  named k a /\ exists r, macro_value scope (kind_struct k) l = Some (Ok r) /\ (forall f, f <> lit "action" -> alarm_field a f = field (kind_struct k) r f).
Proof.
  intros scope [| |] l a; cbn [valarm_macro kind_struct].
  - destruct (macro_value scope SAudio l) as [[r|e|]|]; try discriminate. cbn. intros H. injection H as <-. destruct (C61_from_audio r). eauto.
  - destruct (macro_value scope SDisplay l) as [[r|e|]|]; try discriminate. cbn. intros H. injection H as <-. destruct (C61_from_display r). eauto.
  - destruct (macro_value scope SEmail l) as [[r|e|]|]; try discriminate. cbn. intros H. injection H as <-. destruct (C61_from_email r). eauto.
Qed.
(** It is the action that decides of the kind of the alarm read back, whatever the kind of the alarm written. *)
Definition action_of (a : valarm) : text := match a with AAudio x => au_action x | ADisplay x => di_action x | AEmail x => em_action x end.
Lemma action_line a : t_text (action_of a) <> [] -> exists rest, valarm_written a = mk_cl (lit "ACTION") (t_params (action_of a)) (text_shown (action_of a)) :: rest.
Proof.
  assert (N : forall t, t_text t <> [] -> text_shown t <> []).
  { intros t H C. apply H. unfold text_shown in C. destruct (t_text t) as [|c r]; [reflexivity|]. exfalso.
    unfold escaped in C. cbn [flat_map] in C. unfold escaped_char in C. destruct (c =? 59), (c =? 44), (c =? LF); discriminate C. }
  intros H. destruct a as [x|x|x]; cbn [action_of valarm_written] in *; unfold audio_written, display_written, email_written, text_line at 1;
  rewrite line_nonempty by (apply N; exact H); eexists; reflexivity.
Qed.
Theorem C61_action_decides : forall a out w, valarm_tidy a -> t_text (action_of a) <> [] -> s_ical ser_valarm a = Ok out -> valarm_of_str out = Ok w ->
  exists k, alarm_of_kind k w /\ escaped (t_text (action_of a)) = kind_name k.
Proof.
  intros a out w T N H R. apply (C53_valarm_read_back a out w T H) in R. destruct R as (l & F & R).
  destruct (action_line a N) as [rest W]. rewrite W in F. destruct F as (pre & post & F1 & F2 & F3).
  assert (L : cl_value l = escaped (t_text (action_of a))).
  { destruct pre as [|p pre]; [injection F1 as <- _; reflexivity|]. exfalso. injection F1 as <- _. apply Forall_inv in F3. apply F3. reflexivity. }
  rewrite <- L. destruct w as [y|y|y]; destruct R as [R _]; [exists KAudio|exists KDisplay|exists KEmail]; split; auto; exact I.
Qed.
(** An alarm made by [VAlarm::from] or the macro reads back with its kind. *)
Theorem C61_reads_same_kind : forall k a out w, named k a -> valarm_tidy a -> s_ical ser_valarm a = Ok out -> valarm_of_str out = Ok w -> alarm_of_kind k w.
Proof.
  intros k a out w [K A] T H R.
  assert (X : t_text (action_of a) = kind_name k).
  { assert (A' : alarm_field a (lit "action") = Some (existT den TText (action_of a))) by (destruct a; reflexivity).
    rewrite A' in A. apply (f_equal (fun o => match o with Some x => cast x TText | None => None end)) in A. rewrite !cast_same in A. injection A as A. rewrite A. reflexivity. }
  destruct (C61_action_decides a out w T) as (k' & K1 & K2); [rewrite X; destruct k; discriminate|exact H|exact R|].
  rewrite X in K2. destruct k, k'; try exact K1; vm_compute in K2; discriminate K2.
Qed.
End Env.
