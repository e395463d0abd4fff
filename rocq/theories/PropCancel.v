(** * C96, from the file: an EXDATE line written into an event of a calendar file *)
From Verif Require Import Base Env Chrono Types Ser Parser Derive Components Iter BaseFacts SpecText SpecLine SpecComp SpecFields SpecFile SpecAppend SpecPieces PropPieces SpecEdit PropEdit SpecIter SpecKinds PropKinds SpecFinite SpecWhole PropWhole.
Section Env.
Context {E : Env}.
Lemma last_exdate l v ts : cl_key l = lit "EXDATE" -> parse_exdate l = Ok ts -> vevent_last l v (event_excluding v (ev_exdate v ++ ts)).
Proof.
  intros K P. unfold vevent_last. cbn [event_excluding ev_dtstamp ev_uid ev_dtstart ev_class ev_created ev_description ev_geo ev_last_modified ev_location ev_organizer ev_priority ev_sequence ev_status ev_summary ev_transp ev_url ev_recurid ev_rrule ev_dtend ev_duration ev_attach ev_attendee ev_categories ev_comment ev_contact ev_exdate ev_rstatus ev_related_to ev_resources ev_rdate ev_alarms ev_x_prop ev_iana_prop].
  assert (N : forall n, str_eqb n (lit "EXDATE") = false -> cl_key l <> n) by (intros n Hn Q; rewrite Q in K; subst n; vm_compute in Hn; discriminate).
  repeat match goal with |- last_required _ ?n _ _ _ /\ _ => split; [pose proof (N n ltac:(vm_compute; reflexivity)) as Q; split; [intros C; exfalso; exact (Q C)|intros _; reflexivity]|]
    | |- last_optional _ ?n _ _ _ /\ _ => split; [pose proof (N n ltac:(vm_compute; reflexivity)) as Q; split; [intros C; exfalso; exact (Q C)|intros _; reflexivity]|]
    | |- last_repeated _ ?n _ _ _ /\ _ => split; [pose proof (N n ltac:(vm_compute; reflexivity)) as Q; split; [intros C; exfalso; exact (Q C)|intros _; reflexivity]|]
    | |- last_appended _ (lit "EXDATE") _ _ _ /\ _ => split; [split; [intros _; exists ts; auto|intros C; contradiction]|]
    | |- last_appended _ ?n _ _ _ /\ _ => split; [pose proof (N n ltac:(vm_compute; reflexivity)) as Q; split; [intros C; exfalso; exact (Q C)|intros _; reflexivity]|]
    | |- ev_alarms _ = _ /\ _ => split; [reflexivity|] end.
  right. right. split; [|split; reflexivity]. rewrite K. unfold vevent_names. cbn [In]. tauto.
Qed.
(** An EXDATE line written after the other lines of the [i]th event of a calendar file: the new file is
    read as the same calendar, in which that event, and nothing else, has those exclusions added at the end of its list. *)
Theorem C96_exdate_line : forall s v i e, vcalendar_of_str s = Ok v -> ~ In QUOTE s -> nth_error (ca_events v) i = Some e ->
  exists before head outs fin after ls,
    s = before ++ head ++ concat outs ++ fin ++ after /\ unfold_lines head = lit "BEGIN:VEVENT" ++ CRLF /\ Forall2 line_exact outs ls /\
    (forall o l ts, line_exact o l -> cl_key l = lit "EXDATE" -> parse_exdate l = Ok ts ->
       exists e', vcalendar_of_str (before ++ head ++ concat outs ++ o ++ fin ++ after) = Ok (set_ca_events v (firstn i (ca_events v) ++ e' :: skipn (S i) (ca_events v))) /\
         more_excluded (k := an_event) e e' ts /\ e' = event_excluding e (ev_exdate e ++ ts)).
Proof.
  intros s v i e H Q N. destruct (C95_event_in_calendar s v i e H Q N) as (before & head & outs & fin & after & ls & Hs & Uh & P & GL & _ & _).
  exists before, head, outs, fin, after, ls. split; [exact Hs|]. split; [exact Uh|]. split; [exact P|]. intros o l ts Hl K Pt. exists (event_excluding e (ev_exdate e ++ ts)).
  split; [apply (GL o l); auto; now apply last_exdate|]. split; [repeat split|reflexivity].
Qed.
End Env.
