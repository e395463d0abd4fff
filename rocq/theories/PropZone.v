(** * C69: the time zone of the process *)
From Verif Require Import Base Env Chrono Nom Types Ser Parser Derive Components Iter BaseFacts NomFacts SpecInput SpecZone SpecIter PropDate.

(** ** Reading *)
(** A schema without its serialisers. *)
Definition mute {T} : serialize T := mk_ser None (fun _ => None) (fun _ => Panic).
Definition strip (f : field) : field :=
  match f with FReq _ p => FReq mute p | FOpt _ p => FOpt mute p | FVec _ p => FVec mute p | FApp _ p => FApp mute p | @FIgn T _ => @FIgn T mute end.
Definition strip_schema (s : schema) : schema := map (fun x => (fst x, strip (snd x))) s.
Definition unstrip1 (f : field) : fty (strip f) -> fty f :=
  match f return fty (strip f) -> fty f with FReq _ _ | FOpt _ _ | FVec _ _ | FApp _ _ | FIgn _ => fun x => x end.
Fixpoint unstrip (s : schema) : fields (strip_schema s) -> fields s :=
  match s return fields (strip_schema s) -> fields s with
  | [] => fun _ => tt
  | (n, f) :: r => fun vs => (unstrip1 f (fst vs), unstrip r (snd vs))
  end.
Definition uncomp (s : schema) (c : comp (strip_schema s)) : comp s := mk_comp (unstrip s (c_fields c)) (c_xprop c) (c_iana c).
Lemma strip_new s ls : new_fields s ls = omap (unstrip s) (new_fields (strip_schema s) ls).
Proof.
  induction s as [|[n f] r IH]; [reflexivity|]. cbn [new_fields strip_schema map fst snd unstrip]. rewrite IH. fold (strip_schema r).
  assert (G : f_new n f ls = omap (unstrip1 f) (f_new n (strip f) ls)) by (destruct f; cbn; auto; destruct (last_opt _); auto; destruct (p _); auto).
  rewrite G. destruct (f_new n (strip f) ls); cbn; auto. destruct (new_fields (strip_schema r) ls); reflexivity.
Qed.
Lemma strip_step s l vs : step_fields s l (unstrip s vs) = option_map (omap (unstrip s)) (step_fields (strip_schema s) l vs).
Proof.
  induction s as [|[n f] r IH]; [reflexivity|]. destruct vs as [v vs]. cbn [step_fields strip_schema map fst snd unstrip]. fold (strip_schema r).
  assert (H : has_arm (strip f) = has_arm f) by now destruct f. rewrite H. destruct (_ && _).
  - cbn [option_map]. f_equal. assert (G : f_step f l (unstrip1 f v) = omap (unstrip1 f) (f_step (strip f) l v)) by (destruct f; cbn; auto; destruct (p l); auto).
    rewrite G. destruct (f_step (strip f) l v); reflexivity.
  - rewrite IH. destruct (step_fields (strip_schema r) l vs) as [[?|?|]|]; reflexivity.
Qed.
Lemma strip_lines s ls c : step_lines (uncomp s c) ls = omap (uncomp s) (step_lines c ls).
Proof.
  revert c. induction ls as [|l ls IH]; intros c; [reflexivity|]. cbn [step_lines].
  assert (G : step_line (uncomp s c) l = omap (uncomp s) (step_line c l)).
  { unfold step_line. cbn [uncomp c_fields c_xprop c_iana]. rewrite strip_step. destruct (step_fields (strip_schema s) l (c_fields c)) as [o|]; cbn [option_map].
    - destruct o; reflexivity.
    - destruct (starts_with _ _); reflexivity. }
  rewrite G. destruct (step_line c l) as [c'|e|]; cbn [omap obind]; auto.
Qed.
Lemma strip_of_lines s ls : comp_of_lines s ls = omap (uncomp s) (comp_of_lines (strip_schema s) ls).
Proof.
  unfold comp_of_lines. rewrite strip_new. destruct (new_fields (strip_schema s) ls) as [vs|e|]; cbn [omap obind]; auto.
  exact (strip_lines s ls (mk_comp vs [] [])).
Qed.
Lemma many_ext {A} (p q : parser A) : (forall s, p s = q s) -> forall s, many0 p s = many0 q s.
Proof. exact (many0_ext p q). Qed.
Lemma bind_ext {A B} (p q : parser A) (f g : A -> parser B) : (forall s, p s = q s) -> (forall a s, f a s = g a s) -> forall s, pbind p f s = pbind q g s.
Proof. intros H G s. unfold pbind. rewrite H. destruct (q s); auto. Qed.
Lemma alt_ext {A} (p q p' q' : parser A) : (forall s, p s = p' s) -> (forall s, q s = q' s) -> forall s, palt p q s = palt p' q' s.
Proof. intros H G s. unfold palt. rewrite H. destruct (p' s); auto. Qed.
Lemma res_ext {A B} (p q : parser A) (f g : A -> outcome B) : (forall s, p s = q s) -> (forall a, f a = g a) -> forall s, pmap_res p f s = pmap_res q g s.
Proof. intros H G s. unfold pmap_res, pbind. rewrite H. destruct (q s); auto. now rewrite G. Qed.
Lemma delimited_ext {A B C} (p : parser A) (q q' : parser B) (r : parser C) : (forall s, q s = q' s) -> forall s, delimited p q r s = delimited p q' r s.
Proof. intros H s. unfold delimited, pbind. destruct (p s); auto. rewrite H. reflexivity. Qed.
Lemma omap_omap {A B C} (f : B -> C) (g : A -> B) o : omap f (omap g o) = omap (fun x => f (g x)) o.
Proof. now destruct o. Qed.
Lemma omap_same {A B} (f g : A -> B) o : (forall x, f x = g x) -> omap f o = omap g o.
Proof. intros H. destruct o; cbn; auto. now rewrite H. Qed.
Section Bare.
Context {E : Env}.
Definition audio_bare : schema := [
  (lit "ACTION", FReq mute parse_text);
  (lit "TRIGGER", FReq mute parse_trigger);
  (lit "DURATION", FOpt mute parse_dur);
  (lit "REPEAT", FOpt mute parse_u32);
  (lit "ATTACH", FVec mute parse_text)].
Definition audio_of_bare (c : comp audio_bare) : audio :=
  match c with mk_comp vs x i =>
    match vs with (x0, (x1, (x2, (x3, (x4, _))))) =>
    mk_audio x0 x1 x2 x3 x4 x i
    end
  end.
Lemma audio_by_bare ls : audio_of_lines ls = omap audio_of_bare (comp_of_lines audio_bare ls).
Proof.
  unfold audio_of_lines. rewrite strip_of_lines, omap_omap.
  change (strip_schema audio_schema) with audio_bare. apply omap_same. intros [vs x i]. cbn [fields audio_bare fty] in vs.
  repeat match goal with v : (_ * _)%type |- _ => destruct v | v : unit |- _ => destruct v end. reflexivity.
Qed.
Definition display_bare : schema := [
  (lit "ACTION", FReq mute parse_text);
  (lit "TRIGGER", FReq mute parse_trigger);
  (lit "DESCRIPTION", FReq mute parse_text);
  (lit "DURATION", FOpt mute parse_dur);
  (lit "REPEAT", FOpt mute parse_u32)].
Definition display_of_bare (c : comp display_bare) : display :=
  match c with mk_comp vs x i =>
    match vs with (x0, (x1, (x2, (x3, (x4, _))))) =>
    mk_display x0 x1 x2 x3 x4 x i
    end
  end.
Lemma display_by_bare ls : display_of_lines ls = omap display_of_bare (comp_of_lines display_bare ls).
Proof.
  unfold display_of_lines. rewrite strip_of_lines, omap_omap.
  change (strip_schema display_schema) with display_bare. apply omap_same. intros [vs x i]. cbn [fields display_bare fty] in vs.
  repeat match goal with v : (_ * _)%type |- _ => destruct v | v : unit |- _ => destruct v end. reflexivity.
Qed.
Definition email_bare : schema := [
  (lit "ACTION", FReq mute parse_text);
  (lit "TRIGGER", FReq mute parse_trigger);
  (lit "DESCRIPTION", FReq mute parse_text);
  (lit "SUMMARY", FReq mute parse_text);
  (lit "ATTENDEE", FVec mute parse_uri);
  (lit "DURATION", FOpt mute parse_dur);
  (lit "REPEAT", FOpt mute parse_u32);
  (lit "ATTACH", FVec mute parse_text)].
Definition email_of_bare (c : comp email_bare) : email :=
  match c with mk_comp vs x i =>
    match vs with (x0, (x1, (x2, (x3, (x4, (x5, (x6, (x7, _)))))))) =>
    mk_email x0 x1 x2 x3 x4 x5 x6 x7 x i
    end
  end.
Lemma email_by_bare ls : email_of_lines ls = omap email_of_bare (comp_of_lines email_bare ls).
Proof.
  unfold email_of_lines. rewrite strip_of_lines, omap_omap.
  change (strip_schema email_schema) with email_bare. apply omap_same. intros [vs x i]. cbn [fields email_bare fty] in vs.
  repeat match goal with v : (_ * _)%type |- _ => destruct v | v : unit |- _ => destruct v end. reflexivity.
Qed.
Definition vevent_bare : schema := [
  (lit "DTSTAMP", FReq mute parse_datetime);
  (lit "UID", FReq mute parse_text);
  (lit "DTSTART", FReq mute parse_date);
  (lit "CLASS", FOpt mute parse_class);
  (lit "CREATED", FOpt mute parse_datetime);
  (lit "DESCRIPTION", FOpt mute parse_text);
  (lit "GEO", FOpt mute parse_geo);
  (lit "LAST-MODIFIED", FOpt mute parse_datetime);
  (lit "LOCATION", FOpt mute parse_text);
  (lit "ORGANIZER", FOpt mute parse_uri);
  (lit "PRIORITY", FOpt mute parse_priority);
  (lit "SEQUENCE", FOpt mute parse_u32);
  (lit "STATUS", FOpt mute parse_status);
  (lit "SUMMARY", FOpt mute parse_text);
  (lit "TRANSP", FOpt mute parse_transp);
  (lit "URL", FOpt mute parse_uri);
  (lit "RECURID", FOpt mute parse_date);
  (lit "RRULE", FOpt mute parse_rrule);
  (lit "DTEND", FOpt mute parse_date);
  (lit "DURATION", FOpt mute parse_dur);
  (lit "ATTACH", FVec mute parse_text);
  (lit "ATTENDEE", FVec mute parse_uri);
  (lit "CATEGORIES", FApp mute parse_texts);
  (lit "COMMENT", FVec mute parse_text);
  (lit "CONTACT", FVec mute parse_text);
  (lit "EXDATE", FApp mute parse_exdate);
  (lit "RSTATUS", FVec mute parse_rstatus);
  (lit "RELATED-TO", FVec mute parse_text);
  (lit "RESOURCES", FApp mute parse_texts);
  (lit "RDATE", FVec mute parse_rdate);
  (lit "ALARMS", @FIgn valarm mute)].
Definition vevent_of_bare (c : comp vevent_bare) : vevent :=
  match c with mk_comp vs x i =>
    match vs with (x0, (x1, (x2, (x3, (x4, (x5, (x6, (x7, (x8, (x9, (x10, (x11, (x12, (x13, (x14, (x15, (x16, (x17, (x18, (x19, (x20, (x21, (x22, (x23, (x24, (x25, (x26, (x27, (x28, (x29, (x30, _))))))))))))))))))))))))))))))) =>
    mk_vevent x0 x1 x2 x3 x4 x5 x6 x7 x8 x9 x10 x11 x12 x13 x14 x15 x16 x17 x18 x19 x20 x21 x22 x23 x24 x25 x26 x27 x28 x29 x30 x i
    end
  end.
Lemma vevent_by_bare ls : vevent_of_lines ls = omap vevent_of_bare (comp_of_lines vevent_bare ls).
Proof.
  unfold vevent_of_lines. rewrite strip_of_lines, omap_omap.
  change (strip_schema vevent_schema) with vevent_bare. apply omap_same. intros [vs x i]. cbn [fields vevent_bare fty] in vs.
  repeat match goal with v : (_ * _)%type |- _ => destruct v | v : unit |- _ => destruct v end. reflexivity.
Qed.
Definition vfreebusy_bare : schema := [
  (lit "DTSTAMP", FReq mute parse_datetime);
  (lit "UID", FReq mute parse_text);
  (lit "CONTACT", FOpt mute parse_text);
  (lit "DTSTART", FOpt mute parse_date);
  (lit "DTEND", FOpt mute parse_date);
  (lit "ORGANIZER", FOpt mute parse_uri);
  (lit "URL", FOpt mute parse_uri);
  (lit "ATTENDEE", FVec mute parse_uri);
  (lit "COMMENT", FVec mute parse_text);
  (lit "FREEBUSY", FApp mute parse_freebusy);
  (lit "RSTATUS", FVec mute parse_rstatus)].
Definition vfreebusy_of_bare (c : comp vfreebusy_bare) : vfreebusy :=
  match c with mk_comp vs x i =>
    match vs with (x0, (x1, (x2, (x3, (x4, (x5, (x6, (x7, (x8, (x9, (x10, _))))))))))) =>
    mk_vfreebusy x0 x1 x2 x3 x4 x5 x6 x7 x8 x9 x10 x i
    end
  end.
Lemma vfreebusy_by_bare ls : vfreebusy_of_lines ls = omap vfreebusy_of_bare (comp_of_lines vfreebusy_bare ls).
Proof.
  unfold vfreebusy_of_lines. rewrite strip_of_lines, omap_omap.
  change (strip_schema vfreebusy_schema) with vfreebusy_bare. apply omap_same. intros [vs x i]. cbn [fields vfreebusy_bare fty] in vs.
  repeat match goal with v : (_ * _)%type |- _ => destruct v | v : unit |- _ => destruct v end. reflexivity.
Qed.
Definition vjournal_bare : schema := [
  (lit "DTSTAMP", FReq mute parse_datetime);
  (lit "UID", FReq mute parse_text);
  (lit "CLASS", FOpt mute parse_class);
  (lit "CREATED", FOpt mute parse_datetime);
  (lit "DTSTART", FReq mute parse_date);
  (lit "LAST-MODIFIED", FOpt mute parse_datetime);
  (lit "ORGANIZER", FOpt mute parse_uri);
  (lit "RECURID", FOpt mute parse_date);
  (lit "SEQUENCE", FOpt mute parse_u32);
  (lit "STATUS", FOpt mute parse_status);
  (lit "SUMMARY", FOpt mute parse_text);
  (lit "URL", FOpt mute parse_uri);
  (lit "RRULE", FOpt mute parse_rrule);
  (lit "ATTACH", FVec mute parse_text);
  (lit "ATTENDEE", FVec mute parse_uri);
  (lit "CATEGORIES", FApp mute parse_texts);
  (lit "COMMENT", FVec mute parse_text);
  (lit "CONTACT", FVec mute parse_text);
  (lit "DESCRIPTION", FVec mute parse_text);
  (lit "EXDATE", FApp mute parse_exdate);
  (lit "RELATED-TO", FVec mute parse_text);
  (lit "RDATE", FVec mute parse_rdate);
  (lit "RSTATUS", FVec mute parse_rstatus)].
Definition vjournal_of_bare (c : comp vjournal_bare) : vjournal :=
  match c with mk_comp vs x i =>
    match vs with (x0, (x1, (x2, (x3, (x4, (x5, (x6, (x7, (x8, (x9, (x10, (x11, (x12, (x13, (x14, (x15, (x16, (x17, (x18, (x19, (x20, (x21, (x22, _))))))))))))))))))))))) =>
    mk_vjournal x0 x1 x2 x3 x4 x5 x6 x7 x8 x9 x10 x11 x12 x13 x14 x15 x16 x17 x18 x19 x20 x21 x22 x i
    end
  end.
Lemma vjournal_by_bare ls : vjournal_of_lines ls = omap vjournal_of_bare (comp_of_lines vjournal_bare ls).
Proof.
  unfold vjournal_of_lines. rewrite strip_of_lines, omap_omap.
  change (strip_schema vjournal_schema) with vjournal_bare. apply omap_same. intros [vs x i]. cbn [fields vjournal_bare fty] in vs.
  repeat match goal with v : (_ * _)%type |- _ => destruct v | v : unit |- _ => destruct v end. reflexivity.
Qed.
Definition vtodo_bare : schema := [
  (lit "DTSTAMP", FReq mute parse_datetime);
  (lit "UID", FReq mute parse_text);
  (lit "CLASS", FOpt mute parse_class);
  (lit "COMPLETED", FOpt mute parse_datetime);
  (lit "CREATED", FOpt mute parse_datetime);
  (lit "DTSTART", FOpt mute parse_date);
  (lit "GEO", FOpt mute parse_geo);
  (lit "LAST-MODIFIED", FOpt mute parse_datetime);
  (lit "LOCATION", FOpt mute parse_text);
  (lit "ORGANIZER", FOpt mute parse_uri);
  (lit "PERCENT-COMPLETE", FOpt mute parse_percent);
  (lit "PRIORITY", FOpt mute parse_priority);
  (lit "RECURID", FOpt mute parse_date);
  (lit "SEQUENCE", FOpt mute parse_u32);
  (lit "STATUS", FOpt mute parse_status);
  (lit "SUMMARY", FOpt mute parse_text);
  (lit "URL", FOpt mute parse_uri);
  (lit "RRULE", FOpt mute parse_rrule);
  (lit "DUE", FOpt mute parse_date);
  (lit "DURATION", FOpt mute parse_dur);
  (lit "ATTACH", FVec mute parse_text);
  (lit "ATTENDEE", FVec mute parse_uri);
  (lit "CATEGORIES", FApp mute parse_texts);
  (lit "COMMENT", FVec mute parse_text);
  (lit "CONTACT", FVec mute parse_text);
  (lit "EXDATE", FApp mute parse_exdate);
  (lit "RSTATUS", FVec mute parse_rstatus);
  (lit "RELATED-TO", FVec mute parse_text);
  (lit "RESOURCES", FApp mute parse_texts);
  (lit "RDATE", FVec mute parse_rdate)].
Definition vtodo_of_bare (c : comp vtodo_bare) : vtodo :=
  match c with mk_comp vs x i =>
    match vs with (x0, (x1, (x2, (x3, (x4, (x5, (x6, (x7, (x8, (x9, (x10, (x11, (x12, (x13, (x14, (x15, (x16, (x17, (x18, (x19, (x20, (x21, (x22, (x23, (x24, (x25, (x26, (x27, (x28, (x29, _)))))))))))))))))))))))))))))) =>
    mk_vtodo x0 x1 x2 x3 x4 x5 x6 x7 x8 x9 x10 x11 x12 x13 x14 x15 x16 x17 x18 x19 x20 x21 x22 x23 x24 x25 x26 x27 x28 x29 x i
    end
  end.
Lemma vtodo_by_bare ls : vtodo_of_lines ls = omap vtodo_of_bare (comp_of_lines vtodo_bare ls).
Proof.
  unfold vtodo_of_lines. rewrite strip_of_lines, omap_omap.
  change (strip_schema vtodo_schema) with vtodo_bare. apply omap_same. intros [vs x i]. cbn [fields vtodo_bare fty] in vs.
  repeat match goal with v : (_ * _)%type |- _ => destruct v | v : unit |- _ => destruct v end. reflexivity.
Qed.
Definition standard_bare : schema := [
  (lit "DTSTART", FReq mute parse_date);
  (lit "TZOFFSETTO", FReq mute parse_offset);
  (lit "TZOFFSETFROM", FReq mute parse_offset);
  (lit "RRULE", FOpt mute parse_rrule);
  (lit "COMMENT", FVec mute parse_text);
  (lit "RDATE", FVec mute parse_rdate);
  (lit "TZNAME", FVec mute parse_text)].
Definition standard_of_bare (c : comp standard_bare) : standard :=
  match c with mk_comp vs x i =>
    match vs with (x0, (x1, (x2, (x3, (x4, (x5, (x6, _))))))) =>
    mk_standard x0 x1 x2 x3 x4 x5 x6 x i
    end
  end.
Lemma standard_by_bare ls : standard_of_lines ls = omap standard_of_bare (comp_of_lines standard_bare ls).
Proof.
  unfold standard_of_lines. rewrite strip_of_lines, omap_omap.
  change (strip_schema standard_schema) with standard_bare. apply omap_same. intros [vs x i]. cbn [fields standard_bare fty] in vs.
  repeat match goal with v : (_ * _)%type |- _ => destruct v | v : unit |- _ => destruct v end. reflexivity.
Qed.
Definition daylight_bare : schema := [
  (lit "DTSTART", FReq mute parse_date);
  (lit "TZOFFSETTO", FReq mute parse_offset);
  (lit "TZOFFSETFROM", FReq mute parse_offset);
  (lit "RRULE", FOpt mute parse_rrule);
  (lit "COMMENT", FVec mute parse_text);
  (lit "RDATE", FVec mute parse_rdate);
  (lit "TZNAME", FVec mute parse_text)].
Definition daylight_of_bare (c : comp daylight_bare) : daylight :=
  match c with mk_comp vs x i =>
    match vs with (x0, (x1, (x2, (x3, (x4, (x5, (x6, _))))))) =>
    mk_daylight x0 x1 x2 x3 x4 x5 x6 x i
    end
  end.
Lemma daylight_by_bare ls : daylight_of_lines ls = omap daylight_of_bare (comp_of_lines daylight_bare ls).
Proof.
  unfold daylight_of_lines. rewrite strip_of_lines, omap_omap.
  change (strip_schema daylight_schema) with daylight_bare. apply omap_same. intros [vs x i]. cbn [fields daylight_bare fty] in vs.
  repeat match goal with v : (_ * _)%type |- _ => destruct v | v : unit |- _ => destruct v end. reflexivity.
Qed.
Definition vtimezone_bare : schema := [
  (lit "TZID", FReq mute parse_text);
  (lit "LAST-MODIFIED", FOpt mute parse_datetime);
  (lit "TZURL", FOpt mute parse_uri);
  (lit "STANDARD", @FIgn standard mute);
  (lit "DAYLIGHT", @FIgn daylight mute)].
Definition vtimezone_of_bare (c : comp vtimezone_bare) : vtimezone :=
  match c with mk_comp vs x i =>
    match vs with (x0, (x1, (x2, (x3, (x4, _))))) =>
    mk_vtimezone x0 x1 x2 x3 x4 x i
    end
  end.
Lemma vtimezone_by_bare ls : vtimezone_of_lines ls = omap vtimezone_of_bare (comp_of_lines vtimezone_bare ls).
Proof.
  unfold vtimezone_of_lines. rewrite strip_of_lines, omap_omap.
  change (strip_schema vtimezone_schema) with vtimezone_bare. apply omap_same. intros [vs x i]. cbn [fields vtimezone_bare fty] in vs.
  repeat match goal with v : (_ * _)%type |- _ => destruct v | v : unit |- _ => destruct v end. reflexivity.
Qed.
Definition vcalendar_bare : schema := [
  (lit "PRODID", FReq mute parse_text);
  (lit "VERSION", FReq mute parse_text);
  (lit "CALSCALE", FOpt mute parse_text);
  (lit "METHOD", FOpt mute parse_text);
  (lit "ALARMS", @FIgn valarm mute);
  (lit "EVENTS", @FIgn vevent mute);
  (lit "FREEBUSY", @FIgn vfreebusy mute);
  (lit "JOURNALS", @FIgn vjournal mute);
  (lit "TODO", @FIgn vtodo mute);
  (lit "TIMEZONES", @FIgn vtimezone mute)].
Definition vcalendar_of_bare (c : comp vcalendar_bare) : vcalendar :=
  match c with mk_comp vs x i =>
    match vs with (x0, (x1, (x2, (x3, (x4, (x5, (x6, (x7, (x8, (x9, _)))))))))) =>
    mk_vcalendar x0 x1 x2 x3 x4 x5 x6 x7 x8 x9 x i
    end
  end.
Lemma vcalendar_by_bare ls : vcalendar_of_lines ls = omap vcalendar_of_bare (comp_of_lines vcalendar_bare ls).
Proof.
  unfold vcalendar_of_lines. rewrite strip_of_lines, omap_omap.
  change (strip_schema vcalendar_schema) with vcalendar_bare. apply omap_same. intros [vs x i]. cbn [fields vcalendar_bare fty] in vs.
  repeat match goal with v : (_ * _)%type |- _ => destruct v | v : unit |- _ => destruct v end. reflexivity.
Qed.
End Bare.
Section ReadZone.
Context (E : Env) (offset : Z -> Z) (local : Z -> mapped).
Let E' := in_zone E offset local.
Lemma audio_lines_zone ls : @audio_of_lines E' ls = @audio_of_lines E ls.
Proof. rewrite !audio_by_bare. reflexivity. Qed.
Lemma display_lines_zone ls : @display_of_lines E' ls = @display_of_lines E ls.
Proof. rewrite !display_by_bare. reflexivity. Qed.
Lemma email_lines_zone ls : @email_of_lines E' ls = @email_of_lines E ls.
Proof. rewrite !email_by_bare. reflexivity. Qed.
Lemma vevent_lines_zone ls : @vevent_of_lines E' ls = @vevent_of_lines E ls.
Proof. rewrite !vevent_by_bare. reflexivity. Qed.
Lemma vfreebusy_lines_zone ls : @vfreebusy_of_lines E' ls = @vfreebusy_of_lines E ls.
Proof. rewrite !vfreebusy_by_bare. reflexivity. Qed.
Lemma vjournal_lines_zone ls : @vjournal_of_lines E' ls = @vjournal_of_lines E ls.
Proof. rewrite !vjournal_by_bare. reflexivity. Qed.
Lemma vtodo_lines_zone ls : @vtodo_of_lines E' ls = @vtodo_of_lines E ls.
Proof. rewrite !vtodo_by_bare. reflexivity. Qed.
Lemma standard_lines_zone ls : @standard_of_lines E' ls = @standard_of_lines E ls.
Proof. rewrite !standard_by_bare. reflexivity. Qed.
Lemma daylight_lines_zone ls : @daylight_of_lines E' ls = @daylight_of_lines E ls.
Proof. rewrite !daylight_by_bare. reflexivity. Qed.
Lemma vtimezone_lines_zone ls : @vtimezone_of_lines E' ls = @vtimezone_of_lines E ls.
Proof. rewrite !vtimezone_by_bare. reflexivity. Qed.
Lemma vcalendar_lines_zone ls : @vcalendar_of_lines E' ls = @vcalendar_of_lines E ls.
Proof. rewrite !vcalendar_by_bare. reflexivity. Qed.
Lemma component_zone {A} n (f g : list content_line -> outcome A) : (forall ls, f ls = g ls) -> forall s, p_component n f s = p_component n g s.
Proof. intros H. unfold p_component. apply res_ext; auto. Qed.
Lemma alarm_lines_zone ls : @valarm_of_lines E' ls = @valarm_of_lines E ls.
Proof. unfold valarm_of_lines. now rewrite ?audio_lines_zone, ?display_lines_zone, ?email_lines_zone. Qed.
Lemma alarm_zone s : @p_valarm E' s = @p_valarm E s.
Proof. apply component_zone, alarm_lines_zone. Qed.
Lemma event_zone s : @p_vevent E' s = @p_vevent E s.
Proof.
  unfold p_vevent. apply res_ext.
  - apply delimited_ext. apply bind_ext; [reflexivity|]. intros ls. apply bind_ext; [apply many0_ext, alarm_zone|reflexivity].
  - intros [ls al]. now rewrite vevent_lines_zone.
Qed.
Lemma timezone_zone s : @p_vtimezone E' s = @p_vtimezone E s.
Proof.
  unfold p_vtimezone. apply res_ext.
  - apply delimited_ext. apply bind_ext; [reflexivity|]. intros ls. apply bind_ext; [|reflexivity].
    apply many0_ext, alt_ext; (apply bind_ext; [|reflexivity]); apply component_zone; [apply standard_lines_zone|apply daylight_lines_zone].
  - intros [ls al]. now rewrite vtimezone_lines_zone.
Qed.
Lemma any_zone s : @p_any_component E' s = @p_any_component E s.
Proof.
  unfold p_any_component. repeat apply alt_ext; (apply bind_ext; [|reflexivity]); intros.
  - apply alarm_zone.
  - apply event_zone.
  - apply component_zone, vfreebusy_lines_zone.
  - apply component_zone, vjournal_lines_zone.
  - apply timezone_zone.
  - apply component_zone, vtodo_lines_zone.
Qed.
Lemma calendar_zone s : @p_vcalendar E' s = @p_vcalendar E s.
Proof.
  unfold p_vcalendar. apply res_ext.
  - apply delimited_ext. apply bind_ext; [reflexivity|]. intros ls. apply bind_ext; [apply many0_ext, any_zone|reflexivity].
  - intros [ls cs]. now rewrite vcalendar_lines_zone.
Qed.
End ReadZone.
(** Reading a component never looks at the time zone. *)
Theorem C69_reading : forall (E : Env) offset local,
  let E' := in_zone E offset local in
  (forall s, @vcalendar_of_str E' s = @vcalendar_of_str E s) /\ (forall s, @vevent_of_str E' s = @vevent_of_str E s) /\
  (forall s, @vtodo_of_str E' s = @vtodo_of_str E s) /\ (forall s, @vjournal_of_str E' s = @vjournal_of_str E s) /\
  (forall s, @vfreebusy_of_str E' s = @vfreebusy_of_str E s) /\ (forall s, @vtimezone_of_str E' s = @vtimezone_of_str E s) /\
  (forall s, @standard_of_str E' s = @standard_of_str E s) /\ (forall s, @daylight_of_str E' s = @daylight_of_str E s) /\
  (forall s, @valarm_of_str E' s = @valarm_of_str E s).
Proof.
  intros E offset local E'.
  assert (G : forall A (p q : parser A), (forall s, p s = q s) -> forall s, from_str p s = from_str q s) by (intros A p q H s; unfold from_str; now rewrite H).
  repeat match goal with |- _ /\ _ => split end; apply G; intros s.
  - apply calendar_zone.
  - apply event_zone.
  - apply component_zone, vtodo_lines_zone.
  - apply component_zone, vjournal_lines_zone.
  - apply component_zone, vfreebusy_lines_zone.
  - apply timezone_zone.
  - apply component_zone, standard_lines_zone.
  - apply component_zone, daylight_lines_zone.
  - apply alarm_zone.
Qed.

(** ** Writing *)
Definition alike {A} (S1 S2 : serialize A) (P : A -> Prop) : Prop :=
  (s_component S1 = None <-> s_component S2 = None) /\ forall v, P v -> s_attr S1 v = s_attr S2 v /\ s_ical S1 v = s_ical S2 v.
Lemma alike_refl {A} (S1 : serialize A) P : alike S1 S1 P.
Proof. split; [tauto|auto]. Qed.
Lemma collect_ext {A B} (f g : A -> outcome B) l : Forall (fun x => f x = g x) l -> ocollect f l = ocollect g l.
Proof. induction 1 as [|x l H _ IH]; [reflexivity|]. cbn [ocollect]. now rewrite H, IH. Qed.
Section Alike.
  Context {A : Type} (S1 S2 : serialize A) (P : A -> Prop) (H : alike S1 S2 P).
  Lemma alike_opt : alike (ser_opt S1) (ser_opt S2) (floating_opt P).
  Proof. destruct H as [_ G]. split; [reflexivity|]. intros [v|] X; [now apply G|auto]. Qed.
  Lemma alike_vec : alike (ser_vec S1) (ser_vec S2) (Forall P).
  Proof.
    destruct H as [_ G]. split; [reflexivity|]. intros l X. split; [reflexivity|]. cbn. unfold vec_ical. rewrite (collect_ext (s_ical S1) (s_ical S2)); auto.
    eapply Forall_impl; [|exact X]. intros v Hv. now apply G.
  Qed.
  Lemma alike_field n v : P v -> ser_field S1 n v = ser_field S2 n v.
  Proof.
    destruct H as [C G]. intros X. destruct (G v X) as [Q1 Q2]. unfold ser_field. rewrite Q1, Q2. destruct (s_component S1), (s_component S2); auto.
    - destruct C as [_ C]. specialize (C eq_refl). discriminate C.
    - destruct C as [C _]. specialize (C eq_refl). discriminate C.
  Qed.
  Lemma alike_part n v : P v -> ser_part S1 n v = ser_part S2 n v.
  Proof. destruct H as [_ G]. intros X. destruct (G v X) as [_ Q2]. unfold ser_part. now rewrite Q2. Qed.
End Alike.
Lemma alike_vec_field {A} (S1 S2 : serialize A) P n l : alike S1 S2 P -> Forall P l -> vec_field S1 n l = vec_field S2 n l.
Proof.
  intros H X. unfold vec_field. destruct l as [|x [|y l]].
  - eapply alike_field; [eapply alike_vec, H|exact X].
  - eapply alike_field; [exact H|now inversion X].
  - eapply alike_field; [eapply alike_vec, H|exact X].
Qed.
Section Zone.
Context (E : Env) (offset : Z -> Z) (local : Z -> mapped).
Let E' := in_zone E offset local.
Lemma alike_datetime : alike (@ser_datetime E') (@ser_datetime E) floating_dt.
Proof. split; [reflexivity|]. intros [n|u] X; [auto|contradiction]. Qed.
Lemma date_same d : floating_date d -> @date_str E' d = @date_str E d.
Proof. destruct d as [n|[n|u]]; try reflexivity. contradiction. Qed.
Lemma dt_same d : floating_dt d -> @dt_show E' d = @dt_show E d.
Proof. destruct d as [n|u]; try reflexivity. contradiction. Qed.
Lemma period_same p : floating_period p -> @period_show E' p = @period_show E p.
Proof. destruct p as [s e|s d]; cbn [floating_period period_show]; intros X; [destruct X|]; now rewrite ?dt_same. Qed.
Lemma alike_date : alike (@ser_date E') (@ser_date E) floating_date.
Proof. split; [reflexivity|]. intros d X. cbn. split; [now destruct d|]. now rewrite date_same. Qed.
Lemma alike_period : alike (@ser_period E') (@ser_period E) floating_period.
Proof. split; [reflexivity|]. intros d X. cbn. split; auto. now rewrite period_same. Qed.
Lemma map_same {A B} (f g : A -> B) (P : A -> Prop) l : (forall x, P x -> f x = g x) -> Forall P l -> map f l = map g l.
Proof. intros H. induction 1; cbn; [auto|]. f_equal; auto. Qed.
Lemma alike_rdate : alike (@ser_rdate E') (@ser_rdate E) floating_rdate.
Proof.
  split; [reflexivity|]. intros r X. split; [reflexivity|]. cbn [s_ical ser_rdate ser_display]. f_equal. destruct r as [l|l]; unfold rdate_show; cbn [floating_rdate] in X; do 2 f_equal.
  - eapply map_same; [apply date_same|exact X].
  - eapply map_same; [apply period_same|exact X].
Qed.
Lemma alike_trigger : alike (@ser_trigger E') (@ser_trigger E) floating_trigger.
Proof. split; [reflexivity|]. intros [d|d] X; cbn in *; (split; [reflexivity|]); [now rewrite dt_same|reflexivity]. Qed.
Lemma alike_recur : alike (@ser_recur E') (@ser_recur E) floating_rule.
Proof.
  split; [reflexivity|]. intros r X. split; [reflexivity|]. cbn [ser_recur s_ical]. unfold recur_ical.
  rewrite (alike_part _ _ _ (alike_opt _ _ _ alike_date) (lit "UNTIL") (r_until r) X). reflexivity.
Qed.
Lemma alike_geo P : alike (@ser_geo E') (@ser_geo E) P. Proof. apply (alike_refl (@ser_geo E)). Qed.
Lemma alike_rs P : alike (@ser_rs E') (@ser_rs E) P. Proof. apply (alike_refl (@ser_rs E)). Qed.
Lemma alike_class P : alike (@ser_class E') (@ser_class E) P. Proof. apply (alike_refl (@ser_class E)). Qed.
Lemma alike_comp {A} n s s' (to : A -> comp s) (to' : A -> comp s') (P : A -> Prop) :
  (forall v, c_xprop (to v) = c_xprop (to' v) /\ c_iana (to v) = c_iana (to' v)) -> (forall v, P v -> ser_fields s (c_fields (to v)) = ser_fields s' (c_fields (to' v))) ->
  alike (ser_iso n s to) (ser_iso n s' to') P.
Proof.
  intros H F. split; [reflexivity|]. intros v X. split; [reflexivity|]. cbn. unfold comp_ical. destruct (H v) as [-> ->]. now rewrite (F v X).
Qed.
Lemma fields_cons n f r n' f' r' v vs v' vs' : f_ser n f v = f_ser n' f' v' -> ser_fields r vs = ser_fields r' vs' ->
  ser_fields ((n, f) :: r) (v, vs) = ser_fields ((n', f') :: r') (v', vs').
Proof. intros A B. cbn [ser_fields fst snd]. now rewrite A, B. Qed.
Lemma floating_true {A} (l : list A) : Forall (fun _ => True) l.
Proof. apply Forall_forall. auto. Qed.
Lemma alike_audio : alike (@ser_audio E') (@ser_audio E) audio_floating.
Proof.
  unfold ser_audio. apply alike_comp; [intros v; unfold audio_to; cbn [c_xprop c_iana]; auto|]. intros v H. unfold audio_floating in H.
  rename H into H_au_trigger.
  unfold audio_schema, audio_to. cbn [c_fields].
  apply fields_cons; [reflexivity|].
  apply fields_cons; [exact (alike_field _ _ _ alike_trigger _ _ H_au_trigger)|].
  apply fields_cons; [reflexivity|].
  apply fields_cons; [reflexivity|].
  apply fields_cons; [reflexivity|].
  reflexivity.
Qed.
Lemma alike_display : alike (@ser_display_alarm E') (@ser_display_alarm E) display_floating.
Proof.
  unfold ser_display_alarm. apply alike_comp; [intros v; unfold display_to; cbn [c_xprop c_iana]; auto|]. intros v H. unfold display_floating in H.
  rename H into H_di_trigger.
  unfold display_schema, display_to. cbn [c_fields].
  apply fields_cons; [reflexivity|].
  apply fields_cons; [exact (alike_field _ _ _ alike_trigger _ _ H_di_trigger)|].
  apply fields_cons; [reflexivity|].
  apply fields_cons; [reflexivity|].
  apply fields_cons; [reflexivity|].
  reflexivity.
Qed.
Lemma alike_email : alike (@ser_email E') (@ser_email E) email_floating.
Proof.
  unfold ser_email. apply alike_comp; [intros v; unfold email_to; cbn [c_xprop c_iana]; auto|]. intros v H. unfold email_floating in H.
  rename H into H_em_trigger.
  unfold email_schema, email_to. cbn [c_fields].
  apply fields_cons; [reflexivity|].
  apply fields_cons; [exact (alike_field _ _ _ alike_trigger _ _ H_em_trigger)|].
  apply fields_cons; [reflexivity|].
  apply fields_cons; [reflexivity|].
  apply fields_cons; [reflexivity|].
  apply fields_cons; [reflexivity|].
  apply fields_cons; [reflexivity|].
  apply fields_cons; [reflexivity|].
  reflexivity.
Qed.
Lemma alike_valarm : alike (@ser_valarm E') (@ser_valarm E) floating_alarm.
Proof.
  split; [reflexivity|]. intros [a|a|a] X; (split; [reflexivity|]); cbn [s_ical ser_valarm]; unfold valarm_ical; cbn [floating_alarm] in X.
  - destruct alike_audio as [_ G]. now destruct (G a X) as [_ ->].
  - destruct alike_display as [_ G]. now destruct (G a X) as [_ ->].
  - destruct alike_email as [_ G]. now destruct (G a X) as [_ ->].
Qed.
Lemma alike_vevent : alike (@ser_vevent E') (@ser_vevent E) vevent_floating.
Proof.
  unfold ser_vevent. apply alike_comp; [intros v; unfold vevent_to; cbn [c_xprop c_iana]; auto|]. intros v H. unfold vevent_floating in H.
  destruct H as (H_ev_dtstamp & H_ev_dtstart & H_ev_created & H_ev_last_modified & H_ev_recurid & H_ev_rrule & H_ev_dtend & H_ev_exdate & H_ev_rdate & H_ev_alarms).
  unfold vevent_schema, vevent_to. cbn [c_fields].
  apply fields_cons; [exact (alike_field _ _ _ alike_datetime _ _ H_ev_dtstamp)|].
  apply fields_cons; [reflexivity|].
  apply fields_cons; [exact (alike_field _ _ _ alike_date _ _ H_ev_dtstart)|].
  apply fields_cons; [refine (alike_field _ _ _ (alike_opt _ _ _ (alike_class (fun _ => True))) _ _ _); destruct (ev_class v); exact I|].
  apply fields_cons; [exact (alike_field _ _ _ (alike_opt _ _ _ alike_datetime) _ _ H_ev_created)|].
  apply fields_cons; [reflexivity|].
  apply fields_cons; [refine (alike_field _ _ _ (alike_opt _ _ _ (alike_geo (fun _ => True))) _ _ _); destruct (ev_geo v); exact I|].
  apply fields_cons; [exact (alike_field _ _ _ (alike_opt _ _ _ alike_datetime) _ _ H_ev_last_modified)|].
  apply fields_cons; [reflexivity|].
  apply fields_cons; [reflexivity|].
  apply fields_cons; [reflexivity|].
  apply fields_cons; [reflexivity|].
  apply fields_cons; [reflexivity|].
  apply fields_cons; [reflexivity|].
  apply fields_cons; [reflexivity|].
  apply fields_cons; [reflexivity|].
  apply fields_cons; [exact (alike_field _ _ _ (alike_opt _ _ _ alike_date) _ _ H_ev_recurid)|].
  apply fields_cons; [exact (alike_field _ _ _ (alike_opt _ _ _ alike_recur) _ _ H_ev_rrule)|].
  apply fields_cons; [exact (alike_field _ _ _ (alike_opt _ _ _ alike_date) _ _ H_ev_dtend)|].
  apply fields_cons; [reflexivity|].
  apply fields_cons; [reflexivity|].
  apply fields_cons; [reflexivity|].
  apply fields_cons; [reflexivity|].
  apply fields_cons; [reflexivity|].
  apply fields_cons; [reflexivity|].
  apply fields_cons; [exact (alike_vec_field _ _ _ _ _ alike_date H_ev_exdate)|].
  apply fields_cons; [exact (alike_vec_field _ _ (fun _ => True) _ _ (alike_rs _) (floating_true _))|].
  apply fields_cons; [reflexivity|].
  apply fields_cons; [reflexivity|].
  apply fields_cons; [exact (alike_vec_field _ _ _ _ _ alike_rdate H_ev_rdate)|].
  apply fields_cons; [exact (alike_vec_field _ _ _ _ _ alike_valarm H_ev_alarms)|].
  reflexivity.
Qed.
Lemma alike_vfreebusy : alike (@ser_vfreebusy E') (@ser_vfreebusy E) vfreebusy_floating.
Proof.
  unfold ser_vfreebusy. apply alike_comp; [intros v; unfold vfreebusy_to; cbn [c_xprop c_iana]; auto|]. intros v H. unfold vfreebusy_floating in H.
  destruct H as (H_fb_dtstamp & H_fb_dtstart & H_fb_dtend & H_fb_freebusy).
  unfold vfreebusy_schema, vfreebusy_to. cbn [c_fields].
  apply fields_cons; [exact (alike_field _ _ _ alike_datetime _ _ H_fb_dtstamp)|].
  apply fields_cons; [reflexivity|].
  apply fields_cons; [reflexivity|].
  apply fields_cons; [exact (alike_field _ _ _ (alike_opt _ _ _ alike_date) _ _ H_fb_dtstart)|].
  apply fields_cons; [exact (alike_field _ _ _ (alike_opt _ _ _ alike_date) _ _ H_fb_dtend)|].
  apply fields_cons; [reflexivity|].
  apply fields_cons; [reflexivity|].
  apply fields_cons; [reflexivity|].
  apply fields_cons; [reflexivity|].
  apply fields_cons; [exact (alike_vec_field _ _ _ _ _ alike_period H_fb_freebusy)|].
  apply fields_cons; [exact (alike_vec_field _ _ (fun _ => True) _ _ (alike_rs _) (floating_true _))|].
  reflexivity.
Qed.
Lemma alike_vjournal : alike (@ser_vjournal E') (@ser_vjournal E) vjournal_floating.
Proof.
  unfold ser_vjournal. apply alike_comp; [intros v; unfold vjournal_to; cbn [c_xprop c_iana]; auto|]. intros v H. unfold vjournal_floating in H.
  destruct H as (H_jo_dtstamp & H_jo_created & H_jo_dtstart & H_jo_last_modified & H_jo_recurid & H_jo_rrule & H_jo_exdate & H_jo_rdate).
  unfold vjournal_schema, vjournal_to. cbn [c_fields].
  apply fields_cons; [exact (alike_field _ _ _ alike_datetime _ _ H_jo_dtstamp)|].
  apply fields_cons; [reflexivity|].
  apply fields_cons; [refine (alike_field _ _ _ (alike_opt _ _ _ (alike_class (fun _ => True))) _ _ _); destruct (jo_class v); exact I|].
  apply fields_cons; [exact (alike_field _ _ _ (alike_opt _ _ _ alike_datetime) _ _ H_jo_created)|].
  apply fields_cons; [exact (alike_field _ _ _ alike_date _ _ H_jo_dtstart)|].
  apply fields_cons; [exact (alike_field _ _ _ (alike_opt _ _ _ alike_datetime) _ _ H_jo_last_modified)|].
  apply fields_cons; [reflexivity|].
  apply fields_cons; [exact (alike_field _ _ _ (alike_opt _ _ _ alike_date) _ _ H_jo_recurid)|].
  apply fields_cons; [reflexivity|].
  apply fields_cons; [reflexivity|].
  apply fields_cons; [reflexivity|].
  apply fields_cons; [reflexivity|].
  apply fields_cons; [exact (alike_field _ _ _ (alike_opt _ _ _ alike_recur) _ _ H_jo_rrule)|].
  apply fields_cons; [reflexivity|].
  apply fields_cons; [reflexivity|].
  apply fields_cons; [reflexivity|].
  apply fields_cons; [reflexivity|].
  apply fields_cons; [reflexivity|].
  apply fields_cons; [reflexivity|].
  apply fields_cons; [exact (alike_vec_field _ _ _ _ _ alike_date H_jo_exdate)|].
  apply fields_cons; [reflexivity|].
  apply fields_cons; [exact (alike_vec_field _ _ _ _ _ alike_rdate H_jo_rdate)|].
  apply fields_cons; [exact (alike_vec_field _ _ (fun _ => True) _ _ (alike_rs _) (floating_true _))|].
  reflexivity.
Qed.
Lemma alike_vtodo : alike (@ser_vtodo E') (@ser_vtodo E) vtodo_floating.
Proof.
  unfold ser_vtodo. apply alike_comp; [intros v; unfold vtodo_to; cbn [c_xprop c_iana]; auto|]. intros v H. unfold vtodo_floating in H.
  destruct H as (H_to_dtstamp & H_to_completed & H_to_created & H_to_dtstart & H_to_last_modified & H_to_recurid & H_to_rrule & H_to_due & H_to_exdate & H_to_rdate).
  unfold vtodo_schema, vtodo_to. cbn [c_fields].
  apply fields_cons; [exact (alike_field _ _ _ alike_datetime _ _ H_to_dtstamp)|].
  apply fields_cons; [reflexivity|].
  apply fields_cons; [refine (alike_field _ _ _ (alike_opt _ _ _ (alike_class (fun _ => True))) _ _ _); destruct (to_class v); exact I|].
  apply fields_cons; [exact (alike_field _ _ _ (alike_opt _ _ _ alike_datetime) _ _ H_to_completed)|].
  apply fields_cons; [exact (alike_field _ _ _ (alike_opt _ _ _ alike_datetime) _ _ H_to_created)|].
  apply fields_cons; [exact (alike_field _ _ _ (alike_opt _ _ _ alike_date) _ _ H_to_dtstart)|].
  apply fields_cons; [refine (alike_field _ _ _ (alike_opt _ _ _ (alike_geo (fun _ => True))) _ _ _); destruct (to_geo v); exact I|].
  apply fields_cons; [exact (alike_field _ _ _ (alike_opt _ _ _ alike_datetime) _ _ H_to_last_modified)|].
  apply fields_cons; [reflexivity|].
  apply fields_cons; [reflexivity|].
  apply fields_cons; [reflexivity|].
  apply fields_cons; [reflexivity|].
  apply fields_cons; [exact (alike_field _ _ _ (alike_opt _ _ _ alike_date) _ _ H_to_recurid)|].
  apply fields_cons; [reflexivity|].
  apply fields_cons; [reflexivity|].
  apply fields_cons; [reflexivity|].
  apply fields_cons; [reflexivity|].
  apply fields_cons; [exact (alike_field _ _ _ (alike_opt _ _ _ alike_recur) _ _ H_to_rrule)|].
  apply fields_cons; [exact (alike_field _ _ _ (alike_opt _ _ _ alike_date) _ _ H_to_due)|].
  apply fields_cons; [reflexivity|].
  apply fields_cons; [reflexivity|].
  apply fields_cons; [reflexivity|].
  apply fields_cons; [reflexivity|].
  apply fields_cons; [reflexivity|].
  apply fields_cons; [reflexivity|].
  apply fields_cons; [exact (alike_vec_field _ _ _ _ _ alike_date H_to_exdate)|].
  apply fields_cons; [exact (alike_vec_field _ _ (fun _ => True) _ _ (alike_rs _) (floating_true _))|].
  apply fields_cons; [reflexivity|].
  apply fields_cons; [reflexivity|].
  apply fields_cons; [exact (alike_vec_field _ _ _ _ _ alike_rdate H_to_rdate)|].
  reflexivity.
Qed.
Lemma alike_standard : alike (@ser_standard E') (@ser_standard E) standard_floating.
Proof.
  unfold ser_standard. apply alike_comp; [intros v; unfold standard_to; cbn [c_xprop c_iana]; auto|]. intros v H. unfold standard_floating in H.
  destruct H as (H_st_dtstart & H_st_rrule & H_st_rdate).
  unfold standard_schema, standard_to. cbn [c_fields].
  apply fields_cons; [exact (alike_field _ _ _ alike_date _ _ H_st_dtstart)|].
  apply fields_cons; [reflexivity|].
  apply fields_cons; [reflexivity|].
  apply fields_cons; [exact (alike_field _ _ _ (alike_opt _ _ _ alike_recur) _ _ H_st_rrule)|].
  apply fields_cons; [reflexivity|].
  apply fields_cons; [exact (alike_vec_field _ _ _ _ _ alike_rdate H_st_rdate)|].
  apply fields_cons; [reflexivity|].
  reflexivity.
Qed.
Lemma alike_daylight : alike (@ser_daylight E') (@ser_daylight E) daylight_floating.
Proof.
  unfold ser_daylight. apply alike_comp; [intros v; unfold daylight_to; cbn [c_xprop c_iana]; auto|]. intros v H. unfold daylight_floating in H.
  destruct H as (H_dl_dtstart & H_dl_rrule & H_dl_rdate).
  unfold daylight_schema, daylight_to. cbn [c_fields].
  apply fields_cons; [exact (alike_field _ _ _ alike_date _ _ H_dl_dtstart)|].
  apply fields_cons; [reflexivity|].
  apply fields_cons; [reflexivity|].
  apply fields_cons; [exact (alike_field _ _ _ (alike_opt _ _ _ alike_recur) _ _ H_dl_rrule)|].
  apply fields_cons; [reflexivity|].
  apply fields_cons; [exact (alike_vec_field _ _ _ _ _ alike_rdate H_dl_rdate)|].
  apply fields_cons; [reflexivity|].
  reflexivity.
Qed.
Lemma alike_vtimezone : alike (@ser_vtimezone E') (@ser_vtimezone E) vtimezone_floating.
Proof.
  unfold ser_vtimezone. apply alike_comp; [intros v; unfold vtimezone_to; cbn [c_xprop c_iana]; auto|]. intros v H. unfold vtimezone_floating in H.
  destruct H as (H_tz_last_modified & H_tz_standard & H_tz_daylight).
  unfold vtimezone_schema, vtimezone_to. cbn [c_fields].
  apply fields_cons; [reflexivity|].
  apply fields_cons; [exact (alike_field _ _ _ (alike_opt _ _ _ alike_datetime) _ _ H_tz_last_modified)|].
  apply fields_cons; [reflexivity|].
  apply fields_cons; [exact (alike_vec_field _ _ _ _ _ alike_standard H_tz_standard)|].
  apply fields_cons; [exact (alike_vec_field _ _ _ _ _ alike_daylight H_tz_daylight)|].
  reflexivity.
Qed.
Lemma alike_vcalendar : alike (@ser_vcalendar E') (@ser_vcalendar E) vcalendar_floating.
Proof.
  unfold ser_vcalendar. apply alike_comp; [intros v; unfold vcalendar_to; cbn [c_xprop c_iana]; auto|]. intros v H. unfold vcalendar_floating in H.
  destruct H as (H_ca_alarms & H_ca_events & H_ca_freebusy & H_ca_journals & H_ca_todo & H_ca_timezones).
  unfold vcalendar_schema, vcalendar_to. cbn [c_fields].
  apply fields_cons; [reflexivity|].
  apply fields_cons; [reflexivity|].
  apply fields_cons; [reflexivity|].
  apply fields_cons; [reflexivity|].
  apply fields_cons; [exact (alike_vec_field _ _ _ _ _ alike_valarm H_ca_alarms)|].
  apply fields_cons; [exact (alike_vec_field _ _ _ _ _ alike_vevent H_ca_events)|].
  apply fields_cons; [exact (alike_vec_field _ _ _ _ _ alike_vfreebusy H_ca_freebusy)|].
  apply fields_cons; [exact (alike_vec_field _ _ _ _ _ alike_vjournal H_ca_journals)|].
  apply fields_cons; [exact (alike_vec_field _ _ _ _ _ alike_vtodo H_ca_todo)|].
  apply fields_cons; [exact (alike_vec_field _ _ _ _ _ alike_vtimezone H_ca_timezones)|].
  reflexivity.
Qed.
End Zone.
(** A component without a date-time in UTC or in a zone is written alike in every
    time zone. *)
Theorem C69_writing : forall (E : Env) offset local,
  let E' := in_zone E offset local in
  (forall v, audio_floating v -> s_ical (@ser_audio E') v = s_ical (@ser_audio E) v) /\
  (forall v, display_floating v -> s_ical (@ser_display_alarm E') v = s_ical (@ser_display_alarm E) v) /\
  (forall v, email_floating v -> s_ical (@ser_email E') v = s_ical (@ser_email E) v) /\
  (forall v, vevent_floating v -> s_ical (@ser_vevent E') v = s_ical (@ser_vevent E) v) /\
  (forall v, vfreebusy_floating v -> s_ical (@ser_vfreebusy E') v = s_ical (@ser_vfreebusy E) v) /\
  (forall v, vjournal_floating v -> s_ical (@ser_vjournal E') v = s_ical (@ser_vjournal E) v) /\
  (forall v, vtodo_floating v -> s_ical (@ser_vtodo E') v = s_ical (@ser_vtodo E) v) /\
  (forall v, standard_floating v -> s_ical (@ser_standard E') v = s_ical (@ser_standard E) v) /\
  (forall v, daylight_floating v -> s_ical (@ser_daylight E') v = s_ical (@ser_daylight E) v) /\
  (forall v, vtimezone_floating v -> s_ical (@ser_vtimezone E') v = s_ical (@ser_vtimezone E) v) /\
  (forall v, vcalendar_floating v -> s_ical (@ser_vcalendar E') v = s_ical (@ser_vcalendar E) v) /\
  (forall v, floating_alarm v -> s_ical (@ser_valarm E') v = s_ical (@ser_valarm E) v).
Proof.
  intros E offset local E'. repeat match goal with |- _ /\ _ => split end; intros v H.
  - now apply alike_audio.
  - now apply alike_display.
  - now apply alike_email.
  - now apply alike_vevent.
  - now apply alike_vfreebusy.
  - now apply alike_vjournal.
  - now apply alike_vtodo.
  - now apply alike_standard.
  - now apply alike_daylight.
  - now apply alike_vtimezone.
  - now apply alike_vcalendar.
  - now apply alike_valarm.
Qed.

(** A date-time in UTC or in a zone is written alike exactly when the offsets at that
    instant are equal. *)
Theorem C69_zoned_writing : forall (E : Env) offset local u y y',
  let E' := in_zone E offset local in
  whole_second (@naive_local E u) -> year_of (@naive_local E u) y -> 0 <= y <= 9999 ->
  whole_second (@naive_local E' u) -> year_of (@naive_local E' u) y' -> 0 <= y' <= 9999 ->
  (@dt_show E' (Local u) = @dt_show E (Local u) <-> offset (ndt_ts u) = @tz_offset E (ndt_ts u)).
Proof.
  intros E offset local u y y' E' W Y B W' Y' B'.
  destruct (@C22_property_parser_shifts E u y W Y B) as (_ & R & T & _). destruct (@C22_property_parser_shifts E' u y' W' Y' B') as (_ & R' & T' & _). split.
  - intros Q. rewrite Q, R in R'. assert (X : @naive_local E u = @naive_local E' u) by congruence. rewrite X, T' in T. unfold E' in T. cbn [tz_offset in_zone] in T. lia.
  - intros Q. unfold dt_show, naive_local, E'. cbn [tz_offset in_zone]. now rewrite Q.
Qed.
Example C69_zoned_nonvacuous : exists offset local u, let E' := in_zone env_east offset local in
  whole_second (@naive_local env_east u) /\ year_of (@naive_local env_east u) 2024 /\ whole_second (@naive_local E' u) /\ year_of (@naive_local E' u) 2024 /\
  @dt_show E' (Local u) <> @dt_show env_east (Local u).
Proof.
  exists (fun _ => 0), (fun _ => MSingle 0), (mk_ndt 19782 3600 0). cbn zeta. repeat split; try (vm_compute; intuition congruence).
  - exists 2, 29. vm_compute. reflexivity.
  - exists 2, 29. vm_compute. reflexivity.
Qed.

(** ** Occurrences *)
Section IterZone.
Context (E : Env) (offset : Z -> Z) (local : Z -> mapped).
Let E' := in_zone E offset local.
Lemma add_zone r d : floating_date d -> @recur_add E' r d = @recur_add E r d /\ forall d', @recur_add E r d = Ok d' -> floating_date d'.
Proof.
  destruct d as [n|[n|u]]; cbn [floating_date floating_dt]; intros X; [| |contradiction]; (split; [reflexivity|]); intros d'; unfold recur_add, recur_add_dt.
  - destruct (_ <=? _); [destruct (recur_add_date r n)|destruct (recur_add_ndt r _)]; cbn; intros Q; inv Q; exact I.
  - destruct (recur_add_ndt r n); cbn; intros Q; inv Q; exact I.
Qed.
Lemma naive_zone d : floating_date d -> @date_naive E' d = @date_naive E d.
Proof. destruct d as [n|[n|u]]; cbn; auto. contradiction. Qed.
(** No zone in the start, the end and the rule. *)
Definition floating_item {T} (R : recurring T) (x : T) : Prop :=
  floating_opt floating_date (rc_dtstart R x) /\ floating_opt floating_date (rc_dtend R x) /\ floating_opt floating_rule (rc_rrule R x).
Lemma body_zone T (R : recurring T) x : recurs R -> floating_item R x -> @loop_body E' T R x = @loop_body E T R x /\
  forall y, @loop_body E T R x = TBreak y \/ @loop_body E T R x = TContinue y -> floating_item R y.
Proof.
  intros K (F1 & F2 & F3). unfold loop_body. destruct (rc_dtstart R x) as [d|] eqn:D; [|split; [auto|intros y [|]; discriminate]].
  destruct (rc_rrule R x) as [r|] eqn:Q; [|split; [auto|intros y [|]; discriminate]]. cbn [floating_opt] in F1, F3. unfold floating_rule in F3.
  assert (U : match r_until r with Some until => @date_naive E' until <? @date_naive E' d | None => false end = match r_until r with Some until => @date_naive E until <? @date_naive E d | None => false end).
  { destruct (r_until r) as [u|]; auto. now rewrite !naive_zone. }
  rewrite U. destruct (match r_until r with Some until => @date_naive E until <? @date_naive E d | None => false end); [split; [auto|intros y [|]; discriminate]|].
  destruct (add_zone r d F1) as [-> A]. destruct (@recur_add E r d) as [d'|e|] eqn:RA; try (split; [auto|intros y [|]; discriminate]). specialize (A _ eq_refl).
  assert (N : rc_dtend R (rc_set_dtstart R x d') = rc_dtend R x) by (destruct K; reflexivity). rewrite N.
  assert (P : forall c e, floating_opt floating_date e -> match e with Some e => floating_item R (rc_set_rrule R (rc_set_dtend R (rc_set_dtstart R x d') e) (set_count r c)) | None => rc_dtend R x = None -> floating_item R (rc_set_rrule R (rc_set_dtstart R x d') (set_count r c)) end).
  { intros c [e|] He; [|intros HN]; (split; [|split]); destruct K; cbn in *; auto; rewrite ?HN; auto. }
  destruct (rc_dtend R x) as [e|] eqn:DE.
  - destruct (add_zone r e F2) as [-> B]. destruct (@recur_add E r e) as [e'|er|]; cbn [obind]; try (split; [auto|intros y [|]; discriminate]). specialize (B _ eq_refl).
    split; [reflexivity|]. intros y Y.
    assert (G : forall c, floating_item R (rc_set_rrule R (rc_set_dtend R (rc_set_dtstart R x d') e') (set_count r c))) by (intros c; apply (P c (Some e') B)).
    assert (S0 : set_count r (r_count r) = r) by (destruct r; reflexivity).
    destruct (existsb _ _); [destruct Y as [Y|Y]; inv Y; specialize (G (r_count r)); now rewrite S0 in G|].
    destruct (r_count r) as [c|] eqn:RC; [destruct (c =? 0)|]; destruct Y as [Y|Y]; inv Y.
    + specialize (G (Some (c - 1))). destruct K; exact G.
    + specialize (G None). now rewrite S0 in G.
  - split; [reflexivity|]. intros y Y.
    assert (G : forall c, floating_item R (rc_set_rrule R (rc_set_dtstart R x d') (set_count r c))) by (intros c; now apply (P c None I)).
    assert (S0 : set_count r (r_count r) = r) by (destruct r; reflexivity).
    destruct (existsb _ _); [destruct Y as [Y|Y]; inv Y; specialize (G (r_count r)); now rewrite S0 in G|].
    destruct (r_count r) as [c|] eqn:RC; [destruct (c =? 0)|]; destruct Y as [Y|Y]; inv Y.
    + specialize (G (Some (c - 1))). destruct K; exact G.
    + specialize (G None). now rewrite S0 in G.
Qed.
Lemma next_zone T (R : recurring T) n x : recurs R -> floating_item R x -> @next_loop E' T R n x = @next_loop E T R n x /\
  forall u y, @next_loop E T R n x = IYield u y -> floating_item R y.
Proof.
  intros K. revert x. induction n as [|n IH]; intros x F; [split; [reflexivity|discriminate]|]. cbn [next_loop].
  destruct (body_zone T R x K F) as [-> G]. destruct (@loop_body E T R x) as [y| |y|]; try (split; [reflexivity|discriminate]).
  - split; [reflexivity|]. intros u z Z. inv Z. apply G. now left.
  - apply IH, G. now right.
Qed.
Lemma recur_zone T (R : recurring T) n x : recurs R -> floating_item R x -> @recur_next E' T R n x = @recur_next E T R n x /\
  forall u y, @recur_next E T R n x = IYield u y -> floating_item R y.
Proof.
  intros K F. unfold recur_next. destruct (next_zone T R n x K F) as [-> G]. split; [reflexivity|].
  destruct (@next_loop E T R n x); intros u y Q; inv Q. eapply G. reflexivity.
Qed.
End IterZone.
(** A component whose start, end and UNTIL have no zone has the same occurrences in
    every time zone. *)
Theorem C69_occurrences : forall (E : Env) offset local T (R : recurring T) x l f,
  recurs R -> floating_item R x ->
  (run (@recur_next (in_zone E offset local) T R) x l f <-> run (@recur_next E T R) x l f).
Proof.
  intros E offset local T R x l f K F. split; intros H; induction H as [x|x s' n N|x n N|x N|x n a s' l f N H IH].
  - constructor.
  - apply (run_end _ x s' n). now rewrite <- (proj1 (recur_zone E offset local T R n x K F)).
  - apply (run_panic _ x n). now rewrite <- (proj1 (recur_zone E offset local T R n x K F)).
  - constructor. intros n. now rewrite <- (proj1 (recur_zone E offset local T R n x K F)).
  - destruct (recur_zone E offset local T R n x K F) as [Q G]. rewrite Q in N. econstructor; [exact N|]. apply IH. eapply G, N.
  - constructor.
  - apply (run_end _ x s' n). now rewrite (proj1 (recur_zone E offset local T R n x K F)).
  - apply (run_panic _ x n). now rewrite (proj1 (recur_zone E offset local T R n x K F)).
  - constructor. intros n. now rewrite (proj1 (recur_zone E offset local T R n x K F)).
  - destruct (recur_zone E offset local T R n x K F) as [Q G]. econstructor; [rewrite Q; exact N|]. apply IH. eapply G, N.
Qed.
(** A weekly event on two wall-clock hours, without zone. *)
Example C69_occurrences_nonvacuous : exists x y, floating_item rec_vevent x /\ run (@recur_next env_east _ rec_vevent) x [x; y] Cut /\ ev_dtstart y <> ev_dtstart x.
Proof.
  set (x := mk_vevent (Naive epoch) (mk_text [] []) (DDateTime (Naive (mk_ndt 19782 3600 0))) None None None None None None None None None None None None None None
    (Some (mk_recur Weekly None None 1 [] [] [] [] [] [] [] [] [] None)) (Some (DDateTime (Naive (mk_ndt 19782 7200 0)))) None [] [] [] [] [] [] [] [] [] [] [] [] []).
  exists x. eexists. split; [repeat split|]. split.
  - eapply (run_more _ x 1); [vm_compute; reflexivity|]. eapply (run_more _ _ 1); [vm_compute; reflexivity|]. constructor.
  - vm_compute. discriminate.
Qed.
(** With a zone, the same rule can end in a panic in one zone and go on in another. *)
Theorem C69_zoned_occurrences_refuted : exists offset local x y,
  run (@recur_next env_east _ rec_vevent) x [x; y] Cut /\ run (@recur_next (in_zone env_east offset local) _ rec_vevent) x [] Panicked.
Proof.
  set (x := mk_vevent (Naive epoch) (mk_text [] []) (DDateTime (Local (mk_ndt 19782 3600 0))) None None None None None None None None None None None None None None
    (Some (mk_recur Monthly None None 1 [] [] [] [] [] [] [] [] [] None)) None None [] [] [] [] [] [] [] [] [] [] [] [] []).
  exists (fun _ => 0), (fun _ => MNone), x. eexists. split.
  - eapply (run_more _ x 1); [vm_compute; reflexivity|]. eapply (run_more _ _ 1); [vm_compute; reflexivity|]. constructor.
  - eapply (run_panic _ x 1). vm_compute. reflexivity.
Qed.
