(** * C99: equality *)
From Verif Require Import Base Env Chrono Types Components Equality BaseFacts ChronoFacts IterFacts SpecEqual.
(** ** Numbers *)
Lemma abs_split (x : f32) : x mod 2147483648 = (x / 2 ^ 23) mod 2 ^ 8 * 2 ^ 23 + x mod 2 ^ 23.
Proof. change 2147483648 with (2 ^ 23 * 2 ^ 8). rewrite Z.rem_mul_r by lia. lia. Qed.
Lemma number_abs x : f32_abs x <= 2139095040 <-> ~ not_a_number x.
Proof.
  unfold f32_abs, not_a_number. rewrite abs_split. pose proof (Z.mod_pos_bound x (2 ^ 23) ltac:(lia)). pose proof (Z.mod_pos_bound (x / 2 ^ 23) (2 ^ 8) ltac:(lia)). change (2 ^ 23) with 8388608 in *. change (2 ^ 8) with 256 in *. lia.
Qed.
Lemma zero_abs x : f32_abs x = 0 <-> is_zero x.
Proof.
  unfold f32_abs, is_zero. rewrite abs_split. pose proof (Z.mod_pos_bound x (2 ^ 23) ltac:(lia)). pose proof (Z.mod_pos_bound (x / 2 ^ 23) (2 ^ 8) ltac:(lia)). change (2 ^ 23) with 8388608 in *. change (2 ^ 8) with 256 in *. lia.
Qed.
Lemma f32_decides : decides f32_eqb same_number.
Proof.
  intros x y. unfold f32_eqb, same_number. rewrite !Bool.andb_true_iff, !Z.leb_le, Bool.orb_true_iff, Bool.andb_true_iff, !Z.eqb_eq, <- !number_abs, <- !zero_abs. tauto.
Qed.
(** ** Containers *)
Lemma opt_decides {A} (q : A -> A -> bool) R : decides q R -> decides (opt_eqb q) (both_or_neither R).
Proof. intros D [x|] [y|]; cbn; [apply D|split; [discriminate|contradiction]|split; [discriminate|contradiction]|tauto]. Qed.
Lemma list_decides {A} (q : A -> A -> bool) R : decides q R -> decides (list_eqb q) (Forall2 R).
Proof.
  intros D a. induction a as [|x a IH]; intros [|y b]; cbn.
  - split; auto.
  - split; [discriminate|intros H; inversion H].
  - split; [discriminate|intros H; inversion H].
  - rewrite Bool.andb_true_iff, (D x y), (IH b). split; [intros [H K]; now constructor|intros H; inversion H; auto].
Qed.
Lemma same_option {A} (a b : option A) : both_or_neither eq a b <-> a = b.
Proof. destruct a, b; cbn; split; intros H; try congruence; try contradiction; auto. Qed.
Lemma same_list {A} (a b : list A) : Forall2 eq a b <-> a = b.
Proof. split; [induction 1; congruence|intros <-; induction a; constructor; auto]. Qed.
Lemma opt_same {A} (q : A -> A -> bool) : decides q eq -> decides (opt_eqb q) eq.
Proof. intros D a b. rewrite (opt_decides q eq D a b). apply same_option. Qed.
Lemma list_same {A} (q : A -> A -> bool) : decides q eq -> decides (list_eqb q) eq.
Proof. intros D a b. rewrite (list_decides q eq D a b). apply same_list. Qed.
Lemma str_same : decides str_eqb eq. Proof. intros a b. apply str_eqb_eq. Qed.
Lemma map_same {V} (q : V -> V -> bool) : decides q eq -> decides (map_eqb q) eq.
Proof.
  intros D. apply list_same. intros [k x] [k' y]. cbn. rewrite Bool.andb_true_iff, (str_same k k'), (D x y). split; [intros [-> ->]; reflexivity|intros H; inversion H; auto].
Qed.
Lemma Z_same : decides Z.eqb eq. Proof. intros a b. apply Z.eqb_eq. Qed.
Lemma date_same : decides date_eqb eq. Proof. intros a b. apply date_eqb_eq. Qed.
Lemma dt_same : decides dt_eqb eq.
Proof. intros a b. pose proof (date_same (DDateTime a) (DDateTime b)) as H. cbn in H. rewrite H. split; [intros Q; now inversion Q|now intros ->]. Qed.
(** ** Values without numbers *)
Ltac fields_same := intros; match goal with |- decides _ _ => intros a b; split; [intros H|intros ->] end.
Ltac open D := rewrite ?Bool.andb_true_iff in D.
Lemma line_same : decides line_eqb eq.
Proof. intros [k p v] [k' p' v']. unfold line_eqb. cbn. rewrite !Bool.andb_true_iff, (str_same k k'), (map_same _ str_same p p'), (str_same v v'). split; [intros [[-> ->] ->]; reflexivity|intros H; inversion H; auto]. Qed.
Lemma text_same : decides text_eqb eq.
Proof. intros [p v] [p' v']. unfold text_eqb. cbn. rewrite !Bool.andb_true_iff, (map_same _ str_same p p'), (str_same v v'). split; [intros [-> ->]; reflexivity|intros H; inversion H; auto]. Qed.
Lemma uri_same : decides uri_eqb eq.
Proof. intros [p v] [p' v']. unfold uri_eqb. cbn. rewrite !Bool.andb_true_iff, (map_same _ str_same p p'), (str_same v v'). split; [intros [-> ->]; reflexivity|intros H; inversion H; auto]. Qed.
Lemma class_same : decides class_eqb eq.
Proof. intros [| | |s] [| | |t]; cbn; try (split; congruence). rewrite (str_same s t). split; [now intros ->|intros H; now inversion H]. Qed.
Lemma status_same : decides status_eqb eq. Proof. intros [] []; cbn; split; congruence. Qed.
Lemma transp_same : decides transp_eqb eq. Proof. intros [] []; cbn; split; congruence. Qed.
Lemma freq_same : decides freq_eqb eq. Proof. intros [] []; cbn; split; congruence. Qed.
Lemma weekday_same : decides weekday_eqb eq. Proof. intros [] []; cbn; split; congruence. Qed.
Lemma wdn_same : decides wdn_eqb eq.
Proof. intros [p v] [p' v']. unfold wdn_eqb. cbn [wn_weekday wn_ord]. rewrite !Bool.andb_true_iff, (weekday_same p p'), (opt_same _ Z_same v v'). split; [intros [-> ->]; reflexivity|intros H; inversion H; auto]. Qed.
Lemma period_same : decides period_eqb eq.
Proof. intros [s e|s d] [s' e'|s' d']; cbn; try (split; congruence); rewrite Bool.andb_true_iff, ?(dt_same s s'), ?(dt_same e e'), ?Z.eqb_eq; (split; [intros [-> ->]; reflexivity|intros H; inversion H; auto]). Qed.
Lemma rdate_same : decides rdate_eqb eq.
Proof. intros [x|x] [y|y]; cbn [rdate_eqb]; try (split; congruence); rewrite ?(list_same _ date_same x y), ?(list_same _ period_same x y); (split; [now intros ->|intros H; now inversion H]). Qed.
Lemma trigger_same : decides trigger_eqb eq.
Proof. intros [x|x] [y|y]; cbn; try (split; congruence); rewrite ?(dt_same x y), ?Z.eqb_eq; (split; [now intros ->|intros H; now inversion H]). Qed.
(** The comparisons of the fields, one by one. *)
Ltac same_field H :=
  match type of H with
  | _ && _ = true => apply andb_prop in H; let H1 := fresh "H" in let H2 := fresh "H" in destruct H as [H1 H2]; same_field H1; same_field H2
  | text_eqb _ _ = true => apply text_same in H
  | uri_eqb _ _ = true => apply uri_same in H
  | dt_eqb _ _ = true => apply dt_same in H
  | date_eqb _ _ = true => apply date_same in H
  | Z.eqb _ _ = true => apply Z_same in H
  | str_eqb _ _ = true => apply str_same in H
  | freq_eqb _ _ = true => apply freq_same in H
  | trigger_eqb _ _ = true => apply trigger_same in H
  | opt_eqb text_eqb _ _ = true => apply (opt_same _ text_same) in H
  | opt_eqb uri_eqb _ _ = true => apply (opt_same _ uri_same) in H
  | opt_eqb dt_eqb _ _ = true => apply (opt_same _ dt_same) in H
  | opt_eqb date_eqb _ _ = true => apply (opt_same _ date_same) in H
  | opt_eqb Z.eqb _ _ = true => apply (opt_same _ Z_same) in H
  | opt_eqb str_eqb _ _ = true => apply (opt_same _ str_same) in H
  | opt_eqb class_eqb _ _ = true => apply (opt_same _ class_same) in H
  | opt_eqb status_eqb _ _ = true => apply (opt_same _ status_same) in H
  | opt_eqb transp_eqb _ _ = true => apply (opt_same _ transp_same) in H
  | opt_eqb weekday_eqb _ _ = true => apply (opt_same _ weekday_same) in H
  | list_eqb text_eqb _ _ = true => apply (list_same _ text_same) in H
  | list_eqb uri_eqb _ _ = true => apply (list_same _ uri_same) in H
  | list_eqb date_eqb _ _ = true => apply (list_same _ date_same) in H
  | list_eqb Z.eqb _ _ = true => apply (list_same _ Z_same) in H
  | list_eqb wdn_eqb _ _ = true => apply (list_same _ wdn_same) in H
  | list_eqb rdate_eqb _ _ = true => apply (list_same _ rdate_same) in H
  | list_eqb period_eqb _ _ = true => apply (list_same _ period_same) in H
  | map_eqb line_eqb _ _ = true => apply (map_same _ line_same) in H
  | _ => idtac
  end.
Ltac same_goal :=
  repeat match goal with |- _ && _ = true => apply andb_true_intro; split end;
  first [now apply text_same|now apply uri_same|now apply dt_same|now apply date_same|now apply Z_same|now apply str_same|now apply freq_same|now apply trigger_same
   |now apply (opt_same _ text_same)|now apply (opt_same _ uri_same)|now apply (opt_same _ dt_same)|now apply (opt_same _ date_same)|now apply (opt_same _ Z_same)|now apply (opt_same _ str_same)|now apply (opt_same _ class_same)
   |now apply (opt_same _ status_same)|now apply (opt_same _ transp_same)|now apply (opt_same _ weekday_same)
   |now apply (list_same _ text_same)|now apply (list_same _ uri_same)|now apply (list_same _ date_same)|now apply (list_same _ Z_same)|now apply (list_same _ wdn_same)|now apply (list_same _ rdate_same)|now apply (list_same _ period_same)
   |now apply (map_same _ line_same)|idtac].
Ltac same_record q := intros a b; unfold q; split; [intros H; same_field H; destruct a, b; cbn in *; subst; reflexivity|intros ->; same_goal].
Lemma audio_same : decides audio_eqb eq. Proof. same_record audio_eqb. Qed.
Lemma display_same : decides display_eqb eq. Proof. same_record display_eqb. Qed.
Lemma email_same : decides email_eqb eq. Proof. same_record email_eqb. Qed.
Lemma valarm_same : decides valarm_eqb eq.
Proof. intros [x|x|x] [y|y|y]; cbn [valarm_eqb]; try (split; congruence); rewrite ?(audio_same x y), ?(display_same x y), ?(email_same x y); (split; [now intros ->|intros H; now inversion H]). Qed.
Lemma recur_same : decides recur_eqb eq. Proof. same_record recur_eqb. Qed.
Lemma standard_same : decides standard_eqb eq.
Proof.
  intros a b; unfold standard_eqb; split.
  - intros H; same_field H. match goal with H : opt_eqb recur_eqb _ _ = true |- _ => apply (opt_same _ recur_same) in H end. destruct a, b; cbn in *; subst; reflexivity.
  - intros ->; same_goal. now apply (opt_same _ recur_same).
Qed.
Lemma daylight_same : decides daylight_eqb eq.
Proof.
  intros a b; unfold daylight_eqb; split.
  - intros H; same_field H. match goal with H : opt_eqb recur_eqb _ _ = true |- _ => apply (opt_same _ recur_same) in H end. destruct a, b; cbn in *; subst; reflexivity.
  - intros ->; same_goal. now apply (opt_same _ recur_same).
Qed.
Lemma vtimezone_same : decides vtimezone_eqb eq.
Proof.
  intros a b; unfold vtimezone_eqb; split.
  - intros H; same_field H. match goal with H : list_eqb standard_eqb _ _ = true |- _ => apply (list_same _ standard_same) in H end. match goal with H : list_eqb daylight_eqb _ _ = true |- _ => apply (list_same _ daylight_same) in H end. destruct a, b; cbn in *; subst; reflexivity.
  - intros ->; same_goal; [now apply (list_same _ standard_same)|now apply (list_same _ daylight_same)].
Qed.
Lemma tz_part_same : decides tz_part_eqb eq.
Proof. intros [x|x] [y|y]; cbn [tz_part_eqb]; try (split; congruence); rewrite ?(standard_same x y), ?(daylight_same x y); (split; [now intros ->|intros H; now inversion H]). Qed.
(** ** What holds numbers *)
Lemma geo_decides : decides geo_eqb same_geo.
Proof. intros a b. unfold geo_eqb, same_geo. rewrite Bool.andb_true_iff, (f32_decides (g_lat a) (g_lat b)), (f32_decides (g_lon a) (g_lon b)). tauto. Qed.
Lemma status_decides : decides request_status_eqb same_status.
Proof. intros a b. unfold request_status_eqb, same_status. rewrite !Bool.andb_true_iff, (f32_decides (rs_code a) (rs_code b)), (str_same (rs_desc a) (rs_desc b)), (opt_same _ str_same (rs_ext a) (rs_ext b)). tauto. Qed.
Ltac more_fields :=
  repeat match goal with
  | H : opt_eqb recur_eqb _ _ = true |- _ => apply (opt_same _ recur_same) in H
  | H : list_eqb valarm_eqb _ _ = true |- _ => apply (list_same _ valarm_same) in H
  | H : list_eqb vtimezone_eqb _ _ = true |- _ => apply (list_same _ vtimezone_same) in H
  | H : opt_eqb geo_eqb _ _ = true |- _ => apply (opt_decides _ _ geo_decides) in H
  | H : list_eqb request_status_eqb _ _ = true |- _ => apply (list_decides _ _ status_decides) in H
  end.
Ltac more_goals := first [now apply (opt_same _ recur_same)|now apply (list_same _ valarm_same)|now apply (list_same _ vtimezone_same)|now apply (opt_decides _ _ geo_decides)|now apply (list_decides _ _ status_decides)|idtac].
Lemma event_decides : decides vevent_eqb alike_event.
Proof.
  intros a b. unfold vevent_eqb, alike_event. split.
  - intros H. same_field H. more_fields. exists (ev_geo b), (ev_rstatus b). split; [assumption|]. split; [assumption|]. destruct a, b; unfold event_with; cbn in *; subst; reflexivity.
  - intros (g & s & G & S1 & ->). unfold event_with. cbn [ev_dtstamp ev_uid ev_dtstart ev_class ev_created ev_description ev_geo ev_last_modified ev_location ev_organizer ev_priority ev_sequence ev_status ev_summary ev_transp ev_url ev_recurid ev_rrule ev_dtend ev_duration ev_attach ev_attendee ev_categories ev_comment ev_contact ev_exdate ev_rstatus ev_related_to ev_resources ev_rdate ev_alarms ev_x_prop ev_iana_prop]. same_goal; more_goals.
Qed.
Lemma todo_decides : decides vtodo_eqb alike_todo.
Proof.
  intros a b. unfold vtodo_eqb, alike_todo. split.
  - intros H. same_field H. more_fields. exists (to_geo b), (to_rstatus b). split; [assumption|]. split; [assumption|]. destruct a, b; unfold todo_with; cbn in *; subst; reflexivity.
  - intros (g & s & G & S1 & ->). destruct a; unfold todo_with; cbn in *. same_goal; more_goals.
Qed.
Lemma journal_decides : decides vjournal_eqb alike_journal.
Proof.
  intros a b. unfold vjournal_eqb, alike_journal. split.
  - intros H. same_field H. more_fields. exists (jo_rstatus b). split; [assumption|]. destruct a, b; unfold journal_with; cbn in *; subst; reflexivity.
  - intros (s & S1 & ->). destruct a; unfold journal_with; cbn in *. same_goal; more_goals.
Qed.
Lemma freebusy_decides : decides vfreebusy_eqb alike_freebusy.
Proof.
  intros a b. unfold vfreebusy_eqb, alike_freebusy. split.
  - intros H. same_field H. more_fields. exists (fb_rstatus b). split; [assumption|]. destruct a, b; unfold freebusy_with; cbn in *; subst; reflexivity.
  - intros (s & S1 & ->). destruct a; unfold freebusy_with; cbn in *. same_goal; more_goals.
Qed.
Lemma calendar_decides : decides vcalendar_eqb alike_calendar.
Proof.
  intros a b. unfold vcalendar_eqb, alike_calendar. split.
  - intros H. same_field H. more_fields. exists (ca_events b), (ca_freebusy b), (ca_journals b), (ca_todo b).
    repeat match goal with
    | H : list_eqb vevent_eqb _ _ = true |- _ => apply (list_decides _ _ event_decides) in H
    | H : list_eqb vfreebusy_eqb _ _ = true |- _ => apply (list_decides _ _ freebusy_decides) in H
    | H : list_eqb vjournal_eqb _ _ = true |- _ => apply (list_decides _ _ journal_decides) in H
    | H : list_eqb vtodo_eqb _ _ = true |- _ => apply (list_decides _ _ todo_decides) in H
    end.
    do 4 (split; [assumption|]). destruct a, b; unfold calendar_with; cbn in *; subst; reflexivity.
  - intros (e & f & j & t & A & B & C & D & ->). destruct a; unfold calendar_with; cbn in *. same_goal; more_goals.
    + now apply (list_decides _ _ event_decides).
    + now apply (list_decides _ _ freebusy_decides).
    + now apply (list_decides _ _ journal_decides).
    + now apply (list_decides _ _ todo_decides).
Qed.
(** ** The theorems *)
(** Values without numbers are equal when they are the same. *)
Theorem C99_identity :
  decides dt_eqb eq /\ decides date_eqb eq /\ decides line_eqb eq /\ decides text_eqb eq /\ decides uri_eqb eq /\ decides class_eqb eq /\ decides status_eqb eq /\ decides transp_eqb eq /\
  decides freq_eqb eq /\ decides weekday_eqb eq /\ decides wdn_eqb eq /\ decides period_eqb eq /\ decides rdate_eqb eq /\ decides trigger_eqb eq /\ decides recur_eqb eq /\
  decides audio_eqb eq /\ decides display_eqb eq /\ decides email_eqb eq /\ decides valarm_eqb eq /\ decides standard_eqb eq /\ decides daylight_eqb eq /\ decides vtimezone_eqb eq.
Proof.
  repeat match goal with |- _ /\ _ => split end;
  [exact dt_same|exact date_same|exact line_same|exact text_same|exact uri_same|exact class_same|exact status_same|exact transp_same|exact freq_same|exact weekday_same|exact wdn_same|exact period_same|exact rdate_same|exact trigger_same|exact recur_same
  |exact audio_same|exact display_same|exact email_same|exact valarm_same|exact standard_same|exact daylight_same|exact vtimezone_same].
Qed.
(** The others when they are the same but for numbers that are equal. *)
Theorem C99_alike :
  decides f32_eqb same_number /\ decides geo_eqb same_geo /\ decides request_status_eqb same_status /\
  decides vevent_eqb alike_event /\ decides vtodo_eqb alike_todo /\ decides vjournal_eqb alike_journal /\ decides vfreebusy_eqb alike_freebusy /\ decides vcalendar_eqb alike_calendar.
Proof.
  repeat match goal with |- _ /\ _ => split end;
  [exact f32_decides|exact geo_decides|exact status_decides|exact event_decides|exact todo_decides|exact journal_decides|exact freebusy_decides|exact calendar_decides].
Qed.
(** Equality is symmetric and transitive. *)
Lemma opt_lawful {A} (q : A -> A -> bool) : lawful q -> lawful (opt_eqb q).
Proof. intros [S1 T]. split; [intros [x|] [y|]; cbn; auto|intros [x|] [y|] [z|]; cbn; eauto; discriminate]. Qed.
Lemma list_lawful {A} (q : A -> A -> bool) : lawful q -> lawful (list_eqb q).
Proof.
  intros [S1 T]. split.
  - intros a. induction a as [|x a IH]; intros [|y b]; cbn; auto. now rewrite S1, IH.
  - intros a. induction a as [|x a IH]; intros [|y b] [|z c]; cbn; auto; try discriminate. rewrite !Bool.andb_true_iff. intros [H K] [H' K']. eauto.
Qed.
Lemma same_lawful {A} (q : A -> A -> bool) : decides q eq -> lawful q.
Proof.
  intros D. split.
  - intros a b. destruct (q a b) eqn:X, (q b a) eqn:Y; auto; [apply D in X; subst; now rewrite (proj2 (D b b) eq_refl) in Y|apply D in Y; subst; now rewrite (proj2 (D a a) eq_refl) in X].
  - intros a b c H K. apply D in H, K. subst. now apply D.
Qed.
Lemma f32_lawful : lawful f32_eqb.
Proof.
  split.
  - intros a b. unfold f32_eqb. rewrite (Z.eqb_sym a b), (Bool.andb_comm (f32_abs a <=? _)), (Bool.andb_comm (f32_abs a =? _)). reflexivity.
  - intros a b c H K. apply f32_decides in H as (H1 & H2 & H3), K as (K1 & K2 & K3). apply f32_decides. split; [assumption|]. split; [assumption|]. destruct H3 as [->|[]], K3 as [->|[]]; auto.
Qed.
Lemma and_lawful {A B} (p : A -> B) (q : B -> B -> bool) (r : A -> A -> bool) : lawful q -> lawful r -> lawful (fun a b => q (p a) (p b) && r a b).
Proof.
  intros [S1 T1] [S2 T2]. split.
  - intros a b. now rewrite S1, S2.
  - intros a b c. rewrite !Bool.andb_true_iff. intros [H K] [H' K']. eauto.
Qed.
Lemma both_lawful {A} (q r : A -> A -> bool) : lawful q -> lawful r -> lawful (fun a b => q a b && r a b).
Proof.
  intros [S1 T1] [S2 T2]. split.
  - intros a b. now rewrite S1, S2.
  - intros a b c. rewrite !Bool.andb_true_iff. intros [H K] [H' K']. eauto.
Qed.
Lemma on_lawful {A B} (p : A -> B) (q : B -> B -> bool) : lawful q -> lawful (fun a b => q (p a) (p b)).
Proof. intros [S1 T1]. split; [intros a b; apply S1|intros a b c; apply T1]. Qed.
Lemma geo_lawful : lawful geo_eqb.
Proof. unfold geo_eqb. apply (both_lawful (fun a b => f32_eqb (g_lat a) (g_lat b)) (fun a b => f32_eqb (g_lon a) (g_lon b))); apply on_lawful, f32_lawful. Qed.
Lemma rs_lawful : lawful request_status_eqb.
Proof.
  unfold request_status_eqb. apply (both_lawful (fun a b => f32_eqb (rs_code a) (rs_code b) && str_eqb (rs_desc a) (rs_desc b)) (fun a b => opt_eqb str_eqb (rs_ext a) (rs_ext b))); [|apply (on_lawful rs_ext), same_lawful, opt_same, str_same].
  apply (both_lawful (fun a b => f32_eqb (rs_code a) (rs_code b)) (fun a b => str_eqb (rs_desc a) (rs_desc b))); [apply on_lawful, f32_lawful|apply on_lawful, same_lawful, str_same].
Qed.
(** A comparison that decides a symmetric and transitive relation. *)
Lemma decided_lawful {A} (q : A -> A -> bool) R : decides q R -> (forall a b, R a b -> R b a) -> (forall a b c, R a b -> R b c -> R a c) -> lawful q.
Proof.
  intros D S1 T. split.
  - intros a b. destruct (q a b) eqn:X, (q b a) eqn:Y; auto; [apply D, S1, D in X; congruence|apply D, S1, D in Y; congruence].
  - intros a b c H K. apply D. apply D in H, K. eauto.
Qed.
Lemma lawful_sym {A} (q : A -> A -> bool) R a b : lawful q -> decides q R -> R a b -> R b a.
Proof. intros [S1 _] D H. apply D. rewrite S1. now apply D. Qed.
Lemma lawful_trans {A} (q : A -> A -> bool) R a b c : lawful q -> decides q R -> R a b -> R b c -> R a c.
Proof. intros [_ T] D H K. apply D. eapply T; apply D; eassumption. Qed.
Definition geos_lawful := opt_lawful _ geo_lawful.
Definition geos_decide := opt_decides _ _ geo_decides.
Definition codes_lawful := list_lawful _ rs_lawful.
Definition codes_decide := list_decides _ _ status_decides.
Lemma event_lawful : lawful vevent_eqb.
Proof.
  apply (decided_lawful _ _ event_decides).
  - intros a b (g & s & G & S1 & ->). exists (ev_geo a), (ev_rstatus a). split; [exact (lawful_sym _ _ _ _ geos_lawful geos_decide G)|]. split; [exact (lawful_sym _ _ _ _ codes_lawful codes_decide S1)|]. destruct a; reflexivity.
  - intros a b c (g & s & G & S1 & ->) (g' & s' & G' & S' & ->). exists g', s'. split; [exact (lawful_trans _ _ _ _ _ geos_lawful geos_decide G G')|]. split; [exact (lawful_trans _ _ _ _ _ codes_lawful codes_decide S1 S')|]. destruct a; reflexivity.
Qed.
Lemma todo_lawful : lawful vtodo_eqb.
Proof.
  apply (decided_lawful _ _ todo_decides).
  - intros a b (g & s & G & S1 & ->). exists (to_geo a), (to_rstatus a). split; [exact (lawful_sym _ _ _ _ geos_lawful geos_decide G)|]. split; [exact (lawful_sym _ _ _ _ codes_lawful codes_decide S1)|]. destruct a; reflexivity.
  - intros a b c (g & s & G & S1 & ->) (g' & s' & G' & S' & ->). exists g', s'. split; [exact (lawful_trans _ _ _ _ _ geos_lawful geos_decide G G')|]. split; [exact (lawful_trans _ _ _ _ _ codes_lawful codes_decide S1 S')|]. destruct a; reflexivity.
Qed.
Lemma journal_lawful : lawful vjournal_eqb.
Proof.
  apply (decided_lawful _ _ journal_decides).
  - intros a b (s & S1 & ->). exists (jo_rstatus a). split; [exact (lawful_sym _ _ _ _ codes_lawful codes_decide S1)|]. destruct a; reflexivity.
  - intros a b c (s & S1 & ->) (s' & S' & ->). exists s'. split; [exact (lawful_trans _ _ _ _ _ codes_lawful codes_decide S1 S')|]. destruct a; reflexivity.
Qed.
Lemma freebusy_lawful : lawful vfreebusy_eqb.
Proof.
  apply (decided_lawful _ _ freebusy_decides).
  - intros a b (s & S1 & ->). exists (fb_rstatus a). split; [exact (lawful_sym _ _ _ _ codes_lawful codes_decide S1)|]. destruct a; reflexivity.
  - intros a b c (s & S1 & ->) (s' & S' & ->). exists s'. split; [exact (lawful_trans _ _ _ _ _ codes_lawful codes_decide S1 S')|]. destruct a; reflexivity.
Qed.
Lemma calendar_lawful : lawful vcalendar_eqb.
Proof.
  pose proof (list_lawful _ event_lawful) as L1. pose proof (list_lawful _ freebusy_lawful) as L2. pose proof (list_lawful _ journal_lawful) as L3. pose proof (list_lawful _ todo_lawful) as L4.
  pose proof (list_decides _ _ event_decides) as D1. pose proof (list_decides _ _ freebusy_decides) as D2. pose proof (list_decides _ _ journal_decides) as D3. pose proof (list_decides _ _ todo_decides) as D4.
  apply (decided_lawful _ _ calendar_decides).
  - intros a b (e & f & j & t & A & B & C & D & ->). exists (ca_events a), (ca_freebusy a), (ca_journals a), (ca_todo a).
    split; [exact (lawful_sym _ _ _ _ L1 D1 A)|]. split; [exact (lawful_sym _ _ _ _ L2 D2 B)|]. split; [exact (lawful_sym _ _ _ _ L3 D3 C)|]. split; [exact (lawful_sym _ _ _ _ L4 D4 D)|]. destruct a; reflexivity.
  - intros a b c (e & f & j & t & A & B & C & D & ->) (e' & f' & j' & t' & A' & B' & C' & D' & ->). exists e', f', j', t'.
    split; [exact (lawful_trans _ _ _ _ _ L1 D1 A A')|]. split; [exact (lawful_trans _ _ _ _ _ L2 D2 B B')|]. split; [exact (lawful_trans _ _ _ _ _ L3 D3 C C')|]. split; [exact (lawful_trans _ _ _ _ _ L4 D4 D D')|]. destruct a; reflexivity.
Qed.
Theorem C99_lawful : lawful f32_eqb /\ lawful geo_eqb /\ lawful request_status_eqb /\ lawful vevent_eqb /\ lawful vtodo_eqb /\ lawful vjournal_eqb /\ lawful vfreebusy_eqb /\ lawful vcalendar_eqb.
Proof. repeat match goal with |- _ /\ _ => split end; [exact f32_lawful|exact geo_lawful|exact rs_lawful|exact event_lawful|exact todo_lawful|exact journal_lawful|exact freebusy_lawful|exact calendar_lawful]. Qed.
(** A value is equal to itself exactly when its numbers are numbers; and if none of them is a zero, only to itself. *)
Lemma finite_app a b : finite_in (a ++ b) <-> finite_in a /\ finite_in b.
Proof. unfold finite_in. split; [intros H; split; intros x I0; apply H, in_or_app; auto|intros [H K] x I0; apply in_app_or in I0 as [I0|I0]; auto]. Qed.
Lemma no_zero_app a b : no_zero_in (a ++ b) <-> no_zero_in a /\ no_zero_in b.
Proof. unfold no_zero_in. split; [intros H; split; intros x I0; apply H, in_or_app; auto|intros [H K] x I0; apply in_app_or in I0 as [I0|I0]; auto]. Qed.
Lemma number_refl x : same_number x x <-> ~ not_a_number x. Proof. unfold same_number. tauto. Qed.
Lemma number_only x y : ~ is_zero x -> same_number x y -> y = x. Proof. unfold same_number. intuition congruence. Qed.
Lemma geo_refl g : both_or_neither same_geo g g <-> finite_in (geo_numbers g).
Proof. destruct g as [[x y]|]; cbn; unfold finite_in, same_geo; cbn; [rewrite !number_refl; split; [intros [A B] z [<-|[<-|[]]]; auto|intros H; split; apply H; auto]|tauto]. Qed.
Lemma geo_only g g' : no_zero_in (geo_numbers g) -> both_or_neither same_geo g g' -> g' = g.
Proof.
  destruct g as [[x y]|], g' as [[x' y']|]; cbn; try contradiction; auto. unfold no_zero_in, same_geo. cbn. intros N [A B]. do 2 f_equal; apply number_only; auto.
Qed.
Lemma codes_refl s : Forall2 same_status s s <-> finite_in (map rs_code s).
Proof.
  induction s as [|r s IH]; cbn; [unfold finite_in; cbn; split; [contradiction|constructor]|]. change (rs_code r :: map rs_code s) with ([rs_code r] ++ map rs_code s). rewrite finite_app, <- IH. split.
  - intros H. inversion H as [|a b c d H1 H2]; subst. split; [|assumption]. intros z [<-|[]]. match goal with K : same_status _ _ |- _ => exact (proj1 (number_refl _) (proj1 K)) end.
  - intros [H K]. constructor; auto. split; [apply number_refl, H; now left|auto].
Qed.
Lemma codes_only s s' : no_zero_in (map rs_code s) -> Forall2 same_status s s' -> s' = s.
Proof.
  intros N H. induction H as [|a b s s' (H1 & H2 & H3) H IH]; auto. cbn in N. change (rs_code a :: map rs_code s) with ([rs_code a] ++ map rs_code s) in N. apply no_zero_app in N as [N1 N2]. rewrite (IH N2). f_equal.
  destruct a as [c d e], b as [c' d' e']; cbn in *; subst. f_equal. apply number_only; [apply N1; now left|exact H1].
Qed.
Lemma event_by : by_numbers vevent_eqb event_numbers.
Proof.
  split.
  - intros v. rewrite (event_decides v v). unfold event_numbers. rewrite finite_app, <- geo_refl, <- codes_refl. split.
    + intros (g & s & G & S1 & Q). assert (g = ev_geo v) by (rewrite Q at 1; reflexivity). assert (s = ev_rstatus v) by (rewrite Q at 1; reflexivity). subst g s. auto.
    + intros [G S1]. exists (ev_geo v), (ev_rstatus v). split; auto. split; auto. destruct v; reflexivity.
  - intros v w H N. apply event_decides in H as (g & s & G & S1 & ->). apply no_zero_app in N as [N1 N2]. apply geo_only in G; auto. apply codes_only in S1; auto. subst g s. destruct v; reflexivity.
Qed.
Lemma todo_by : by_numbers vtodo_eqb todo_numbers.
Proof.
  split.
  - intros v. rewrite (todo_decides v v). unfold todo_numbers. rewrite finite_app, <- geo_refl, <- codes_refl. split.
    + intros (g & s & G & S1 & Q). assert (g = to_geo v) by (rewrite Q at 1; reflexivity). assert (s = to_rstatus v) by (rewrite Q at 1; reflexivity). subst g s. auto.
    + intros [G S1]. exists (to_geo v), (to_rstatus v). split; auto. split; auto. destruct v; reflexivity.
  - intros v w H N. apply todo_decides in H as (g & s & G & S1 & ->). apply no_zero_app in N as [N1 N2]. apply geo_only in G; auto. apply codes_only in S1; auto. subst g s. destruct v; reflexivity.
Qed.
Lemma journal_by : by_numbers vjournal_eqb journal_numbers.
Proof.
  split.
  - intros v. rewrite (journal_decides v v). unfold journal_numbers. rewrite <- codes_refl. split.
    + intros (s & S1 & Q). assert (s = jo_rstatus v) by (rewrite Q at 1; reflexivity). subst s. auto.
    + intros S1. exists (jo_rstatus v). split; auto. destruct v; reflexivity.
  - intros v w H N. apply journal_decides in H as (s & S1 & ->). apply codes_only in S1; auto. subst s. destruct v; reflexivity.
Qed.
Lemma freebusy_by : by_numbers vfreebusy_eqb freebusy_numbers.
Proof.
  split.
  - intros v. rewrite (freebusy_decides v v). unfold freebusy_numbers. rewrite <- codes_refl. split.
    + intros (s & S1 & Q). assert (s = fb_rstatus v) by (rewrite Q at 1; reflexivity). subst s. auto.
    + intros S1. exists (fb_rstatus v). split; auto. destruct v; reflexivity.
  - intros v w H N. apply freebusy_decides in H as (s & S1 & ->). apply codes_only in S1; auto. subst s. destruct v; reflexivity.
Qed.
Lemma list_by {A} (q : A -> A -> bool) num : by_numbers q num -> by_numbers (list_eqb q) (flat_map num).
Proof.
  intros [R1 O1]. split.
  - induction v as [|x v IH]; cbn; [unfold finite_in; cbn; tauto|]. rewrite Bool.andb_true_iff, R1, IH, finite_app. tauto.
  - induction v as [|x v IH]; intros [|y w]; cbn; try discriminate; auto. rewrite Bool.andb_true_iff, no_zero_app. intros [H K] [N1 N2]. f_equal; auto.
Qed.
Lemma calendar_by : by_numbers vcalendar_eqb calendar_numbers.
Proof.
  destruct (list_by _ _ event_by) as [E1 E2], (list_by _ _ freebusy_by) as [F1 F2], (list_by _ _ journal_by) as [J1 J2], (list_by _ _ todo_by) as [T1 T2]. split.
  - intros v. rewrite (calendar_decides v v). unfold calendar_numbers. rewrite !finite_app, <- E1, <- F1, <- J1, <- T1.
    rewrite (list_decides _ _ event_decides (ca_events v) (ca_events v)), (list_decides _ _ freebusy_decides (ca_freebusy v) (ca_freebusy v)), (list_decides _ _ journal_decides (ca_journals v) (ca_journals v)), (list_decides _ _ todo_decides (ca_todo v) (ca_todo v)). split.
    + intros (e & f & j & t & A & B & C & D & Q). assert (e = ca_events v) by (rewrite Q at 1; reflexivity). assert (f = ca_freebusy v) by (rewrite Q at 1; reflexivity). assert (j = ca_journals v) by (rewrite Q at 1; reflexivity). assert (t = ca_todo v) by (rewrite Q at 1; reflexivity). subst. auto.
    + intros (A & B & C & D). exists (ca_events v), (ca_freebusy v), (ca_journals v), (ca_todo v). repeat (split; [assumption|]). destruct v; reflexivity.
  - intros v w H N. apply calendar_decides in H as (e & f & j & t & A & B & C & D & ->). unfold calendar_numbers in N. rewrite !no_zero_app in N. destruct N as (N1 & N2 & N3 & N4).
    apply (list_decides _ _ event_decides) in A. apply (list_decides _ _ freebusy_decides) in B. apply (list_decides _ _ journal_decides) in C. apply (list_decides _ _ todo_decides) in D.
    apply E2 in A; auto. apply F2 in B; auto. apply J2 in C; auto. apply T2 in D; auto. subst. destruct v; reflexivity.
Qed.
Theorem C99_itself : by_numbers vevent_eqb event_numbers /\ by_numbers vtodo_eqb todo_numbers /\ by_numbers vjournal_eqb journal_numbers /\ by_numbers vfreebusy_eqb freebusy_numbers /\ by_numbers vcalendar_eqb calendar_numbers.
Proof. repeat match goal with |- _ /\ _ => split end; [exact event_by|exact todo_by|exact journal_by|exact freebusy_by|exact calendar_by]. Qed.
(** The same of a component of any kind. *)
Lemma component_decides : decides component_eqb alike_component.
Proof.
  intros [a|a|a|a|a|a] [b|b|b|b|b|b]; cbn [component_eqb alike_component];
  first [exact (valarm_same a b)|exact (event_decides a b)|exact (freebusy_decides a b)|exact (journal_decides a b)|exact (vtimezone_same a b)|exact (todo_decides a b)|split; [discriminate|contradiction]].
Qed.
Lemma nothing_finite : finite_in []. Proof. intros x []. Qed.
Lemma eq_lawful {A} (q : A -> A -> bool) : decides q eq -> lawful q.
Proof. intros D. split; [intros a b; apply Bool.eq_iff_eq_true; rewrite (D a b), (D b a); split; congruence|intros a b c; rewrite (D a b), (D b c), (D a c); congruence]. Qed.
Lemma eq_by {A} (q : A -> A -> bool) : decides q eq -> by_numbers q (fun _ => []).
Proof. intros D. split; [intros v; rewrite (D v v); split; auto using nothing_finite|intros v w; rewrite (D v w); congruence]. Qed.
Theorem C99_component : decides component_eqb alike_component /\ lawful component_eqb /\ by_numbers component_eqb component_numbers.
Proof.
  split; [exact component_decides|].
  pose proof (eq_lawful _ valarm_same) as [A1 A2]. pose proof (eq_lawful _ vtimezone_same) as [Z1 Z2].
  destruct event_lawful as [E1 E2], freebusy_lawful as [F1 F2], journal_lawful as [J1 J2], todo_lawful as [T1 T2].
  destruct (eq_by _ valarm_same) as [A3 A4], (eq_by _ vtimezone_same) as [Z3 Z4], event_by as [E3 E4], freebusy_by as [F3 F4], journal_by as [J3 J4], todo_by as [T3 T4].
  split; split.
  - intros [a|a|a|a|a|a] [b|b|b|b|b|b]; cbn [component_eqb]; first [reflexivity|exact (A1 a b)|exact (E1 a b)|exact (F1 a b)|exact (J1 a b)|exact (Z1 a b)|exact (T1 a b)].
  - intros [a|a|a|a|a|a] [b|b|b|b|b|b]; cbn [component_eqb]; try (intros c H; discriminate H); intros [c|c|c|c|c|c]; cbn [component_eqb]; try (intros _ H; discriminate H);
    first [exact (A2 a b c)|exact (E2 a b c)|exact (F2 a b c)|exact (J2 a b c)|exact (Z2 a b c)|exact (T2 a b c)].
  - intros [a|a|a|a|a|a]; cbn [component_eqb component_numbers]; first [exact (A3 a)|exact (E3 a)|exact (F3 a)|exact (J3 a)|exact (Z3 a)|exact (T3 a)].
  - intros [a|a|a|a|a|a] [b|b|b|b|b|b]; cbn [component_eqb component_numbers]; try (intros H; discriminate H); intros H N; apply f_equal;
    first [exact (A4 a b H N)|exact (E4 a b H N)|exact (F4 a b H N)|exact (J4 a b H N)|exact (Z4 a b H N)|exact (T4 a b H N)].
Qed.
