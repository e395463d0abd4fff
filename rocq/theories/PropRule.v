(** * C26, C27: recurrence rules *)
From Verif Require Import Base Env Chrono Nom Types Ser Parser BaseFacts ChronoFacts DateText NomFacts SpecLine LineFacts SpecText SerFacts PropText SpecCal SpecDur PropDate PropDur PropVocab.
From Coq Require Import Permutation.

(** ** Specification of rule texts *)
(** NAME=VALUE parts joined by ';'. *)
Definition rule_text (l : list (str * str)) : str := join [59] (map (fun kv => fst kv ++ [61] ++ snd kv) l).
Definition rule_part (kv : str * str) : Prop := key_text (fst kv) /\ ~ In 59 (snd kv).
Definition known_names : list str :=
  [lit "FREQ"; lit "UNTIL"; lit "COUNT"; lit "INTERVAL"; lit "BYSECOND"; lit "BYMINUTE"; lit "BYHOUR"; lit "BYDAY";
   lit "BYMONTHDAY"; lit "BYYEARDAY"; lit "BYWEEKNO"; lit "BYMONTH"; lit "BYSETPOS"; lit "WKST"].
(** An integer text, optional sign. *)
Inductive signed_text : str -> Z -> Prop :=
| st_plain s n : unsigned_text s n -> signed_text s n
| st_minus ds : ds <> [] -> digit_string ds -> signed_text (45 :: ds) (- value_of ds).

(** ** Reading the parts *)
Lemma tails_item : tails p_item.
Proof. unfold p_item, terminated, separated_pair, p_key. eauto 10 with nom. Qed.
Lemma calm_item : calm p_item.
Proof. unfold p_item, terminated, separated_pair, p_key. eauto 10 with nom. Qed.
Lemma item_reads k v rest : key_text k -> ~ In 59 v -> rest = [] \/ (exists r, rest = 59 :: r) ->
  p_item (k ++ [61] ++ v ++ rest) = POk (match rest with [] => [] | _ :: r => r end) (k, v).
Proof.
  intros Hk Hv Hr. unfold p_item, terminated, separated_pair, pbind. cbn [app].
  rewrite p_key_app; [|auto|exact not_key_equals]. rewrite pchar_cons. unfold take_till.
  rewrite take_while_app.
  - destruct Hr as [->|[r ->]]; reflexivity.
  - intros c Hc. apply negb_true_iff, Z.eqb_neq. intros ->. tauto.
  - destruct Hr as [->|[r ->]]; reflexivity.
Qed.
Lemma item_nil : p_item [] = PErr. Proof. reflexivity. Qed.
Lemma items_read l : Forall rule_part l -> many_run p_item (rule_text l) l [].
Proof.
  induction l as [|[k v] l IH]; intros H; [constructor; reflexivity|]. inv H. destruct H2 as [Hk Hv]. cbn in Hk, Hv.
  destruct l as [|kv l].
  - cbn [rule_text map join fst snd]. pose proof (item_reads k v [] Hk Hv (or_introl eq_refl)) as E.
    rewrite app_nil_r in E. eapply mr_cons; [exact E| |constructor; reflexivity]. rewrite !app_length. cbn. lia.
  - change (rule_text ((k, v) :: kv :: l)) with ((k ++ [61] ++ v) ++ [59] ++ rule_text (kv :: l)).
    rewrite <- !app_assoc. set (T := rule_text (kv :: l)) in *.
    assert (E : p_item (k ++ [61] ++ v ++ [59] ++ T) = POk T (k, v)) by (apply (item_reads k v ([59] ++ T) Hk Hv); right; now exists T).
    eapply mr_cons; [exact E| |auto]. rewrite !app_length. cbn [length]. lia.
Qed.
Lemma rule_reads l : l <> [] -> Forall rule_part l -> recur_of_str (rule_text l) = match recur_of_items l with Ok r => Ok r | Err _ => Err EParser | Panic => Panic end.
Proof.
  intros Hn H. apply items_read in H. unfold recur_of_str, parse_rrule, cl_of_str, pmap_res, pbind. cbn [cl_value].
  assert (E : many1 p_item (rule_text l) = POk [] l).
  { inv H; [congruence|]. unfold many1, pbind. rewrite H0. apply many0_POk in H2; [|apply tails_item]. now rewrite H2. }
  rewrite E. now destruct (recur_of_items l).
Qed.

(** ** Writing the parts *)
Definition nonempty (l : list (str * str)) : list (str * str) :=
  flat_map (fun kv => match snd kv with [] => [] | _ => [kv] end) l.
Definition ne (s : str) : option str := match s with [] => None | _ => Some s end.
Lemma last_binding_app {V} (a b : list (str * V)) n :
  last_binding (a ++ b) n = match last_binding b n with Some v => Some v | None => last_binding a n end.
Proof.
  unfold last_binding. rewrite fold_left_app. generalize (fold_left (fun acc kv => if str_eqb n (fst kv) then Some (snd kv) else acc) a None).
  assert (G : forall o, fold_left (fun acc kv => if str_eqb n (fst kv) then Some (snd kv) else acc) b o =
    match fold_left (fun acc kv => if str_eqb n (fst kv) then Some (snd kv) else acc) b None with Some v => Some v | None => o end).
  { induction b as [|[k v] b IH]; intros o; cbn [fold_left fst snd]; auto. rewrite IH. destruct (str_eqb n k); auto. rewrite (IH (Some v)).
    destruct (fold_left _ b None); auto. }
  exact G.
Qed.
Lemma last_binding_notin {V} (l : list (str * V)) n : ~ In n (map fst l) -> last_binding l n = None.
Proof.
  induction l as [|[k v] l IH] using rev_ind; auto. rewrite last_binding_app, map_app. cbn. intros H.
  destruct (str_eqb n k) eqn:E; [apply str_eqb_eq in E; subst; exfalso; apply H; apply in_or_app; cbn; auto|].
  apply IH. intros Hin. apply H. apply in_or_app. auto.
Qed.
Lemma nonempty_names l n : In n (map fst (nonempty l)) -> In n (map fst l).
Proof.
  induction l as [|[k v] l IH]; auto. cbn [nonempty flat_map snd]. rewrite map_app. intros H. apply in_app_or in H as [H|H]; [|right; auto].
  destruct v; cbn in H; [tauto|]. left. cbn. tauto.
Qed.
Lemma last_binding_nonempty l n v : NoDup (map fst l) -> In (n, v) l -> last_binding (nonempty l) n = ne v.
Proof.
  induction l as [|[k x] l IH]; [intros _ []|]. cbn [map fst]. intros Hd Hin. inv Hd.
  change (nonempty ((k, x) :: l)) with ((match x with [] => [] | _ => [(k, x)] end) ++ nonempty l). rewrite last_binding_app.
  destruct Hin as [H|H].
  - inv H. rewrite last_binding_notin by (intros H; apply nonempty_names in H; auto). destruct v; [reflexivity|].
    cbn. now rewrite str_eqb_refl.
  - rewrite IH by auto. destruct v as [|c v]; [|reflexivity]. cbn [ne].
    assert (n <> k) by (intros ->; apply H1; apply (in_map fst) in H; exact H).
    destruct x; [reflexivity|]. cbn. apply str_eqb_neq in H0. now rewrite H0.
Qed.
Definition part_str (n x : str) : str := match x with [] => [] | _ => n ++ [61] ++ x ++ [59] end.
Lemma parts_text l : pop (flat_map (fun kv => part_str (fst kv) (snd kv)) l) = rule_text (nonempty l).
Proof.
  unfold rule_text. rewrite <- join_pop. f_equal. unfold nonempty.
  induction l as [|[k v] l IH]; auto. cbn [flat_map fst snd]. destruct v as [|c v]; [exact IH|].
  rewrite map_app, flat_map_app. f_equal; [|exact IH]. cbn [map flat_map fst snd]. rewrite app_nil_r, <- !app_assoc. reflexivity.
Qed.
Lemma vec_display {T} (show : T -> str) (l : list T) : s_ical (ser_vec (ser_display show)) l = Ok (join [44] (map show l)).
Proof.
  cbn [s_ical ser_vec]. unfold vec_ical. rewrite (ocollect_map _ show) by reflexivity. cbn [obind]. now rewrite join_pop.
Qed.

Section Rule.
  Context {E : Env}.
  Definition opt_show {A} (show : A -> str) (o : option A) : str := match o with Some a => show a | None => [] end.
  Definition ints_show (l : list Z) : str := join [44] (map show_int l).
  Definition rule_fields (r : recur) : list (str * str) :=
    [(lit "FREQ", freq_show (r_freq r)); (lit "UNTIL", opt_show date_str (r_until r)); (lit "COUNT", opt_show show_int (r_count r));
     (lit "INTERVAL", show_int (r_interval r)); (lit "BYSECOND", ints_show (r_by_second r)); (lit "BYMINUTE", ints_show (r_by_minute r));
     (lit "BYHOUR", ints_show (r_by_hour r)); (lit "BYDAY", join [44] (map wdn_show (r_by_day r)));
     (lit "BYMONTHDAY", ints_show (r_by_monthday r)); (lit "BYYEARDAY", ints_show (r_by_yearday r)); (lit "BYWEEKNO", ints_show (r_by_weekno r));
     (lit "BYMONTH", ints_show (r_by_month r)); (lit "BYSETPOS", ints_show (r_by_setpos r)); (lit "WKST", opt_show weekday_show (r_wkst r))].
  Lemma recur_written r : recur_ical r = Ok (rule_text (nonempty (rule_fields r))).
  Proof.
    assert (P : forall T (S : serialize T) n v x, s_ical S v = Ok x -> ser_part S n v = Ok (part_str n x)).
    { intros T S n v x H. unfold ser_part. now rewrite H. }
    assert (O : forall T (show : T -> str) o, s_ical (ser_opt (ser_display show)) o = Ok (opt_show show o)) by (intros T show [v|]; reflexivity).
    assert (D : s_ical (ser_opt ser_date) (r_until r) = Ok (opt_show date_str (r_until r))) by (destruct (r_until r); reflexivity).
    unfold recur_ical.
    rewrite (P _ ser_freq _ _ (freq_show (r_freq r)) eq_refl). cbn [obind].
    rewrite (P _ (ser_opt ser_date) _ _ _ D). cbn [obind].
    rewrite (P _ (ser_opt ser_u8) _ _ _ (O _ show_int _)). cbn [obind].
    rewrite (P _ ser_u8 _ _ (show_int (r_interval r)) eq_refl). cbn [obind].
    repeat (rewrite (P _ (ser_vec ser_i8) _ _ _ (vec_display show_int _)); cbn [obind]).
    rewrite (P _ (ser_vec ser_wdn) _ _ _ (vec_display wdn_show _)). cbn [obind].
    repeat (rewrite (P _ (ser_vec ser_i8) _ _ _ (vec_display show_int _)); cbn [obind]).
    rewrite (P _ (ser_opt ser_weekday) _ _ _ (O _ weekday_show _)). cbn [obind].
    f_equal. rewrite <- parts_text. f_equal. unfold rule_fields, ints_show. cbn [flat_map fst snd].
    rewrite app_nil_r. reflexivity.
  Qed.
End Rule.

(** ** Characters *)
Lemma show_int_chars n : Forall (fun c => 48 <= c <= 57 \/ c = 45) (show_int n) /\ show_int n <> [] \/ n < 0.
Proof.
  unfold show_int. destruct (Z.ltb_spec n 0); auto. left. destruct (show_nat_decimal n H) as (A & B & C). split; auto.
  eapply Forall_impl; [|exact B]. cbn. auto.
Qed.
Lemma show_int_ok n : Forall (fun c => 48 <= c <= 57 \/ c = 45) (show_int n) /\ show_int n <> [].
Proof.
  unfold show_int. destruct (Z.ltb_spec n 0).
  - destruct (show_nat_decimal (- n) ltac:(lia)) as (A & B & C). split; [|congruence]. constructor; auto.
    eapply Forall_impl; [|exact B]. cbn. auto.
  - destruct (show_nat_decimal n H) as (A & B & C). split; auto. eapply Forall_impl; [|exact B]. cbn. auto.
Qed.
Lemma join_chars (P : char -> Prop) sep l : P sep -> Forall (Forall P) l -> Forall P (join [sep] l).
Proof.
  intros Hs. induction 1 as [|x l Hx Hl IH]; [constructor|]. destruct l; [exact Hx|].
  change (join [sep] (x :: l :: l0)) with (x ++ [sep] ++ join [sep] (l :: l0)).
  apply Forall_app. split; auto. cbn [app]. constructor; auto.
Qed.
Lemma join_nonnil sep x l : x <> [] -> join [sep] (x :: l) <> [].
Proof. destruct l; cbn; auto. intros Hx E. apply app_eq_nil in E as [? _]. auto. Qed.
Lemma no_char (P : char -> Prop) c s : Forall P s -> ~ P c -> ~ In c s.
Proof. rewrite Forall_forall. intros H Hn Hin. apply Hn, H, Hin. Qed.

(** The rules that round trip. *)
Definition small_ints (l : list Z) : Prop := Forall (fun n => -128 <= n <= 127) l.
(** A date or zone-less date-time that the property parser reads back. *)
Definition writable_date (d : date) : Prop :=
  match d with
  | DDate n => exists y m dd, ymd_of_days n = (y, m, dd) /\ 0 <= y <= 9999
  | DDateTime (Naive n) => whole_second n /\ exists y, year_of n y /\ 0 <= y <= 9999
  | DDateTime (Local _) => False
  end.
Lemma writable_reads {E : Env} d : writable_date d ->
  pfinish (p_date_or_dt (date_str d)) = Ok d /\ Forall date_char (date_str d) /\ date_str d <> [].
Proof.
  destruct d as [n|[n|u]]; cbn [writable_date]; [| |tauto].
  - intros (y & m & dd & Hy & Hr). destruct (C19_date_round_trip E n y m dd Hy Hr) as (_ & _ & R).
    split; [exact R|]. cbn [date_str]. split; [apply date_show_chars|apply date_show_nonnil].
  - intros (Hw & y & Hy & Hr). destruct (C21_naive_round_trip E n y Hw Hy Hr) as (_ & _ & _ & R & _).
    split; [exact R|]. cbn [date_str dt_show]. split; [|apply ndt_show_nonnil].
    apply ndt_show_chars. eapply whole_wf; eauto.
Qed.
Definition writable_rule (r : recur) : Prop :=
  (forall d, r_until r = Some d -> writable_date d) /\ (forall n, r_count r = Some n -> 0 <= n <= 255) /\ 0 <= r_interval r <= 255 /\
  small_ints (r_by_second r) /\ small_ints (r_by_minute r) /\ small_ints (r_by_hour r) /\
  Forall (fun w => forall n, wn_ord w = Some n -> -128 <= n <= 127) (r_by_day r) /\
  small_ints (r_by_monthday r) /\ small_ints (r_by_yearday r) /\ small_ints (r_by_weekno r) /\ small_ints (r_by_month r) /\ small_ints (r_by_setpos r).

Lemma ne_Some s : s <> [] -> ne s = Some s. Proof. destruct s; [congruence|reflexivity]. Qed.
Lemma ints_read l : small_ints l -> match ne (ints_show l) with None => l = [] | Some v => by_list v = Ok l end.
Proof.
  intros H. destruct l as [|x l]; [reflexivity|]. unfold ints_show. rewrite ne_Some.
  2:{ cbn [map]. apply join_nonnil. apply show_int_ok. }
  unfold by_list. rewrite split_on_join; [|discriminate|].
  - apply ocollect_Ok. clear -H. unfold small_ints in H. induction H as [|y m Hy Hm IH]; constructor; auto.
    unfold parse_int. rewrite parse_signed_show; auto.
  - apply Forall_forall. intros s Hs. apply in_map_iff in Hs as (y & <- & _). eapply no_char; [apply show_int_ok|]. cbn. lia.
Qed.
Lemma ints_no_semi l : ~ In 59 (ints_show l).
Proof.
  apply (no_char (fun c => 48 <= c <= 57 \/ c = 45 \/ c = 44)); [|cbn; lia]. apply join_chars; [auto|].
  apply Forall_forall. intros s Hs. apply in_map_iff in Hs as (y & <- & _). eapply Forall_impl; [|apply show_int_ok]. cbn. tauto.
Qed.
Lemma wdn_chars w : Forall (fun c => 48 <= c <= 57 \/ c = 45 \/ 65 <= c <= 90) (wdn_show w) /\ wdn_show w <> [].
Proof.
  unfold wdn_show. split.
  - apply Forall_app. split.
    + destruct (wn_ord w); [|constructor]. eapply Forall_impl; [|apply show_int_ok]. cbn. tauto.
    + destruct (wn_weekday w); repeat (apply Forall_cons; [cbn; lia|]); apply Forall_nil.
  - intros H. apply app_eq_nil in H as [_ H]. destruct (wn_weekday w); discriminate.
Qed.
Lemma wdns_read l : Forall (fun w => forall n, wn_ord w = Some n -> -128 <= n <= 127) l ->
  match ne (join [44] (map wdn_show l)) with None => l = [] | Some v => bywdaylist v = Ok l end.
Proof.
  intros H. destruct l as [|x l]; [reflexivity|]. rewrite ne_Some.
  2:{ cbn [map]. apply join_nonnil. apply wdn_chars. }
  unfold bywdaylist. rewrite split_on_join; [|discriminate|].
  - apply ocollect_Ok. clear -H. induction H as [|y m Hy Hm IH]; constructor; auto. now apply C29_weekday_number_round_trip.
  - apply Forall_forall. intros s Hs. apply in_map_iff in Hs as (y & <- & _). eapply no_char; [apply wdn_chars|]. cbn. lia.
Qed.
Lemma get_with_map {A} l n (f : str -> outcome A) : get_with (map_of l) n f = match last_binding l n with None => Ok None | Some v => omap Some (f v) end.
Proof. unfold get_with. now rewrite map_of_get. Qed.
Lemma get_list_map {A} l n (f : str -> outcome (list A)) : get_list (map_of l) n f = match last_binding l n with None => Ok [] | Some v => f v end.
Proof. unfold get_list, get_with. rewrite map_of_get. destruct (last_binding l n) as [s|]; auto. cbn. destruct (f s); reflexivity. Qed.

Theorem C26_rule_round_trip :
  forall (E : Env) (r : recur), writable_rule r -> exists s, recur_ical r = Ok s /\ recur_of_str s = Ok r /\
    (forall c, cl_value c = s -> parse_rrule c = Ok r).
Proof.
  intros E r (Hu & Hc & Hi & H1 & H2 & H3 & H4 & H5 & H6 & H7 & H8 & H9). eexists. split; [apply recur_written|].
  assert (R : recur_of_str (rule_text (nonempty (rule_fields r))) = Ok r).
  2:{ split; auto. intros c Ec. rewrite <- R. unfold recur_of_str, parse_rrule. rewrite Ec. reflexivity. }
  rewrite rule_reads.
  - unfold recur_of_items. fold (@map_of str (nonempty (rule_fields r))). rewrite !map_of_get, !get_with_map, !get_list_map.
    assert (ND : NoDup (map fst (rule_fields r))).
    { change (map fst (rule_fields r)) with known_names.
      assert (G : nodup (list_eq_dec Z.eq_dec) known_names = known_names) by (vm_compute; reflexivity). rewrite <- G. apply NoDup_nodup. }
    repeat match goal with |- context [last_binding (nonempty (rule_fields r)) ?n] =>
      erewrite (last_binding_nonempty (rule_fields r) n) by (exact ND || (unfold rule_fields; repeat (left; reflexivity) || (repeat (first [left; reflexivity|right])))) end.
    rewrite (ne_Some (freq_show (r_freq r))) by (destruct (r_freq r); discriminate).
    assert (F : freq_of_str (freq_show (r_freq r)) = Ok (r_freq r)) by (destruct (r_freq r); reflexivity). rewrite F. cbn [obind].
    assert (U : match ne (opt_show date_str (r_until r)) with Some v => omap Some (pfinish (p_date_or_dt v)) | None => Ok None end = Ok (r_until r)).
    { destruct (r_until r) as [d|]; [|reflexivity]. cbn [opt_show]. destruct (writable_reads d (Hu d eq_refl)) as (A & _ & B).
      rewrite ne_Some by auto. now rewrite A. }
    assert (C : match ne (opt_show show_int (r_count r)) with Some v => omap Some (parse_u8 v) | None => Ok None end = Ok (r_count r)).
    { destruct (r_count r) as [n|]; [|reflexivity]. cbn [opt_show]. rewrite ne_Some by apply show_int_ok.
      unfold parse_u8, parse_int. rewrite parse_unsigned_show; [reflexivity|]. unfold U8MAX. auto. }
    assert (I : match ne (show_int (r_interval r)) with Some v => omap Some (parse_u8 v) | None => Ok None end = Ok (Some (r_interval r))).
    { rewrite ne_Some by apply show_int_ok. unfold parse_u8, parse_int. rewrite parse_unsigned_show; [reflexivity|]. unfold U8MAX. auto. }
    assert (W : match ne (opt_show weekday_show (r_wkst r)) with Some v => omap Some (weekday_of_str v) | None => Ok None end = Ok (r_wkst r)).
    { destruct (r_wkst r) as [w|]; [|reflexivity]. destruct w; reflexivity. }
    assert (L : forall l, small_ints l -> match ne (ints_show l) with Some v => by_list v | None => Ok [] end = Ok l).
    { intros l Hl. apply ints_read in Hl. destruct (ne (ints_show l)); congruence. }
    assert (LD : match ne (join [44] (map wdn_show (r_by_day r))) with Some v => bywdaylist v | None => Ok [] end = Ok (r_by_day r)).
    { apply wdns_read in H4. destruct (ne _); congruence. }
    rewrite U. cbn [obind]. rewrite C. cbn [obind]. rewrite I. cbn [obind].
    do 3 (rewrite L by assumption; cbn [obind]). rewrite LD. cbn [obind].
    do 5 (rewrite L by assumption; cbn [obind]). rewrite W. cbn [obind]. now destruct r.
  - intros H. assert (X : In (lit "FREQ", freq_show (r_freq r)) (nonempty (rule_fields r))).
    { unfold nonempty. apply in_flat_map. exists (lit "FREQ", freq_show (r_freq r)). split; [cbn; auto|]. destruct (r_freq r); cbn; auto. }
    rewrite H in X. destruct X.
  - assert (G : Forall rule_part (rule_fields r)).
    { assert (K : forall n v, key_text n -> ~ In 59 v -> rule_part (n, v)) by (intros; split; auto).
      unfold rule_fields. repeat (apply Forall_cons; [apply K; [apply key_text_lit; reflexivity|auto using ints_no_semi]|]); [..|apply Forall_nil].
      - destruct (r_freq r); cbn; lia.
      - destruct (r_until r) as [d|]; [|cbn; tauto]. cbn [opt_show]. eapply no_char; [apply (writable_reads d (Hu d eq_refl))|]. unfold date_char. lia.
      - destruct (r_count r) as [n|]; [|cbn; tauto]. eapply no_char; [apply show_int_ok|]. cbn; lia.
      - eapply no_char; [apply show_int_ok|]. cbn; lia.
      - apply (no_char (fun c => 48 <= c <= 57 \/ c = 45 \/ 65 <= c <= 90 \/ c = 44)); [|cbn; lia]. apply join_chars; [auto|].
        apply Forall_forall. intros s Hs. apply in_map_iff in Hs as (y & <- & _). eapply Forall_impl; [|apply wdn_chars]. cbn. tauto.
      - destruct (r_wkst r) as [[]|]; cbn; lia. }
    unfold nonempty. apply Forall_flat_map. eapply Forall_impl; [|exact G]. intros [k v] Hp. cbn [snd]. destruct v; auto.
Qed.
Definition example_rule : recur :=
  mk_recur Monthly (Some (DDate 19782)) (Some 255) 2 [0] [] [] [mk_wdn Monday (Some (-1)); mk_wdn Friday None] [-1; 15] [-128; 127] [] [] [1] (Some Sunday).
Example C26_nonvacuous : writable_rule example_rule /\
  (forall E : Env, recur_ical example_rule =
    Ok (lit "FREQ=MONTHLY;UNTIL=20240229;COUNT=255;INTERVAL=2;BYSECOND=0;BYDAY=-1MO,FR;BYMONTHDAY=-1,15;BYYEARDAY=-128,127;BYSETPOS=1;WKST=SU")).
Proof.
  split; [|intros E; vm_compute; reflexivity].
  unfold writable_rule, small_ints. cbn [example_rule r_freq r_until r_count r_interval r_by_second r_by_minute r_by_hour r_by_day r_by_monthday r_by_yearday r_by_weekno r_by_month r_by_setpos r_wkst].
  split; [intros d [= <-]; exists 2024, 2, 29; split; [reflexivity|lia]|]. split; [intros n [= <-]; lia|]. split; [lia|].
  repeat (split; [repeat (apply Forall_cons; [first [lia|cbn; congruence|cbn; intros n [= <-]; lia]|]); apply Forall_nil|]).
  repeat (apply Forall_cons; [lia|]); apply Forall_nil.
Qed.

(** ** C27 *)
Lemma items_depend l1 l2 : (forall n, In n known_names -> last_binding l1 n = last_binding l2 n) -> recur_of_items l1 = recur_of_items l2.
Proof.
  intros H. unfold recur_of_items. fold (@map_of str l1). fold (@map_of str l2). rewrite !map_of_get, !get_with_map, !get_list_map.
  assert (K : forall n, In n known_names -> last_binding l1 n = last_binding l2 n) by exact H. unfold known_names in K.
  rewrite !K by (cbn [In]; tauto). reflexivity.
Qed.
(** A rule depends only on the last value of each of the fourteen known names. *)
Theorem C27_last_value_of_known_names :
  forall l1 l2, l1 <> [] -> l2 <> [] -> Forall rule_part l1 -> Forall rule_part l2 ->
    (forall n, In n known_names -> last_binding l1 n = last_binding l2 n) ->
    recur_of_str (rule_text l1) = recur_of_str (rule_text l2).
Proof. intros l1 l2 N1 N2 H1 H2 H. rewrite !rule_reads by auto. now rewrite (items_depend l1 l2 H). Qed.
Lemma last_binding_perm {V} (l1 l2 : list (str * V)) : Permutation l1 l2 -> NoDup (map fst l1) -> forall n, last_binding l1 n = last_binding l2 n.
Proof.
  assert (G : forall l : list (str * V), NoDup (map fst l) -> forall n v, last_binding l n = Some v <-> In (n, v) l).
  { induction l as [|[k x] l IH]; intros Hd n v; [cbn; split; [discriminate|tauto]|]. cbn [map fst] in Hd. inv Hd.
    change ((k, x) :: l) with ([(k, x)] ++ l). rewrite last_binding_app. specialize (IH H2 n v).
    destruct (last_binding l n) as [w|] eqn:E.
    - rewrite IH. cbn. split; [auto|]. intros [Hk|Hk]; auto. inv Hk. exfalso. apply H1.
      destruct (in_dec (list_eq_dec Z.eq_dec) n (map fst l)) as [?|Hn]; auto. apply last_binding_notin in Hn. congruence.
    - cbn. destruct (str_eqb n k) eqn:Ek.
      + apply str_eqb_eq in Ek as ->. split; [intros [= ->]; auto|]. intros [Hk|Hk]; [congruence|]. apply IH in Hk. congruence.
      + split; [discriminate|]. intros [Hk|Hk]; [inv Hk; rewrite str_eqb_refl in Ek; discriminate|]. apply IH in Hk. congruence. }
  intros P Hd n. assert (Hd2 : NoDup (map fst l2)) by (eapply Permutation_NoDup; [apply Permutation_map; exact P|exact Hd]).
  destruct (last_binding l1 n) as [v|] eqn:E1.
  - symmetry. apply G; auto. apply G in E1; auto. eapply Permutation_in; eauto.
  - destruct (last_binding l2 n) as [v|] eqn:E2; auto. apply G in E2; auto.
    apply Permutation_sym in P. eapply Permutation_in in E2; [|exact P]. apply G in E2; auto. congruence.
Qed.
Theorem C27_order_insensitive :
  forall l1 l2, l1 <> [] -> Forall rule_part l1 -> NoDup (map fst l1) -> Permutation l1 l2 ->
    recur_of_str (rule_text l1) = recur_of_str (rule_text l2).
Proof.
  intros l1 l2 N H Hd P. apply C27_last_value_of_known_names; auto.
  - intros ->. apply Permutation_sym, Permutation_nil in P. auto.
  - eapply Permutation_Forall; eauto.
  - intros n _. now apply last_binding_perm.
Qed.

Lemma parse_signed_iff max s n : 0 <= max -> parse_signed max s = Some n <-> signed_text s n /\ - max - 1 <= n <= max.
Proof.
  intros Hm.
  assert (D : forall m ds v, parse_digits m ds = Some v <-> ds <> [] /\ digit_string ds /\ value_of ds = v /\ v <= m).
  { intros m ds v. rewrite parse_digits_Some, digit_string_all, value_of_digits. tauto. }
  assert (NN : forall s n, unsigned_text s n -> 0 <= n) by (intros ? ? (ds & _ & _ & B & <-); now apply value_nonneg).
  destruct s as [|c r]; cbn [parse_signed].
  - split; [discriminate|]. intros [H _]. inv H. destruct H0 as (ds & [<-|E] & H1 & _); [tauto|discriminate].
  - destruct (Z.eqb_spec c 43) as [->|Hc].
    + rewrite D. split.
      * intros (A & B & <- & M). pose proof (value_nonneg _ B). split; [constructor; exists r; auto 10|lia].
      * intros [H M]. inv H. destruct H0 as (ds & [<-|E] & H1 & H2 & H3); [inv H2; lia|]. inv E. repeat split; auto. lia.
    + destruct (Z.eqb_spec c 45) as [->|Hc2].
      * split.
        -- destruct (parse_digits (max + 1) r) as [v|] eqn:E; [|discriminate]. cbn. intros [= <-]. apply D in E as (A & B & <- & M).
           pose proof (value_nonneg _ B). split; [now constructor|lia].
        -- intros [H M]. inv H.
           ++ destruct H0 as (ds & [<-|E] & H1 & H2 & H3); [inv H2; lia|congruence].
           ++ assert (E : parse_digits (max + 1) r = Some (value_of r)) by (apply D; repeat split; auto; lia). now rewrite E.
      * rewrite D. split.
        -- intros (A & B & <- & M). pose proof (value_nonneg _ B). split; [constructor; exists (c :: r); auto 10|lia].
        -- intros [H M]. inv H; [|congruence]. destruct H0 as (ds & [<-|E] & H1 & H2 & H3); [repeat split; auto; lia|congruence].
Qed.
(** ** What an accepted rule means, field by field *)
Definition list_text {A} (item : str -> A -> Prop) (s : str) (l : list A) : Prop :=
  exists parts, s = join [44] parts /\ parts <> [] /\ Forall (fun p => ~ In 44 p) parts /\ Forall2 item parts l.
(** Absent: the default; present: the last value. *)
Definition field_is {A} (l : list (str * str)) (n : str) (default : A) (rel : str -> A -> Prop) (v : A) : Prop :=
  match last_binding l n with None => v = default | Some s => rel s v end.
Definition small_int_text (s : str) (n : Z) : Prop := signed_text s n /\ -128 <= n <= 127.
Definition byte_text (s : str) (n : Z) : Prop := unsigned_text s n /\ n <= 255.
Definition opt_rel {A} (rel : str -> A -> Prop) (s : str) (o : option A) : Prop := exists a, o = Some a /\ rel s a.
Definition rule_means (l : list (str * str)) (r : recur) : Prop :=
  (exists s, last_binding l (lit "FREQ") = Some s /\ In (r_freq r, s) freq_names) /\
  field_is l (lit "UNTIL") None (opt_rel (fun s d => read_date s = Ok d)) (r_until r) /\
  field_is l (lit "COUNT") None (opt_rel byte_text) (r_count r) /\
  field_is l (lit "INTERVAL") 1 byte_text (r_interval r) /\
  field_is l (lit "BYSECOND") [] (list_text small_int_text) (r_by_second r) /\
  field_is l (lit "BYMINUTE") [] (list_text small_int_text) (r_by_minute r) /\
  field_is l (lit "BYHOUR") [] (list_text small_int_text) (r_by_hour r) /\
  field_is l (lit "BYDAY") [] (list_text (fun s w => wdn_of_str s = Ok w)) (r_by_day r) /\
  field_is l (lit "BYMONTHDAY") [] (list_text small_int_text) (r_by_monthday r) /\
  field_is l (lit "BYYEARDAY") [] (list_text small_int_text) (r_by_yearday r) /\
  field_is l (lit "BYWEEKNO") [] (list_text small_int_text) (r_by_weekno r) /\
  field_is l (lit "BYMONTH") [] (list_text small_int_text) (r_by_month r) /\
  field_is l (lit "BYSETPOS") [] (list_text small_int_text) (r_by_setpos r) /\
  field_is l (lit "WKST") None (opt_rel (fun s w => exists n rest, In (w, n) weekday_names /\ s = n ++ rest)) (r_wkst r).
Lemma list_text_iff {A} (f : str -> outcome A) (item : str -> A -> Prop) s l : (forall p a, f p = Ok a <-> item p a) ->
  ocollect f (split_on 44 s) = Ok l <-> list_text item s l.
Proof.
  intros H. rewrite ocollect_Ok. split.
  - intros G. exists (split_on 44 s). split; [symmetry; apply join_split_on|]. split; [apply split_on_nonnil|].
    split; [apply split_on_notin|]. clear -G H. induction G; constructor; auto. now apply H.
  - intros (parts & -> & Hn & Hf & G). rewrite split_on_join by auto. clear -G H. induction G; constructor; auto. now apply H.
Qed.
Lemma by_list_iff s l : by_list s = Ok l <-> list_text small_int_text s l.
Proof.
  apply list_text_iff. intros p a. unfold parse_int, small_int_text. change (-128) with (- I8MAX - 1). change 127 with I8MAX.
  rewrite <- parse_signed_iff by (unfold I8MAX; lia). destruct (parse_signed I8MAX p); split; congruence.
Qed.
Lemma field_opt {A} l n (f : str -> outcome A) (rel : str -> A -> Prop) o : (forall s a, f s = Ok a <-> rel s a) ->
  get_with (map_of l) n f = Ok o <-> field_is l n None (opt_rel rel) o.
Proof.
  intros H. rewrite get_with_map. unfold field_is. destruct (last_binding l n) as [s|]; [|split; congruence].
  unfold opt_rel. split.
  - intros G. apply omap_Ok in G as (a & Ga & ->). exists a. split; auto. now apply H.
  - intros (a & -> & Ga). apply H in Ga. now rewrite Ga.
Qed.
Lemma field_list {A} l n (f : str -> outcome (list A)) (rel : str -> list A -> Prop) o : (forall s a, f s = Ok a <-> rel s a) ->
  get_list (map_of l) n f = Ok o <-> field_is l n [] rel o.
Proof.
  intros H. rewrite get_list_map. unfold field_is. destruct (last_binding l n) as [s|]; [apply H|split; congruence].
Qed.
Lemma byte_iff s n : parse_u8 s = Ok n <-> byte_text s n.
Proof. unfold parse_u8, byte_text. change 255 with U8MAX. rewrite <- parse_unsigned_iff. unfold parse_int. destruct (parse_unsigned U8MAX s); split; congruence. Qed.
Lemma interval_iff l v : (exists o, get_with (map_of l) (lit "INTERVAL") parse_u8 = Ok o /\ match o with Some i => i | None => 1 end = v) <->
  field_is l (lit "INTERVAL") 1 byte_text v.
Proof.
  rewrite get_with_map. unfold field_is. destruct (last_binding l (lit "INTERVAL")) as [s|].
  - split.
    + intros (o & H & <-). apply omap_Ok in H as (a & Ha & ->). now apply byte_iff.
    + intros H. apply byte_iff in H. exists (Some v). now rewrite H.
  - split; [intros (o & [= <-] & <-); auto|]. intros ->. eauto.
Qed.
Theorem C27_accepted_rule :
  forall l r, l <> [] -> Forall rule_part l -> (recur_of_str (rule_text l) = Ok r <-> rule_means l r).
Proof.
  intros l r Hn Hp. rewrite rule_reads by auto.
  transitivity (recur_of_items l = Ok r); [destruct (recur_of_items l); split; congruence|].
  unfold recur_of_items. fold (@map_of str l). rewrite map_of_get.
  assert (BL := by_list_iff). assert (BY := byte_iff).
  assert (WD : forall s a, weekday_of_str s = Ok a <-> exists n rest, In (a, n) weekday_names /\ s = n ++ rest) by apply C28_weekday.
  assert (BD : forall s a, bywdaylist s = Ok a <-> list_text (fun s w => wdn_of_str s = Ok w) s a) by (intros; apply list_text_iff; tauto).
  assert (DT : forall s a, pfinish (p_date_or_dt s) = Ok a <-> read_date s = Ok a) by (intros; reflexivity).
  assert (FQ : forall s v, freq_of_str s = Ok v <-> In (v, s) freq_names) by apply C28_freq.
  unfold rule_means. split.
  - destruct (last_binding l (lit "FREQ")) as [fs|]; [|discriminate]. intros H.
    apply obind_Ok in H as (fq & Hfq & H). apply obind_Ok in H as (un & Hun & H). apply obind_Ok in H as (co & Hco & H).
    apply obind_Ok in H as (iv & Hiv & H). apply obind_Ok in H as (l1 & H1 & H). apply obind_Ok in H as (l2 & H2 & H).
    apply obind_Ok in H as (l3 & H3 & H). apply obind_Ok in H as (l4 & H4 & H). apply obind_Ok in H as (l5 & H5 & H).
    apply obind_Ok in H as (l6 & H6 & H). apply obind_Ok in H as (l7 & H7 & H). apply obind_Ok in H as (l8 & H8 & H).
    apply obind_Ok in H as (l9 & H9 & H). apply obind_Ok in H as (wk & Hwk & H). injection H as <-.
    cbn [r_freq r_until r_count r_interval r_by_second r_by_minute r_by_hour r_by_day r_by_monthday r_by_yearday r_by_weekno r_by_month r_by_setpos r_wkst].
    split; [exists fs; split; auto; now apply FQ|].
    split; [now apply (field_opt l _ _ _ _ DT)|]. split; [now apply (field_opt l _ _ _ _ BY)|]. split; [apply interval_iff; eauto|].
    repeat (split; [first [now apply (field_list l _ _ _ _ BL) | now apply (field_list l _ _ _ _ BD)]|]).
    now apply (field_opt l _ _ _ _ WD).
  - intros ((fs & Hf & Hfq) & Hun & Hco & Hiv & H1 & H2 & H3 & H4 & H5 & H6 & H7 & H8 & H9 & Hwk). rewrite Hf.
    apply FQ in Hfq. apply (field_opt l _ _ _ _ DT) in Hun. apply (field_opt l _ _ _ _ BY) in Hco. apply interval_iff in Hiv as (iv & Hiv & Ei).
    apply (field_list l _ _ _ _ BL) in H1, H2, H3, H5, H6, H7, H8, H9. apply (field_list l _ _ _ _ BD) in H4. apply (field_opt l _ _ _ _ WD) in Hwk.
    rewrite Hfq, Hun, Hco, Hiv, H1, H2, H3, H4, H5, H6, H7, H8, H9, Hwk. cbn [obind]. rewrite Ei. now destruct r.
Qed.
(** In particular: COUNT or INTERVAL above 255, or a BY number outside -128..127, is rejected. *)
Theorem C27_out_of_range_rejected :
  forall l r n s v, l <> [] -> Forall rule_part l -> last_binding l n = Some s ->
    (In n [lit "COUNT"; lit "INTERVAL"] -> unsigned_text s v -> 255 < v -> recur_of_str (rule_text l) <> Ok r) /\
    (In n [lit "BYSECOND"; lit "BYMINUTE"; lit "BYHOUR"; lit "BYMONTHDAY"; lit "BYYEARDAY"; lit "BYWEEKNO"; lit "BYMONTH"; lit "BYSETPOS"] ->
     signed_text s v -> ~ -128 <= v <= 127 -> recur_of_str (rule_text l) <> Ok r).
Proof.
  intros l r n s v Hn Hp Hb. split; intros Hin Ht Hv H; apply C27_accepted_rule in H; auto;
  destruct H as (_ & _ & Hco & Hiv & H1 & H2 & H3 & H4 & H5 & H6 & H7 & H8 & H9 & _).
  - assert (U : forall w, byte_text s w -> False).
    { intros w [Hw Hm]. assert (w = v) by (assert (A : parse_unsigned v s = Some v) by (apply parse_unsigned_iff; split; auto; lia);
        assert (B : parse_unsigned v s = Some w) by (apply parse_unsigned_iff; split; auto; lia); congruence). lia. }
    destruct Hin as [<-|[<-|[]]].
    + unfold field_is in Hco. rewrite Hb in Hco. destruct Hco as (a & _ & Ha). now apply U in Ha.
    + unfold field_is in Hiv. rewrite Hb in Hiv. now apply U in Hiv.
  - assert (U : forall w, list_text small_int_text s w -> False).
    { intros w (parts & Es & Np & Nc & F2).
      assert (NC : ~ In 44 s).
      { inversion Ht as [s0 n0 (ds & [->| ->] & _ & D & _)|ds Hne D].
        - intros I. unfold digit_string in D. rewrite Forall_forall in D. apply D in I. lia.
        - intros [I|I]; [lia|]. unfold digit_string in D. rewrite Forall_forall in D. apply D in I. lia.
        - intros [I|I]; [lia|]. unfold digit_string in D. rewrite Forall_forall in D. apply D in I. lia. }
      assert (parts = [s]) as -> by (rewrite <- (split_on_none 44 s NC), Es; now rewrite split_on_join).
      inversion F2 as [|? y ? ? [Hy Hr]]; subst. set (M := Z.abs v + Z.abs y).
      assert (A : parse_signed M s = Some v) by (apply parse_signed_iff; [unfold M; lia|split; auto; unfold M; lia]).
      assert (B : parse_signed M s = Some y) by (apply parse_signed_iff; [unfold M; lia|split; auto; unfold M; lia]). assert (v = y) by congruence. lia. }
    cbn [In] in Hin. unfold field_is in *.
    repeat (destruct Hin as [<-|Hin]; [match goal with H : context [last_binding l ?x] |- _ => match type of Hb with last_binding l x = _ => rewrite Hb in H; now apply U in H end end|]).
    destruct Hin.
Qed.
Example C27_nonvacuous :
  let l1 := [(lit "FREQ", lit "DAILY"); (lit "COUNT", lit "3"); (lit "X-FOO", lit "bar")] in
  let l2 := [(lit "COUNT", lit "3"); (lit "X-FOO", lit "bar"); (lit "FREQ", lit "DAILY")] in
  rule_text l1 = lit "FREQ=DAILY;COUNT=3;X-FOO=bar" /\ Forall rule_part l1 /\ Permutation l1 l2 /\
  recur_of_str (rule_text l2) = Ok (mk_recur Daily None (Some 3) 1 [] [] [] [] [] [] [] [] [] None) /\
  recur_of_str (lit "FREQ=DAILY;COUNT=256") = Err EParser /\ recur_of_str (lit "FREQ=YEARLY;BYYEARDAY=200") = Err EParser.
Proof.
  repeat split.
  - repeat (apply Forall_cons; [split; [apply key_text_lit; reflexivity|cbn; lia]|]); apply Forall_nil.
  - apply (Permutation_app_comm [(lit "FREQ", lit "DAILY")] [(lit "COUNT", lit "3"); (lit "X-FOO", lit "bar")]).
Qed.
(** A rule without FREQ does not fail: it panics. *)
Theorem C27_missing_freq_panics :
  forall l, l <> [] -> Forall rule_part l -> last_binding l (lit "FREQ") = None -> recur_of_str (rule_text l) = Panic.
Proof. intros l Hn Hp Hf. rewrite rule_reads by auto. unfold recur_of_items. fold (@map_of str l). now rewrite map_of_get, Hf. Qed.
