(** * C28-C30, C32: closed vocabularies, weekday numbers, UTC offsets, integers *)
From Verif Require Import Base Env Chrono Nom Types Ser Parser BaseFacts ChronoFacts DateText NomFacts SpecCal SpecDur PropDate PropDur.

(** ** C28 *)
(** RFC 5545 names, as tables. *)
Definition status_names : list (status * str) :=
  [(Tentative, lit "TENTATIVE"); (Confirmed, lit "CONFIRMED"); (Cancelled, lit "CANCELLED"); (NeedsAction, lit "NEEDS-ACTION");
   (Completed, lit "COMPLETED"); (InProcess, lit "IN-PROCESS"); (Draft, lit "DRAFT"); (Final, lit "FINAL")].
Definition transp_names : list (transparency * str) := [(Opaque, lit "OPAQUE"); (Transparent, lit "TRANSPARENT")].
Definition freq_names : list (freq * str) :=
  [(Secondly, lit "SECONDLY"); (Minutely, lit "MINUTELY"); (Hourly, lit "HOURLY"); (Daily, lit "DAILY");
   (Weekly, lit "WEEKLY"); (Monthly, lit "MONTHLY"); (Yearly, lit "YEARLY")].
Definition weekday_names : list (weekday * str) :=
  [(Sunday, lit "SU"); (Monday, lit "MO"); (Tuesday, lit "TU"); (Wednesday, lit "WE"); (Thursday, lit "TH");
   (Friday, lit "FR"); (Saturday, lit "SA")].
(** [parse] and [show] are inverse along a table of distinct names that covers
    the type, and everything else is an error. *)
Definition closed_vocabulary {A} (names : list (A * str)) (show : A -> str) (parse : str -> outcome A) : Prop :=
  (forall v, In (v, show v) names) /\ NoDup (map snd names) /\
  (forall s v, parse s = Ok v <-> In (v, s) names) /\
  (forall s, ~ In s (map snd names) -> exists e, parse s = Err e).

Ltac eqb_cases := repeat match goal with
  | |- context [if str_eqb ?s ?t then _ else _] => let E := fresh "E" in destruct (str_eqb s t) eqn:E; [apply str_eqb_eq in E; subst|apply str_eqb_neq in E]
  end.
Ltac nodup := repeat constructor; cbn; intuition discriminate.
Ltac table := intros s v; split; [eqb_cases; intros H; inv H; cbn; auto 12|
  cbn; intros H; repeat (destruct H as [H|H]; [inv H; reflexivity|]); destruct H].
Lemma C28_status : closed_vocabulary status_names status_show status_of_str.
Proof.
  split; [intros []; cbn; auto 12|]. split; [nodup|]. split; [unfold status_of_str; table|].
  intros s Hs. unfold status_of_str. eqb_cases; eauto; exfalso; apply Hs; cbn; auto 12.
Qed.
Lemma C28_transp : closed_vocabulary transp_names transp_show transp_of_str.
Proof.
  split; [intros []; cbn; auto 12|]. split; [nodup|]. split; [unfold transp_of_str; table|].
  intros s Hs. unfold transp_of_str. eqb_cases; eauto; exfalso; apply Hs; cbn; auto 12.
Qed.
Lemma C28_freq : closed_vocabulary freq_names freq_show freq_of_str.
Proof.
  split; [intros []; cbn; auto 12|]. split; [nodup|]. split; [unfold freq_of_str; table|].
  intros s Hs. unfold freq_of_str. eqb_cases; eauto; exfalso; apply Hs; cbn; auto 12.
Qed.
Theorem C28_closed_vocabularies :
  closed_vocabulary status_names status_show status_of_str /\
  closed_vocabulary transp_names transp_show transp_of_str /\
  closed_vocabulary freq_names freq_show freq_of_str /\
  (forall c, parse_status c = status_of_str (cl_value c)) /\ (forall c, parse_transp c = transp_of_str (cl_value c)).
Proof. split; [exact C28_status|]. split; [exact C28_transp|]. split; [exact C28_freq|]. split; reflexivity. Qed.
(** A weekday is read from the first two chars; whatever follows is ignored. *)
Lemma weekday_of_table a b w : weekday_of a b = Ok w <-> In (w, [a; b]) weekday_names.
Proof.
  unfold weekday_of. split.
  - repeat match goal with |- context [if str_eqb ?s ?t then _ else _] => let E := fresh "E" in destruct (str_eqb s t) eqn:E;
      [apply str_eqb_eq in E; rewrite E; intros H; inv H; cbn; auto 12|clear E] end. discriminate.
  - cbn. intros H. repeat (destruct H as [H|H]; [inv H; reflexivity|]). destruct H.
Qed.
Theorem C28_weekday :
  (forall w, In (w, weekday_show w) weekday_names) /\ NoDup (map snd weekday_names) /\
  (forall s w, weekday_of_str s = Ok w <-> exists n rest, In (w, n) weekday_names /\ s = n ++ rest) /\
  (forall s, weekday_of_str s <> Panic).
Proof.
  split; [intros []; cbn; auto 12|]. split; [nodup|].
  assert (E : forall a b r, weekday_of_str (a :: b :: r) = match weekday_of a b with Ok w => Ok w | Err _ => Err EParser | Panic => Panic end).
  { intros a b r. unfold weekday_of_str, p_weekday, pmap_res, pbind, anychar. cbn. destruct (weekday_of a b); reflexivity. }
  split.
  - intros s w. split.
    + intros H. destruct s as [|a [|b r]]; try discriminate. rewrite E in H. destruct (weekday_of a b) as [x| |] eqn:W; inv H.
      apply weekday_of_table in W. exists [a; b], r. auto.
    + intros (n & rest & Hin & ->). cbn in Hin. repeat (destruct Hin as [Hin|Hin]; [inv Hin; reflexivity|]). destruct Hin.
  - intros s. destruct s as [|a [|b r]]; try discriminate. rewrite E. unfold weekday_of. repeat (destruct (str_eqb _ _); [discriminate|]). discriminate.
Qed.
Lemma ascii_upper_fix c : 0 <= c < 128 -> 0 <= ascii_upper c < 128 /\ ascii_upper (ascii_upper c) = ascii_upper c.
Proof.
  intros H. unfold ascii_upper. destruct (Z.leb_spec 97 c), (Z.leb_spec c 122); cbn [andb].
  - destruct (Z.leb_spec 97 (c - 32)); cbn [andb]; lia.
  - destruct (Z.leb_spec 97 c), (Z.leb_spec c 122); cbn [andb]; lia.
  - destruct (Z.leb_spec 97 c), (Z.leb_spec c 122); cbn [andb]; lia.
  - destruct (Z.leb_spec 97 c), (Z.leb_spec c 122); cbn [andb]; lia.
Qed.
(** CLASS accepts everything, keeps custom names, and writes them in upper case. *)
Definition class_names : list (class * str) := [(Public, lit "PUBLIC"); (Private, lit "PRIVATE"); (Confidential, lit "CONFIDENTIAL")].
Theorem C28_class :
  forall E : Env,
  (forall c s, cl_value c = s -> exists k, parse_class c = Ok k /\ class_of_str s = Ok k /\
     (class_show k = s /\ In (k, s) class_names \/ k = Custom s /\ class_show k = to_uppercase s /\ ~ In s (map snd class_names))) /\
  (forall k, match k with Custom _ => True | _ => class_of_str (class_show k) = Ok k end) /\
  (* an ASCII custom class settles after one cycle *)
  (forall s k, Forall (fun c => 0 <= c < 128) s -> class_of_str (class_show (Custom s)) = Ok k -> class_show k = class_show (Custom s)).
Proof.
  intros E. split; [|split].
  - intros c s <-. unfold parse_class, class_of_str. eqb_cases; eexists; (split; [reflexivity|]); (split; [reflexivity|]).
    + left. rewrite E0. cbn. auto.
    + left. match goal with H : cl_value c = _ |- _ => rewrite H end. cbn. auto.
    + left. match goal with H : cl_value c = _ |- _ => rewrite H end. cbn. auto.
    + right. repeat split; auto. cbn [In map snd class_names]. intuition congruence.
  - intros []; reflexivity.
  - intros s k Hs. cbn [class_show]. intros H.
    assert (U : to_uppercase s = map ascii_upper s).
    { clear H. induction Hs as [|c s Hc Hs IH]; auto. cbn. destruct (Z.ltb_spec c 128); [|lia]. cbn. now rewrite <- IH. }
    assert (I : to_uppercase (map ascii_upper s) = map ascii_upper s).
    { clear - Hs. induction Hs as [|c s Hc Hs IH]; auto. cbn [map to_uppercase flat_map].
      destruct (ascii_upper_fix c Hc) as [R F]. destruct (Z.ltb_spec (ascii_upper c) 128); [|lia]. rewrite F. cbn [app]. f_equal. exact IH. }
    rewrite U in *. unfold class_of_str in H. revert H. eqb_cases; intros H; inv H; auto.
Qed.
Example C28_nonvacuous : status_of_str (lit "IN-PROCESS") = Ok InProcess /\ (exists e, status_of_str (lit "in-process") = Err e) /\
  weekday_of_str (lit "MONDAY") = Ok Monday /\ class_of_str (lit "secret") = Ok (Custom (lit "secret")) /\
  (forall E : Env, class_show (Custom (lit "secret")) = lit "SECRET").
Proof. repeat split; eexists; reflexivity. Qed.

(** ** C29 *)
Lemma nom_i8_show n s : -128 <= n <= 127 -> no_digit s -> nom_i8 (show_int n ++ s) = POk s n.
Proof.
  intros Hn Hs. unfold show_int. destruct (Z.ltb_spec n 0).
  - destruct (show_nat_decimal (- n) ltac:(lia)) as (A & B & C). unfold nom_i8, pbind at 1, popt at 1, palt at 1, pmap, pbind, pret.
    change ((45 :: show_nat (- n)) ++ s) with ([45] ++ show_nat (- n) ++ s). rewrite tag_app.
    rewrite take_while_app; [|now apply digit_string_of|now apply no_digit_stops].
    rewrite <- value_of_digits, C. destruct (show_nat (- n)) eqn:E; [congruence|]. unfold I8MAX.
    destruct (Z.leb_spec (- n) (127 + 1)); [|lia]. f_equal. lia.
  - destruct (show_nat_decimal n ltac:(lia)) as (A & B & C). unfold nom_i8, pbind at 1, popt at 1, palt at 1, pmap, pbind, pret.
    assert (T : forall c, ~ 48 <= c <= 57 -> tag [c] (show_nat n ++ s) = PErr).
    { intros c Hc. apply tag_PErr. intros r E. destruct (show_nat n) as [|x l] eqn:Ex; [congruence|]. inv B. cbn in E. inv E. lia. }
    rewrite !T by lia. rewrite take_while_app; [|now apply digit_string_of|now apply no_digit_stops].
    rewrite <- value_of_digits, C. destruct (show_nat n) eqn:E; [congruence|]. unfold I8MAX. destruct (Z.leb_spec n 127); [|lia]. reflexivity.
Qed.
Lemma nom_i8_none w : popt nom_i8 (weekday_show w) = POk (weekday_show w) None.
Proof. destruct w; reflexivity. Qed.
Lemma p_weekday_show w : p_weekday (weekday_show w) = POk [] w.
Proof. destruct w; reflexivity. Qed.
Lemma wdn_reads w : (forall n, wn_ord w = Some n -> -128 <= n <= 127) -> p_weekdaynum (wdn_show w) = POk [] w.
Proof.
  destruct w as [w o]. cbn [wn_ord]. intros H. unfold wdn_show, p_weekdaynum. cbn [wn_ord wn_weekday]. unfold pbind. destruct o as [n|].
  - unfold popt. rewrite nom_i8_show; [|auto|destruct w; reflexivity]. rewrite p_weekday_show. reflexivity.
  - cbn [app]. rewrite nom_i8_none. rewrite p_weekday_show. reflexivity.
Qed.
Theorem C29_weekday_number_round_trip :
  forall w : weekdaynum, (forall n, wn_ord w = Some n -> -128 <= n <= 127) -> wdn_of_str (wdn_show w) = Ok w.
Proof. intros w H. unfold wdn_of_str. now rewrite wdn_reads. Qed.
Example C29_nonvacuous : wdn_show (mk_wdn Monday (Some (-128))) = lit "-128MO" /\ wdn_of_str (lit "-128MO") = Ok (mk_wdn Monday (Some (-128))).
Proof. split; reflexivity. Qed.

(** ** C30 *)
(** [+-HHMM], with seconds if not null. *)
Definition offset_text (off : Z) (s : str) : Prop :=
  exists h m x, s = (if off <? 0 then 45 else 43) :: h ++ m ++ x /\
    padded 2 (Z.abs off / 3600) h /\ padded 2 (Z.abs off / 60 mod 60) m /\
    (Z.abs off mod 60 = 0 /\ x = [] \/ Z.abs off mod 60 <> 0 /\ padded 2 (Z.abs off mod 60) x).
Lemma two_digits_pad n s : 0 <= n < 100 -> two_digits (show_pad 2 n ++ s) = Some (s, n / 10, n mod 10).
Proof.
  intros Hn. destruct (show_pad_padded 2 n ltac:(lia) Hn) as (L & D & V).
  destruct (show_pad 2 n) as [|a [|b [|c r]]]; try discriminate. pose proof (Forall_inv D) as D1. pose proof (Forall_inv (Forall_inv_tail D)) as D2. cbv beta in D1, D2. cbn [app two_digits].
  replace (is_digit a) with true by (symmetry; now apply is_digit_iff). replace (is_digit b) with true by (symmetry; now apply is_digit_iff).
  cbn [andb]. assert (V' : (b - 48) + 10 * ((a - 48) + 10 * 0) = n) by exact V.
  rewrite (div_is n 10 (a - 48) (b - 48)) by lia. rewrite (mod_is n 10 (a - 48) (b - 48)) by lia. reflexivity.
Qed.
Theorem C30_utc_offset_round_trip :
  forall (off : Z) (c : content_line), -86400 < off < 86400 -> cl_value c = offset_show off ->
    offset_text off (offset_show off) /\
    parse_offset c = Ok (if off <? 0 then - (Z.abs off / 60 * 60) else Z.abs off / 60 * 60) /\
    (off mod 60 = 0 -> parse_offset c = Ok off).
Proof.
  intros off c Ho Hc. set (o := Z.abs off). assert (Hr : 0 <= o < 86400) by (unfold o; lia).
  destruct (time_parts o Hr) as (H1 & H2 & H3 & H4).
  assert (Eh : o / 60 / 60 = o / 3600) by (rewrite Z.div_div by lia; reflexivity).
  assert (T : offset_text off (offset_show off)).
  { unfold offset_text, offset_show. fold o. rewrite Eh.
    exists (show_pad 2 (o / 3600)), (show_pad 2 (o / 60 mod 60)), (if o mod 60 =? 0 then [] else show_pad 2 (o mod 60)).
    split; [destruct (o mod 60 =? 0); [now rewrite app_nil_r|reflexivity]|].
    split; [apply show_pad_padded; cbn; lia|]. split; [apply show_pad_padded; cbn; lia|].
    destruct (Z.eqb_spec (o mod 60) 0); [left; auto|right; split; auto]. apply show_pad_padded; cbn; lia. }
  split; auto.
  assert (P : parse_offset c = Ok (if off <? 0 then - (o / 60 * 60) else o / 60 * 60)).
  { unfold parse_offset. rewrite Hc. unfold offset_show. fold o. rewrite Eh.
    assert (G : forall x, offset_parse ((if off <? 0 then 45 else 43) :: show_pad 2 (o / 3600) ++ show_pad 2 (o / 60 mod 60) ++ x) =
       Some (if off <? 0 then - (o / 60 * 60) else o / 60 * 60)).
    { intros x. unfold offset_parse.
      replace (((if off <? 0 then 45 else 43) =? 43) || ((if off <? 0 then 45 else 43) =? 45) || ((if off <? 0 then 45 else 43) =? 8722)) with true by (destruct (off <? 0); reflexivity).
      rewrite two_digits_pad by lia.
      assert (Dw : drop_while (fun c0 => (c0 =? 58) || is_whitespace c0) (show_pad 2 (o / 60 mod 60) ++ x) = show_pad 2 (o / 60 mod 60) ++ x).
      { destruct (show_pad 2 (o / 60 mod 60)) as [|d l] eqn:Ed; [now apply show_pad_nonnil in Ed|].
        assert (D : all_digits (d :: l) = true) by (rewrite <- Ed; apply show_pad_digits; lia). cbn in D. bool_hyps.
        cbn [app drop_while]. rewrite (digit_not_ws d) by auto. apply is_digit_iff in H. destruct (Z.eqb_spec d 58); [lia|reflexivity]. }
      rewrite Dw, two_digits_pad by lia.
      pose proof (Z.div_mod (o / 60 mod 60) 10 ltac:(lia)) as M1. pose proof (Z.mod_pos_bound (o / 60 mod 60) 10 ltac:(lia)).
      pose proof (Z.div_mod (o / 3600) 10 ltac:(lia)) as M2.
      set (mi := o / 60 mod 60) in *. set (h := o / 3600) in *.
      destruct (Z.leb_spec (mi / 10) 5); [|lia].
      assert (S : (h / 10 * 10 + h mod 10) * 3600 + (mi / 10 * 10 + mi mod 10) * 60 = o / 60 * 60).
      { pose proof (Z.div_mod o 60 ltac:(lia)). lia. }
      rewrite S. pose proof (Z.div_mod o 60 ltac:(lia)). pose proof (Z.mod_pos_bound o 60 ltac:(lia)).
      replace ((if off <? 0 then 45 else 43) =? 43) with (negb (off <? 0)) by (destruct (off <? 0); reflexivity).
      destruct (off <? 0); cbn [negb].
      - destruct (Z.ltb_spec (-86400) (- (o / 60 * 60))), (Z.ltb_spec (- (o / 60 * 60)) 86400); try lia. reflexivity.
      - destruct (Z.ltb_spec (-86400) (o / 60 * 60)), (Z.ltb_spec (o / 60 * 60) 86400); try lia. reflexivity. }
    destruct (o mod 60 =? 0); [|now rewrite G].
    rewrite <- (app_nil_r (show_pad 2 (o / 60 mod 60))). now rewrite G. }
  split; auto. intros Hm. rewrite P. f_equal.
  assert (Z.abs off mod 60 = 0).
  { apply Z.mod_divide; [lia|]. apply Z.divide_abs_r. now apply Z.mod_divide in Hm; [|lia]. }
  fold o in H. pose proof (Z.div_mod o 60 ltac:(lia)). unfold o in *. destruct (Z.ltb_spec off 0); lia.
Qed.
Example C30_nonvacuous : offset_show (-19800) = lit "-0530" /\ offset_show (-19801) = lit "-053001" /\
  parse_offset (mk_cl (lit "TZOFFSETTO") [] (lit "-053001")) = Ok (-19800).
Proof. repeat split. Qed.

(** ** C32 *)
(** A decimal, optionally with a plus sign. *)
Definition unsigned_text (s : str) (n : Z) : Prop :=
  exists ds, (s = ds \/ s = 43 :: ds) /\ ds <> [] /\ digit_string ds /\ value_of ds = n.
Lemma parse_unsigned_iff max s n : parse_unsigned max s = Some n <-> unsigned_text s n /\ n <= max.
Proof.
  assert (D : forall ds, parse_digits max ds = Some n <-> ds <> [] /\ digit_string ds /\ value_of ds = n /\ n <= max).
  { intros ds. rewrite parse_digits_Some, digit_string_all, value_of_digits. tauto. }
  unfold unsigned_text. destruct s as [|c r]; cbn [parse_unsigned].
  - split; [discriminate|]. intros ((ds & [<-|E] & H) & _); [tauto|discriminate].
  - destruct (Z.eqb_spec c 43) as [->|Hc]; rewrite D.
    + split.
      * intros (A & B & C & M). split; [exists r; auto 10|auto].
      * intros ((ds & [<-|E] & H1 & H2 & H3) & M); [inv H2; lia|]. inv E. auto.
    + split.
      * intros (A & B & C & M). split; [exists (c :: r); auto 10|auto].
      * intros ((ds & [<-|E] & H1 & H2 & H3) & M); [auto|]. inv E. lia.
Qed.
Lemma show_int_unsigned n : 0 <= n -> unsigned_text (show_int n) n.
Proof.
  intros H. unfold show_int. destruct (Z.ltb_spec n 0); [lia|]. destruct (show_nat_decimal n H) as (A & B & C). exists (show_nat n). auto.
Qed.
Theorem C32_integers :
  forall (c : content_line),
    (forall n, parse_u32 c = Ok n <-> unsigned_text (cl_value c) n /\ n <= 4294967295) /\
    (forall n, parse_percent c = Ok n <-> unsigned_text (cl_value c) n /\ n <= 255) /\
    (forall n, parse_priority c = Ok n <-> unsigned_text (cl_value c) n /\ n <= 9) /\
    (forall n, unsigned_text (cl_value c) n -> 9 < n <= 255 -> parse_priority c = Err (EPriority n)) /\
    parse_u32 c <> Panic /\ parse_percent c <> Panic /\ parse_priority c <> Panic.
Proof.
  intros c. assert (G : forall max n, parse_int (parse_unsigned max (cl_value c)) = Ok n <-> unsigned_text (cl_value c) n /\ n <= max).
  { intros max n. rewrite <- parse_unsigned_iff. unfold parse_int. destruct (parse_unsigned max (cl_value c)); split; congruence. }
  assert (NP : forall max, parse_int (parse_unsigned max (cl_value c)) <> Panic) by (intros max; unfold parse_int; destruct (parse_unsigned _ _); discriminate).
  split; [apply G|]. split; [apply G|]. unfold parse_priority. split; [|split; [|split; [apply NP|split; [apply NP|]]]].
  - intros n. split.
    + intros H. ok_inv. apply G in H as [H ?]. destruct (Z.ltb_spec 9 x); [discriminate|]. inv H0. split; auto.
    + intros [H Hn]. assert (E : parse_int (parse_unsigned U8MAX (cl_value c)) = Ok n) by (apply G; split; auto; unfold U8MAX; lia).
      rewrite E. cbn. destruct (Z.ltb_spec 9 n); [lia|reflexivity].
  - intros n H Hn. assert (E : parse_int (parse_unsigned U8MAX (cl_value c)) = Ok n) by (apply G; split; auto; unfold U8MAX; lia).
    rewrite E. cbn. destruct (Z.ltb_spec 9 n); [reflexivity|lia].
  - specialize (NP U8MAX). destruct (parse_int (parse_unsigned U8MAX (cl_value c))); cbn; try congruence. destruct (9 <? a); congruence.
Qed.
Theorem C32_round_trip :
  forall (n : Z) (c : content_line), 0 <= n -> cl_value c = show_int n ->
    (n <= 4294967295 -> parse_u32 c = Ok n) /\ (n <= 255 -> parse_percent c = Ok n) /\ (n <= 9 -> parse_priority c = Ok n).
Proof.
  intros n c Hn Hc. destruct (C32_integers c) as (A & B & C & _). pose proof (show_int_unsigned n Hn) as U. rewrite <- Hc in U.
  repeat split; intros; [apply A|apply B|apply C]; auto.
Qed.
Example C32_nonvacuous : parse_u32 (mk_cl [] [] (show_int 4294967295)) = Ok 4294967295 /\
  (exists e, parse_u32 (mk_cl [] [] (lit "4294967296")) = Err e) /\ parse_priority (mk_cl [] [] (lit "10")) = Err (EPriority 10).
Proof. split; [vm_compute; reflexivity|]. split; [eexists|]; vm_compute; reflexivity. Qed.
