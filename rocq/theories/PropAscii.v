(** * C73: what is read from ASCII text can always be written again, in ASCII *)
From Verif Require Import Base Env Chrono Nom Types Ser Parser Derive Components BaseFacts SerFacts NomFacts LineFacts SpecText SpecLine SpecComp SpecFile PropFile RoundFacts PropVocab PropInput PropPanic PropDate.

(** Floats are written in ASCII (as Rust's [Display] for [f32] does), and reading one leaves an end of the text (as nom's [float] does). *)
Definition ascii_floats (E : Env) : Prop :=
  (forall x, ascii (f32_show x) /\ ascii (f32_show1 x)) /\ (forall s r x, f32_parse s = Some (r, x) -> exists used, s = used ++ r).
Definition plain {T} (Sr : serialize T) (v : T) : Prop :=
  exists s, s_ical Sr v = Ok s /\ ascii s /\ forall a, s_attr Sr v = Some a -> ascii a.
Definition ascii_cl (l : content_line) : Prop :=
  ascii (cl_key l) /\ Forall (fun kv => ascii (fst kv) /\ ascii (snd kv)) (cl_params l) /\ ascii (cl_value l).

(** ** Strings *)
Lemma asc1 c s : 0 <= c < 128 -> ascii s -> ascii (c :: s).
Proof. now constructor. Qed.
Lemma asc0 : ascii []. Proof. constructor. Qed.
Lemma ascapp a b : ascii a -> ascii b -> ascii (a ++ b).
Proof. intros. apply ascii_app. auto. Qed.
Ltac apps := repeat match goal with |- ascii (_ ++ _) => apply ascapp end.
Lemma asclit_b s : forallb (fun c => (0 <=? c) && (c <? 128)) s = true -> ascii s.
Proof. intros H. apply Forall_forall. intros c I. rewrite forallb_forall in H. specialize (H c I). lia. Qed.
Ltac lita := apply asclit_b; vm_compute; reflexivity.
Lemma asc_digits f n acc : ascii acc -> ascii (digits_fuel f n acc).
Proof.
  revert n acc. induction f as [|f IH]; intros n acc A; cbn [digits_fuel]; auto.
  pose proof (Z.mod_pos_bound n 10 eq_refl). assert (ascii ((48 + n mod 10) :: acc)) by (apply asc1; [lia|auto]). destruct (n / 10 =? 0); auto.
Qed.
Lemma asc_nat n : ascii (show_nat n). Proof. apply asc_digits, asc0. Qed.
Lemma asc_int n : ascii (show_int n).
Proof. unfold show_int. destruct (n <? 0); [apply asc1; [lia|]|]; apply asc_nat. Qed.
Lemma asc_repeat c n : 0 <= c < 128 -> ascii (repeat c n).
Proof. intros H. induction n; cbn [repeat]; [apply asc0|now apply asc1]. Qed.
Lemma asc_pad w n : ascii (show_pad w n).
Proof. apply ascapp; [apply asc_repeat; lia|apply asc_nat]. Qed.
Lemma asc_pop s : ascii s -> ascii (pop s).
Proof.
  unfold ascii, pop. intros H. destruct s as [|c s]; [constructor|]. rewrite (@app_removelast_last _ (c :: s) 0) in H by discriminate.
  apply Forall_app in H. tauto.
Qed.
Lemma asc_join sep l : ascii sep -> Forall ascii l -> ascii (join sep l).
Proof.
  intros Q F. induction F as [|x l X F IH]; [apply asc0|]. cbn [join]. destruct l; [auto|]. apps; auto.
Qed.
Lemma asc_concat l : Forall ascii l -> ascii (concat l).
Proof. induction 1; cbn [concat]; [apply asc0|now apply ascapp]. Qed.
Lemma asc_split c s : ascii s -> Forall ascii (split_on c s).
Proof.
  induction 1 as [|x s X A IH]; cbn [split_on]; [repeat constructor|]. destruct (x =? c); [constructor; auto; constructor|].
  destruct (split_on c s) as [|h t]; [repeat constructor; lia|]. inversion IH; subst. constructor; auto. now apply asc1.
Qed.
Lemma asc_unfold s : ascii s -> ascii (unfold_lines s).
Proof.
  assert (G : forall n s, (length s <= n)%nat -> ascii s -> ascii (unfold_lines s)).
  { clear s. induction n as [|n IH]; intros s L A; [destruct s; [constructor|cbn in L; lia]|]. destruct s as [|c [|c1 [|c2 r]]]; auto.
    cbn [unfold_lines]. change (ascii (if (c =? CR) && (c1 =? LF) && (c2 =? 32) then unfold_lines r else c :: unfold_lines (c1 :: c2 :: r))).
    inversion A; subst. inversion H2; subst. inversion H4; subst. cbn [length] in L. destruct (_ && _); [apply IH; auto; lia|apply asc1; auto; apply IH; auto; cbn [length]; lia]. }
  intros; eapply G; eauto.
Qed.
Lemma asc_split_at n s a b : ascii s -> split_at n s = Some (a, b) -> ascii a /\ ascii b.
Proof.
  intros A. revert n a b. induction A as [|c s C A IH]; intros n a b H.
  - destruct n; cbn in H; inv H. split; constructor.
  - destruct n; cbn [split_at] in H; [inv H; split; [constructor|now apply asc1]|].
    destruct (utf8_len c <=? S n)%nat; try discriminate. destruct (split_at _ s) as [[x y]|] eqn:Q; try discriminate. inv H.
    destruct (IH _ _ _ Q). split; auto. now apply asc1.
Qed.
Lemma asc_chunks f n s l : ascii s -> chunks_fuel f n s = Some l -> Forall ascii l.
Proof.
  revert s l. induction f as [|f IH]; intros s l A H; destruct s as [|c s]; cbn [chunks_fuel] in H; try (inv H; constructor; fail); try discriminate.
  destruct (split_at (Nat.min n (blen (c :: s))) (c :: s)) as [[x y]|] eqn:Q; try discriminate. destruct (chunks_fuel f n y) as [r|] eqn:R; inv H.
  destruct (asc_split_at _ _ _ _ A Q). constructor; eauto.
Qed.
Lemma asc_fold s : ascii s -> exists out, fold_line s = Ok out /\ ascii out.
Proof.
  intros A. destruct (fold_line_ascii s A) as [o H]. exists o. split; auto. unfold fold_line in H. destruct (75 <? blen s)%nat; [|now inv H].
  destruct (chunks 75 s) as [l|] eqn:C; inv H. apply asc_join; [lita|eapply asc_chunks; eauto].
Qed.

Section Ascii.
Context {E : Env} (AF : ascii_floats E).
(** ** Values *)
Lemma plain_display {T} (f : T -> str) v : ascii (f v) -> plain (ser_display f) v.
Proof. intros A. exists (f v). cbn. split; auto. split; auto. discriminate. Qed.
Lemma asc_year y : ascii (show_year y).
Proof. unfold show_year. destruct (_ && _); [apply asc_pad|]. destruct (_ <? _); (apply asc1; [lia|apply asc_pad]). Qed.
Lemma asc_date d : ascii (date_show d).
Proof. unfold date_show. destruct (ymd_of_days d) as [[y m] dd]. apps; auto using asc_year, asc_pad. Qed.
Lemma asc_ndt n : ascii (ndt_show n).
Proof. unfold ndt_show, time_show. apps; auto using asc_date, asc_pad. lita. Qed.
Lemma asc_dt d : ascii (dt_show d).
Proof. destruct d; cbn [dt_show]; [apply asc_ndt|apply ascapp; [apply asc_ndt|lita]]. Qed.
Lemma asc_datestr d : ascii (date_str d).
Proof. destruct d; cbn [date_str]; auto using asc_date, asc_dt. Qed.
Lemma asc_td t : ascii (td_show t).
Proof.
  unfold td_show. assert (A : ascii (if t <? 0 then [45] else [])) by (destruct (t <? 0); lita). destruct (_ =? 0); [apply ascapp; [auto|lita]|].
  apply ascapp; auto. apply ascapp; [lita|]. apply ascapp; [apply asc_nat|]. apply ascapp; [|lita].
  destruct (_ =? 0); [apply asc0|]. destruct (strip_zeros _ _ _). apply asc1; [lia|apply asc_pad].
Qed.
Lemma asc_period p : ascii (period_show p).
Proof. destruct p; cbn [period_show]; apps; auto using asc_dt, asc_td; lita. Qed.
Lemma asc_offset o : ascii (offset_show o).
Proof. unfold offset_show. destruct (_ =? 0); apply asc1; try (destruct (_ <? _); lia); apps; auto using asc_pad. Qed.
Lemma asc_rdate r : ascii (rdate_show r).
Proof.
  destruct r; cbn [rdate_show]; (apply ascapp; [lita|]); (apply asc_join; [lita|]); apply Forall_forall; intros x I; apply in_map_iff in I as (y & <- & _);
    auto using asc_datestr, asc_period.
Qed.
Lemma asc_geo g : ascii (geo_show g).
Proof. unfold geo_show. apps; try apply AF. lita. Qed.
Lemma asc_wdn w : ascii (wdn_show w).
Proof. unfold wdn_show. apply ascapp; [destruct (wn_ord w); auto using asc_int, asc0|]. destruct (wn_weekday w); lita. Qed.
Lemma P_int v : plain ser_u32 v. Proof. apply plain_display, asc_int. Qed.
Lemma P_u8 v : plain ser_u8 v. Proof. apply plain_display, asc_int. Qed.
Lemma P_i8 v : plain ser_i8 v. Proof. apply plain_display, asc_int. Qed.
Lemma P_td v : plain ser_td v. Proof. apply plain_display, asc_td. Qed.
Lemma P_offset v : plain ser_offset v. Proof. apply plain_display, asc_offset. Qed.
Lemma P_datetime v : plain ser_datetime v. Proof. apply plain_display, asc_dt. Qed.
Lemma P_period v : plain ser_period v. Proof. apply plain_display, asc_period. Qed.
Lemma P_rdate v : plain ser_rdate v. Proof. apply plain_display, asc_rdate. Qed.
Lemma P_geo v : plain ser_geo v. Proof. apply plain_display, asc_geo. Qed.
Lemma P_status v : plain ser_status v. Proof. apply plain_display. destruct v; lita. Qed.
Lemma P_transp v : plain ser_transp v. Proof. apply plain_display. destruct v; lita. Qed.
Lemma P_freq v : plain ser_freq v. Proof. apply plain_display. destruct v; lita. Qed.
Lemma P_weekday v : plain ser_weekday v. Proof. apply plain_display. destruct v; lita. Qed.
Lemma P_wdn v : plain ser_wdn v. Proof. apply plain_display, asc_wdn. Qed.
Lemma P_date v : plain ser_date v.
Proof. exists (date_str v). split; [reflexivity|]. split; [apply asc_datestr|]. destruct v; cbn; intros a H; inv H. lita. Qed.
Lemma P_trigger v : plain ser_trigger v.
Proof. destruct v; cbn; eexists; (split; [reflexivity|]); (split; [auto using asc_dt, asc_td|]); intros a H; inv H; lita. Qed.
Lemma P_string s : ascii s -> plain ser_string s.
Proof. intros A. exists (escape s). split; [reflexivity|]. split; [now apply ascii_escape|discriminate]. Qed.
Lemma collect_plain {T} (Sr : serialize T) l : Forall (plain Sr) l -> exists ps, ocollect (s_ical Sr) l = Ok ps /\ Forall ascii ps.
Proof.
  induction 1 as [|x l (s & X & A & _) F (ps & IH & G)]; [exists []; split; [reflexivity|constructor]|].
  exists (s :: ps). cbn [ocollect]. rewrite X, IH. split; auto.
Qed.
Lemma P_vec {T} (Sr : serialize T) l : Forall (plain Sr) l -> plain (ser_vec Sr) l.
Proof.
  intros F. destruct (collect_plain Sr l F) as (ps & C & G). exists (pop (flat_map (fun p => p ++ [44]) ps)). split; [cbn; unfold vec_ical; now rewrite C|].
  split; [|discriminate]. apply asc_pop. rewrite flat_map_concat_map. apply asc_concat. rewrite Forall_map. eapply Forall_impl; [|exact G].
  intros a A. apply ascapp; auto. lita.
Qed.
Definition opt_plain {T} (Sr : serialize T) (o : option T) : Prop := match o with Some v => plain Sr v | None => True end.
Lemma P_opt {T} (Sr : serialize T) o : opt_plain Sr o -> plain (ser_opt Sr) o.
Proof. destruct o as [v|]; [intros (s & A & B & C); exists s; auto|]. intros _. exists []. split; [reflexivity|]. split; [constructor|discriminate]. Qed.
Lemma P_map {V} (Sr : serialize V) m : Forall (fun kv => ascii (fst kv) /\ plain Sr (snd kv)) m -> plain (ser_map Sr) m.
Proof.
  intros F. assert (C : exists ps, ocollect (fun kv => let* v := s_ical Sr (snd kv) in Ok (fst kv ++ [61] ++ v ++ [59])) m = Ok ps /\ Forall ascii ps).
  { induction F as [|[k v] m (K & s & X & A & _) F (ps & IH & G)]; [exists []; split; [reflexivity|constructor]|].
    cbn [fst snd] in *. eexists (_ :: ps). cbn [ocollect fst snd]. rewrite X, IH. cbn [obind]. split; [reflexivity|]. constructor; auto. apps; auto; lita. }
  destruct C as (ps & C & G). exists (pop (concat ps)). split; [cbn; unfold map_ical; now rewrite C|]. split; [|discriminate]. apply asc_pop, asc_concat, G.
Qed.
Definition params_ascii (m : smap str) : Prop := Forall (fun kv => ascii (fst kv) /\ ascii (snd kv)) m.
Lemma attr_ascii m a : params_ascii m -> params_attr m = Some a -> ascii a.
Proof.
  intros F H. assert (G : Forall (fun kv => ascii (fst kv) /\ plain ser_string (snd kv)) m).
  { eapply Forall_impl; [|exact F]. intros kv [A B]. split; auto. now apply P_string. }
  destruct (P_map ser_string m G) as (s & A & B & _). cbn in A. unfold params_attr in H. destruct m; [discriminate|]. rewrite A in H. inv H. auto.
Qed.
Lemma P_cl l : ascii_cl l -> plain ser_cl l.
Proof. intros (K & P & V). exists (escape (cl_value l)). split; [reflexivity|]. split; [now apply ascii_escape|]. intros a. now apply attr_ascii. Qed.
Lemma P_text l v : ascii_cl l -> parse_text l = Ok v -> plain ser_text v.
Proof. intros (K & P & V) H. inv H. exists (escape (cl_value l)). split; [reflexivity|]. split; [now apply ascii_escape|]. intros a. now apply attr_ascii. Qed.
Lemma P_uri l v : ascii_cl l -> parse_uri l = Ok v -> plain ser_uri v.
Proof. intros (K & P & V) H. inv H. exists (escape (cl_value l)). split; [reflexivity|]. split; [now apply ascii_escape|]. intros a. now apply attr_ascii. Qed.
Lemma P_texts l v : ascii_cl l -> parse_texts l = Ok v -> Forall (plain ser_text) v.
Proof.
  intros (K & P & V) H. inv H. rewrite Forall_map. eapply Forall_impl; [|apply asc_split, V]. intros s A. exists (escape s). split; [reflexivity|].
  split; [now apply ascii_escape|discriminate].
Qed.
Lemma asc_upper s : ascii s -> ascii (to_uppercase s).
Proof.
  induction 1 as [|c s C A IH]; [constructor|]. cbn [to_uppercase flat_map]. destruct (Z.ltb_spec c 128); [|lia]. apply asc1; auto. now apply ascii_upper_fix.
Qed.
Lemma P_class l v : ascii_cl l -> parse_class l = Ok v -> plain ser_class v.
Proof.
  intros (K & P & V) H. apply plain_display. unfold parse_class, class_of_str in H. repeat (destruct (str_eqb _ _); [inv H; lita|]). inv H. now apply asc_upper.
Qed.
Lemma P_rs l v : ascii_cl l -> parse_rstatus l = Ok v -> plain ser_rs v.
Proof.
  intros (K & P & V) H. apply plain_display. unfold parse_rstatus in H. destruct (p_rstatus (cl_value l)) as [r w| |] eqn:Q; inv H.
  unfold p_rstatus in Q. apply pbind_POk in Q as (r1 & code & F & Q). apply pbind_POk in Q as (r2 & c1 & C & Q). apply pchar_POk in C as [-> ->].
  apply pbind_POk in Q as (r3 & d & D & Q). apply take_while_POk in D as (-> & _). apply pbind_POk in Q as (r4 & e & X & Q). inv Q.
  unfold p_float in F. destruct (f32_parse (cl_value l)) as [[r0 x]|] eqn:FP; inv F. destruct (proj2 AF _ _ _ FP) as [u Hu]. rewrite Hu in V.
  apply Forall_app in V as [_ V]. inversion V as [|? ? _ V']; subst. apply Forall_app in V' as [Vd Vr]. cbn [rs_show rs_code rs_desc rs_ext].
  unfold rs_show. cbn [rs_code rs_desc rs_ext]. apply ascapp; [apply AF|]. apply ascapp; [lita|]. apply ascapp; [now apply ascii_escape|].
  unfold popt in X. destruct (preceded (pchar 59) (take_while (fun _ => true)) r3) as [r5 e5| |] eqn:Y; inv X; [|apply asc0]. unfold preceded in Y. apply pbind_POk in Y as (r6 & c2 & C & Y).
  apply pchar_POk in C as [-> ->]. apply take_while_POk in Y as (-> & _). inversion Vr as [|? ? _ Ve]; subst. apply Forall_app in Ve as [Ve _]. apply asc1; [lia|now apply ascii_escape].
Qed.
Lemma P_part {T} (Sr : serialize T) n v : ascii n -> plain Sr v -> exists s, ser_part Sr n v = Ok s /\ ascii s.
Proof.
  intros N (s & A & B & _). unfold ser_part. rewrite A. eexists. split; [reflexivity|]. destruct s; [apply asc0|]. apps; auto; lita.
Qed.
Lemma all_vec {T} (Sr : serialize T) l : (forall v, plain Sr v) -> plain (ser_vec Sr) l.
Proof. intros H. apply P_vec, Forall_forall. auto. Qed.
Lemma all_opt {T} (Sr : serialize T) o : (forall v, plain Sr v) -> plain (ser_opt Sr) o.
Proof. intros H. apply P_opt. destruct o; cbn; auto. Qed.
Lemma P_recur v : plain ser_recur v.
Proof.
  assert (R : exists s, recur_ical v = Ok s /\ ascii s).
  { unfold recur_ical.
    repeat match goal with |- exists s, (let* x := ser_part ?Sr ?n ?w in _) = Ok s /\ _ =>
      let y := fresh "y" in let Hy := fresh in let Ay := fresh "Ay" in
      destruct (P_part Sr n w ltac:(lita) ltac:(solve [apply P_freq | apply P_u8 | apply all_opt; [apply P_date || apply P_u8 || apply P_weekday] | apply all_vec; [apply P_i8 || apply P_wdn]]))
        as (y & Hy & Ay); rewrite Hy; cbn [obind] end.
    eexists. split; [reflexivity|]. apply asc_pop. apps; auto. }
  destruct R as (s & A & B). exists s. split; [exact A|]. split; [auto|discriminate].
Qed.

(** ** Fields and components *)
Definition f_plain (f : field) : fty f -> Prop :=
  match f with
  | FReq Sr _ => fun v => plain Sr v
  | FOpt Sr _ => fun v => opt_plain Sr v
  | FVec Sr _ | FApp Sr _ | FIgn Sr => fun v => Forall (plain Sr) v
  end.
Definition f_reads (f : field) : Prop :=
  match f with
  | FReq Sr p | FOpt Sr p | FVec Sr p => forall l v, ascii_cl l -> p l = Ok v -> plain Sr v
  | FApp Sr p => forall l v, ascii_cl l -> p l = Ok v -> Forall (plain Sr) v
  | FIgn _ => True
  end.
Definition s_reads (s : schema) : Prop := Forall (fun nf => ascii (fst nf) /\ f_reads (snd nf)) s.
Fixpoint fs_plain (s : schema) : fields s -> Prop :=
  match s with [] => fun _ => True | (n, f) :: r => fun vs => f_plain f (fst vs) /\ fs_plain r (snd vs) end.
Definition map_ascii (m : smap content_line) : Prop := Forall (fun kv => ascii (fst kv) /\ ascii_cl (snd kv)) m.
Definition c_plain {s} (c : comp s) : Prop := fs_plain s (c_fields c) /\ map_ascii (c_xprop c) /\ map_ascii (c_iana c).
Lemma new_plain s ls vs : s_reads s -> Forall ascii_cl ls -> new_fields s ls = Ok vs -> fs_plain s vs.
Proof.
  intros R F. revert vs. induction R as [|[n f] s [_ Rf] R IH]; intros vs H; cbn [new_fields fs_plain] in *; [exact I|].
  destruct (f_new n f ls) as [v| |] eqn:N; cbn [obind] in H; try discriminate. destruct (new_fields s ls) as [w| |]; cbn [obind] in H; inv H. cbn [fst snd].
  split; [|now apply IH]. cbn [snd] in Rf. destruct f as [T Sr p|T Sr p|T Sr p|T Sr p|T Sr]; cbn [f_new f_plain f_reads] in *; try (inv N; constructor; fail).
  destruct (last_opt _) as [l|] eqn:L; try discriminate. apply (Rf l); auto. rewrite Forall_forall in F. apply F.
  assert (In l (filter (fun l => str_eqb (cl_key l) n) ls)) as I; [|now apply filter_In in I].
  clear - L. revert L. generalize (filter (fun l => str_eqb (cl_key l) n) ls). intros q. unfold last_opt. induction q as [|x q IHq]; [discriminate|].
  destruct q; [intros H; inv H; now left|]. intros H. right. auto.
Qed.
Lemma step_plain s l vs o : s_reads s -> ascii_cl l -> fs_plain s vs -> step_fields s l vs = Some (Ok o) -> fs_plain s o.
Proof.
  intros R A. revert vs o. induction R as [|[n f] s [_ Rf] R IH]; intros vs o P H; cbn [step_fields fs_plain] in *; [discriminate|].
  destruct vs as [v vs]. cbn [fst snd] in *. destruct P as [Pv Ps].
  destruct (has_arm f && str_eqb (cl_key l) n).
  - destruct (f_step f l v) as [w| |] eqn:St; cbn [obind] in H; inv H. cbn [fst snd]. split; auto.
    destruct f as [T Sr p|T Sr p|T Sr p|T Sr p|T Sr]; cbn [f_step f_plain f_reads] in *.
    + inv St. auto.
    + destruct (p l) eqn:X; cbn in St; inv St. cbn. eauto.
    + destruct (p l) eqn:X; cbn in St; inv St. apply Forall_app. split; auto. constructor; [eauto|constructor].
    + destruct (p l) eqn:X; cbn in St; inv St. apply Forall_app. eauto.
    + inv St. auto.
  - destruct (step_fields s l vs) as [[w| |]|] eqn:X; cbn in H; inv H. cbn [fst snd]. eauto.
Qed.
Lemma minsert_ascii k l m : ascii k -> ascii_cl l -> map_ascii m -> map_ascii (minsert k l m).
Proof.
  intros K L F. induction F as [|[k' l'] m [A B] F IH]; cbn [minsert]; [repeat constructor; auto; apply L|].
  destruct (str_cmp k k'); repeat (apply Forall_cons); auto.
Qed.
Lemma lines_plain s ls c : s_reads s -> Forall ascii_cl ls -> comp_of_lines s ls = Ok c -> c_plain c.
Proof.
  intros R F H. unfold comp_of_lines in H. destruct (new_fields s ls) as [vs| |] eqn:N; cbn [obind] in H; try discriminate.
  pose proof (new_plain _ _ _ R F N) as P. assert (P0 : c_plain (@mk_comp s vs [] [])) by (split; [exact P|split; constructor]).
  clear N P. revert P0 H. generalize (@mk_comp s vs [] []). clear vs. induction F as [|l ls A F IH]; intros c0 P H; cbn [step_lines] in H; [now inv H|].
  destruct (step_line c0 l) as [c1| |] eqn:St; cbn [obind] in H; try discriminate. apply (IH c1); auto. destruct P as (P1 & P2 & P3).
  unfold step_line in St. destruct (step_fields s l (c_fields c0)) as [[w| |]|] eqn:X; cbn [obind] in St; try discriminate.
  - inv St. split; [eapply step_plain; eauto|auto].
  - destruct (starts_with _ _); inv St; (split; [auto|]); cbn [c_xprop c_iana]; split; auto; apply minsert_ascii; auto; apply A.
Qed.
Lemma field_plain {T} (Sr : serialize T) n v : ascii n -> plain Sr v -> exists s, ser_field Sr n v = Ok s /\ ascii s.
Proof.
  intros N (s & A & B & C). unfold ser_field. rewrite A. cbn [obind]. destruct (s_component Sr); [eauto|]. apply asc_fold. destruct s; [apply asc0|].
  apply ascapp; auto. apply ascapp; [destruct (s_attr Sr v); [apply asc1; [lia|auto]|apply asc0]|]. apply ascapp; [lita|]. apply ascapp; auto. lita.
Qed.
Lemma f_ser_plain n f v : ascii n -> f_plain f v -> exists s, f_ser n f v = Ok s /\ ascii s.
Proof.
  intros N. assert (V : forall T (Sr : serialize T) l, Forall (plain Sr) l -> exists s, vec_field Sr n l = Ok s /\ ascii s).
  { intros T Sr l F. destruct l as [|x [|y l]]; cbn [vec_field]; [apply field_plain; auto; now apply P_vec| |apply field_plain; auto; now apply P_vec].
    inversion F; subst. now apply field_plain. }
  destruct f; cbn [f_plain f_ser]; auto; intros H; apply field_plain; auto. now apply P_opt.
Qed.
Lemma comp_plain name s (c : comp s) : ascii name -> Forall (fun nf => ascii (fst nf)) s -> c_plain c -> exists out, comp_ical name c = Ok out /\ ascii out.
Proof.
  intros N R (P1 & P2 & P3). assert (B : exists b, ser_fields s (c_fields c) = Ok b /\ ascii b).
  { destruct c as [vs x i]. cbn [c_fields] in *. clear P2 P3. induction R as [|[n f] s Rn R IH]; cbn [ser_fields fs_plain] in *; [exists []; split; [reflexivity|constructor]|].
    destruct vs as [v vs]. cbn [fst snd] in *. destruct P1 as [Pv Ps]. destruct (f_ser_plain n f v Rn Pv) as (a & -> & A). destruct (IH vs Ps) as (b & -> & B).
    cbn [obind]. exists (a ++ b). split; auto. now apply ascapp. }
  assert (M : forall n m, ascii n -> map_ascii m -> exists o, ser_field (ser_map ser_cl) n m = Ok o /\ ascii o).
  { intros n m A F. apply field_plain; auto. apply P_map. eapply Forall_impl; [|exact F]. intros kv [X Y]. split; auto. now apply P_cl. }
  destruct B as (b & HB & B). destruct (M (lit "X-PROP") _ ltac:(lita) P2) as (x & HX & X). destruct (M (lit "IANA-PROP") _ ltac:(lita) P3) as (i & HI & I).
  unfold comp_ical. rewrite HB, HX, HI. cbn [obind]. eexists. split; [reflexivity|]. apps; auto; lita.
Qed.
Lemma iso_plain {T} n s (to : T -> comp s) v : ascii n -> s_reads s -> c_plain (to v) -> plain (ser_iso n s to) v.
Proof.
  intros N R P. destruct (comp_plain n s (to v) N) as (o & A & B); auto; [eapply Forall_impl; [|exact R]; intros nf [X _]; exact X|]. exists o. split; [exact A|]. split; [auto|discriminate].
Qed.
Ltac s_reads := repeat (apply Forall_cons || apply Forall_nil); (split; [lita|]); cbn [snd f_reads]; try exact I;
  first [exact P_text | exact P_uri | exact P_texts | exact P_class | exact P_rs | intros l v _ _;
    first [ apply P_int | apply P_u8 | apply P_td | apply P_offset | apply P_datetime | apply P_date | apply P_geo | apply P_status | apply P_transp | apply P_trigger | apply P_recur | apply P_rdate
          | apply Forall_forall; intros ? _; first [apply P_date | apply P_period | apply P_rdate] ] ].
Lemma R_audio : s_reads audio_schema. Proof. s_reads. Qed.
Lemma R_display : s_reads display_schema. Proof. s_reads. Qed.
Lemma R_email : s_reads email_schema. Proof. s_reads. Qed.
Lemma R_vevent : s_reads vevent_schema. Proof. s_reads. Qed.
Lemma R_vfreebusy : s_reads vfreebusy_schema. Proof. s_reads. Qed.
Lemma R_vjournal : s_reads vjournal_schema. Proof. s_reads. Qed.
Lemma R_vtodo : s_reads vtodo_schema. Proof. s_reads. Qed.
Lemma R_standard : s_reads standard_schema. Proof. s_reads. Qed.
Lemma R_daylight : s_reads daylight_schema. Proof. s_reads. Qed.
Lemma R_vtimezone : s_reads vtimezone_schema. Proof. s_reads. Qed.
Lemma R_vcalendar : s_reads vcalendar_schema. Proof. s_reads. Qed.

(** ** Reading *)
Definition keeps {A} (p : parser A) (P : A -> Prop) : Prop := forall s r a, ascii s -> p s = POk r a -> ascii r /\ P a.
Lemma map_of_ascii l : params_ascii l -> params_ascii (map_of l).
Proof.
  unfold map_of. assert (G : forall m, params_ascii m -> params_ascii l -> params_ascii (fold_left (fun acc kv => minsert (fst kv) (snd kv) acc) l m)).
  { induction l as [|[k v] l IH]; cbn [fold_left]; intros m M L; auto. inversion L as [|? ? [A B] L']; subst. apply IH; auto. cbn [fst snd] in *.
    clear - A B M. induction M as [|[k' v'] m [A' B'] M IH]; cbn [minsert]; [repeat constructor; auto|]. destruct (str_cmp k k'); repeat apply Forall_cons; auto. }
  intros L. apply G; auto. constructor.
Qed.
Lemma params_read_ascii t l r : params_read t l r -> ascii t -> ascii r /\ params_ascii l.
Proof.
  induction 1 as [rest|k v t l rest K V R IH|k f v t l rest K V1 V2 F Q R IH]; intros A.
  - inversion A; subst. split; auto. constructor.
  - apply Forall_inv_tail in A. rewrite !Forall_app in A. destruct A as (A1 & A2 & A3 & A4 & A5). destruct (IH A5) as [X Y]. split; auto. constructor; auto.
  - apply Forall_inv_tail in A. rewrite !Forall_app in A. destruct A as (A1 & A2 & A3 & A4 & A5). destruct (IH A5) as [X Y]. split; auto. constructor; auto.
Qed.
Lemma line_keeps : keeps p_content_line ascii_cl.
Proof.
  intros s r c A H. apply line_POk in H as (_ & _ & k & t & l & v & e & -> & K & R & N & EO & ->). apply Forall_app in A as [Ak At].
  destruct (params_read_ascii _ _ _ R At) as [X Y]. unfold ascii in X. rewrite !Forall_app in X. destruct X as (X1 & X2 & X3). split; auto.
  split; [exact Ak|]. split; [now apply map_of_ascii|exact X1].
Qed.
Lemma lines_keep : keeps p_content_lines (Forall ascii_cl).
Proof.
  intros s r l A H. apply lines_POk in H. induction H as [s H|s r1 a l r' H L R IH]; [split; auto|].
  destruct (line_keeps _ _ _ A H) as [X Y]. destruct (IH X). split; auto.
Qed.
Lemma delim_keeps {A} (p : parser A) a b P : keeps p P -> keeps (delimited (tag a) p (tag b)) P.
Proof.
  intros K s r v As H. apply delim_POk in H as (t & -> & H). apply Forall_app in As as [_ At]. destruct (K _ _ _ At H) as [X Y]. apply Forall_app in X as [_ X]. auto.
Qed.
Lemma res_keeps {A B} (p : parser A) (f : A -> outcome B) P (Q : B -> Prop) : keeps p P -> (forall a b, P a -> f a = Ok b -> Q b) -> keeps (pmap_res p f) Q.
Proof. intros K F s r v As H. apply pmap_res_POk in H as (a & H & G). destruct (K _ _ _ As H). split; eauto. Qed.
Lemma map_keeps {A B} (p : parser A) (f : A -> B) P (Q : B -> Prop) : keeps p P -> (forall a, P a -> Q (f a)) -> keeps (pmap p f) Q.
Proof. intros K F s r v As H. apply pmap_POk in H as (a & H & ->). destruct (K _ _ _ As H). split; eauto. Qed.
Lemma alt_keeps {A} (p q : parser A) P : keeps p P -> keeps q P -> keeps (palt p q) P.
Proof. intros K L s r v As H. unfold palt in H. destruct (p s) eqn:X; inv H; eauto. Qed.
Lemma many_keeps {A} (p : parser A) P : tails p -> keeps p P -> keeps (many0 p) (Forall P).
Proof.
  intros T K s r l As H. apply many0_POk in H; auto. induction H as [s H|s r1 a l r' H L R IH]; [split; auto|].
  destruct (K _ _ _ As H) as [X Y]. destruct (IH X). split; auto.
Qed.
Lemma pair_keeps {A B} (p : parser A) (q : parser B) P Q : keeps p P -> keeps q Q -> keeps (do x <- p ;; do y <- q ;; pret (x, y)) (fun c => P (fst c) /\ Q (snd c)).
Proof. intros K L s r [a b] As H. apply pair_POk in H as (m & H & G). destruct (K _ _ _ As H) as [X Y]. destruct (L _ _ _ X G). cbn. auto. Qed.
Lemma of_lines {T} (s : schema) (of : comp s -> T) (to : T -> comp s) ls v :
  (forall c, to (of c) = c) -> s_reads s -> Forall ascii_cl ls -> omap of (comp_of_lines s ls) = Ok v -> c_plain (to v).
Proof. intros I R F H. destruct (comp_of_lines s ls) as [c| |] eqn:C; inv H. rewrite I. eapply lines_plain; eauto. Qed.
Lemma simple_keeps {T} n (s : schema) (of : comp s -> T) (to : T -> comp s) : (forall c, to (of c) = c) -> s_reads s -> ascii n ->
  keeps (p_component n (fun ls => omap of (comp_of_lines s ls))) (plain (ser_iso n s to)).
Proof.
  intros I R N. unfold p_component. eapply res_keeps; [apply delim_keeps, lines_keep|]. intros ls v F H. apply iso_plain; auto. eapply of_lines; eauto.
Qed.
Lemma asc_reframe s : ascii s -> ascii (reframe s).
Proof.
  intros A. unfold reframe. apply asc_join; [lita|]. apply Forall_app. split; [|constructor; [lita|constructor]].
  assert (P : forall l, Forall ascii l -> Forall ascii (pop l)).
  { intros l F. unfold pop. destruct l as [|x l]; [constructor|]. rewrite (@app_removelast_last _ (x :: l) []) in F by discriminate. apply Forall_app in F. tauto. }
  apply P, P. pose proof (asc_split LF s A) as F. destruct (split_on LF s); [constructor|]. inversion F; subst. constructor; auto. lita.
Qed.
Lemma K_alarm : keeps p_valarm (plain ser_valarm).
Proof.
  unfold p_valarm, p_component. eapply res_keeps; [apply delim_keeps, lines_keep|]. intros ls v F H.
  assert (G : forall T (Sr : serialize T) x, plain Sr x -> exists s, (let* s := s_ical Sr x in Ok (reframe s)) = Ok s /\ ascii s).
  { intros T Sr x (s & X & Y & _). rewrite X. cbn [obind]. eexists. split; [reflexivity|]. now apply asc_reframe. }
  assert (Q : exists s, valarm_ical v = Ok s /\ ascii s); [|destruct Q as (s & X & Y); exists s; split; [exact X|]; split; [auto|discriminate]].
  unfold valarm_of_lines in H. destruct (find _ ls) as [l|]; try discriminate.
  destruct (str_eqb (cl_value l) (lit "AUDIO")); [|destruct (str_eqb (cl_value l) (lit "DISPLAY")); [|destruct (str_eqb (cl_value l) (lit "EMAIL")); try discriminate]].
  - destruct (audio_of_lines ls) as [x| |] eqn:X; inv H. cbn [valarm_ical]. apply G. apply iso_plain; [lita|apply R_audio|]. eapply of_lines; eauto; [apply audio_to_of|apply R_audio].
  - destruct (display_of_lines ls) as [x| |] eqn:X; inv H. cbn [valarm_ical]. apply G. apply iso_plain; [lita|apply R_display|]. eapply of_lines; eauto; [apply display_to_of|apply R_display].
  - destruct (email_of_lines ls) as [x| |] eqn:X; inv H. cbn [valarm_ical]. apply G. apply iso_plain; [lita|apply R_email|]. eapply of_lines; eauto; [apply email_to_of|apply R_email].
Qed.
Lemma K_vfreebusy : keeps p_vfreebusy (plain ser_vfreebusy). Proof. apply simple_keeps; [apply vfreebusy_to_of|apply R_vfreebusy|lita]. Qed.
Lemma K_vtodo : keeps p_vtodo (plain ser_vtodo). Proof. apply simple_keeps; [apply vtodo_to_of|apply R_vtodo|lita]. Qed.
Lemma K_vjournal : keeps p_vjournal (plain ser_vjournal). Proof. apply simple_keeps; [apply vjournal_to_of|apply R_vjournal|lita]. Qed.
Lemma K_standard : keeps p_standard (plain ser_standard). Proof. apply simple_keeps; [apply standard_to_of|apply R_standard|lita]. Qed.
Lemma K_daylight : keeps p_daylight (plain ser_daylight). Proof. apply simple_keeps; [apply daylight_to_of|apply R_daylight|lita]. Qed.
Lemma K_vevent : keeps p_vevent (plain ser_vevent).
Proof.
  unfold p_vevent. eapply res_keeps; [apply delim_keeps, pair_keeps; [apply lines_keep|apply many_keeps; [apply tails_component|apply K_alarm]]|].
  intros [ls al] v [F G] H. cbn [fst snd] in *. destruct (vevent_of_lines ls) as [w| |] eqn:X; inv H. apply iso_plain; [lita|apply R_vevent|].
  assert (C : c_plain (vevent_to w)) by (eapply of_lines; eauto; [apply vevent_to_of|apply R_vevent]).
  destruct C as (C & D). split; [|exact D]. clear D. revert C. unfold vevent_to, set_ev_alarms, vevent_schema. cbn [fs_plain c_fields fst snd f_plain ev_dtstamp].
  cbn. tauto.
Qed.
Lemma snoc {A} (P : A -> Prop) l x : Forall P l -> P x -> Forall P (l ++ [x]).
Proof. intros. apply Forall_app. auto. Qed.
Lemma K_vtimezone : keeps p_vtimezone (plain ser_vtimezone).
Proof.
  unfold p_vtimezone.
  eapply res_keeps; [apply delim_keeps, pair_keeps; [apply lines_keep|apply (many_keeps _ (fun c => match c with TStandard x => plain ser_standard x | TDaylight x => plain ser_daylight x end)); [apply tails_tz_part|]]|].
  - apply alt_keeps; (eapply map_keeps; [apply K_standard || apply K_daylight|auto]).
  - intros [ls cs] v [F G] H. cbn [fst snd] in *. destruct (vtimezone_of_lines ls) as [w| |] eqn:X; inv H. apply iso_plain; [lita|apply R_vtimezone|].
    assert (C : c_plain (vtimezone_to w)) by (eapply of_lines; eauto; [apply vtimezone_to_of|apply R_vtimezone]). clear X.
    revert w C. induction G as [|c cs Pc G IH]; intros w C; cbn [fold_left]; auto. apply IH. clear IH G.
    destruct C as (C & D). destruct c as [x|x]; (split; [|exact D]); clear D; cbn in *; intuition (auto using snoc).
Qed.
Lemma K_vcalendar : keeps p_vcalendar (plain ser_vcalendar).
Proof.
  unfold p_vcalendar, p_components.
  eapply res_keeps; [apply delim_keeps, pair_keeps; [apply lines_keep|apply (many_keeps _ (fun c => match c with
    CAlarm x => plain ser_valarm x | CEvent x => plain ser_vevent x | CFreebusy x => plain ser_vfreebusy x | CJournal x => plain ser_vjournal x
    | CTimezone x => plain ser_vtimezone x | CTodo x => plain ser_vtodo x end)); [apply tails_any|]]|].
  - unfold p_any_component. repeat apply alt_keeps.
    + eapply map_keeps; [apply K_alarm|auto].
    + eapply map_keeps; [apply K_vevent|auto].
    + eapply map_keeps; [apply K_vfreebusy|auto].
    + eapply map_keeps; [apply K_vjournal|auto].
    + eapply map_keeps; [apply K_vtimezone|auto].
    + eapply map_keeps; [apply K_vtodo|auto].
  - intros [ls cs] v [F G] H. cbn [fst snd] in *. destruct (vcalendar_of_lines ls) as [w| |] eqn:X; inv H. apply iso_plain; [lita|apply R_vcalendar|].
    assert (C : c_plain (vcalendar_to w)) by (eapply of_lines; eauto; [apply vcalendar_to_of|apply R_vcalendar]). clear X.
    revert w C. induction G as [|c cs Pc G IH]; intros w C; cbn [fold_left]; auto. apply IH. clear IH G.
    destruct C as (C & D). destruct c as [x|x|x|x|x|x]; (split; [|exact D]); clear D; cbn in *; intuition (auto using snoc).
Qed.
Lemma str_keeps {A} (p : parser A) (Sr : serialize A) s v : keeps p (plain Sr) -> ascii s -> from_str p s = Ok v -> exists out, s_ical Sr v = Ok out /\ ascii out.
Proof.
  intros K As H. unfold from_str in H. destruct (p (unfold_lines s)) as [r w| |] eqn:X; inv H. destruct (K _ _ _ (asc_unfold s As) X) as [_ (o & Y & Z & _)]. eauto.
Qed.
End Ascii.
Ltac asc := intros E AF s v; apply str_keeps.
Theorem C73_calendar : forall E, ascii_floats E -> forall s v, ascii s -> vcalendar_of_str s = Ok v -> exists out, s_ical ser_vcalendar v = Ok out /\ ascii out.
Proof. asc; now apply K_vcalendar. Qed.
Theorem C73_event : forall E, ascii_floats E -> forall s v, ascii s -> vevent_of_str s = Ok v -> exists out, s_ical ser_vevent v = Ok out /\ ascii out.
Proof. asc; now apply K_vevent. Qed.
Theorem C73_todo : forall E, ascii_floats E -> forall s v, ascii s -> vtodo_of_str s = Ok v -> exists out, s_ical ser_vtodo v = Ok out /\ ascii out.
Proof. asc; now apply K_vtodo. Qed.
Theorem C73_journal : forall E, ascii_floats E -> forall s v, ascii s -> vjournal_of_str s = Ok v -> exists out, s_ical ser_vjournal v = Ok out /\ ascii out.
Proof. asc; now apply K_vjournal. Qed.
Theorem C73_freebusy : forall E, ascii_floats E -> forall s v, ascii s -> vfreebusy_of_str s = Ok v -> exists out, s_ical ser_vfreebusy v = Ok out /\ ascii out.
Proof. asc; now apply K_vfreebusy. Qed.
Theorem C73_timezone : forall E, ascii_floats E -> forall s v, ascii s -> vtimezone_of_str s = Ok v -> exists out, s_ical ser_vtimezone v = Ok out /\ ascii out.
Proof. asc; now apply K_vtimezone. Qed.
Theorem C73_standard : forall E, ascii_floats E -> forall s v, ascii s -> standard_of_str s = Ok v -> exists out, s_ical ser_standard v = Ok out /\ ascii out.
Proof. asc; now apply K_standard. Qed.
Theorem C73_daylight : forall E, ascii_floats E -> forall s v, ascii s -> daylight_of_str s = Ok v -> exists out, s_ical ser_daylight v = Ok out /\ ascii out.
Proof. asc; now apply K_daylight. Qed.
Theorem C73_alarm : forall E, ascii_floats E -> forall s v, ascii s -> valarm_of_str s = Ok v -> exists out, s_ical ser_valarm v = Ok out /\ ascii out.
Proof. asc; now apply K_alarm. Qed.
(** Without the ASCII condition it fails: an event with a summary of 40 accented letters is read, and writing it panics. *)
Theorem C73_refuted : forall E : Env, exists s v, vevent_of_str s = Ok v /\ s_ical ser_vevent v = Panic.
Proof.
  intros E. exists (lit "BEGIN:VEVENT" ++ CRLF ++ lit "DTSTAMP:20240101T000000" ++ CRLF ++ lit "UID:1" ++ CRLF ++ lit "DTSTART:20240101T000000" ++ CRLF
    ++ lit "SUMMARY:" ++ repeat 233 40 ++ CRLF ++ lit "END:VEVENT" ++ CRLF).
  eexists. split; [vm_compute; reflexivity|]. vm_compute. reflexivity.
Qed.
(** A calendar with events, a to-do and an alarm meets the hypotheses. *)
Example C73_nonvacuous : ascii_floats env_east /\ exists s (v : vcalendar), ascii s /\ @vcalendar_of_str env_east s = Ok v /\ length (ca_events v) = 2%nat /\ length (ca_todo v) = 1%nat.
Proof.
  split; [split; [split; constructor|discriminate]|].
  exists (calendar_with (event_with [] ++ [lit "BEGIN:VTODO"; lit "DTSTAMP:20240101T000000Z"; lit "UID:3"; lit "END:VTODO"] ++
    event_with [lit "SUMMARY:folded "; lit " summary"; lit "BEGIN:VALARM"; lit "ACTION:AUDIO"; lit "TRIGGER:-PT5M"; lit "END:VALARM"]) ++ lit " and more").
  eexists. split; [lita|]. split; [vm_compute; reflexivity|]. split; reflexivity.
Qed.
