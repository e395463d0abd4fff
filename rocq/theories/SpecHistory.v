(** * Loading and saving again and again. *)
From Verif Require Import Base Env Chrono Types Ser Derive SpecText SpecLine SpecDur PropLine PropRule Components SpecComp SpecFields SpecRound.

(** A line whose parameters can be written back unquoted and whose value is on one line. *)
Definition clean_line (l : content_line) : Prop := key_text (cl_key l) /\ good_params (cl_params l) /\ no_eol (cl_value l).
(** What Rust's float formatting, nom's [float] and [str::to_uppercase] satisfy: no line
    break is invented, no char disappears, and reading a float consumes a prefix. *)
Definition sane_env {E : Env} : Prop :=
  (forall x, no_eol (f32_show x)) /\ (forall x, no_eol (f32_show1 x)) /\ (forall c, 128 <= c -> no_eol (upper_nonascii c) /\ upper_nonascii c <> []) /\
  (forall s r x, f32_parse s = Some (r, x) -> exists used, s = used ++ r).
(** [x] is what is left of [s] at the start of one of its lines. *)
Definition from_line (s x : str) : Prop := exists before, s = before ++ x /\ (before = [] \/ exists b, before = b ++ [LF]).
(** Every content line of the (unfolded) text has parameters that need no quotes. *)
Definition plain_file (s : str) : Prop :=
  forall x l rest, from_line (unfold_lines s) x -> is_line x l rest -> sorted_map (cl_params l) -> forall k v, In (k, v) (cl_params l) -> param_value v.
(** [n] times: save, then load what was saved. *)
Inductive generations {T} (save : T -> outcome str) (load : str -> outcome T) : nat -> T -> T -> Prop :=
| g_here v : generations save load 0 v v
| g_more n v w x out : generations save load n v w -> save w = Ok out -> load out = Ok x -> generations save load (S n) v x.

(** ** After [n] generations *)
(** To the second: what is written of a time of day (a leap second only as :60). *)
Definition to_second (n : ndt) : ndt :=
  if nd_nano n <? 1000000000 then mk_ndt (nd_date n) (nd_secs n) 0
  else if nd_secs n mod 60 =? 59 then mk_ndt (nd_date n) (nd_secs n) 1000000000
  else mk_ndt (nd_date n) (nd_secs n + 1) 0.
(** A required text: escaped once more at each generation; its parameters are kept. *)
Definition text_after (n : nat) (t t' : text) : Prop := t' = mk_text (t_params t) (Nat.iter n escaped (t_text t)).
Definition uri_after (n : nat) (u u' : uri) : Prop := u' = mk_uri (u_params u) (Nat.iter n escaped (u_uri u)).
Definition same {T} (n : nat) (x x' : T) : Prop := x' = x.
(** A duration (within chrono's range) with a fraction of a second is read as zero. *)
Definition duration_after (n : nat) (d d' : tdelta) : Prop := Z.abs d <= longest -> d' = if d mod sec =? 0 then d else 0.
(** An offset loses its seconds. *)
Definition offset_after (n : nat) (o o' : Z) : Prop := o' = Z.quot o 60 * 60.
(** A list of which only one entry comes back: no entry, one entry, or several joined. *)
Definition maybe {T} (shown : T -> str) (after : T -> T -> Prop) (o o' : option T) : Prop :=
  match o with
  | None => o' = None
  | Some x => (shown x = [] /\ o' = None) \/ exists y, shown x <> [] /\ o' = Some y /\ after x y
  end.
(** A value whose text is never empty. *)
Definition kept {T} (after : T -> T -> Prop) (o o' : option T) : Prop :=
  match o with None => o' = None | Some x => exists y, o' = Some y /\ after x y end.
Definition joined (l : list str) : str := join [44] l.
Definition texts_after (n : nat) (l l' : list text) : Prop :=
  match l with
  | [] => l' = []
  | [t] => maybe text_shown (text_after n) (Some t) (hd_error l') /\ (length l' <= 1)%nat
  | _ => l' = [mk_text [] (Nat.iter (n - 1) escaped (joined (map text_shown l)))]
  end.
Definition uris_after (n : nat) (l l' : list uri) : Prop :=
  match l with
  | [] => l' = []
  | [t] => maybe uri_shown (uri_after n) (Some t) (hd_error l') /\ (length l' <= 1)%nat
  | _ => l' = [mk_uri [] (Nat.iter (n - 1) escaped (joined (map uri_shown l)))]
  end.
(** A comma list: what is between the commas of the first line written, then escaped once
    more at each further generation. *)
Definition names_after (n : nat) (l l' : list text) : Prop :=
  match joined (map text_shown l) with
  | [] => l' = []
  | s => l' = map (fun x => mk_text [] (Nat.iter (n - 1) escaped x)) (split_on 44 s)
  end.
(** The extension properties: one line, that quotes itself at each further generation. *)
Definition ext_after (name : str) (n : nat) (m m' : smap content_line) : Prop :=
  match m with
  | [] => m' = []
  | _ => m' = [(name, mk_cl name [] (Nat.iter (n - 1) (fun v => name ++ [61] ++ escaped v)
      (join [59] (map (fun kl => fst kl ++ [61] ++ escaped (cl_value (snd kl))) m))))]
  end.

Section Env.
Context {E : Env}.
(** A moment is read as the UTC time of its local clock: it moves by the zone's offset. *)
Definition moved (u : ndt) : ndt := to_second (naive_local u).
Definition datetime_after (n : nat) (d d' : datetime) : Prop :=
  match d with
  | Naive a => d' = Naive (to_second a)
  | Local u => d' = Local (Nat.iter n moved u)
  end.
Definition date_after (n : nat) (d d' : date) : Prop :=
  match d with
  | DDate a => d' = DDate a
  | DDateTime t => exists t', d' = DDateTime t' /\ datetime_after n t t'
  end.
Definition trigger_after (n : nat) (t t' : trigger) : Prop :=
  match t with
  | TrDateTime d => exists d', t' = TrDateTime d' /\ datetime_after n d d'
  | TrDuration d => exists d', t' = TrDuration d' /\ duration_after n d d'
  end.
Definition period_after (n : nat) (p p' : period) : Prop :=
  match p with
  | StartEnd s e => exists s' e', p' = StartEnd s' e' /\ datetime_after n s s' /\ datetime_after n e e'
  | StartDur s d => exists s' d', p' = StartDur s' d' /\ datetime_after n s s' /\ duration_after n d d'
  end.
Definition class_after (n : nat) (c c' : class) : Prop :=
  match c with
  | Custom s => let s' := Nat.iter n to_uppercase s in
      c' = if str_eqb s' (lit "PUBLIC") then Public else if str_eqb s' (lit "PRIVATE") then Private
           else if str_eqb s' (lit "CONFIDENTIAL") then Confidential else Custom s'
  | _ => c' = c
  end.
(** Floats: only those that are read back as written are followed. *)
Definition geo_after (n : nat) (g g' : geo) : Prop := safe_geo g -> g' = g.
Definition rstatus_after (n : nat) (l l' : list request_status) : Prop := at_most_one safe_rs l -> l' = l.
(** A rule with numbers in range: only its UNTIL can move. *)
Definition rule_numbers (r : recur) : Prop := writable_rule (mk_recur (r_freq r) None (r_count r) (r_interval r) (r_by_second r) (r_by_minute r) (r_by_hour r)
  (r_by_day r) (r_by_monthday r) (r_by_yearday r) (r_by_weekno r) (r_by_month r) (r_by_setpos r) (r_wkst r)).
Definition rule_after (n : nat) (r r' : recur) : Prop :=
  rule_numbers r -> exists u, r' = mk_recur (r_freq r) u (r_count r) (r_interval r) (r_by_second r) (r_by_minute r) (r_by_hour r)
    (r_by_day r) (r_by_monthday r) (r_by_yearday r) (r_by_weekno r) (r_by_month r) (r_by_setpos r) (r_wkst r) /\
    match r_until r with None => u = None | Some d => exists d', u = Some d' /\ date_after n d d' end.
End Env.
