(** * Writing: src/ser.rs and the [Display]/[Serialize] impls of src/properties. *)
From Verif Require Import Base Env Chrono Types.

(** src/ser.rs:15-25: an implementation of [Serialize]. [s_component] stands for
    [component()] (only its being [Some] or [None] is observed by callers). *)
Record serialize (T : Type) := mk_ser {
  s_component : option str;
  s_attr : T -> option str;
  s_ical : T -> outcome str;
}.
Arguments mk_ser {T}. Arguments s_component {T}. Arguments s_attr {T}. Arguments s_ical {T}.

(** src/ser.rs:2-11 [ical_for_tostring!] *)
Definition ser_display {T} (show : T -> str) : serialize T :=
  mk_ser None (fun _ => None) (fun x => Ok (show x)).

(** src/ser.rs:27-38 [ser::ical] *)
Definition ser_ical {T} (S : serialize T) (v : T) : outcome str :=
  let* s := s_ical S v in
  Ok (match s_attr S v with Some a => a ++ [58] | None => [] end ++ s).

(** src/ser.rs:115-119 [escape] *)
Definition escape (s : str) : str :=
  replace_char 10 (lit "\n") (replace_char 44 (lit "\,") (replace_char 59 (lit "\;") s)).

(** src/ser.rs:40-43 *)
Definition ser_i8 : serialize Z := ser_display show_int.
Definition ser_u8 : serialize Z := ser_display show_int.
Definition ser_u32 : serialize Z := ser_display show_int.
Definition ser_td : serialize tdelta := ser_display td_show.

(** src/ser.rs:45-65 [Serialize for FixedOffset] *)
Definition offset_show (off : Z) : str :=
  let sign := if off <? 0 then 45 else 43 in
  let o := Z.abs off in
  let sec := o mod 60 in
  let mins := o / 60 in
  let min := mins mod 60 in
  let hour := mins / 60 in
  if sec =? 0 then sign :: show_pad 2 hour ++ show_pad 2 min
  else sign :: show_pad 2 hour ++ show_pad 2 min ++ show_pad 2 sec.
Definition ser_offset : serialize Z := ser_display offset_show.

(** src/ser.rs:67-71 *)
Definition ser_string : serialize str := mk_ser None (fun _ => None) (fun s => Ok (escape s)).

(** src/ser.rs:73-85 [Serialize for Vec<T>]: each item followed by ',', then the
    last char is popped. *)
Definition vec_ical {T} (S : serialize T) (l : list T) : outcome str :=
  let* parts := ocollect (s_ical S) l in
  Ok (pop (flat_map (fun p => p ++ [44]) parts)).
Definition ser_vec {T} (S : serialize T) : serialize (list T) :=
  mk_ser None (fun _ => None) (vec_ical S).

(** src/ser.rs:87-103 [Serialize for Option<T>] *)
Definition ser_opt {T} (S : serialize T) : serialize (option T) :=
  mk_ser None
    (fun o => match o with Some v => s_attr S v | None => None end)
    (fun o => match o with Some v => s_ical S v | None => Ok [] end).

(** src/ser.rs:105-113 [Serialize for BTreeMap<K, V>] with [K = String] *)
Definition map_ical {V} (S : serialize V) (m : smap V) : outcome str :=
  let* parts := ocollect (fun kv => let* v := s_ical S (snd kv) in
                                    Ok (fst kv ++ [61] ++ v ++ [59])) m in
  Ok (pop (concat parts)).
Definition ser_map {V} (S : serialize V) : serialize (smap V) :=
  mk_ser None (fun _ => None) (map_ical S).

(** [params.ical().ok()], used by [attr] of [ContentLine], [Text] and [Uri]:
    src/content_line.rs:61-67, properties/text.rs:64-70, properties/uri.rs:58-64 *)
Definition params_attr (m : smap str) : option str :=
  match m with
  | [] => None
  | _ => match map_ical ser_string m with Ok s => Some s | _ => None end
  end.
(** src/content_line.rs:56-68 *)
Definition ser_cl : serialize content_line :=
  mk_ser None (fun c => params_attr (cl_params c)) (fun c => s_ical ser_string (cl_value c)).
(** src/properties/text.rs:59-71 *)
Definition ser_text : serialize text :=
  mk_ser None (fun t => params_attr (t_params t)) (fun t => s_ical ser_string (t_text t)).
(** src/properties/uri.rs:53-65 *)
Definition ser_uri : serialize uri :=
  mk_ser None (fun u => params_attr (u_params u)) (fun u => s_ical ser_string (u_uri u)).

(** src/ser.rs:149-160 [split]: chunks of [n] bytes; [None] when a cut falls
    inside a char. The fuel is the number of chars: every chunk has at least one
    (SerFacts.chunks_eq). *)
Fixpoint chunks_fuel (fuel : nat) (n : nat) (s : str) : option (list str) :=
  match s with
  | [] => Some []
  | _ =>
      match fuel with
      | O => None
      | S f =>
          match split_at (Nat.min n (blen s)) s with
          | None => None
          | Some (a, b) => option_map (cons a) (chunks_fuel f n b)
          end
      end
  end.
Definition chunks (n : nat) (s : str) : option (list str) := chunks_fuel (length s) n s.

(** src/ser.rs:121-147 [field], the folding step (139-142) *)
Definition fold_line (s : str) : outcome str :=
  if (75 <? blen s)%nat
  then match chunks 75 s with Some l => Ok (join (CRLF ++ [32]) l) | None => Panic end
  else Ok s.
(** src/ser.rs:121-147 [field] *)
Definition ser_field {T} (S : serialize T) (name : str) (v : T) : outcome str :=
  let* ical := s_ical S v in
  match s_component S with
  | Some _ => Ok ical
  | None =>
      let s := match ical with
               | [] => []
               | _ => name ++ match s_attr S v with Some a => 59 :: a | None => [] end
                      ++ [58] ++ ical ++ CRLF
               end in
      fold_line s
  end.

Section Env.
  Context {E : Env}.
  (** src/properties/date.rs:101-108 [Display for DateTime] *)
  Definition dt_show (d : datetime) : str :=
    match d with
    | Naive n => ndt_show n
    | Local u => ndt_show (naive_local u) ++ lit "Z"
    end.
  (** src/properties/date.rs:149 *)
  Definition ser_datetime : serialize datetime := ser_display dt_show.
  (** src/properties/date.rs:201-208 [Display for Date] *)
  Definition date_str (d : date) : str :=
    match d with DDate n => date_show n | DDateTime t => dt_show t end.
  (** src/properties/date.rs:271-282 [Serialize for Date] *)
  Definition ser_date : serialize date :=
    mk_ser None
      (fun d => match d with DDate _ => Some (lit "VALUE=DATE") | DDateTime _ => None end)
      (fun d => Ok (date_str d)).
  (** src/properties/period.rs:56-65,90-94,119-123 *)
  Definition period_show (p : period) : str :=
    match p with
    | StartEnd s e => dt_show s ++ [47] ++ dt_show e
    | StartDur s d => dt_show s ++ [47] ++ td_show d
    end.
  Definition ser_period : serialize period := ser_display period_show.
  (** src/properties/rdate.rs:20-44 *)
  Definition rdate_show (r : rdate) : str :=
    match r with
    | RDates l => lit "VALUE=DATE:" ++ join [44] (map date_str l)
    | RPeriods l => lit "VALUE=PERIOD:" ++ join [44] (map period_show l)
    end.
  Definition ser_rdate : serialize rdate := ser_display rdate_show.
  (** src/properties/trigger.rs:36-52 *)
  Definition ser_trigger : serialize trigger :=
    mk_ser None
      (fun t => Some (match t with
                      | TrDateTime _ => lit "VALUE=DATE-TIME"
                      | TrDuration _ => lit "VALUE=DURATION" end))
      (fun t => match t with
                | TrDateTime d => s_ical ser_datetime d
                | TrDuration d => s_ical ser_td d end).
  (** src/properties/geo.rs:34-40 *)
  Definition geo_show (g : geo) : str := f32_show (g_lat g) ++ [59] ++ f32_show (g_lon g).
  Definition ser_geo : serialize geo := ser_display geo_show.
  (** src/properties/request_status.rs:35-50 *)
  Definition rs_show (r : request_status) : str :=
    f32_show1 (rs_code r) ++ [59] ++ escape (rs_desc r)
    ++ match rs_ext r with Some e => 59 :: escape e | None => [] end.
  Definition ser_rs : serialize request_status := ser_display rs_show.
  (** src/properties/class.rs:44-57 *)
  Definition class_show (c : class) : str :=
    match c with
    | Public => lit "PUBLIC" | Private => lit "PRIVATE" | Confidential => lit "CONFIDENTIAL"
    | Custom s => to_uppercase s
    end.
  Definition ser_class : serialize class := ser_display class_show.
  (** src/properties/status.rs:61-78 *)
  Definition status_show (s : status) : str :=
    match s with
    | Tentative => lit "TENTATIVE" | Confirmed => lit "CONFIRMED" | Cancelled => lit "CANCELLED"
    | NeedsAction => lit "NEEDS-ACTION" | Completed => lit "COMPLETED"
    | InProcess => lit "IN-PROCESS" | Draft => lit "DRAFT" | Final => lit "FINAL"
    end.
  Definition ser_status : serialize status := ser_display status_show.
  (** src/properties/time_transparency.rs:43-54 *)
  Definition transp_show (t : transparency) : str :=
    match t with Opaque => lit "OPAQUE" | Transparent => lit "TRANSPARENT" end.
  Definition ser_transp : serialize transparency := ser_display transp_show.
  (** src/properties/recur.rs:186-202 *)
  Definition freq_show (f : freq) : str :=
    match f with
    | Secondly => lit "SECONDLY" | Minutely => lit "MINUTELY" | Hourly => lit "HOURLY"
    | Daily => lit "DAILY" | Weekly => lit "WEEKLY" | Monthly => lit "MONTHLY"
    | Yearly => lit "YEARLY"
    end.
  Definition ser_freq : serialize freq := ser_display freq_show.
  (** src/properties/recur.rs:285-301 *)
  Definition weekday_show (w : weekday) : str :=
    match w with
    | Sunday => lit "SU" | Monday => lit "MO" | Tuesday => lit "TU" | Wednesday => lit "WE"
    | Thursday => lit "TH" | Friday => lit "FR" | Saturday => lit "SA"
    end.
  Definition ser_weekday : serialize weekday := ser_display weekday_show.
  (** src/properties/recur.rs:236-246 *)
  Definition wdn_show (w : weekdaynum) : str :=
    match wn_ord w with Some n => show_int n | None => [] end ++ weekday_show (wn_weekday w).
  Definition ser_wdn : serialize weekdaynum := ser_display wdn_show.

  (** derive/src/serialize.rs:39-66, one field: nothing when the value is written
      as the empty string. *)
  Definition ser_part {T} (S : serialize T) (name : str) (v : T) : outcome str :=
    let* ical := s_ical S v in
    Ok (match ical with [] => [] | _ => name ++ [61] ++ ical ++ [59] end).
  (** derive/src/serialize.rs:55-67 applied to src/properties/recur.rs:6-31 *)
  Definition recur_ical (r : recur) : outcome str :=
    let* s1 := ser_part ser_freq (lit "FREQ") (r_freq r) in
    let* s2 := ser_part (ser_opt ser_date) (lit "UNTIL") (r_until r) in
    let* s3 := ser_part (ser_opt ser_u8) (lit "COUNT") (r_count r) in
    let* s4 := ser_part ser_u8 (lit "INTERVAL") (r_interval r) in
    let* s5 := ser_part (ser_vec ser_i8) (lit "BYSECOND") (r_by_second r) in
    let* s6 := ser_part (ser_vec ser_i8) (lit "BYMINUTE") (r_by_minute r) in
    let* s7 := ser_part (ser_vec ser_i8) (lit "BYHOUR") (r_by_hour r) in
    let* s8 := ser_part (ser_vec ser_wdn) (lit "BYDAY") (r_by_day r) in
    let* s9 := ser_part (ser_vec ser_i8) (lit "BYMONTHDAY") (r_by_monthday r) in
    let* s10 := ser_part (ser_vec ser_i8) (lit "BYYEARDAY") (r_by_yearday r) in
    let* s11 := ser_part (ser_vec ser_i8) (lit "BYWEEKNO") (r_by_weekno r) in
    let* s12 := ser_part (ser_vec ser_i8) (lit "BYMONTH") (r_by_month r) in
    let* s13 := ser_part (ser_vec ser_i8) (lit "BYSETPOS") (r_by_setpos r) in
    let* s14 := ser_part (ser_opt ser_weekday) (lit "WKST") (r_wkst r) in
    Ok (pop (s1 ++ s2 ++ s3 ++ s4 ++ s5 ++ s6 ++ s7 ++ s8 ++ s9 ++ s10 ++ s11 ++ s12
             ++ s13 ++ s14)).
  Definition ser_recur : serialize recur := mk_ser None (fun _ => None) recur_ical.
End Env.
