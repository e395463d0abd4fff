(** * Recurrence: [Recur + Date] (src/properties/recur.rs) and the iterator
    (src/iter.rs). *)
From Verif Require Import Base Env Chrono Types Components.

(** Derived [Ord] of [Freq]: src/properties/recur.rs:138-148 *)
Definition freq_rank (f : freq) : Z :=
  match f with
  | Secondly => 0 | Minutely => 1 | Hourly => 2 | Daily => 3 | Weekly => 4 | Monthly => 5
  | Yearly => 6
  end.

Section Iter.
Context {E : Env}.

(** src/properties/recur.rs:73-89 [Recur + NaiveDate] *)
Definition recur_add_date (r : recur) (d : ndate) : outcome ndate :=
  match r_freq r with
  | Secondly | Minutely | Hourly => Ok d
  | Daily => let* t := td_days (r_interval r) in date_add_td d t
  | Weekly => let* t := td_weeks (r_interval r) in date_add_td d t
  | Monthly => date_add_months d (r_interval r)
  | Yearly => unwrap (date_with_year d (date_year d + r_interval r))
  end.
(** src/properties/recur.rs:120-136 [Recur + NaiveDateTime] *)
Definition recur_add_ndt (r : recur) (n : ndt) : outcome ndt :=
  match r_freq r with
  | Secondly => let* t := td_seconds (r_interval r) in ndt_add_td n t
  | Minutely => let* t := td_minutes (r_interval r) in ndt_add_td n t
  | Hourly => let* t := td_hours (r_interval r) in ndt_add_td n t
  | Daily => let* t := td_days (r_interval r) in ndt_add_td n t
  | Weekly => let* t := td_weeks (r_interval r) in ndt_add_td n t
  | Monthly => ndt_add_months n (r_interval r)
  | Yearly => unwrap (ndt_with_year n (date_year (nd_date n) + r_interval r))
  end.
(** src/properties/recur.rs:102-118 [Recur + DateTime<Local>] *)
Definition recur_add_local (r : recur) (u : ndt) : outcome ndt :=
  match r_freq r with
  | Secondly => let* t := td_seconds (r_interval r) in local_add_td u t
  | Minutely => let* t := td_minutes (r_interval r) in local_add_td u t
  | Hourly => let* t := td_hours (r_interval r) in local_add_td u t
  | Daily => let* t := td_days (r_interval r) in local_add_td u t
  | Weekly => let* t := td_weeks (r_interval r) in local_add_td u t
  | Monthly => local_add_months u (r_interval r)
  | Yearly => unwrap (local_with_year u (local_year u + r_interval r))
  end.
(** src/properties/recur.rs:91-100 [Recur + DateTime] *)
Definition recur_add_dt (r : recur) (t : datetime) : outcome datetime :=
  match t with
  | Naive n => omap Naive (recur_add_ndt r n)
  | Local u => omap Local (recur_add_local r u)
  end.
(** src/properties/recur.rs:57-72 [Recur + Date] *)
Definition recur_add (r : recur) (d : date) : outcome date :=
  match d with
  | DDate n =>
      if freq_rank Daily <=? freq_rank (r_freq r)
      then omap DDate (recur_add_date r n)
      else omap (fun t => DDateTime (Naive t)) (recur_add_ndt r (midnight n))
  | DDateTime t => omap DDateTime (recur_add_dt r t)
  end.

(** src/iter.rs:1-24 [trait Recurring]; [due] and [set_due] are never called by
    the iterator. *)
Record recurring (T : Type) := mk_rec {
  rc_dtstart : T -> option date;
  rc_exdate : T -> list date;
  rc_set_dtstart : T -> date -> T;
  rc_dtend : T -> option date;
  rc_set_dtend : T -> date -> T;
  rc_due : T -> option date;
  rc_set_due : T -> date -> T;
  rc_rrule : T -> option recur;
  rc_set_rrule : T -> recur -> T;
}.
Arguments rc_dtstart {T}. Arguments rc_exdate {T}. Arguments rc_set_dtstart {T}.
Arguments rc_dtend {T}. Arguments rc_set_dtend {T}. Arguments rc_rrule {T}.
Arguments rc_set_rrule {T}. Arguments rc_due {T}. Arguments rc_set_due {T}.

(** src/iter.rs:26-54 *)
Definition rec_vevent : recurring vevent :=
  mk_rec _ (fun v => Some (ev_dtstart v)) ev_exdate set_ev_dtstart
    ev_dtend (fun v d => set_ev_dtend v (Some d))
    (fun _ => None) (fun v _ => v)
    ev_rrule (fun v r => set_ev_rrule v (Some r)).
(** src/iter.rs:56-76 *)
Definition rec_vjournal : recurring vjournal :=
  mk_rec _ (fun v => Some (jo_dtstart v)) jo_exdate set_jo_dtstart
    (fun _ => None) (fun v _ => v)
    (fun _ => None) (fun v _ => v)
    jo_rrule (fun v r => set_jo_rrule v (Some r)).
(** src/iter.rs:78-106 *)
Definition rec_vtodo : recurring vtodo :=
  mk_rec _ to_dtstart to_exdate (fun v d => set_to_dtstart v (Some d))
    (fun _ => None) (fun v _ => v)
    to_due (fun v d => set_to_due v (Some d))
    to_rrule (fun v r => set_to_rrule v (Some r)).

(** Result of one call of an iterator's [next]: an item and the state after it;
    [None] and the state after it; a panic; or not finished within the fuel. *)
Inductive ires (St A : Type) := IYield (a : A) (s : St) | IDone (s : St) | IPanic | IFuel.
Arguments IYield {St A}. Arguments IDone {St A}. Arguments IPanic {St A}. Arguments IFuel {St A}.

(** src/properties/recur.rs:6-31: assignment to [count] *)
Definition set_count (r : recur) (c : option Z) : recur :=
  mk_recur (r_freq r) (r_until r) c (r_interval r) (r_by_second r) (r_by_minute r) (r_by_hour r)
    (r_by_day r) (r_by_monthday r) (r_by_yearday r) (r_by_weekno r) (r_by_month r)
    (r_by_setpos r) (r_wkst r).

Section Next.
  Context {T : Type} (R : recurring T).

  (** Outcome of one turn of the [loop]: leave it with the new item, leave [next]
      with [None], go round again, or panic. *)
  Inductive turn := TBreak (next : T) | TNone | TContinue (next : T) | TPanic.
  (** src/iter.rs:140-170: the body of the [loop] *)
  Definition loop_body (next : T) : turn :=
    match rc_dtstart R next with
    | None => TNone
    | Some dtstart =>
        match rc_rrule R next with
        | None => TNone
        | Some rrule =>
            let stop := match r_until rrule with
                        | Some until => date_naive until <? date_naive dtstart
                        | None => false
                        end in
            if stop then TNone
            else
              match recur_add rrule dtstart with
              | Ok dtstart' =>
                  let next1 := rc_set_dtstart R next dtstart' in
                  match (match rc_dtend R next1 with
                         | Some dtend =>
                             let* e := recur_add rrule dtend in Ok (rc_set_dtend R next1 e)
                         | None => Ok next1
                         end) with
                  | Ok next2 =>
                      let next3 := rc_set_rrule R next2 rrule in
                      if existsb (date_eqb dtstart') (rc_exdate R next3)
                      then TContinue next3
                      else
                        match r_count rrule with
                        | Some c =>
                            if c =? 0 then TNone
                            else TBreak (rc_set_rrule R next3 (set_count rrule (Some (c - 1))))
                        | None => TBreak next3
                        end
                  | _ => TPanic
                  end
              | _ => TPanic
              end
        end
    end.
  (** src/iter.rs:140-170: the [loop]; [fuel] bounds the number of turns. *)
  Fixpoint next_loop (fuel : nat) (next : T) : ires T unit :=
    match fuel with
    | O => IFuel
    | S f =>
        match loop_body next with
        | TBreak n => IYield tt n
        | TNone => IDone next
        | TContinue n => next_loop f n
        | TPanic => IPanic
        end
    end.
  (** src/iter.rs:135-175 [Iterator::next]. The state is [self.item], left alone
      when [None] is returned. A panic loses the iterator. *)
  Definition recur_next (fuel : nat) (item : T) : ires T T :=
    match next_loop fuel item with
    | IYield _ n => IYield item n
    | IDone _ => IDone item
    | IPanic => IPanic
    | IFuel => IFuel
    end.
End Next.

(** [Iterator::skip_while] (core): items are dropped until the predicate fails
    once. The flag is set from then on. A predicate that panics is [None]. *)
Section SkipWhile.
  Context {St A : Type} (next : nat -> St -> ires St A) (p : A -> option bool).
  Fixpoint skip_loop (fuel : nat) (f0 : nat) (s : St) : ires (bool * St) A :=
    match fuel with
    | O => IFuel
    | S f =>
        match next f0 s with
        | IYield a s' =>
            match p a with
            | None => IPanic
            | Some true => skip_loop f f0 s'
            | Some false => IYield a (true, s')
            end
        | IDone s' => IDone (false, s')
        | IPanic => IPanic
        | IFuel => IFuel
        end
    end.
  Definition skip_while (fuel : nat) (st : bool * St) : ires (bool * St) A :=
    let (flag, s) := st in
    if flag
    then match next fuel s with
         | IYield a s' => IYield a (true, s')
         | IDone s' => IDone (true, s')
         | IPanic => IPanic
         | IFuel => IFuel
         end
    else skip_loop fuel fuel s.
End SkipWhile.
(** [Iterator::take_while] (core): ends for good at the first item that fails. *)
Definition take_while_it {St A} (next : nat -> St -> ires St A) (p : A -> option bool)
    (fuel : nat) (st : bool * St) : ires (bool * St) A :=
  let (flag, s) := st in
  if flag then IDone (true, s)
  else match next fuel s with
       | IYield a s' =>
           match p a with
           | None => IPanic
           | Some true => IYield a (false, s')
           | Some false => IDone (true, s')
           end
       | IDone s' => IDone (false, s')
       | IPanic => IPanic
       | IFuel => IFuel
       end.

Section Windows.
  Context {T : Type} (R : recurring T).
  (** [x.dtstart().unwrap() < &d], src/iter.rs:118-119,128 *)
  Definition starts_before (d : date) (x : T) : option bool :=
    match rc_dtstart R x with Some s => Some (date_ltb s d) | None => None end.
  (** src/iter.rs:127-129 [Recur::after]; [recurrent()] starts from a clone of the
      component (src/iter.rs:113-115). *)
  Definition after_next (d : date) := skip_while (recur_next R) (starts_before d).
  Definition after_init (x : T) : bool * T := (false, x).
  (** src/iter.rs:117-120 [Recur::between] *)
  Definition between_next (a b : date) :=
    take_while_it (after_next a) (starts_before b).
  Definition between_init (x : T) : bool * (bool * T) := (false, (false, x)).
  (** src/iter.rs:122-125 [Recur::at]: the end of the window, or a panic, computed
      when [at] is called. *)
  Definition at_end (d : date) : outcome date :=
    let* delta := td_days 1 in date_plus_td d delta.
End Windows.
End Iter.
Arguments IYield {St A}. Arguments IDone {St A}. Arguments IPanic {St A}. Arguments IFuel {St A}.
Arguments rc_dtstart {T}. Arguments rc_exdate {T}. Arguments rc_set_dtstart {T}.
Arguments rc_dtend {T}. Arguments rc_set_dtend {T}. Arguments rc_rrule {T}.
Arguments rc_set_rrule {T}. Arguments rc_due {T}. Arguments rc_set_due {T}.
Arguments TBreak {T}. Arguments TNone {T}. Arguments TContinue {T}. Arguments TPanic {T}.
