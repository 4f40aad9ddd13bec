(** Model of rocketry/time/cron.py and AnchoredInterval.create_range
    (rocketry/core/time/anchor.py:110-121).  A field is given by the pieces
    that split(","), split("/") and split("-") cut its string into, with the
    decimal numbers read: a list of items. *)
From Verif Require Import Model.Base Model.Interval Model.Calendar Model.Anchored Model.Period.
Open Scope Z_scope.

(** A value: a string of digits, or the name of the [k]-th unit of the class
    ("Mon" is 0 for day of week, "Jan" is 0 for month). *)
Inductive cval : Type :=
| CNum (n : Z)
| CName (k : Z).

(** One item of a comma separated list: "*", "*/2", "5" or "5/2", "1-5" or "1-5/2".
    Numbers and steps are not negative (a minus sign is a range). *)
Inductive citem : Type :=
| CStar
| CStarStep (step : Z)
| CAt (v : cval) (step : option Z)
| CRange (a b : cval) (step : option Z).

(** Length of _unit_names: interval.py:88, 125, 163, 237, 316 (and 27, 54) *)
Definition units (c : acls) : Z :=
  match c with
  | TSecond => 1000
  | TMinute | THour => 60
  | TDay => 24
  | TWeek => 7
  | TMonth => 31
  | TYear => 12
  end.

(** _unit_names[i] of each class, as what its anchor_str extracts from it *)
Definition unit_name (c : acls) (i : Z) : aval :=
  match c with
  | TSecond => VClock (i * us_millisecond)
  | TMinute => VClock (i * us_second)
  | THour => VClock (i * us_minute)
  | TDay => VClock (i * us_hour)
  | TWeek => VUnit i None
  | TMonth => VUnit (i + 1) None
  | TYear => VUnit i None
  end.

(** _unit_mapping[name.lower()]: interval.py:165, 318; empty for the other classes (anchor.py:53) *)
Definition unit_mapping (c : acls) (k : Z) : result Z :=
  match c with
  | TWeek | TYear => Ok k
  | _ => Err KeyError
  end.

(** The indices of names[start:stop:step], step > 0 *)
Definition slice (len start stop step : Z) : list Z :=
  filter (fun i => (start <=? i) && (i <? stop) && ((i - start) mod step =? 0))
         (map Z.of_nat (seq 0 (Z.to_nat len))).

Fixpoint map_result {A B} (f : A -> result B) (l : list A) : result (list B) :=
  match l with
  | [] => Ok []
  | a :: l => let* b := f a in let* bs := map_result f l in Ok (b :: bs)
  end.

(** anchor.py:117-121: Any of cls.at(name) for name in _unit_names[start:end:step];
    a zero step is a ValueError, so is Any() *)
Definition create_range (c : acls) (start stop step : Z) : result tperiod :=
  if step =? 0 then Err ValueError
  else
    let* periods := map_result (fun i => let* p := period_at c (unit_name c i) in Ok (PAnch p))
                               (slice (units c) start stop step) in
    mk_any periods.

(** cron.py:89-91 _convert_day_of_week; the other fields are not converted *)
Definition conv (c : acls) (n : Z) : Z :=
  match c with
  | TWeek => if n =? 0 then 7 else n
  | _ => n
  end.

(** conv(int(v)) if v.isdigit() else v: the argument given to the class *)
Definition cval_arg (c : acls) (v : cval) : aval :=
  match v with
  | CNum n => VInt (conv c n)
  | CName k => unit_name c k
  end.

(** ... and as an index of _unit_names (cron.py:61-69, anchor.py:112-115) *)
Definition cval_index (c : acls) (v : cval) : result Z :=
  match v with
  | CNum n => Ok (conv c n)
  | CName k => unit_mapping c k
  end.

(** cron.py:43-77, the body of the loop for one item; None is [continue] *)
Definition item_period (c : acls) (it : citem) : result (option tperiod) :=
  match it with
  | CStar => Ok None
  | CStarStep step =>
      let* step_period := create_range c 0 (units c) step in
      Ok (Some (p_and PAlways step_period))
  | CAt v step =>
      let* step_period := match step with
                          | Some step => create_range c 0 (units c) step
                          | None => Ok PAlways
                          end in
      let* p := period_at c (cval_arg c v) in
      Ok (Some (p_and (PAnch p) step_period))
  | CRange a b (Some step) =>
      let* _ := create_range c 0 (units c) step in
      let* end_ := cval_index c b in
      let* start := cval_index c a in
      let* p := create_range c start (end_ + 1) step in
      Ok (Some p)
  | CRange a b None =>
      let* p := period c (Some (cval_arg c a)) (Some (cval_arg c b)) in
      Ok (Some (PAnch p))
  end.

(** cron.py:37-87 _get_period_from_expr *)
Fixpoint field_period (c : acls) (full_period : option tperiod) (items : list citem) : result (option tperiod) :=
  match items with
  | [] => Ok full_period
  | it :: items =>
      let* period := item_period c it in
      field_period c
        (match period, full_period with
         | None, _ => full_period
         | Some p, None => Some p
         | Some p, Some full => Some (p_or full p)
         end) items
  end.
Definition get_field (c : acls) (items : list citem) : result tperiod :=
  let* full_period := field_period c None items in
  Ok (match full_period with None => PAlways | Some p => p end).

(** cron.py:9-22 Cron *)
Record cron : Type := Cron {
  c_minute : list citem; c_hour : list citem; c_dom : list citem; c_month : list citem; c_dow : list citem }.

(** TimeOfMinute() *)
Definition minutely : anchored := Anchored TMinute 0 (scope_max TMinute).

(** cron.py:93-111 get_subperiod *)
Definition get_subperiod (e : cron) : result tperiod :=
  let* day_of_month := get_field TMonth (c_dom e) in
  let* day_of_week := get_field TWeek (c_dow e) in
  let day_of_week_month :=
    if negb (is_always day_of_month) && negb (is_always day_of_week)
    then p_or day_of_month day_of_week
    else p_and day_of_month day_of_week in
  let* minute := get_field THour (c_minute e) in
  let* hour := get_field TDay (c_hour e) in
  let* month := get_field TYear (c_month e) in
  Ok (p_and (p_and (p_and (p_and minute (PAnch minutely)) hour) month) day_of_week_month).

(** cron.py:29-35 rollforward, rollback; base.py:28-32 __contains__.  The
    subperiod is built anew by each call. *)
Definition cron_rollforward (fuel : nat) (e : cron) (dt : Z) : outcome (interval Z) :=
  obind (of_result (get_subperiod e)) (fun p => rollforward fuel p dt).
Definition cron_rollback (fuel : nat) (e : cron) (dt : Z) : outcome (interval Z) :=
  obind (of_result (get_subperiod e)) (fun p => rollback fuel p dt).
Definition cron_contains (fuel : nat) (e : cron) (dt : Z) : outcome bool :=
  obind (cron_rollforward fuel e dt) (fun i => Returns (contains Z_ops i dt)).
