(** Model of the crontab lines as texts: rocketry/time/cron.py with strings, create_range
    (rocketry/core/time/anchor.py:110-121) with the names of the units as texts, and the cutting of
    a line into fields (rocketry/conditions/api.py:233-249).  Texts are lists of ASCII characters. *)
From Coq Require Import List Bool ZArith Ascii String.
From Verif Require Import Model.Base Model.Interval Model.Calendar Model.Anchored Model.Period Model.Cron
  Model.Statement Model.AnchorText.
Import ListNotations.
Local Open Scope Z_scope.
Local Open Scope list_scope.

(** str.split(d) with a single character *)
Fixpoint split_at (d : ascii) (s : list ascii) : list (list ascii) :=
  match s with
  | [] => [[]]
  | c :: s =>
      if Ascii.eqb c d then [] :: split_at d s
      else match split_at d s with
           | [] => [[c]]
           | f :: fs => (c :: f) :: fs
           end
  end.
(** d in s *)
Definition has (d : ascii) (s : list ascii) : bool := existsb (Ascii.eqb d) s.
(** str.isdigit, of ASCII characters *)
Definition isdigit (s : list ascii) : bool :=
  match s with [] => false | _ => forallb is_digit s end.
Definition is_star (s : list ascii) : bool := if list_eq_dec ascii_dec s ["*"%char] then true else false.

(** int(step).  int also reads signs, blanks around and underscores: such steps are not modelled,
    they are taken as refused like all else that are no digits. *)
Definition int_text (s : list ascii) : result Z := if isdigit s then Ok (to_int s) else Err ValueError.

(** _unit_names[i] of each class: interval.py:27, 54, 88, 125, 163, 237, 316 *)
Definition digit_char (n : Z) : ascii := ascii_of_nat (48 + Z.to_nat n).
Definition two_digits (n : Z) : list ascii := [digit_char (n / 10); digit_char (n mod 10)].
Definition str_int (n : Z) : list ascii :=
  if n <? 10 then [digit_char n] else if n <? 100 then two_digits n else digit_char (n / 100) :: two_digits (n mod 100).
Definition unit_text (c : acls) (i : Z) : list ascii :=
  match c with
  | TSecond => str_int i
  | TMinute => two_digits i
  | THour | TDay => two_digits i ++ txt ":00"
  | TWeek => txt (nth (Z.to_nat i) ["Mon"; "Tue"; "Wed"; "Thu"; "Fri"; "Sat"; "Sun"]%string ""%string)
  | TMonth => if i <? 3 then txt (nth (Z.to_nat i) ["1st"; "2nd"; "3rd"]%string ""%string)
              else str_int (i + 1) ++ txt "th"
  | TYear => txt (nth (Z.to_nat i) ["Jan"; "Feb"; "Mar"; "Apr"; "May"; "Jun"; "Jul"; "Aug"; "Sep"; "Oct"; "Nov";
                                    "Dec"]%string ""%string)
  end.

(** An argument of the classes: an int or a string *)
Inductive carg : Type :=
| CInt (n : Z)
| CText (s : list ascii).
(** cron.py:56-59, 76: conv(int(s)) if s.isdigit() else s *)
Definition read_arg (c : acls) (s : list ascii) : carg :=
  if isdigit s then CInt (conv c (to_int s)) else CText s.

(** _unit_mapping[s.lower()]: interval.py:165-177, 318-324, empty otherwise (anchor.py:53) *)
Definition mapped (c : acls) (a : carg) : result Z :=
  match a with
  | CInt n => Ok n
  | CText s =>
      match (match c with TWeek => week_mapping (lower s) | TYear => year_mapping (lower s) | _ => None end) with
      | Some k => Ok k
      | None => Err KeyError
      end
  end.

(** Cron, cron.py:9-22: five strings *)
Record cron_text : Type := CronText {
  t_minute : list ascii; t_hour : list ascii; t_dom : list ascii; t_month : list ascii; t_dow : list ascii }.
Definition star_text : list ascii := ["*"%char].
(** cron.py:18-23, Cron( *args): the constructor only keeps the strings *)
Definition mk_cron (args : list (list ascii)) : result cron_text :=
  if (5 <? List.length args)%nat then Err TypeError
  else Ok (CronText (nth 0 args star_text) (nth 1 args star_text) (nth 2 args star_text) (nth 3 args star_text)
             (nth 4 args star_text)).

Section CronTexts.
  Variable clock millis : list ascii -> result Z.

  (** What the class makes of an argument, anchor.py:66-82 *)
  Definition arg_value (c : acls) (a : carg) : result aval :=
    match a with
    | CInt n => Ok (VInt n)
    | CText s => read_text clock millis c s
    end.
  (** cls.at(a), cls(a, b): anchor.py:55-64, 123-150, 425-427 *)
  Definition at_arg (c : acls) (a : carg) : result anchored :=
    let* v := arg_value c a in period_at c v.
  Definition range_arg (c : acls) (a b : carg) : result anchored :=
    let* v := arg_value c a in
    let* s := set_start c (Some v) in
    let* w := arg_value c b in
    let* e := set_end c s (Some w) false false false in
    Ok (Anchored c s e).

  (** anchor.py:117-121 *)
  Definition create_range_text (c : acls) (start stop step : Z) : result tperiod :=
    if step =? 0 then Err ValueError
    else
      let* periods := map_result (fun i => let* p := at_arg c (CText (unit_text c i)) in Ok (PAnch p))
                                 (slice (units c) start stop step) in
      mk_any periods.

  (** cron.py:43-79, the body of the loop for one item; None is [continue] *)
  Definition item_text (c : acls) (s : list ascii) : result (option tperiod) :=
    if is_star s then Ok None
    else
      let* (expr, step) :=
        if has "/" s
        then match split_at "/" s with
             | [expr; step] =>
                 let* n := int_text step in
                 let* _ := create_range_text c 0 (units c) n in
                 Ok (expr, Some n)
             | _ => Err ValueError
             end
        else Ok (s, None) in
      if has "-" expr
      then match split_at "-" expr with
           | [a; b] =>
               match step with
               | Some n =>
                   let* stop := mapped c (read_arg c b) in
                   let* start := mapped c (read_arg c a) in
                   let* p := create_range_text c start (stop + 1) n in
                   Ok (Some p)
               | None =>
                   let* p := range_arg c (read_arg c a) (read_arg c b) in
                   Ok (Some (PAnch p))
               end
           | _ => Err ValueError
           end
      else
        let* step_period := match step with
                            | Some n => create_range_text c 0 (units c) n
                            | None => Ok PAlways
                            end in
        if is_star expr then Ok (Some (p_and PAlways step_period))
        else
          let* p := at_arg c (read_arg c expr) in
          Ok (Some (p_and (PAnch p) step_period)).

  (** cron.py:37-87 _get_period_from_expr *)
  Fixpoint pieces_period (c : acls) (full_period : option tperiod) (exprs : list (list ascii))
      : result (option tperiod) :=
    match exprs with
    | [] => Ok full_period
    | s :: exprs =>
        let* period := item_text c s in
        pieces_period c
          (match period, full_period with
           | None, _ => full_period
           | Some p, None => Some p
           | Some p, Some full => Some (p_or full p)
           end) exprs
    end.
  Definition field_text (c : acls) (expression : list ascii) : result tperiod :=
    let* full_period := pieces_period c None (split_at "," expression) in
    Ok (match full_period with None => PAlways | Some p => p end).

  (** cron.py:93-111 get_subperiod *)
  Definition text_subperiod (e : cron_text) : result tperiod :=
    let* day_of_month := field_text TMonth (t_dom e) in
    let* day_of_week := field_text TWeek (t_dow e) in
    let day_of_week_month :=
      if negb (is_always day_of_month) && negb (is_always day_of_week)
      then p_or day_of_month day_of_week
      else p_and day_of_month day_of_week in
    let* minute := field_text THour (t_minute e) in
    let* hour := field_text TDay (t_hour e) in
    let* month := field_text TYear (t_month e) in
    Ok (p_and (p_and (p_and (p_and minute (PAnch minutely)) hour) month) day_of_week_month).

  (** cron.py:29-35, base.py:28-32 *)
  Definition text_rollforward (fuel : nat) (e : cron_text) (dt : Z) : outcome (interval Z) :=
    obind (of_result (text_subperiod e)) (fun p => rollforward fuel p dt).
  Definition text_rollback (fuel : nat) (e : cron_text) (dt : Z) : outcome (interval Z) :=
    obind (of_result (text_subperiod e)) (fun p => rollback fuel p dt).
  Definition text_contains (fuel : nat) (e : cron_text) (dt : Z) : outcome bool :=
    obind (text_rollforward fuel e dt) (fun i => Returns (contains Z_ops i dt)).
End CronTexts.

(** The call of Model/Statement.v that makes such a period *)
Definition make_cron (other_call : pcall -> result cron_text) (k : pcall) : result cron_text :=
  match k with
  | CronOf args => mk_cron args
  | _ => other_call k
  end.
