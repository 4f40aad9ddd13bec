(** Model of the text of a duration: rocketry/pybox/time/convert.py:67-209
    timedelta_to_dict and timedelta_to_str.  A duration is a number of
    microseconds.

    The code computes with floats, starting from dt.total_seconds() * 1e6.  [seen]
    is that product rounded down to a whole number; from there on the model
    computes with whole numbers, as floats do exactly below 2^53 when the
    product is whole.  When it is not, the fraction is lost at the end in the
    code as well (int(microsec)); that subtracting may round once more is left
    out. *)
From Coq Require Import Ascii String Bool SpecFloat.
From Verif Require Import Model.Base.
Open Scope Z_scope.

Inductive tunit : Type := Years | Months | Weeks | Days | Hours | Minutes | Seconds | Milliseconds | Microseconds.

(** convert.py:71-74 with the default lengths of years and months *)
Definition tsize (u : tunit) : Z :=
  match u with
  | Years => 365 * 86400 * 10 ^ 6
  | Months => 30 * 86400 * 10 ^ 6
  | Weeks => 7 * 86400 * 10 ^ 6
  | Days => 86400 * 10 ^ 6
  | Hours => 3600 * 10 ^ 6
  | Minutes => 60 * 10 ^ 6
  | Seconds => 10 ^ 6
  | Milliseconds => 1000
  | Microseconds => 1
  end.

(** convert.py:79-92: the units allowed; "all" and the default *)
Definition all_units : list tunit := [Years; Months; Weeks; Days; Hours; Minutes; Seconds; Milliseconds; Microseconds].
Definition fixed_units : list tunit := [Days; Hours; Minutes; Seconds; Milliseconds; Microseconds].

(** convert.py:94-132: from the largest unit to the smallest ([units] in that
    order), what is left over going on *)
Fixpoint components (units : list tunit) (us : Z) : list (tunit * Z) :=
  match units with
  | [] => []
  | u :: units => (u, us / tsize u) :: components units (us - us / tsize u * tsize u)
  end.

(** convert.py:67-133; the product of the floats *)
Definition prec : Z := 53.
Definition emax : Z := 1024.
Definition float_of_Z (n : Z) : spec_float := binary_normalize prec emax n 0 false.
Definition floor_float (f : spec_float) : Z :=
  match f with
  | S754_finite s m e =>
      let z := if s then Z.neg m else Z.pos m in
      if 0 <=? e then z * 2 ^ e else z / 2 ^ (- e)
  | _ => 0
  end.
Definition float_seen (us : Z) : Z :=
  floor_float (SFmul prec emax (SFdiv prec emax (float_of_Z us) (float_of_Z (10 ^ 6))) (float_of_Z (10 ^ 6))).
Definition timedelta_to_dict (seen : Z -> Z) (units : list tunit) (us : Z) : list (tunit * Z) := components units (seen us).

(** f"{value}" *)
Definition digit_of (d : Z) : ascii := ascii_of_N (Z.to_N (48 + d)).
Fixpoint decimal_from (fuel : nat) (n : Z) (acc : list ascii) : list ascii :=
  match fuel with
  | O => acc
  | S fuel => let acc := digit_of (n mod 10) :: acc in if n / 10 =? 0 then acc else decimal_from fuel (n / 10) acc
  end.
Definition decimal (n : Z) : list ascii :=
  if n <? 0 then "-"%char :: decimal_from (S (Z.to_nat (Z.log2 (- n)))) (- n) []
  else decimal_from (S (Z.to_nat (Z.log2 n))) n [].

(** convert.py:157-193: the formats.  The letter mu is beyond ASCII; [mu] stands
    for it (no letter the reader knows a unit by). *)
Inductive tformat : Type := Full | Semishort | Short.
Definition mu : ascii := "181"%char.
Definition unit_text (f : tformat) (u : tunit) : list ascii :=
  let s := list_ascii_of_string in
  match f, u with
  | (Full | Semishort), Years => s " years"%string
  | (Full | Semishort), Months => s " months"%string
  | (Full | Semishort), Weeks => s " weeks"%string
  | (Full | Semishort), Days => s " days"%string
  | Full, Hours => s " hours"%string
  | Full, Minutes => s " minutes"%string
  | Full, Seconds => s " seconds"%string
  | Full, Milliseconds => s " milliseconds"%string
  | Full, Microseconds => s " microseconds"%string
  | Semishort, Hours => s " hrs"%string
  | Semishort, Minutes => s " mins"%string
  | Semishort, Seconds => s " secs"%string
  | Semishort, Milliseconds => s " ms"%string
  | Semishort, Microseconds => " "%char :: mu :: s "s"%string
  | Short, Years => s "Y"%string
  | Short, Months => s "M"%string
  | Short, Weeks => s "W"%string
  | Short, Days => s "d"%string
  | Short, Hours => s "h"%string
  | Short, Minutes => s "m"%string
  | Short, Seconds => s "s"%string
  | Short, Milliseconds => s "ms"%string
  | Short, Microseconds => mu :: s "s"%string
  end.

Definition tunit_eqb (a b : tunit) : bool :=
  match a, b with
  | Years, Years | Months, Months | Weeks, Weeks | Days, Days | Hours, Hours | Minutes, Minutes
  | Seconds, Seconds | Milliseconds, Milliseconds | Microseconds, Microseconds => true
  | _, _ => false
  end.

(** convert.py:143-154: the smallest and the largest unit that are not zero *)
Definition min_unit (cs : list (tunit * Z)) : tunit :=
  fold_left (fun m uv => if snd uv =? 0 then m else fst uv) cs Microseconds.
Fixpoint max_unit (cs : list (tunit * Z)) : tunit :=
  match cs with
  | [] => Microseconds
  | (u, v) :: cs => if v =? 0 then max_unit cs else u
  end.

(** convert.py:195-209: the loop; the separator is the default one *)
Fixpoint spell (f : tformat) (largest smallest : tunit) (reached : bool) (cs : list (tunit * Z)) : list ascii :=
  match cs with
  | [] => []
  | (u, v) :: cs =>
      let reached := reached || tunit_eqb u largest in
      let here :=
        if tunit_eqb largest u then decimal v ++ unit_text f u
        else if reached then ","%char :: " "%char :: decimal v ++ unit_text f u
        else [] in
      here ++ (if tunit_eqb smallest u then [] else spell f largest smallest reached cs)
  end%list.

(** convert.py:135-209 timedelta_to_str *)
Definition timedelta_to_str (seen : Z -> Z) (f : tformat) (units : list tunit) (us : Z) : list ascii :=
  let cs := timedelta_to_dict seen units us in
  spell f (max_unit cs) (min_unit cs) false cs.
