(** Model of durations given as strings and numbers:
    rocketry/pybox/time/convert.py:57-65, 216-338, rocketry/core/task.py:290-298
    and rocketry/session.py:93-99.

    A string is the list of its characters, of which only ASCII ones are
    modelled (str.isdigit accepts further digits, on which float raises or
    not).  Floating point numbers are exact rationals. *)
From Coq Require Import Ascii String QArith Qround.
From Verif Require Import Model.Base.
Local Open Scope Z_scope.

Definition chars : string -> list ascii := list_ascii_of_string.
Definition c_eqb (a b : ascii) : bool := Ascii.eqb a b.
Definition s_eqb (a b : list ascii) : bool := if list_eq_dec ascii_dec a b then true else false.

(** convert.py:227-228 is_numeric_char *)
Definition is_digit (c : ascii) : bool := (N.leb 48 (N_of_ascii c) && N.leb (N_of_ascii c) 57)%bool.
Definition is_numeric (c : ascii) : bool := (is_digit c || c_eqb c ".")%bool.
(** convert.py:230-231 is_wordbreak_char *)
Definition is_wordbreak (c : ascii) : bool := (c_eqb c " " || c_eqb c "," || c_eqb c ":")%bool.

(** Each helper returns what is left of the string, s[pos:].  The loop variable
    pos is the index of the last character when the loop ends without a break,
    and unbound for an empty string. *)

(** convert.py:233-237 skip_wordbreak *)
Fixpoint skip_wordbreak (s : list ascii) : result (list ascii) :=
  match s with
  | [] => Err NameError
  | [c] => Ok [c]
  | c :: s' => if is_wordbreak c then skip_wordbreak s' else Ok s
  end.
(** convert.py:239-246 get_number *)
Fixpoint get_number (s : list ascii) : result (list ascii * list ascii) :=
  match s with
  | [] => Err NameError
  | [c] => Ok (if is_numeric c then [c] else [], [c])
  | c :: s' => if is_numeric c
               then let* (num, rest) := get_number s' in Ok (c :: num, rest)
               else Ok ([], s)
  end.
(** convert.py:248-257 get_unit, without the lookup; here pos is past the end
    when the string ended *)
Fixpoint unit_chars (s : list ascii) : list ascii * list ascii :=
  match s with
  | [] => ([], [])
  | c :: s' => if (is_numeric c || is_wordbreak c)%bool then ([], s)
               else let (a, rest) := unit_chars s' in (c :: a, rest)
  end.

(** convert.py:336-338 to_microseconds *)
Inductive dunit : Type := Day | Hour | Minute | Second | Millisecond.
Definition microseconds (u : dunit) : Z :=
  match u with
  | Millisecond => 1000
  | Second => 1000000
  | Minute => 60000000
  | Hour => 3600000000
  | Day => 86400000000
  end.
(** convert.py:264-289 abbrs *)
Definition abbrs : list (string * dunit) :=
  [("millisecond", Millisecond); ("ms", Millisecond);
   ("seconds", Second); ("second", Second); ("secs", Second); ("sec", Second); ("s", Second);
   ("minutes", Minute); ("minute", Minute); ("mins", Minute); ("min", Minute); ("m", Minute);
   ("hours", Hour); ("hour", Hour); ("hrs", Hour); ("hr", Hour); ("h", Hour);
   ("days", Day); ("day", Day); ("d", Day)]%string.
Definition find_unit (a : list ascii) : result dunit :=
  match find (fun p => s_eqb (chars (fst p)) a) abbrs with Some (_, u) => Ok u | None => Err KeyError end.
Definition get_unit (s : list ascii) : result (dunit * list ascii) :=
  match s with
  | [] => Err NameError
  | _ => let (a, rest) := unit_chars s in let* u := find_unit a in Ok (u, rest)
  end.

(** float of a string of digits and dots, int of a string of digits *)
Definition digit (c : ascii) : Z := Z.of_N (N_of_ascii c) - 48.
Definition digits (s : list ascii) : Z := fold_left (fun n c => 10 * n + digit c) s 0.
Fixpoint split_at (x : ascii) (s : list ascii) : list (list ascii) :=
  match s with
  | [] => [[]]
  | c :: s => match split_at x s with
              | [] => []                       (* does not happen *)
              | p :: ps => if c_eqb c x then [] :: p :: ps else (c :: p) :: ps
              end
  end.
Section Parse.
(** What int and float make of other strings, such as " 5", "1e3" or "x" *)
Context (other_int : list ascii -> result Z) (other_float : list ascii -> result Q).

Definition float_of (s : list ascii) : result Q :=
  match split_at "." s with
  | [i] => if forallb is_digit i then match i with [] => Err ValueError | _ => Ok (inject_Z (digits i)) end
           else other_float s
  | [i; f] => if (forallb is_digit i && forallb is_digit f)%bool
              then match (i ++ f)%list with
                   | [] => Err ValueError
                   | d => Ok (inject_Z (digits d) / inject_Z (10 ^ Z.of_nat (length f)))%Q
                   end
              else other_float s
  | _ => if forallb is_numeric s then Err ValueError else other_float s
  end.
Definition int_of (s : list ascii) : result Z :=
  if forallb is_digit s then match s with [] => Err ValueError | _ => Ok (digits s) end else other_int s.

(** convert.py:259-261 get_hhmmss *)
Definition get_hhmmss (s : list ascii) : result Q :=
  match split_at ":" s with
  | [hh; mm; ss] =>
      let* h := int_of hh in
      let* m := int_of mm in
      let* x := float_of ss in
      Ok (inject_Z (microseconds Second) * x + inject_Z (microseconds Minute * m) + inject_Z (microseconds Hour * h))%Q
  | _ => Err ValueError
  end.

(** convert.py:305-330, the loop; [fuel] bounds its rounds *)
Fixpoint elements (fuel : nat) (s : list ascii) (ms : Q) : outcome Q :=
  match s with
  | [] => Returns ms
  | _ =>
      match fuel with
      | O => OutOfFuel
      | S fuel =>
          let r :=
            let* s := skip_wordbreak s in
            let* (numb, s) := get_number s in
            match s with
            | [] => Err IndexError
            | c :: _ =>
                if c_eqb c ":"
                then let* x := get_hhmmss (numb ++ s)%list in Ok ([], (ms + x)%Q)
                else
                  let* s := skip_wordbreak s in
                  let* (u, s) := get_unit s in
                  let* x := float_of numb in
                  Ok (s, (ms + inject_Z (microseconds u) * x)%Q)
            end in
          match r with
          | Ok (s, ms) => elements fuel s ms
          | Err e => Raises e
          end
      end
  end.

(** convert.py:293-303, the leading signs: whether negative, and the rest *)
Fixpoint signs (neg : bool) (s : list ascii) : result (bool * list ascii) :=
  match s with
  | [] => Err NameError
  | c :: s' =>
      let neg' := if c_eqb c "-" then negb neg else neg in
      if (c_eqb c "-" || c_eqb c "+")%bool
      then match s' with [] => Ok (neg', s) | _ => signs neg' s' end
      else Ok (neg, s)
  end.

(** datetime.timedelta(microseconds=q): the nearest whole number, of two the even
    one, within the range of timedelta *)
Definition round_even (q : Q) : Z :=
  let f := Qfloor q in
  match Qcompare (q - inject_Z f) (1 # 2) with
  | Lt => f
  | Gt => f + 1
  | Eq => if Z.even f then f else f + 1
  end.
Definition max_days : Z := 999999999.
Definition timedelta (q : Q) : outcome Z :=
  let us := round_even q in
  if (- max_days * microseconds Day <=? us) && (us <? (max_days + 1) * microseconds Day)
  then Returns us else Raises OverflowError.

(** convert.py:224-334 string_to_timedelta *)
Definition string_to_timedelta (s : list ascii) : outcome Z :=
  match signs false s with
  | Err e => Raises e
  | Ok (neg, s) =>
      match elements (length s) s 0 with
      | Returns ms => timedelta (if neg then - ms else ms)%Q
      | Raises e => Raises e
      | OutOfFuel => OutOfFuel
      end
  end.

(** * Timeouts *)

(** What a timeout is given as; [TOther]: another object *)
Inductive timeout_arg : Type :=
| TNone
| TNumber (q : Q)
| TString (s : list ascii)
| TDelta (us : Z)
| TOther.

(** core/task.py:290-298 with convert.py:57-65, 216-222; [None] is no timeout of
    the task's own, [max_timeout] is timedelta.max *)
Definition max_timeout : Z := (max_days + 1) * microseconds Day - 1.
Definition task_timeout (v : timeout_arg) : outcome (option Z) :=
  let some r := match r with Returns us => Returns (Some us) | Raises e => Raises e | OutOfFuel => OutOfFuel end in
  match v with
  | TString s => if s_eqb s (chars "never") then Returns (Some max_timeout) else some (string_to_timedelta s)
  | TNumber q => some (timedelta (inject_Z (microseconds Second) * q))
  | TNone => Returns None
  | TDelta us => Returns (Some us)
  | TOther => Raises TypeError
  end.
(** session.py:93-99; what is not converted is left to pydantic, which takes a
    timedelta (and None or other objects as it does: not modelled, [None]) *)
Definition config_timeout (v : timeout_arg) : option (outcome Z) :=
  match v with
  | TString s => Some (string_to_timedelta s)
  | TNumber q => Some (timedelta (inject_Z (microseconds Second) * q))
  | TDelta us => Some (Returns us)
  | TNone | TOther => None
  end.
End Parse.
