(** Specification of duration strings. *)
From Coq Require Import Ascii String QArith Qabs.
From Verif Require Import Model.Base.
Local Open Scope Z_scope.

(** * What a duration string is made of *)
Definition digit_char (c : ascii) : Prop := In c (list_ascii_of_string "0123456789").
Definition separator (c : ascii) : Prop := In c (list_ascii_of_string " ,:").
Definition sign_char (c : ascii) : Prop := In c (list_ascii_of_string "+-").

(** The value of a digit and of a sequence of digits *)
Definition place (c : ascii) : Z := Z.of_nat (nat_of_ascii c - nat_of_ascii "0").
Fixpoint positional (s : list ascii) : Z :=
  match s with
  | [] => 0
  | c :: s => place c * 10 ^ Z.of_nat (length s) + positional s
  end.

(** A number: digits, possibly with a point *)
Inductive number : Type := Whole (i : list ascii) | Decimal (i f : list ascii).
Definition number_ok (n : number) : Prop :=
  match n with
  | Whole i => i <> [] /\ Forall digit_char i
  | Decimal i f => (i ++ f)%list <> [] /\ Forall digit_char (i ++ f)%list
  end.
Definition number_text (n : number) : list ascii :=
  match n with Whole i => i | Decimal i f => (i ++ "."%char :: f)%list end.
Definition number_value (n : number) : Q :=
  match n with
  | Whole i => inject_Z (positional i)
  | Decimal i f => (inject_Z (positional i) + inject_Z (positional f) / inject_Z (10 ^ Z.of_nat (length f)))%Q
  end.

(** The names of the units and what they are worth in microseconds *)
Definition unit_names : list (list string * Z) :=
  [(["ms"; "millisecond"], 1000);
   (["s"; "sec"; "secs"; "second"; "seconds"], 10 ^ 6);
   (["m"; "min"; "mins"; "minute"; "minutes"], 60 * 10 ^ 6);
   (["h"; "hr"; "hrs"; "hour"; "hours"], 3600 * 10 ^ 6);
   (["d"; "day"; "days"], 86400 * 10 ^ 6)]%string.
Definition worth (name : string) (us : Z) : Prop := exists names, In (names, us) unit_names /\ In name names.

(** A number and its unit, with the separators before them *)
Record element : Type := Element {
  e_before : list ascii;
  e_number : number;
  e_between : list ascii;
  e_unit : string;
  e_worth : Z }.
Definition element_ok (e : element) : Prop :=
  Forall separator (e_before e) /\ number_ok (e_number e) /\ Forall separator (e_between e) /\
  hd " "%char (e_between e) <> ":"%char /\ worth (e_unit e) (e_worth e).
Definition element_text (e : element) : list ascii :=
  (e_before e ++ number_text (e_number e) ++ e_between e ++ list_ascii_of_string (e_unit e))%list.
Definition text (es : list element) : list ascii := concat (map element_text es).
Definition total (es : list element) : Q :=
  fold_right (fun e q => inject_Z (e_worth e) * number_value (e_number e) + q)%Q 0%Q es.

(** Hours, minutes and seconds at the end *)
Record clock : Type := Clock { k_before : list ascii; k_hours : list ascii; k_minutes : list ascii; k_seconds : number }.
Definition clock_ok (k : clock) : Prop :=
  Forall separator (k_before k) /\ k_hours k <> [] /\ Forall digit_char (k_hours k) /\
  k_minutes k <> [] /\ Forall digit_char (k_minutes k) /\ number_ok (k_seconds k).
Definition clock_text (k : clock) : list ascii :=
  (k_before k ++ k_hours k ++ ":"%char :: k_minutes k ++ ":"%char :: number_text (k_seconds k))%list.
Definition clock_value (k : clock) : Q :=
  (inject_Z (3600 * 10 ^ 6 * positional (k_hours k) + 60 * 10 ^ 6 * positional (k_minutes k)) +
   inject_Z (10 ^ 6) * number_value (k_seconds k))%Q.

(** The leading signs: each minus negates *)
Fixpoint signed (signs : list ascii) (q : Q) : Q :=
  match signs with
  | [] => q
  | c :: signs => if Ascii.eqb c "-" then - signed signs q else signed signs q
  end.

(** What timedelta can hold *)
Definition holdable (us : Z) : Prop := -999999999 * 86400 * 10 ^ 6 <= us < 1000000000 * 86400 * 10 ^ 6.
(** The result for an exact number of microseconds: the nearest whole number, or
    an error when it cannot be held *)
Definition nearest (q : Q) (us : Z) : Prop :=
  (Qabs (q - inject_Z us) <= 1 # 2)%Q /\ ((Qabs (q - inject_Z us) == 1 # 2)%Q -> Z.even us = true).
Definition gives (r : outcome Z) (q : Q) : Prop :=
  exists us, nearest q us /\ ((holdable us /\ r = Returns us) \/ (~ holdable us /\ r = Raises OverflowError)).

(** Characters a unit can be made of, and what ends a unit *)
Definition letter (c : ascii) : Prop := ~ digit_char c /\ c <> "."%char /\ ~ separator c.
Definition unit_ends (rest : list ascii) : Prop := match rest with [] => True | c :: _ => ~ letter c end.

(** A timeout of a task's own *)
Definition own (r : outcome Z) : outcome (option Z) :=
  match r with Returns us => Returns (Some us) | Raises e => Raises e | OutOfFuel => OutOfFuel end.
