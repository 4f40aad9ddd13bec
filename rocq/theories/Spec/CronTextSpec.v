(** How crontab lines are written. *)
From Coq Require Import List Ascii String ZArith.
From Verif Require Import Model.Base Model.Anchored Model.Statement Model.Cron Spec.StatementSpec Spec.AnchorTextSpec.
Import ListNotations.
Local Open Scope Z_scope.
Local Open Scope list_scope.

(** A value: a number, or the name of a day of the week or of a month, in full or its first three letters *)
Inductive writes_value : acls -> list ascii -> cval -> Prop :=
| write_number : forall c s n, number s n -> writes_value c s (CNum n)
| write_day : forall s w k, In (w, k) days -> names s w -> writes_value TWeek s (CName k)
| write_month : forall s k w range, nth_error months k = Some (w, range) -> names s w ->
    writes_value TYear s (CName (Z.of_nat k)).

Definition star_of : list ascii := ["*"%char].
Definition slash : list ascii := ["/"%char].
Definition dash : list ascii := ["-"%char].
Definition comma : list ascii := [","%char].

Inductive writes_item : acls -> list ascii -> citem -> Prop :=
| write_star : forall c, writes_item c star_of CStar
| write_star_step : forall c x n, number x n -> writes_item c (star_of ++ slash ++ x) (CStarStep n)
| write_at : forall c s v, writes_value c s v -> writes_item c s (CAt v None)
| write_at_step : forall c s v x n, writes_value c s v -> number x n -> writes_item c (s ++ slash ++ x) (CAt v (Some n))
| write_range : forall c s v s' v', writes_value c s v -> writes_value c s' v' ->
    writes_item c (s ++ dash ++ s') (CRange v v' None)
| write_range_step : forall c s v s' v' x n, writes_value c s v -> writes_value c s' v' -> number x n ->
    writes_item c (s ++ dash ++ s' ++ slash ++ x) (CRange v v' (Some n)).

(** A field: items with commas between them *)
Inductive writes_field : acls -> list ascii -> list citem -> Prop :=
| write_one : forall c s it, writes_item c s it -> writes_field c s [it]
| write_more : forall c s it s' its, writes_item c s it -> writes_field c s' its ->
    writes_field c (s ++ comma ++ s') (it :: its).

(** A line: minute, hour, day of month, month and day of week with blanks between them *)
Inductive writes_line : list ascii -> cron -> Prop :=
| write_line : forall m h d mo w ms hs ds mos ws,
    writes_field THour m ms -> writes_field TDay h hs -> writes_field TMonth d ds -> writes_field TYear mo mos ->
    writes_field TWeek w ws ->
    writes_line (m ++ blank ++ h ++ blank ++ d ++ blank ++ mo ++ blank ++ w) (Cron ms hs ds mos ws).

(** The line with one field given and stars elsewhere *)
Definition only (c : acls) (s : list ascii) : list (list ascii) :=
  match c with
  | TDay => [star_of; s; star_of; star_of; star_of]
  | TMonth => [star_of; star_of; s; star_of; star_of]
  | TYear => [star_of; star_of; star_of; s; star_of]
  | TWeek => [star_of; star_of; star_of; star_of; s]
  | _ => [s; star_of; star_of; star_of; star_of]
  end.
Definition a_field (c : acls) : Prop := In c [THour; TDay; TMonth; TYear; TWeek].

(** The number of blanks in a text *)
Definition blanks (s : list ascii) : nat := count_occ ascii_dec s " "%char.

(** Pieces of a field that crontab does not read: two slashes, two dashes, a step without digits or
    of zero, a number out of the range of the field, a word that is no value of it, and nothing.  In the
    field of hours the last two are not covered. *)
Definition count (c : ascii) (s : list ascii) : nat := count_occ ascii_dec s c.
Inductive bad_piece (smallest largest : Z) : acls -> list ascii -> Prop :=
| bad_slashes : forall c s, (1 < count "/" s)%nat -> bad_piece smallest largest c s
| bad_dashes : forall c s, count "/" s = 0%nat -> (1 < count "-" s)%nat -> bad_piece smallest largest c s
| bad_dashes_step : forall c s x, count "/" s = 0%nat -> (1 < count "-" s)%nat -> bad_piece smallest largest c (s ++ slash ++ x)
| bad_step : forall c s x, count "/" s = 0%nat -> (forall y, In y x -> ~ decimal y) ->
    bad_piece smallest largest c (s ++ slash ++ x)
| bad_zero : forall c s x, count "/" s = 0%nat -> number x 0 -> bad_piece smallest largest c (s ++ slash ++ x)
| bad_number : forall c s n, number s n -> ~ (smallest <= n <= largest) -> bad_piece smallest largest c s
| bad_word : forall c s, c <> TDay -> (forall y, In y s -> letter y) -> (forall v, ~ writes_value c s v) ->
    bad_piece smallest largest c s.

(** [p] stands in the field [s] between commas *)
Definition piece_of (s p : list ascii) : Prop :=
  ~ In ","%char p /\
  exists a b, s = a ++ p ++ b /\ (a = [] \/ exists a', a = a' ++ comma) /\ (b = [] \/ exists b', b = comma ++ b').
