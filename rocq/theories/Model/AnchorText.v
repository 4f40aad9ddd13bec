(** Model of how texts become anchors: anchor_str of the subclasses of AnchoredInterval in
    rocketry/time/interval.py with their regular expressions (re.search), and their constructors
    with texts (core/time/anchor.py:55-64, 123-150).  Strings are lists of ASCII characters. *)
From Coq Require Import List Bool ZArith NArith Ascii String.
From Verif Require Import Model.Base Model.Calendar Model.Anchored Model.Statement.
From Verif Require Model.Duration.
Import ListNotations.
Local Open Scope Z_scope.
Local Open Scope list_scope.

(** [a-z] with re.IGNORECASE *)
Definition is_letter (c : ascii) : bool :=
  let n := N_of_ascii c in ((N.leb 65 n && N.leb n 90) || (N.leb 97 n && N.leb n 122))%bool.
Definition is_digit : ascii -> bool := Duration.is_digit.
(** str.lower *)
Definition lower_char (c : ascii) : ascii :=
  let n := N_of_ascii c in if (N.leb 65 n && N.leb n 90)%bool then ascii_of_N (n + 32) else c.
Definition lower : list ascii -> list ascii := map lower_char.
(** int(s) for a string of digits *)
Definition to_int (s : list ascii) : Z := Duration.digits s.

(** The longest beginning all of whose characters are of a sort, and the rest *)
Fixpoint span (f : ascii -> bool) (s : list ascii) : list ascii * list ascii :=
  match s with
  | [] => ([], [])
  | c :: s' => if f c then let (a, b) := span f s' in (c :: a, b) else ([], s)
  end.
(** What a pattern starting with a character of a sort finds: the first such character *)
Fixpoint skip_to (f : ascii -> bool) (s : list ascii) : list ascii :=
  match s with
  | [] => []
  | c :: s' => if f c then s else skip_to f s'
  end.
(** [ ?] *)
Definition opt_blank (s : list ascii) : list ascii :=
  match s with
  | c :: s' => if Ascii.eqb c " "%char then s' else s
  | [] => []
  end.
(** [.*]: up to a line feed *)
Definition dots (s : list ascii) : list ascii := fst (span dot s).

(** re.search with "(?P<dayofweek>[a-z]+) ?(?P<time>.* )": interval.py:190, 350 *)
Definition search_word (s : list ascii) : option (list ascii * list ascii) :=
  match span is_letter (skip_to is_letter s) with
  | ([], _) => None
  | (w, rest) => Some (w, dots (opt_blank rest))
  end.

(** [(st|nd|rd|th|[.])?] *)
Definition is_suffix (s : list ascii) : bool :=
  existsb (fun x => if list_eq_dec ascii_dec (txt x) (lower s) then true else false) ["st"; "nd"; "rd"; "th"]%string.
Definition opt_suffix (s : list ascii) : list ascii :=
  match s with
  | a :: b :: s' => if is_suffix [a; b] then s' else if Ascii.eqb a "."%char then b :: s' else s
  | a :: s' => if Ascii.eqb a "."%char then s' else s
  | [] => []
  end.
(** re.search with "(?P<dayofmonth>[0-9]+)(st|nd|rd|th|[.])? ?(?P<time>.* )": interval.py:252 *)
Definition search_day (s : list ascii) : option (list ascii * list ascii) :=
  match span is_digit (skip_to is_digit s) with
  | ([], _) => None
  | (n, rest) => Some (n, dots (opt_blank (opt_suffix rest)))
  end.

(** [([.](?P<microsecond>[0-9]{0,6}))?] and, interval.py:69 and 100, ljust(6, "0") *)
Fixpoint take_digits (n : nat) (s : list ascii) : list ascii :=
  match n, s with
  | S n, c :: s' => if is_digit c then c :: take_digits n s' else []
  | _, _ => []
  end.
Definition ljust6 (s : list ascii) : list ascii := s ++ repeat "0"%char (6 - List.length s).
Definition opt_fraction (s : list ascii) : Z :=
  match s with
  | c :: s' => if Ascii.eqb c "."%char then to_int (ljust6 (take_digits 6 s')) else 0
  | [] => 0
  end.
(** re.search with "(?P<second>[0-9][0-9])([.](?P<microsecond>[0-9]{0,6}))?": interval.py:66-71.
    Without a match None is returned, which _validate (anchor.py:164) cannot compare. *)
Fixpoint read_minute (s : list ascii) : result aval :=
  match s with
  | a :: s' =>
      match s' with
      | b :: rest =>
          if (is_digit a && is_digit b)%bool
          then Ok (VClock (to_microseconds 0 0 0 (to_int [a; b]) 0 (opt_fraction rest)))
          else read_minute s'
      | [] => Err TypeError
      end
  | [] => Err TypeError
  end.

(** re.search with "(?P<n>[0-4]) ?(quarter|q)": interval.py:104-108.  (_scope_max + 1) / 4 * n - 1 is
    a float, at most one microsecond below n quarters of an hour; compared with whole microseconds
    it is the same as those.  (When periods are rolled the difference can be seen; this is not
    modelled.)  For n = 0 it is -1. *)
Definition is_q (s : list ascii) : bool :=
  match s with c :: _ => (Ascii.eqb c "q"%char || Ascii.eqb c "Q"%char)%bool | [] => false end.
Fixpoint read_quarter (s : list ascii) : result aval :=
  match s with
  | a :: rest =>
      if (is_digit a && (to_int [a] <=? 4) && (is_q rest || is_q (opt_blank rest)))%bool
      then Ok (VClock (if to_int [a] =? 0 then -1 else to_int [a] * (15 * us_minute)))
      else read_quarter rest
  | [] => Err ValueError
  end.
(** re.search with "(?P<minute>[0-9][0-9]):(?P<second>[0-9][0-9])([.](?P<microsecond>[0-9]{0,6}))?":
    interval.py:95-109 *)
Definition minute_second (s : list ascii) : option Z :=
  match s with
  | a :: b :: c :: d :: e :: rest =>
      if (is_digit a && is_digit b && Ascii.eqb c ":"%char && is_digit d && is_digit e)%bool
      then Some (to_microseconds 0 0 (to_int [a; b]) (to_int [d; e]) 0 (opt_fraction rest))
      else None
  | _ => None
  end.
Fixpoint search_hour (s : list ascii) : option Z :=
  match minute_second s with
  | Some us => Some us
  | None => match s with [] => None | _ :: s' => search_hour s' end
  end.
Definition read_hour (s : list ascii) : result aval :=
  match search_hour s with
  | Some us => Ok (VClock us)
  | None => read_quarter s
  end.

Section Texts.
  (** dateutil.parser.parse followed by taking the time of day in microseconds
      (interval.py:132-137); float followed by to_microseconds(millisecond=...) (interval.py:37-40) *)
  Variable clock : list ascii -> result Z.
  Variable millis : list ascii -> result Z.

  Definition time_part (s : list ascii) : result (option Z) :=
    match s with
    | [] => Ok None
    | _ => let* us := clock s in Ok (Some us)
    end.

  (** _unit_mapping of TimeOfWeek, interval.py:165-177, and TimeOfYear, 318-324: positions of names *)
  Fixpoint position (s : list ascii) (names : list string) : option Z :=
    match names with
    | [] => None
    | n :: names => if list_eq_dec ascii_dec (txt n) s then Some 0
                    else option_map (Z.add 1) (position s names)
    end.
  Definition either (a b : option Z) : option Z := match a with Some x => Some x | None => b end.
  Definition week_mapping (s : list ascii) : option Z :=
    either (position s ["mon"; "tue"; "wed"; "thu"; "fri"; "sat"; "sun"]%string)
           (position s ["monday"; "tuesday"; "wednesday"; "thursday"; "friday"; "saturday"; "sunday"]%string).
  Definition year_mapping (s : list ascii) : option Z :=
    either (position s ["january"; "february"; "march"; "april"; "may"; "june"; "july"; "august"; "september";
                        "october"; "november"; "december"]%string)
           (position s ["jan"; "feb"; "mar"; "apr"; "may"; "jun"; "jul"; "aug"; "sep"; "oct"; "nov"; "dec"]%string).

  (** interval.py:187-205; no match is None, which has no groupdict *)
  Definition read_week (s : list ascii) : result aval :=
    match search_word s with
    | None => Err AttributeError
    | Some (dayofweek, time) =>
        match week_mapping (lower dayofweek) with
        | None => Err ValueError
        | Some nth_day => let* us := time_part time in Ok (VUnit nth_day us)
        end
    end.
  (** interval.py:248-273 *)
  Definition read_month (s : list ascii) : result (Z * option Z) :=
    match search_day s with
    | None => Err AttributeError
    | Some (dayofmonth, time) => let* us := time_part time in Ok (to_int dayofmonth, us)
    end.
  (** interval.py:347-370 *)
  Definition read_year (s : list ascii) : result aval :=
    match search_word s with
    | None => Err AttributeError
    | Some (monthofyear, day_of_month) =>
        match year_mapping (lower monthofyear) with
        | None => Err KeyError
        | Some nth_month =>
            match day_of_month with
            | [] => Ok (VUnit nth_month None)
            | _ => let* (day, us) := read_month day_of_month in Ok (VMonthDay nth_month day us)
            end
        end
    end.

  Definition read_text (c : acls) (s : list ascii) : result aval :=
    match c with
    | TSecond => let* us := millis s in Ok (VClock us)
    | TMinute => read_minute s
    | THour => read_hour s
    | TDay => let* us := clock s in Ok (VClock us)
    | TWeek => read_week s
    | TMonth => let* (day, us) := read_month s in Ok (VUnit day us)
    | TYear => read_year s
    end.
  (** anchor.py:66-82 anchor with a text *)
  Definition anchor_text (c : acls) (s : list ascii) (sd : side) : result Z :=
    let* v := read_text c s in anchor c v sd.

  (** anchor.py:123-130 set_start, 132-150 set_end, 55-64 __init__ *)
  Definition set_start_text (c : acls) (v : option (list ascii)) : result Z :=
    let* ms := match v with None => Ok 0 | Some s => anchor_text c s SStart end in
    validate c ms.
  Definition set_end_text (c : acls) (start : Z) (v : option (list ascii)) (right_closed time_point starting : bool)
      : result Z :=
    let* ms := match v with
               | None => if time_point then to_timepoint c start
                         else if starting then Ok start
                         else Ok (scope_max c)
               | Some s => anchor_text c s SEnd
               end in
    let ms := if right_closed then ms + 1 else ms in
    validate c ms.
  Definition period_text (c : acls) (start end_ : option (list ascii)) (time_point starting right_closed : bool)
      : result anchored :=
    match start, end_ with
    | None, None => if time_point then Err ValueError else Ok (Anchored c 0 (scope_max c))
    | _, _ =>
        let* s := set_start_text c start in
        let* e := set_end_text c s end_ right_closed time_point starting in
        Ok (Anchored c s e)
    end.

  (** What the calls of Model/Statement.v give, as far as they are of an anchored class *)
  Variable other_call : pcall -> result anchored.
  Definition make_text (k : pcall) : result anchored :=
    match k with
    | TimeOf c start end_ time_point starting => period_text c start end_ time_point starting false
    | _ => other_call k
    end.
End Texts.
