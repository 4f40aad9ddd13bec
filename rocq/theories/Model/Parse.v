(** Model of how strings of conditions and of time periods are taken apart and put together:
    rocketry/parse/utils/string_parser.py, rocketry/pybox/string/parse/closure.py,
    rocketry/pybox/container/visitor.py, rocketry/parse/_condition/string.py,
    rocketry/parse/_time/string.py.
    Strings are lists of ASCII characters.  The parser of single items (condition_item.py:22-48,
    time_item.py:8-31: the first registered statement that matches, or ParserError) is a
    parameter.  The lists are processed by value, where the code assigns in place. *)
From Coq Require Import List Bool Arith ZArith Ascii.
From Verif Require Import Model.Base.
From Verif Require Model.Condition Model.Period.
Import ListNotations.

Definition obind {A B} (r : outcome A) (k : A -> outcome B) : outcome B :=
  match r with Returns a => k a | Raises e => Raises e | OutOfFuel => OutOfFuel end.
Definition lift {A} (r : result A) : outcome A :=
  match r with Ok a => Returns a | Err e => Raises e end.

(** * Characters *)

Definition opening : ascii := "("%char.
Definition closing : ascii := ")"%char.
Definition sym_not : ascii := "~"%char.
Definition sym_and : ascii := "&"%char.
Definition sym_or : ascii := "|"%char.

(** str.isspace for one ASCII character *)
Definition is_space (c : ascii) : bool :=
  let n := nat_of_ascii c in
  ((9 <=? n) && (n <=? 13)) || ((28 <=? n) && (n <=? 32)).

(** str.lstrip(), str.rstrip() and str.strip() *)
Fixpoint lstrip (s : list ascii) : list ascii :=
  match s with
  | [] => []
  | c :: rest => if is_space c then lstrip rest else s
  end.
Definition rstrip (s : list ascii) : list ascii := rev (lstrip (rev s)).
Definition strip (s : list ascii) : list ascii := rstrip (lstrip s).

Definition is_in (c : ascii) (cs : list ascii) : bool := existsb (Ascii.eqb c) cs.
Definition contains (c : ascii) (s : list ascii) : bool := existsb (Ascii.eqb c) s.

(** * closure.py *)

(** A nested list of strings. *)
Inductive node : Type :=
| Text (s : list ascii)
| Sub (ns : list node).

(** closure.py:49-74 find_outer_indices with 80-88 _get_next_element: the scan from the left,
    one character at a time, [i] being the index of the character looked at.  When neither kind
    of parenthesis is left, min() of an empty dict raises ValueError. *)
Fixpoint find_outer (s : list ascii) (i openings closings start stop : nat) : result (nat * nat) :=
  match s with
  | [] => Err ValueError
  | c :: rest =>
      if Ascii.eqb c opening then
        let start := if Nat.eqb openings 0 then i else start in
        if Nat.eqb (S openings) closings then Ok (start, stop)
        else find_outer rest (S i) (S openings) closings start stop
      else if Ascii.eqb c closing then
        if Nat.eqb openings (S closings) then Ok (start, i)
        else find_outer rest (S i) openings (S closings) start i
      else find_outer rest (S i) openings closings start stop
  end.

(** closure.py:23-47 ClosureParser.to_list; the loop over the rest of the string is a recursive
    call, each on a shorter string *)
Fixpoint to_list (fuel : nat) (s : list ascii) : outcome (list node) :=
  match fuel with
  | O => OutOfFuel
  | S fuel =>
      if contains opening s then
        obind (lift (find_outer s 0 0 0 0 0)) (fun '(start, stop) =>
          obind (to_list fuel (firstn (stop - (start + 1)) (skipn (start + 1) s))) (fun sub =>
            obind (to_list fuel (skipn (stop + 1) s)) (fun rest =>
              Returns ((match firstn start s with [] => [] | before => [Text before] end)
                         ++ Sub sub :: rest))))
      else Returns (match s with [] => [] | _ => [Text s] end)
  end.

(** * string_parser.py *)

(** re.split with a captured class of single characters *)
Fixpoint split_syms (symbols s : list ascii) : list (list ascii) :=
  match s with
  | [] => [[]]
  | c :: rest =>
      if is_in c symbols then [] :: [c] :: split_syms symbols rest
      else match split_syms symbols rest with
           | [] => [[c]]                       (* the split of a string has at least one piece *)
           | piece :: pieces => (c :: piece) :: pieces
           end
  end.

(** string_parser.py:121-137 _split_operations.  A single piece is returned as a string and
    several as a tuple; both are lists here *)
Definition split_operations (symbols s : list ascii) : list (list ascii) :=
  let s := strip s in
  if existsb (fun c => is_in c symbols) s then
    filter (fun piece => match strip piece with [] => false | _ => true end) (split_syms symbols s)
  else [s].

(** 39 v.assign_elements(l, self._split_operations), visitor.py:63-86, followed by
    42 v.apply(l, _flatten_tuples), 140-148, visitor.py:128-137 *)
Fixpoint split_node (symbols : list ascii) (n : node) : list node :=
  match n with
  | Text s => map Text (split_operations symbols s)
  | Sub ns => [Sub (flat_map (split_node symbols) ns)]
  end.

(** What the lists hold once the items have been parsed: strings of operators and values. *)
Inductive elem (V : Type) : Type :=
| EStr (c : ascii)
| EVal (v : V).
Arguments EStr {V} c.
Arguments EVal {V} v.

Inductive pnode (V : Type) : Type :=
| PElem (e : elem V)
| PList (ps : list (pnode V)).
Arguments PElem {V} e.
Arguments PList {V} ps.

(** The dict of an operator: symbol, side and func (called with one or two arguments). *)
Inductive oper_side : Type := SBoth | SRight | SLeft.
Record operator (V : Type) : Type := Operator {
  op_symbol : ascii;
  op_side : oper_side;
  op_func : list (elem V) -> result V
}.
Arguments Operator {V} op_symbol op_side op_func.
Arguments op_symbol {V} o.
Arguments op_side {V} o.
Arguments op_func {V} o.

(** s[i], s[i] = x and del s[i] of a Python list, with negative indices *)
Definition py_index {A} (s : list A) (i : Z) : result nat :=
  let n := Z.of_nat (length s) in
  let i := if (i <? 0)%Z then (i + n)%Z else i in
  if ((i <? 0) || (n <=? i))%Z then Err IndexError else Ok (Z.to_nat i).
Definition py_get {A} (s : list A) (i : Z) : result A :=
  let* n := py_index s i in
  match nth_error s n with Some x => Ok x | None => Err IndexError end.
Definition py_set {A} (s : list A) (i : Z) (x : A) : result (list A) :=
  let* n := py_index s i in Ok (firstn n s ++ x :: skipn (n + 1) s).
Definition py_del {A} (s : list A) (i : Z) : result (list A) :=
  let* n := py_index s i in Ok (firstn n s ++ skipn (n + 1) s).

Section Instruction.
  Context {V : Type}.
  Variable item_parser : list ascii -> result V.
  Variable operators : list (operator V).

  (** 16 self.symbols (a set: only membership is asked) *)
  Definition symbols : list ascii := map op_symbol operators.

  (** 49-59 _parse; the operators here are always these three *)
  Definition parse_string (s : list ascii) : result (elem V) :=
    match strip s with
    | [c] => if is_in c [sym_and; sym_or; sym_not] then Ok (EStr c)
             else let* v := item_parser [c] in Ok (EVal v)
    | s => let* v := item_parser s in Ok (EVal v)
    end.

  (** 44 v.assign_elements(l, self._parse): from the left, the first error ends it *)
  Fixpoint parse_node (n : node) : result (pnode V) :=
    match n with
    | Text s => let* e := parse_string s in Ok (PElem e)
    | Sub ns =>
        let* ps := (fix go (ns : list node) : result (list (pnode V)) :=
                      match ns with
                      | [] => Ok []
                      | n :: ns => let* p := parse_node n in let* ps := go ns in Ok (p :: ps)
                      end) ns in
        Ok (PList ps)
    end.
  Fixpoint parse_nodes (ns : list node) : result (list (pnode V)) :=
    match ns with
    | [] => Ok []
    | n :: ns => let* p := parse_node n in let* ps := parse_nodes ns in Ok (p :: ps)
    end.

  (** 106-119 _contains_operator and _index *)
  Fixpoint index_of (c : ascii) (s : list (elem V)) (i : Z) : option Z :=
    match s with
    | [] => None
    | EStr c' :: rest => if Ascii.eqb c' c then Some i else index_of c rest (i + 1)
    | EVal _ :: rest => index_of c rest (i + 1)
    end.

  (** 82-102: the body of the while loop, [s] being the reversed list *)
  Definition combine_at (o : operator V) (s : list (elem V)) (pos : Z) : result (list (elem V)) :=
    match op_side o with
    | SBoth =>
        let* lhs := py_get s (pos + 1) in
        let* rhs := py_get s (pos - 1) in
        let* obj := op_func o [lhs; rhs] in
        let* s := py_set s pos (EVal obj) in
        let* s := py_del s (pos - 1) in
        py_del s pos
    | SRight =>
        let* arg := py_get s (pos - 1) in
        let* obj := op_func o [arg] in
        let* s := py_set s (pos - 1) (EVal obj) in
        py_del s pos
    | SLeft =>
        let* arg := py_get s (pos + 1) in
        let* obj := op_func o [arg] in
        let* s := py_set s (pos + 1) (EVal obj) in
        py_del s pos
    end.

  (** 80-104 _assemble_oper without the reversals *)
  Fixpoint assemble_loop (fuel : nat) (o : operator V) (s : list (elem V)) : outcome (list (elem V)) :=
    match index_of (op_symbol o) s 0 with
    | None => Returns s
    | Some pos =>
        match fuel with
        | O => OutOfFuel
        | S fuel => obind (lift (combine_at o s pos)) (assemble_loop fuel o)
        end
    end.
  Definition assemble_oper (o : operator V) (s : list (elem V)) : outcome (list (elem V)) :=
    obind (assemble_loop (length s) o (rev s)) (fun s => Returns (rev s)).

  (** 61-78 _assemble (the arguments hold no lists or tuples any more, so flatten keeps them) *)
  Fixpoint assemble_all (os : list (operator V)) (s : list (elem V)) : outcome (list (elem V)) :=
    match os with
    | [] => Returns s
    | o :: os => obind (assemble_oper o s) (assemble_all os)
    end.
  Definition assemble (s : list (elem V)) : outcome (elem V) :=
    obind (assemble_all operators s) (fun s =>
      match s with [] => Raises IndexError | e :: _ => Returns e end).

  (** 46 v.reduce(l, self._assemble), visitor.py:101-118 *)
  Fixpoint reduce (p : pnode V) : outcome (elem V) :=
    match p with
    | PElem e => Returns e
    | PList ps =>
        obind ((fix go (ps : list (pnode V)) : outcome (list (elem V)) :=
                  match ps with
                  | [] => Returns []
                  | p :: ps => obind (reduce p) (fun e => obind (go ps) (fun es => Returns (e :: es)))
                  end) ps) assemble
    end.

  (** 18-47 InstructionParser.__call__ *)
  Definition instruction (s : list ascii) : outcome (elem V) :=
    obind (to_list (S (length s)) s) (fun ns =>
      obind (lift (parse_nodes (flat_map (split_node symbols) ns))) (fun ps =>
        reduce (PList ps))).
End Instruction.

(** * _condition/string.py *)

Section Conditions.
  Import Condition.
  (** The strings of conditions the session knows; condition_item.py:22-48. *)
  Variable item : list ascii -> result cond.
  (** An operator left among the members of a condition is a string there; asking it for its
      state raises AttributeError.  It is an atom numbered by this function. *)
  Variable text_atom : ascii -> nat.

  Definition as_cond (e : elem cond) : cond :=
    match e with EStr c => CAtom (text_atom c) | EVal c => c end.

  (** 13-19 _parse_any, _parse_all, with 5-12 _flatten *)
  Definition parse_any (args : list (elem cond)) : result cond :=
    Ok (mk_any (any_subs (map as_cond args))).
  Definition parse_all (args : list (elem cond)) : result cond :=
    Ok (mk_all (all_subs (map as_cond args))).

  (** 21-26 _parse_not: conditions have __invert__, strings have not *)
  Definition parse_not (args : list (elem cond)) : result cond :=
    match args with
    | [EVal c] => Ok (c_not c)
    | [EStr c] => Ok (CNot (CAtom (text_atom c)))
    | _ => Err TypeError
    end.

  (** 28-47 parse_condition_string *)
  Definition condition_operators : list (operator cond) :=
    [Operator sym_not SRight parse_not; Operator sym_and SBoth parse_all;
     Operator sym_or SBoth parse_any].

  (** parse/condition.py:6-9 _parse_condition_string; the result is given the string as its
      text, which a str would refuse *)
  Definition parse_condition (s : list ascii) : outcome cond :=
    obind (instruction item condition_operators s) (fun e =>
      match e with EVal c => Returns c | EStr _ => Raises AttributeError end).
End Conditions.

(** * _time/string.py *)

Section Times.
  Import Period.
  Variable item : list ascii -> result tperiod.

  (** 5-12 _flatten; All and Any refuse anything but periods *)
  Fixpoint flat_all (args : list (elem tperiod)) : result (list tperiod) :=
    match args with
    | [] => Ok []
    | EVal (PAll ps) :: args => let* rest := flat_all args in Ok (ps ++ rest)
    | EVal p :: args => let* rest := flat_all args in Ok (p :: rest)
    | EStr _ :: _ => Err TypeError
    end.
  Fixpoint flat_any (args : list (elem tperiod)) : result (list tperiod) :=
    match args with
    | [] => Ok []
    | EVal (PAny ps) :: args => let* rest := flat_any args in Ok (ps ++ rest)
    | EVal p :: args => let* rest := flat_any args in Ok (p :: rest)
    | EStr _ :: _ => Err TypeError
    end.

  (** 14-20 _parse_any, _parse_all *)
  Definition time_any (args : list (elem tperiod)) : result tperiod :=
    let* comps := flat_any args in mk_any comps.
  Definition time_all (args : list (elem tperiod)) : result tperiod :=
    let* comps := flat_all args in mk_all comps.

  (** 22-36 parse_time_string *)
  Definition time_operators : list (operator tperiod) :=
    [Operator sym_and SBoth time_all; Operator sym_or SBoth time_any].

  (** parse/time.py:6-8 _parse_time_string; the result may be a string *)
  Definition parse_time (s : list ascii) : outcome (elem tperiod) :=
    instruction item time_operators s.
End Times.
