(** Model of the query language: rocketry/pybox/query.  Items are dictionaries
    of strings to values; of the values None, integers, strings and naive
    datetimes are modelled.  (Printing is not modelled.) *)
From Coq Require Import Ascii String.
From Verif Require Import Model.Base.
Open Scope Z_scope.

Inductive value : Type := VNone | VInt (i : Z) | VStr (s : string) | VDate (us : Z).
Definition item := list (string * value).
(** d[k] *)
Fixpoint dict_get (k : string) (d : item) : option value :=
  match d with
  | [] => None
  | (k', v) :: d => if String.eqb k k' then Some v else dict_get k d
  end.

(** pybox/query/base.py: Key or literal *)
Inductive operand : Type := OKey (name : string) | OLit (v : value).
(** The classes of comparisons, base.py:153-276 *)
Inductive cmp : Type := CEq | CNe | CGt | CGe | CLt | CLe.

(** The expressions, base.py:106-152, 279-288 and string.py:6-29.  [QTrue] is the
    object [true] of base.py:287; other Boolean objects are [QBool]. *)
Inductive query : Type :=
| QAll (args : list query)
| QAny (args : list query)
| QNot (right : query)
| QCmp (c : cmp) (left right : operand)
| QRegex (key : string) (regex : value)
| QBool (b : bool)
| QTrue.

Section Query.
(** pybox/time/convert.py:42, 44: what dateutil makes of a string and what
    datetime.fromtimestamp makes of a number, and re.match *)
Context (parse_date : string -> result Z) (from_timestamp : Z -> result Z) (re_match : string -> string -> result bool).

(** pybox/time/convert.py:38-55 to_datetime, without timezone *)
Definition to_datetime (v : value) : result value :=
  match v with
  | VDate us => Ok (VDate us)
  | VStr s => let* us := parse_date s in Ok (VDate us)
  | VInt i => let* us := from_timestamp i in Ok (VDate us)
  | VNone => Err TypeError
  end.

(** base.py:98-103 _to_comparable *)
Definition is_date (v : value) : bool := match v with VDate _ => true | _ => false end.
Definition to_comparable (l r : value) : result (value * value) :=
  if is_date l || is_date r then
    let* l := to_datetime l in
    let* r := to_datetime r in
    Ok (l, r)
  else Ok (l, r).

(** Python's == and < on these values *)
Definition py_eq (l r : value) : bool :=
  match l, r with
  | VNone, VNone => true
  | VInt a, VInt b => a =? b
  | VStr a, VStr b => String.eqb a b
  | VDate a, VDate b => a =? b
  | _, _ => false
  end.
Definition py_compare (l r : value) : result comparison :=
  match l, r with
  | VInt a, VInt b => Ok (a ?= b)
  | VStr a, VStr b => Ok (String.compare a b)
  | VDate a, VDate b => Ok (a ?= b)
  | _, _ => Err TypeError
  end.
Definition compare (c : cmp) (l r : value) : result bool :=
  match c with
  | CEq => Ok (py_eq l r)
  | CNe => Ok (negb (py_eq l r))
  | CGt => let* o := py_compare l r in Ok (match o with Gt => true | _ => false end)
  | CGe => let* o := py_compare l r in Ok (match o with Lt => false | _ => true end)
  | CLt => let* o := py_compare l r in Ok (match o with Lt => true | _ => false end)
  | CLe => let* o := py_compare l r in Ok (match o with Gt => false | _ => true end)
  end.

(** base.py:8-9 _get_value *)
Definition get_value (d : item) (o : operand) : result value :=
  match o with
  | OKey k => match dict_get k d with Some v => Ok v | None => Err KeyError end
  | OLit v => Ok v
  end.

(** base.py:111-112, 129-130, 143-144, 159-163 and likewise, 284-285 and
    string.py:25-26: match.  all and any stop at the first that decides. *)
Fixpoint match_ (d : item) (q : query) : result bool :=
  match q with
  | QAll args =>
      (fix all (l : list query) : result bool :=
         match l with
         | [] => Ok true
         | q :: l => let* b := match_ d q in if b then all l else Ok false
         end) args
  | QAny args =>
      (fix any (l : list query) : result bool :=
         match l with
         | [] => Ok false
         | q :: l => let* b := match_ d q in if b then Ok true else any l
         end) args
  | QNot q => let* b := match_ d q in Ok (negb b)
  | QCmp c l r =>
      let* l := get_value d l in
      let* r := get_value d r in
      let* p := to_comparable l r in
      compare c (fst p) (snd p)
  | QRegex k regex =>
      let* v := get_value d (OKey k) in
      match regex, v with
      | VStr p, VStr s => re_match p s
      | _, _ => Err TypeError
      end
  | QBool b => Ok b
  | QTrue => Ok true
  end.

(** base.py:11-15 filter: the matching items, up to the first that raises *)
Fixpoint filter_ (q : query) (data : list item) : list item * option exn :=
  match data with
  | [] => ([], None)
  | d :: data =>
      match match_ d q with
      | Ok true => let (l, e) := filter_ q data in (d :: l, e)
      | Ok false => filter_ q data
      | Err e => ([], Some e)
      end
  end.
End Query.

(** base.py:79-84 __and__ *)
Definition all_args (q : query) : list query := match q with QAll args => args | _ => [q] end.
Definition and_ (a b : query) : query := QAll (all_args a ++ all_args b).
(** base.py:86-91 __or__ *)
Definition any_args (q : query) : list query := match q with QAny args => args | _ => [q] end.
Definition or_ (a b : query) : query := QAny (any_args a ++ any_args b).
(** base.py:93-94 __invert__ *)
Definition invert (q : query) : query := QNot q.

(** base.py:52-68: comparing with a Key.  When only the right operand is a Key
    Python calls the Key's reflected comparison. *)
Definition reflected (c : cmp) : cmp :=
  match c with CEq => CEq | CNe => CNe | CGt => CLt | CGe => CLe | CLt => CGt | CLe => CGe end.
Definition compare_with (c : cmp) (l r : operand) : query :=
  match l, r with
  | OLit _, OKey _ => QCmp (reflected c) r l
  | _, _ => QCmp c l r
  end.

(** * parse.py *)

(** str.split at dollars *)
Definition dollar : ascii := "$"%char.
Fixpoint split (s : string) : list string :=
  match s with
  | EmptyString => [EmptyString]
  | String c s =>
      if Ascii.eqb c dollar then EmptyString :: split s
      else match split s with
           | [] => [String c EmptyString]
           | w :: ws => String c w :: ws
           end
  end.

(** parse.py:21-26 operators and 27-32 _get_operation.  (Unpacking anything but
    two parts raises ValueError.) *)
Definition get_operation (key : string) (val : value) : result query :=
  match split key with
  | [_] => Ok (QCmp CEq (OKey key) (OLit val))
  | [key; oper] =>
      if String.eqb oper "min" then Ok (QCmp CGe (OKey key) (OLit val))
      else if String.eqb oper "max" then Ok (QCmp CLe (OKey key) (OLit val))
      else if String.eqb oper "not" then Ok (QCmp CNe (OKey key) (OLit val))
      else if String.eqb oper "regex" then Ok (QRegex key val)
      else Err KeyError
  | _ => Err ValueError
  end.

(** The lines [if statement is None: ... else: statement &= substatement] *)
Definition add (statement : option query) (sub : query) : option query :=
  Some (match statement with None => sub | Some s => and_ s sub end).
Definition finish (statement : option query) : query := match statement with None => QTrue | Some s => s end.

(** parse.py:34-63 from_dict *)
Fixpoint from_items (statement : option query) (d : list (string * value)) : result (option query) :=
  match d with
  | [] => Ok statement
  | (k, v) :: d => let* sub := get_operation k v in from_items (add statement sub) d
  end.
Definition from_dict (d : list (string * value)) : result query :=
  let* s := from_items None d in Ok (finish s).

(** parse.py:65-103 from_tuples *)
Definition key_count (l : list (string * value)) (k : string) : nat :=
  length (filter (fun p => String.eqb (fst p) k) l).
Fixpoint from_pairs (count : string -> nat) (multi : list query) (statement : option query) (l : list (string * value))
  : result (list query * option query) :=
  match l with
  | [] => Ok (multi, statement)
  | (k, v) :: l =>
      let* sub := get_operation k v in
      if Nat.ltb 1 (count k) then from_pairs count (multi ++ [sub]) statement l
      else from_pairs count multi (add statement sub) l
  end.
Definition from_tuples (l : list (string * value)) : result query :=
  let* p := from_pairs (key_count l) [] None l in
  let (multi, statement) := p in
  Ok (finish (match multi with [] => statement | _ => add statement (QAny multi) end)).

(** parse.py:105-146 from_kwargs: a value is a tuple, a list or something else *)
Inductive kwarg : Type := KTuple (vs : list value) | KList (vs : list value) | KOne (v : value).
Definition is_none (v : value) : bool := match v with VNone => true | _ => false end.
Fixpoint from_kw (statement : option query) (kw : list (string * kwarg)) : result (option query) :=
  match kw with
  | [] => Ok statement
  | (k, v) :: kw =>
      match v with
      | KTuple [min; max] =>
          if negb (is_none min) && negb (is_none max)
          then from_kw (add statement (and_ (QCmp CGe (OKey k) (OLit min)) (QCmp CLe (OKey k) (OLit max)))) kw
          else if negb (is_none min) then from_kw (add statement (QCmp CGe (OKey k) (OLit min))) kw
          else if negb (is_none max) then from_kw (add statement (QCmp CLe (OKey k) (OLit max))) kw
          else from_kw statement kw
      | KTuple _ => Err ValueError
      | KList vs => from_kw (add statement (QAny (map (fun v => compare_with CEq (OKey k) (OLit v)) vs))) kw
      | KOne v => from_kw (add statement (QCmp CEq (OKey k) (OLit v))) kw
      end
  end.
Definition from_kwargs (kw : list (string * kwarg)) : result query :=
  let* s := from_kw None kw in Ok (finish s).

(** * base.py:17-52 to_pykwargs *)

(** The dictionary: assignment keeps the place of a key that is there. *)
Definition kwdict := list (string * kwarg).
Fixpoint kw_get (k : string) (d : kwdict) : option kwarg :=
  match d with
  | [] => None
  | (k', v) :: d => if String.eqb k k' then Some v else kw_get k d
  end.
Fixpoint kw_set (k : string) (v : kwarg) (d : kwdict) : kwdict :=
  match d with
  | [] => [(k, v)]
  | (k', v') :: d => if String.eqb k k' then (k', v) :: d else (k', v') :: kw_set k v d
  end.
(** value[0], value[1]: of a tuple, or of a string *)
Definition index (v : kwarg) (n : nat) : result value :=
  match v with
  | KTuple vs | KList vs => match nth_error vs n with Some v => Ok v | None => Err IndexError end
  | KOne (VStr s) => match String.get n s with Some c => Ok (VStr (String c EmptyString)) | None => Err IndexError end
  | KOne _ => Err TypeError
  end.
(** 20-29 _get_key_value *)
Definition get_key_value (l r : operand) : result (string * value) :=
  match l, r with
  | OKey _, OKey _ => Err ValueError
  | OKey k, OLit v => Ok (k, v)
  | OLit v, OKey k => Ok (k, v)
  | OLit _, OLit _ => Err ValueError
  end.
(** 36-51: the loop *)
Fixpoint to_kw (py_query : kwdict) (qs : list query) : result kwdict :=
  match qs with
  | [] => Ok py_query
  | QCmp CEq l r :: qs =>
      let* p := get_key_value l r in
      to_kw (kw_set (fst p) (KOne (snd p)) py_query) qs
  | QCmp CGe l r :: qs =>
      let* p := get_key_value l r in
      let past := match kw_get (fst p) py_query with Some v => v | None => KTuple [VNone; VNone] end in
      let* past_min := index past 0 in
      let* past_max := index past 1 in
      to_kw (kw_set (fst p) (KTuple [snd p; past_max]) py_query) qs
  | QCmp CLe l r :: qs =>
      let* p := get_key_value l r in
      let past := match kw_get (fst p) py_query with Some v => v | None => KTuple [VNone; VNone] end in
      let* past_min := index past 0 in
      let* past_max := index past 1 in
      to_kw (kw_set (fst p) (KTuple [past_min; snd p]) py_query) qs
  | _ :: _ => Err TypeError
  end.
Definition to_pykwargs (q : query) : result kwdict :=
  match q with
  | QTrue => Ok []
  | QAll args => to_kw [] args
  | _ => to_kw [] [q]
  end.
