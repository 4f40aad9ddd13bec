(** C43, C54, C55: strings of conditions and of time periods. *)
From Coq Require Import List ZArith Ascii String.
From Verif Require Import Model.Base Model.Parse Spec.ParseSpec.
From Verif Require Model.Condition Model.Period Spec.AlgebraSpec.
From Verif Require Import Proofs.ParseResults Proofs.ParseExamples.
Import ListNotations.

(** * C43 *)

(** A string of the language is read with the tilde binding tightest, then the ampersand, then
    the bar, and parentheses as written: the condition answers what the expression says, from
    the same items in the same order. *)
Theorem c43_grammar : forall item text_atom known s e, reads true LAny s e ->
  (forall t, In t (items e) -> item t = Ok (known t)) ->
  exists c, parse_condition item text_atom s = Returns c /\
    forall env, Condition.observe env c = answer env known e.
Proof. exact condition_string. Qed.
Print Assumptions c43_grammar.

Example c43_grammar_nonvacuous :
  reads true LAny ex_string ex_exp /\
  (forall t, In t (items ex_exp) -> ex_item t = Ok (ex_known t)) /\
  parse_condition ex_item (fun _ => 9) ex_string =
    Returns (Condition.CAny [Condition.CAll [Condition.CNot (Condition.CAtom 0);
       Condition.CAny [Condition.CAtom 1; Condition.CAtom 2]]; Condition.CAtom 2]).
Proof. exact ex_grammar. Qed.

(** Printed with every combination in parentheses and parsed back. *)
Theorem c43_printed : forall item text_atom known e,
  (forall t, In t (items e) -> item_text t /\ item t = Ok (known t)) ->
  exists c, parse_condition item text_atom (printed e) = Returns c /\
    forall env, Condition.observe env c = answer env known e.
Proof. exact condition_printed. Qed.
Print Assumptions c43_printed.

Example c43_printed_nonvacuous :
  (forall t, In t (items ex_exp) -> item_text t /\ ex_item t = Ok (ex_known t)) /\
  printed ex_exp = txt "(((~a) & (b | c)) | c)"%string.
Proof. exact ex_printed. Qed.

(** The first unknown item decides the error. *)
Theorem c43_unknown : forall item text_atom s e x, reads true LAny s e ->
  first_unknown item (items e) x -> parse_condition item text_atom s = Raises x.
Proof. exact (fun item text_atom => condition_unknown item text_atom (fun _ => Condition.CTrue)). Qed.
Print Assumptions c43_unknown.

Example c43_unknown_nonvacuous : forall c : Condition.cond,
  reads true LAny (txt "a & c"%string) (BAnd (BItem (txt "a"%string)) (BItem (txt "c"%string))) /\
  first_unknown (fun t => match t with ["a"%char] => Ok c | _ => Err ParserError end)
    (items (BAnd (BItem (txt "a"%string)) (BItem (txt "c"%string)))) ParserError.
Proof. exact ex_unknown_reads. Qed.

(** Every string is parsed or refused in a finite number of steps. *)
Theorem c43_ends : forall item text_atom s, parse_condition item text_atom s <> OutOfFuel.
Proof. exact condition_ends. Qed.
Print Assumptions c43_ends.

(** White space between a parenthesis and the end of the string, or between two parentheses, is
    not skipped: it is taken for an item with no text. *)
Theorem c43_spaces_refuted : exists item s c, forall text_atom,
  parse_condition item text_atom s = Returns c /\
  parse_condition item text_atom (s ++ [" "%char]) = Raises ParserError /\
  parse_condition item text_atom (" "%char :: s) = Raises ParserError /\
  parse_condition item text_atom ("("%char :: " "%char :: s ++ [")"%char]) = Raises ParserError.
Proof. exact spaces_lost. Qed.
Print Assumptions c43_spaces_refuted.

(** * C54 *)

(** A parenthesis that is never closed. *)
Theorem c54_unclosed : forall item text_atom s,
  occurrences ")"%char s < occurrences "("%char s ->
  parse_condition item text_atom s = Raises ValueError.
Proof. exact condition_unclosed. Qed.
Print Assumptions c54_unclosed.

(** Parentheses that do not match, when no item is called something with a parenthesis. *)
Theorem c54_unbalanced : forall item text_atom,
  (forall t, In ")"%char t -> exists x, item t = Err x) ->
  forall s, occurrences "("%char s <> occurrences ")"%char s ->
  exists x, parse_condition item text_atom s = Raises x.
Proof. exact condition_unbalanced. Qed.
Print Assumptions c54_unbalanced.

Example c54_nonvacuous :
  (forall t, In ")"%char t -> exists x, ex_item t = Err x) /\
  occurrences "("%char (txt "(a & (b)"%string) <> occurrences ")"%char (txt "(a & (b)"%string) /\
  parse_condition ex_item (fun _ => 9) (txt "(a & (b)"%string) = Raises ValueError /\
  parse_condition ex_item (fun _ => 9) (txt "(a & b)) | c"%string) = Raises ParserError.
Proof. exact ex_unbalanced. Qed.

(** Two operands without an operator: the second is dropped. *)
Theorem c54_dropped_refuted : exists item,
  item (txt "a"%string) = Ok (Condition.CAtom 0) /\ item (txt "b"%string) = Ok (Condition.CAtom 1) /\
  forall text_atom,
    parse_condition item text_atom (txt "a (b)"%string) = Returns (Condition.CAtom 0) /\
    parse_condition item text_atom (txt "(a)(b)"%string) = Returns (Condition.CAtom 0).
Proof. exact operand_dropped. Qed.
Print Assumptions c54_dropped_refuted.

(** A tilde at the end negates the beginning. *)
Theorem c54_misplaced_refuted : exists item,
  item (txt "a"%string) = Ok (Condition.CAtom 0) /\ item (txt "b"%string) = Ok (Condition.CAtom 1) /\
  forall text_atom,
    parse_condition item text_atom (txt "a ~"%string) = Returns (Condition.CNot (Condition.CAtom 0)) /\
    parse_condition item text_atom (txt "a & b ~"%string) =
      Returns (Condition.CAll [Condition.CNot (Condition.CAtom 0); Condition.CAtom 1]).
Proof. exact operator_misplaced. Qed.
Print Assumptions c54_misplaced_refuted.

(** Two operators in a row: the second becomes a member of the condition, and the operand after
    it is dropped. *)
Theorem c54_operand_refuted : exists item,
  item (txt "a"%string) = Ok (Condition.CAtom 0) /\ item (txt "b"%string) = Ok (Condition.CAtom 1) /\
  forall text_atom,
    parse_condition item text_atom (txt "a & | b"%string) =
      Returns (Condition.CAll [Condition.CAtom 0; Condition.CAtom (text_atom "|"%char)]).
Proof. exact operator_as_operand. Qed.
Print Assumptions c54_operand_refuted.

(** * C55 *)

(** A string of periods with the ampersand and the bar stands for the moments it says, when no
    item is [always]. *)
Theorem c55_grammar_partial : forall item known, (forall t, solid (known t)) ->
  forall s e, reads false LAny s e -> (forall t, In t (items e) -> item t = Ok (known t)) ->
  exists p, parse_time item s = Returns (EVal p) /\ solid p /\
    forall t, (Period.p_min <= t < Period.p_max)%Z -> (AlgebraSpec.moments p t <-> spans known e t).
Proof. exact time_string. Qed.
Print Assumptions c55_grammar_partial.

Example c55_nonvacuous :
  reads false LAny (txt "a | b & a"%string) ex_time_exp /\
  (forall t, In t (items ex_time_exp) -> ex_time_item t = Ok (ex_period t)) /\
  (forall t, solid (ex_period t)) /\
  parse_time ex_time_item (txt "a | b & a"%string) =
    Returns (EVal (Period.PAny [ex_period (txt "a"%string);
                                Period.PAll [ex_period (txt "b"%string); ex_period (txt "a"%string)]])).
Proof. exact ex_time. Qed.

(** The first unknown item decides the error. *)
Theorem c55_unknown : forall item s e x, reads false LAny s e ->
  first_unknown item (items e) x -> parse_time item s = Raises x.
Proof. exact (fun item => time_unknown item ex_period ex_period_solid). Qed.
Print Assumptions c55_unknown.

Example c55_unknown_nonvacuous :
  reads false LAny (txt "a & c"%string) (BAnd (BItem (txt "a"%string)) (BItem (txt "c"%string))) /\
  first_unknown (fun t => match t with ["a"%char] => Ok (ex_period t) | _ => Err ParserError end)
    (items (BAnd (BItem (txt "a"%string)) (BItem (txt "c"%string)))) ParserError.
Proof. exact ex_time_unknown_reads. Qed.

Theorem c55_ends : forall item s, parse_time item s <> OutOfFuel.
Proof. exact time_ends. Qed.
Print Assumptions c55_ends.

(** The string that says always twice gives a period that cannot be asked, although combining
    the two with the operator gives always; and saying that twice is refused. *)
Theorem c55_always_refuted : exists item,
  item (txt "a"%string) = Ok Period.PAlways /\ Period.p_and Period.PAlways Period.PAlways = Period.PAlways /\
  (exists p, parse_time item (txt "a & a"%string) = Returns (EVal p) /\
     forall fuel t, Period.pcontains (S fuel) p t = Raises TypeError) /\
  parse_time item (txt "(a & a) & (a & a)"%string) = Raises ValueError.
Proof. exact always_twice. Qed.
Print Assumptions c55_always_refuted.
