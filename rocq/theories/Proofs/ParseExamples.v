(** Concrete strings. *)
From Coq Require Import List Bool Arith Lia ZArith Ascii String.
From Verif Require Import Model.Base Model.Parse Spec.ParseSpec.
From Verif Require Model.Condition Model.Interval Model.Calendar Model.Anchored Model.Period Spec.AlgebraSpec.
From Verif Require Import Proofs.ParseProofs Proofs.ParseResults.
Import ListNotations.

Notation txt := list_ascii_of_string.

Definition ex_known (t : list ascii) : Condition.cond :=
  match t with
  | ["a"%char] => Condition.CAtom 0
  | ["b"%char] => Condition.CAtom 1
  | _ => Condition.CAtom 2
  end.
Definition ex_item (t : list ascii) : result Condition.cond :=
  match t with
  | ["a"%char] | ["b"%char] | ["c"%char] => Ok (ex_known t)
  | _ => Err ParserError
  end.

Lemma letter_text : forall c, In c ["a"; "b"; "c"]%char -> item_text [c].
Proof.
  intros c H. split; [discriminate|]. split.
  - intros d [<- | []] R. destruct H as [<- | [<- | [<- | []]]]; cbn in R;
      repeat (destruct R as [R | R]; [discriminate|]); destruct R.
  - split; intros d r E W.
    + injection E as <- <-. apply space_white in W. destruct H as [<- | [<- | [<- | []]]]; discriminate.
    + destruct r as [|x [|y r]]; try discriminate. injection E as <-. apply space_white in W.
      destruct H as [<- | [<- | [<- | []]]]; discriminate.
Qed.
Lemma no_blanks : blanks []. Proof. intros c []. Qed.
Lemma one_blank : blanks [" "%char]. Proof. intros c [<- | []]. unfold white. cbn. tauto. Qed.
Lemma letter_reads : forall neg c, In c ["a"; "b"; "c"]%char -> reads neg LUnit [c] (BItem [c]).
Proof.
  intros neg c H. change [c] with ([] ++ [c] ++ []) at 1. apply rd_item; [exact no_blanks|exact no_blanks|now apply letter_text].
Qed.

Definition ex_string : list ascii := txt "~a & (b|c) | c"%string.
Definition ex_exp : bexp :=
  BOr (BAnd (BNot (BItem (txt "a"%string))) (BOr (BItem (txt "b"%string)) (BItem (txt "c"%string)))) (BItem (txt "c"%string)).
Lemma ex_reads : reads true LAny ex_string ex_exp.
Proof.
  change ex_string with ((([] ++ "~"%char :: [] ++ ["a"%char]) ++ [" "%char] ++ "&"%char :: [" "%char] ++
    ("("%char :: (["b"%char] ++ [] ++ "|"%char :: [] ++ ["c"%char]) ++ [")"%char])) ++ [" "%char] ++ "|"%char :: [" "%char] ++ ["c"%char]).
  apply rd_or; [exact one_blank|exact one_blank| |apply rd_unit, letter_reads; cbn; tauto].
  apply rd_all. apply rd_and; [exact one_blank|exact one_blank| |].
  - apply rd_unit. apply rd_not; [reflexivity|exact no_blanks|exact no_blanks|apply letter_reads; cbn; tauto].
  - apply rd_group. apply rd_or; [exact no_blanks|exact no_blanks| |apply rd_unit, letter_reads; cbn; tauto].
    apply rd_all, rd_unit, letter_reads; cbn; tauto.
Qed.

Lemma ex_grammar :
  reads true LAny ex_string ex_exp /\
  (forall t, In t (items ex_exp) -> ex_item t = Ok (ex_known t)) /\
  parse_condition ex_item (fun _ => 9%nat) ex_string =
    Returns (Condition.CAny [Condition.CAll [Condition.CNot (Condition.CAtom 0);
       Condition.CAny [Condition.CAtom 1; Condition.CAtom 2]]; Condition.CAtom 2]).
Proof.
  split; [exact ex_reads|]. split; [|reflexivity].
  intros t H. cbn in H. destruct H as [<- | [<- | [<- | [<- | []]]]]; reflexivity.
Qed.

Lemma ex_printed :
  (forall t, In t (items ex_exp) -> item_text t /\ ex_item t = Ok (ex_known t)) /\
  printed ex_exp = txt "(((~a) & (b | c)) | c)"%string.
Proof.
  split; [|reflexivity]. intros t H. cbn in H.
  destruct H as [<- | [<- | [<- | [<- | []]]]]; (split; [apply letter_text; cbn; tauto|reflexivity]).
Qed.

Lemma ex_unknown_reads : forall c : Condition.cond,
  reads true LAny (txt "a & c"%string) (BAnd (BItem (txt "a"%string)) (BItem (txt "c"%string))) /\
  first_unknown (fun t => match t with ["a"%char] => Ok c | _ => Err ParserError end)
    (items (BAnd (BItem (txt "a"%string)) (BItem (txt "c"%string)))) ParserError.
Proof.
  intros cnd. split.
  - change (txt "a & c"%string) with (["a"%char] ++ [" "%char] ++ "&"%char :: [" "%char] ++ ["c"%char]).
    apply rd_all, rd_and; [exact one_blank|exact one_blank| |apply letter_reads; cbn; tauto].
    apply rd_unit, letter_reads; cbn; tauto.
  - exists [txt "a"%string], (txt "c"%string), []. split; [reflexivity|]. split; [|reflexivity].
    intros u [<- | []]. now exists cnd.
Qed.

(** White space next to a parenthesis. *)
Lemma spaces_lost : exists item s c, forall text_atom,
  parse_condition item text_atom s = Returns c /\
  parse_condition item text_atom (s ++ [" "%char]) = Raises ParserError /\
  parse_condition item text_atom (" "%char :: s) = Raises ParserError /\
  parse_condition item text_atom ("("%char :: " "%char :: s ++ [")"%char]) = Raises ParserError.
Proof.
  exists ex_item, (txt "(a)"%string), (Condition.CAtom 0). intros ta.
  split; [reflexivity|]. split; [reflexivity|]. split; reflexivity.
Qed.

(** Operands that do not count and operators in the wrong place. *)
Lemma operand_dropped : exists item,
  item (txt "a"%string) = Ok (Condition.CAtom 0) /\ item (txt "b"%string) = Ok (Condition.CAtom 1) /\
  forall text_atom,
    parse_condition item text_atom (txt "a (b)"%string) = Returns (Condition.CAtom 0) /\
    parse_condition item text_atom (txt "(a)(b)"%string) = Returns (Condition.CAtom 0).
Proof.
  exists ex_item. split; [reflexivity|]. split; [reflexivity|]. intros ta. split; reflexivity.
Qed.
Lemma operator_misplaced : exists item,
  item (txt "a"%string) = Ok (Condition.CAtom 0) /\ item (txt "b"%string) = Ok (Condition.CAtom 1) /\
  forall text_atom,
    parse_condition item text_atom (txt "a ~"%string) = Returns (Condition.CNot (Condition.CAtom 0)) /\
    parse_condition item text_atom (txt "a & b ~"%string) =
      Returns (Condition.CAll [Condition.CNot (Condition.CAtom 0); Condition.CAtom 1]).
Proof.
  exists ex_item. split; [reflexivity|]. split; [reflexivity|]. intros ta. split; reflexivity.
Qed.
Lemma operator_as_operand : exists item,
  item (txt "a"%string) = Ok (Condition.CAtom 0) /\ item (txt "b"%string) = Ok (Condition.CAtom 1) /\
  forall text_atom,
    parse_condition item text_atom (txt "a & | b"%string) =
      Returns (Condition.CAll [Condition.CAtom 0; Condition.CAtom (text_atom "|"%char)]).
Proof. exists ex_item. split; [reflexivity|]. split; [reflexivity|]. intros ta. reflexivity. Qed.

Lemma ex_unbalanced :
  (forall t, In ")"%char t -> exists x, ex_item t = Err x) /\
  occurrences "("%char (txt "(a & (b)"%string) <> occurrences ")"%char (txt "(a & (b)"%string) /\
  parse_condition ex_item (fun _ => 9%nat) (txt "(a & (b)"%string) = Raises ValueError /\
  parse_condition ex_item (fun _ => 9%nat) (txt "(a & b)) | c"%string) = Raises ParserError.
Proof.
  split; [|split; [discriminate|split; reflexivity]].
  intros t H. exists ParserError. unfold ex_item.
  destruct t as [|c [|d t]]; [destruct H| |].
  - destruct H as [-> | []]. reflexivity.
  - destruct c as [[|] [|] [|] [|] [|] [|] [|] [|]]; reflexivity.
Qed.

(** * Time strings *)

Section Times.
  Import Interval Calendar Anchored Period.
  Local Open Scope Z_scope.

  Definition ex_period (t : list ascii) : tperiod :=
    match t with
    | ["a"%char] => PAnch (Anchored TDay (8 * us_hour) (12 * us_hour))
    | _ => PAnch (Anchored TDay (10 * us_hour) (14 * us_hour))
    end.
  Definition ex_time_item (t : list ascii) : result tperiod :=
    match t with
    | ["a"%char] | ["b"%char] => Ok (ex_period t)
    | _ => Err ParserError
    end.
  Definition ex_time_exp : bexp :=
    BOr (BItem (txt "a"%string)) (BAnd (BItem (txt "b"%string)) (BItem (txt "a"%string))).
  Lemma ex_time :
    reads false LAny (txt "a | b & a"%string) ex_time_exp /\
    (forall t, In t (items ex_time_exp) -> ex_time_item t = Ok (ex_period t)) /\
    (forall t, solid (ex_period t)) /\
    parse_time ex_time_item (txt "a | b & a"%string) =
      Returns (EVal (PAny [ex_period (txt "a"%string); PAll [ex_period (txt "b"%string); ex_period (txt "a"%string)]])).
  Proof.
    split.
    { change (txt "a | b & a"%string) with
        (["a"%char] ++ [" "%char] ++ "|"%char :: [" "%char] ++ (["b"%char] ++ [" "%char] ++ "&"%char :: [" "%char] ++ ["a"%char])).
      apply rd_or; [exact one_blank|exact one_blank|apply rd_all, rd_unit, letter_reads; cbn; tauto|].
      apply rd_and; [exact one_blank|exact one_blank|apply rd_unit, letter_reads; cbn; tauto|apply letter_reads; cbn; tauto]. }
    split. { intros t H. cbn in H. destruct H as [<- | [<- | [<- | []]]]; reflexivity. }
    split.
    { intros t. unfold ex_period. destruct t as [|c [|d t]]; [exact I| |];
        destruct c as [[|] [|] [|] [|] [|] [|] [|] [|]]; exact I. }
    reflexivity.
  Qed.

  Lemma ex_period_solid : forall t, solid (ex_period t).
  Proof. exact (proj1 (proj2 (proj2 ex_time))). Qed.
  Lemma ex_time_unknown_reads :
    reads false LAny (txt "a & c"%string) (BAnd (BItem (txt "a"%string)) (BItem (txt "c"%string))) /\
    first_unknown (fun t => match t with ["a"%char] => Ok (ex_period t) | _ => Err ParserError end)
      (items (BAnd (BItem (txt "a"%string)) (BItem (txt "c"%string)))) ParserError.
  Proof.
    split.
    - change (txt "a & c"%string) with (["a"%char] ++ [" "%char] ++ "&"%char :: [" "%char] ++ ["c"%char]).
      apply rd_all, rd_and; [exact one_blank|exact one_blank| |apply letter_reads; cbn; tauto].
      apply rd_unit, letter_reads; cbn; tauto.
    - exists [txt "a"%string], (txt "c"%string), []. split; [reflexivity|]. split; [|reflexivity].
      intros u [<- | []]. now exists (ex_period (txt "a"%string)).
  Qed.

  Definition always_item (t : list ascii) : result tperiod :=
    match t with ["a"%char] => Ok PAlways | _ => Err ParserError end.

  (** A string that says always twice. *)
  Lemma always_twice : exists item,
    item (txt "a"%string) = Ok PAlways /\ p_and PAlways PAlways = PAlways /\
    (exists p, parse_time item (txt "a & a"%string) = Returns (EVal p) /\
       forall fuel t, pcontains (S fuel) p t = Raises TypeError) /\
    parse_time item (txt "(a & a) & (a & a)"%string) = Raises ValueError.
  Proof.
    exists always_item. split; [reflexivity|]. split; [reflexivity|]. split; [|reflexivity].
    exists (PAll []). split; [reflexivity|]. intros fuel t. reflexivity.
  Qed.
End Times.
