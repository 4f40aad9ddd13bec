(** Comparing conditions with each other: C78. *)
From Coq Require Import Bool Arith Lia ZifyBool.
From Verif Require Import Model.Base Model.Condition Model.Equality Spec.ConditionSpec Spec.EqualitySpec Proofs.EqualityProofs.
Open Scope Z_scope.

(** Conditions that compare equal answer the same: both are true, both false or
    both raise the same error.  Missing: bounds that are not integers. *)
Theorem c78_equal_partial : forall py a b, attributes_tell py -> integers_tell py -> order_free py -> counted a -> counted b ->
  keq py a b = true -> kobserve py a = kobserve py b.
Proof. exact equal_answers. Qed.
Print Assumptions c78_equal_partial.

Example c78_equal_case :
  attributes_tell eq_python /\ integers_tell eq_python /\ order_free eq_python /\ counted eq_left /\ counted eq_right /\
  eq_left <> eq_right /\ keq eq_python eq_left eq_right = true /\ kobserve eq_python eq_left = Err KeyError /\
  keq eq_python eq_left (KAny [KNot (KComp 3 1 [(OpGe, BInt 1); (OpLt, BInt 2)]); KAll [KPlain 9 4; KFalse]]) = false.
Proof.
  destruct eq_tells as (A & T & O & _). destruct eq_counted as (L & R & _).
  split; [exact A|]. split; [exact T|]. split; [exact O|]. split; [exact L|]. split; [exact R|].
  split; [discriminate|]. split; [vm_compute; reflexivity|]. split; vm_compute; reflexivity.
Qed.

(** A condition equals itself, and one built the same way. *)
Theorem c78_self : forall py a, reflexive py -> counted a -> keq py a a = true.
Proof. exact equal_self. Qed.
Print Assumptions c78_self.

(** Equality goes both ways, when no constant is negated. *)
Theorem c78_both_ways_partial : forall py a b, symmetric py -> counted a -> counted b ->
  no_negated_constant a -> keq py a b = true -> keq py b a = true.
Proof. exact equal_back. Qed.
Print Assumptions c78_both_ways_partial.

Example c78_both_ways_case : symmetric eq_python /\ reflexive eq_python /\ counted eq_left /\ no_negated_constant eq_left /\
  keq eq_python eq_left eq_left = true /\ keq eq_python eq_right eq_left = true.
Proof.
  destruct eq_tells as (_ & _ & _ & R & S). destruct eq_counted as (L & _ & N).
  split; [exact S|]. split; [exact R|]. split; [exact L|]. split; [exact N|]. split; vm_compute; reflexivity.
Qed.

(** It does not with one: ~false == true, but not true == ~false. *)
Theorem c78_one_way_refuted : exists py a b, symmetric py /\ reflexive py /\ counted a /\ counted b /\
  keq py a b = true /\ keq py b a = false.
Proof. exact one_way. Qed.
Print Assumptions c78_one_way_refuted.

(** A bound that is not an integer may equal one that is (2.0 and 2), and the
    conditions then compare equal but answer differently. *)
Theorem c78_float_refuted : exists py a b, attributes_tell py /\ integers_tell py /\ order_free py /\
  keq py a b = true /\ kobserve py a <> kobserve py b.
Proof. exact float_equal. Qed.
Print Assumptions c78_float_refuted.

(** != is the negation of == and changes nothing, but for conditions that
    count. *)
Theorem c78_unequal_partial : forall py a b, ~ counts a -> kne py a b = (Ok (negb (keq py a b)), a).
Proof. exact ne_is_not_eq. Qed.
Print Assumptions c78_unequal_partial.

Example c78_unequal_case : ~ counts eq_left /\ kne eq_python eq_left eq_right = (Ok false, eq_left) /\
  kne eq_python eq_left KTrue = (Ok true, eq_left).
Proof. split; [intros []|]. split; vm_compute; reflexivity. Qed.

(** A condition that counts, without bounds, is unequal to whatever it is
    compared with, also itself, and afterwards it holds however often the thing
    happened, even never. *)
Theorem c78_unequal_refuted : forall py k x b n, (forall c, py_measure py k x c = Ok (MNum n)) ->
  fst (kne py (KComp k x []) b) = Ok true /\ kobserve py (snd (kne py (KComp k x []) b)) = Ok true.
Proof. exact ne_spoils. Qed.
Print Assumptions c78_unequal_refuted.

Example c78_unequal_refuted_case : let a := KComp 3 2 [] in
  (forall c, py_measure eq_python 3 2 c = Ok (MNum 0)) /\ keq eq_python a a = true /\ kobserve eq_python a = Ok false /\
  fst (kne eq_python a a) = Ok true /\ kobserve eq_python (snd (kne eq_python a a)) = Ok true.
Proof. split; [intros c; reflexivity|]. split; [reflexivity|]. split; [reflexivity|]. split; reflexivity. Qed.
