(** C15, C16: combined conditions and comparisons. *)
From Verif Require Import Model.Base Model.Condition Spec.ConditionSpec Proofs.ConditionProofs.
Open Scope Z_scope.

(** * C15 *)

(** The observation of a combined condition is short-circuit evaluation of the
    expression: same outcome, same parts observed, in the same order. *)
Theorem c15_observe_is_short_circuit : forall env e, observe env (cbuild e) = shortcut env e.
Proof. exact shortcut_ok. Qed.
Print Assumptions c15_observe_is_short_circuit.

Example c15_short_circuit_case :
  let e := XAnd (XOr (XAtom 0) (XAtom 1)) (XNot (XNot (XOr (XAtom 2) (XOr (XAtom 3) (XAtom 4))))) in
  let env n := if Nat.eqb n 4 then Err ValueError else Ok (Nat.eqb n 1 || Nat.eqb n 3) in
  cbuild e = CAll [CAny [CAtom 0; CAtom 1]; CAny [CAtom 2; CAtom 3; CAtom 4]] /\
  observe env (cbuild e) = (Ok true, [0; 1; 2; 3]%nat).
Proof. split; reflexivity. Qed.

(** When no part fails the value is the Boolean one. *)
Theorem c15_boolean_value : forall env e,
  fst (observe (fun n => Ok (env n)) (cbuild e)) = Ok (truth env e).
Proof. exact observe_truth. Qed.
Print Assumptions c15_boolean_value.

Example c15_boolean_case :
  fst (observe (fun n => Ok (Nat.eqb n 1)) (cbuild (XAnd (XNot (XAtom 0)) (XOr (XAtom 2) (XAtom 1))))) = Ok true.
Proof. reflexivity. Qed.

(** Parts that were not reached do not matter: neither their value nor an
    error they would raise. *)
Theorem c15_unreached_parts_do_not_matter : forall env env' e,
  (forall n, In n (snd (observe env (cbuild e))) -> env' n = env n) ->
  observe env' (cbuild e) = observe env (cbuild e).
Proof. exact observe_unseen. Qed.
Print Assumptions c15_unreached_parts_do_not_matter.

Example c15_unreached_case :
  let e := XAnd (XAtom 0) (XAtom 1) in
  (forall n, In n (snd (observe (fun n => Ok false) (cbuild e))) ->
     (if Nat.eqb n 1 then Err KeyError else Ok false) = Ok false) /\
  observe (fun n => if Nat.eqb n 1 then Err KeyError else Ok false) (cbuild e) = (Ok false, [0%nat]).
Proof. split; [|reflexivity]. intros n [<-|[]]. reflexivity. Qed.

(** An error comes from a part that was reached. *)
Theorem c15_errors_come_from_reached_parts : forall env e x,
  fst (observe env (cbuild e)) = Err x ->
  exists n, In n (snd (observe env (cbuild e))) /\ env n = Err x.
Proof. exact observe_error_seen. Qed.
Print Assumptions c15_errors_come_from_reached_parts.

Example c15_error_case :
  fst (observe (fun n => if Nat.eqb n 1 then Err KeyError else Ok true)
         (cbuild (XAnd (XAtom 0) (XAtom 1)))) = Err KeyError.
Proof. reflexivity. Qed.

(** Any(...) and All(...) with any number of arguments: nesting is immaterial. *)
Theorem c15_any_flattening : forall env args,
  observe env (mk_any args) = observe env (CAny args).
Proof. exact observe_mk_any. Qed.
Print Assumptions c15_any_flattening.
Theorem c15_all_flattening : forall env args,
  observe env (mk_all args) = observe env (CAll args).
Proof. exact observe_mk_all. Qed.
Print Assumptions c15_all_flattening.

Example c15_flattening_case :
  mk_any [CAny [CAtom 0; CAtom 1]; CAll [CAtom 2]] = CAny [CAtom 0; CAtom 1; CAll [CAtom 2]] /\
  mk_all [CAll [CAtom 0; CAtom 1]; CAny [CAtom 2]] = CAll [CAtom 0; CAtom 1; CAny [CAtom 2]].
Proof. split; reflexivity. Qed.

(** De Morgan and double negation, for any condition objects and also when
    parts fail. *)
Theorem c15_de_morgan_and : forall env a b,
  observe env (c_not (c_and a b)) = observe env (c_or (c_not a) (c_not b)).
Proof. exact de_morgan_and. Qed.
Print Assumptions c15_de_morgan_and.
Theorem c15_de_morgan_or : forall env a b,
  observe env (c_not (c_or a b)) = observe env (c_and (c_not a) (c_not b)).
Proof. exact de_morgan_or. Qed.
Print Assumptions c15_de_morgan_or.
Theorem c15_double_negation : forall env a, observe env (c_not (c_not a)) = observe env a.
Proof. exact double_negation. Qed.
Print Assumptions c15_double_negation.

Example c15_de_morgan_case :
  let env n := if Nat.eqb n 0 then Ok true else Err TypeError in
  observe env (c_not (c_or (CAtom 0) (CAtom 1))) = (Ok false, [0%nat]) /\
  observe env (c_not (c_and (CAtom 0) (CAtom 1))) = (Err TypeError, [0; 1]%nat).
Proof. split; reflexivity. Qed.

(** * C16 *)

(** A new condition compared with integers, each operator at most once: true
    iff the count satisfies every bound; without bounds, iff it is positive. *)
Theorem c16_comparison_chain : forall bs m n,
  NoDup (map fst bs) -> count_of m = Some n ->
  exists b, cobserve (crun (chain bs)) (length bs) m = Some b /\
    (b = true <-> (bs = [] /\ n > 0) \/ (bs <> [] /\ forall op k, In (op, k) bs -> says op n k)).
Proof. exact chain_observe. Qed.
Print Assumptions c16_comparison_chain.

Example c16_chain_case :
  let bs := [(OpGe, 2); (OpLt, 5)] in
  NoDup (map fst bs) /\ count_of (MList [7; 8; 9]) = Some 3 /\
  cobserve (crun (chain bs)) 2 (MList [7; 8; 9]) = Some true /\
  cobserve (crun (chain bs)) 2 (MNum 5) = Some false.
Proof.
  split; [|repeat split; reflexivity].
  constructor; [intros [H|[]]; discriminate|]. constructor; [intros []|constructor].
Qed.

(** Bounds given by from_magic. *)
Theorem c16_from_magic : forall c m n, keys_ok c -> count_of m = Some n ->
  exists b, cobserve (crun [EvMagic c]) 0 m = Some b /\
    (b = true <-> (c = [] /\ n > 0) \/ (c <> [] /\ forall op k, In (op, k) c -> int_compare op n k = true)).
Proof. exact magic_observe. Qed.
Print Assumptions c16_from_magic.

(** In general: after any program creating and comparing conditions, an object
    answers by the latest bound per operator put on any relative of it. *)
Theorem c16_bounds_are_shared : forall evs o r m n,
  magic_ok evs -> nth_error (roots evs []) o = Some r -> count_of m = Some n ->
  exists b, cobserve (crun evs) o m = Some b /\
    (b = true <->
     ((forall op, latest (family_bounds evs [] r) op = None) /\ n > 0) \/
     ((exists op, latest (family_bounds evs [] r) op <> None) /\
      obeys (latest (family_bounds evs [] r)) n)).
Proof. exact family_observe. Qed.
Print Assumptions c16_bounds_are_shared.

Example c16_shared_case :
  let evs := [EvNew; EvCompare 0 OpGe (BInt 2); EvNew; EvCompare 0 OpLt (BInt 5); EvCompare 2 OpEq (BInt 0)] in
  magic_ok evs /\ nth_error (roots evs []) 1 = Some 0%nat /\
  cobserve (crun evs) 1 (MNum 7) = Some false /\ cobserve (crun evs) 4 (MNum 0) = Some true.
Proof.
  split; [|repeat split; reflexivity].
  intros c H. repeat (destruct H as [H|H]; [discriminate|]). destruct H.
Qed.

(** Not true of the code: the comparison changes the condition it was built from. *)
Theorem c16_original_unchanged_refuted : exists m,
  cobserve (crun [EvNew]) 0 m = Some true /\
  cobserve (crun [EvNew; EvCompare 0 OpEq (BInt 0)]) 0 m = Some false.
Proof. exact compare_alters_original. Qed.
Print Assumptions c16_original_unchanged_refuted.

(** Not true of the code: the same operator twice keeps only the last bound;
    (c != 1) != 2 holds for a count of 1. *)
Theorem c16_same_operator_refuted : exists m,
  count_of m = Some 1 /\
  cobserve (crun [EvNew; EvCompare 0 OpNe (BInt 1); EvCompare 1 OpNe (BInt 2)]) 2 m = Some true.
Proof. exact same_operator_twice. Qed.
Print Assumptions c16_same_operator_refuted.

(** Not true of the code: a bound that is not an integer (2.5, "3") is always met. *)
Theorem c16_non_integer_bound_refuted : forall op m n, count_of m = Some n ->
  cobserve (crun [EvNew; EvCompare 0 op BOther]) 1 m = Some true.
Proof. exact foreign_bound. Qed.
Print Assumptions c16_non_integer_bound_refuted.
