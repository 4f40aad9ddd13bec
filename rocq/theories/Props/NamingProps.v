(** The names of parameters: C77. *)
From Coq Require Import Bool Arith Lia ZifyBool.
From Verif Require Import Model.Base Model.World Model.Params Model.Naming Spec.ParamsSpec Spec.NamingSpec
  Proofs.NamingProofs Proofs.ParamsExamples.
Open Scope Z_scope.

(** * C77 *)

(** Every parameter with an ordinary name reaches the task under its name and
    with its value, from whichever source it is chosen, as long as all the
    parameters around it have ordinary names too. *)
Theorem c77_reaches_partial : forall ob n s s' t x flag passed kw,
  is_func t -> dictionaries s t passed -> all_ordinary s t passed ->
  named_kwargs ob n s s' t x flag passed = Ok kw ->
  forall k, match chosen s t x flag passed k with
            | None => dget k kw = None
            | Some p => exists v, dget k kw = Some v /\ worth n s s' t x flag p (Ok v)
            end.
Proof. exact named_precedence. Qed.
Print Assumptions c77_reaches_partial.

(** And no name among the ordinary ones keeps a run from getting its
    arguments. *)
Theorem c77_defined_partial : forall ob n s s' t x flag passed,
  is_func t -> dictionaries s t passed -> all_ordinary s t passed -> x = XMain \/ x = XAsync ->
  (forall k p, chosen s t x flag passed k = Some p -> exists v, worth n s s' t x flag p (Ok v)) ->
  exists kw, named_kwargs ob n s s' t x flag passed = Ok kw.
Proof. exact named_gets_them. Qed.
Print Assumptions c77_defined_partial.

Example c77_reaches_case : forall ob,
  is_func ex_ptask /\ dictionaries ex_sess ex_ptask [] /\ all_ordinary ex_sess ex_ptask [] /\
  named_kwargs ob 9 ex_sess ex_sess ex_ptask XThread (VEvent 0) [] =
  Ok [(5, VData 42); (6, VData 61); (7, VData 77); (8, VData 70); (k_terminate, VEvent 0)].
Proof.
  intros ob. split; [discriminate|]. split; [exact ex_dictionaries|]. split; [|vm_compute; reflexivity].
  unfold all_ordinary, ordinary_names, ordinary, k_self, k_param, k_type. cbn.
  repeat split; intuition (try congruence); match goal with H : (_, _) = _ |- _ => injection H; lia end.
Qed.

(** Not so for the other three.  A parameter of the session called self makes
    every run of every task fail, whether the task takes it or not. *)
Theorem c77_self_refuted : forall ob n s s' t x flag passed p,
  one_per_key (ss_params s) -> dget k_self (ss_params s) = Some p ->
  named_kwargs ob n s s' t x flag passed = Err TypeError.
Proof. exact self_breaks. Qed.
Print Assumptions c77_self_refuted.

(** So does one called type_ that is not None and cannot be called, when the
    session has any other parameter. *)
Theorem c77_type_refuted : forall ob n s s' t x flag f k p,
  one_per_key (ss_params s) -> dget k_self (ss_params s) = None -> dget k_param (ss_params s) = None ->
  dget k_type (ss_params s) = Some f -> f <> PVal VNone -> (forall q, ob_call ob f q = Err TypeError) ->
  dget k (ss_params s) = Some p -> k <> k_type ->
  named_kwargs ob n s s' t x flag [] = Err TypeError.
Proof. exact type_breaks. Qed.
Print Assumptions c77_type_refuted.

Example c77_type_case :
  let s := nx_sess [(5, PVal (VData 7)); (k_type, PVal (VData 2))] in
  one_per_key (ss_params s) /\ (forall q, ob_call nx_objects (PVal (VData 2)) q = Err TypeError) /\
  named_kwargs nx_objects 9 s s (PTask 1 [] [] (fun _ => false) (PFunc false) []) XMain VNone [] = Err TypeError /\
  named_kwargs nx_objects 9 (nx_sess [(k_self, PVal VNone)]) s nx_task XMain VNone [] = Err TypeError.
Proof.
  split; [apply (nx_one k_type (PVal (VData 7)) (PVal (VData 2))); discriminate|]. split; [intros q; reflexivity|].
  split; vm_compute; reflexivity.
Qed.

(** One that can be called is not passed on but applied to all the others. *)
Theorem c77_applied_refuted : exists ob n s t flag kw p v,
  is_func t /\ dictionaries s t [] /\
  chosen s t XMain flag [] k_type = Some p /\ chosen s t XMain flag [] 5 = Some (PVal v) /\
  named_kwargs ob n s s t XMain flag [] = Ok kw /\ dget k_type kw = None /\ dget 5 kw <> Some v.
Proof. exact type_is_lost. Qed.
Print Assumptions c77_applied_refuted.

(** And a task's own parameter called _param, None by value, is lost. *)
Theorem c77_param_refuted : exists ob n s t flag kw,
  is_func t /\ dictionaries s t [] /\ dget k_param (pt_own t) = Some (PVal VNone) /\
  named_kwargs ob n s s t XMain flag [] = Ok kw /\ dget k_param kw = None.
Proof. exact param_is_lost. Qed.
Print Assumptions c77_param_refuted.
