(** C83: the code of a code task is run as a script. *)
From Coq Require Import Bool.
From Verif Require Import Model.Base Model.CodeRun Spec.CodeRunSpec Proofs.CodeRunProofs.
Local Open Scope Z_scope.

(** The task returns what the script leaves in the output variable, and fails when
    the script does, if the functions of the code use no names but
    that of their argument. *)
Theorem c83_script_partial : forall fuel code out params s v,
  nameless_functions code -> plain params -> start_with params s ->
  (execute_code (S fuel) code out params = Returns v <-> exists s', script s code s' /\ s' out = v).
Proof. exact code_script. Qed.
Print Assumptions c83_script_partial.
(* Missing: functions that use parameters, variables or other functions, see
   c83_helper_refuted and c83_calls_refuted. *)

Example c83_script_met :
  let code := [Assign 3 (Add (Name 1) (Name 2)); Define 4 (Add Arg (Const 5)); Assign 0 (Add (Call 4 (Name 1)) (Name 3))] in
  let params := [(1, Int 10); (2, Int 20)] in
  nameless_functions code /\ plain params /\ start_with params (lookup params) /\
  execute_code 1 code 0 params = Returns (Some (Int 45)).
Proof.
  cbv zeta. split; [|split; [|split]].
  - intros f body [H|[H|[H|[]]]]; try discriminate. injection H as _ <-. split; exact I.
  - intros x o [H|[H|[]]]; injection H as _ <-; eauto.
  - intros x. reflexivity.
  - vm_compute. reflexivity.
Qed.

(** Code that does not set the output variable returns the parameter of that name,
    or None. *)
Theorem c83_unset : forall fuel code out params v, ~ sets code out ->
  execute_code fuel code out params = Returns v -> v = lookup params out.
Proof. exact code_unset. Qed.
Print Assumptions c83_unset.

Example c83_unset_met :
  ~ sets [Assign 3 (Name 1)] 0 /\ execute_code 1 [Assign 3 (Name 1)] 0 [(1, Int 10)] = Returns None.
Proof.
  split; [|vm_compute; reflexivity].
  intros [[e [H|[]]]|[b [H|[]]]]; discriminate.
Qed.

(** A function of the code cannot use a parameter... *)
Theorem c83_helper_refuted : forall fuel params s x z f out,
  start_with params s -> lookup params x = Some (Int z) -> f <> x ->
  let code := [Define f (Name x); Assign out (Call f (Const 0))] in
  (exists s', script s code s' /\ s' out = Some (Int z)) /\
  execute_code (S fuel) code out params = Raises NameError.
Proof. exact code_helper. Qed.
Print Assumptions c83_helper_refuted.

Example c83_helper_met :
  start_with [(1, Int 10)] (lookup [(1, Int 10)]) /\ lookup [(1, Int 10)] 1 = Some (Int 10) /\ 4 <> 1.
Proof. split; [intros x; reflexivity|]. split; [reflexivity|discriminate]. Qed.

(** ...nor another function of the code. *)
Theorem c83_calls_refuted : forall fuel params s z f g out, start_with params s -> f <> g ->
  let code := [Define f Arg; Define g (Call f Arg); Assign out (Call g (Const z))] in
  (exists s', script s code s' /\ s' out = Some (Int z)) /\
  execute_code (S fuel) code out params = Raises NameError.
Proof. exact code_calls. Qed.
Print Assumptions c83_calls_refuted.

Example c83_calls_met : start_with [] (lookup []) /\ 4 <> 5.
Proof. split; [intros x; reflexivity|discriminate]. Qed.
