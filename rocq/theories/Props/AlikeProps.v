(** C84: comparing arguments and parameter sets. *)
From Coq Require Import Bool Arith.
From Verif Require Import Model.Base Model.World Model.Params Model.Alike Spec.AlikeSpec Proofs.AlikeProofs.
Local Open Scope Z_scope.

(** Sets of plain values are equal if and only if they have the same names with the
    same values; != is the opposite, and neither fails. *)
Theorem c84_values : forall n s a b, keys_once a -> keys_once b -> one_object a b -> values_only a -> values_only b ->
  exists r, sets_eq n s a b = Ok r /\ sets_ne n s a b = Ok (negb r) /\
    (r = true <-> forall k p, has a k p <-> has b k p).
Proof. exact sets_values. Qed.
Print Assumptions c84_values.

Example c84_values_met :
  let a := [(1, (100, PVal (VData 5))); (2, (101, PVal VNone))] in
  let b := [(2, (101, PVal VNone)); (1, (102, PVal (VData 5)))] in
  let s := Sess [] [] [] [] [] false (fun _ => XMain) (fun _ _ => Ok VNone) (VEvent 0) in
  keys_once a /\ keys_once b /\ one_object a b /\ values_only a /\ values_only b /\ sets_eq 1 s a b = Ok true.
Proof.
  cbv zeta. split; [|split; [|split; [|split; [|split]]]].
  - repeat constructor; cbn; intuition discriminate.
  - repeat constructor; cbn; intuition discriminate.
  - intros k k' i p q [A|[A|[]]] [B|[B|[]]]; injection A as <- <- <-; inversion B; subst; reflexivity.
  - intros k i p [A|[A|[]]]; injection A as <- <- <-; eauto.
  - intros k i p [A|[A|[]]]; injection A as <- <- <-; eauto.
  - vm_compute. reflexivity.
Qed.

(** Sets that compare equal give a task the same values under the same names, if
    they are without pipes and functions that take arguments, and arguments got from
    the session have the same defaults. *)
Theorem c84_sets_partial : forall n s a b m cx,
  keys_once a -> keys_once b -> one_object a b -> all_comparable a b -> for_task cx ->
  sets_eq n s a b = Ok true ->
  (forall k p, has a k p -> exists q, has b k q /\ worth (S m) s cx p = worth (S m) s cx q) /\
  (forall k q, has b k q -> exists p, has a k p /\ worth (S m) s cx p = worth (S m) s cx q).
Proof. exact sets_eq_worth. Qed.
Print Assumptions c84_sets_partial.
(* Missing: different defaults, pipes, and functions with arguments, which are called
   for the comparison without task and session: c84_default_refuted, c84_pipe_refuted,
   c84_function_refuted. *)

Example c84_sets_met :
  let a := [(1, (100, PArg (PrivateArg (VData 5)))); (2, (101, PArg (ReturnArg 7 None)))] in
  let b := [(2, (101, PArg (ReturnArg 7 None))); (1, (102, PVal (VData 5)))] in
  let s := Sess [] [7] [(7, VData 3)] [] [] false (fun _ => XMain) (fun _ _ => Ok VNone) (VEvent 0) in
  keys_once a /\ keys_once b /\ one_object a b /\ all_comparable a b /\ sets_eq 1 s a b = Ok true.
Proof.
  cbv zeta. split; [|split; [|split; [|split]]].
  - repeat constructor; cbn; intuition discriminate.
  - repeat constructor; cbn; intuition discriminate.
  - intros k k' i p q [A|[A|[]]] [B|[B|[]]]; injection A as <- <- <-; inversion B; subst; reflexivity.
  - intros k i p j q [A|[A|[]]] [B|[B|[]]]; injection A as <- <- <-; inversion B; subst; cbn; auto.
  - vm_compute. reflexivity.
Qed.

(** If p == q then q == p... *)
Theorem c84_symmetric : forall n s p q r, param_eq n s p q = Ok r -> param_eq n s q p = Ok r.
Proof. exact param_eq_sym. Qed.
Print Assumptions c84_symmetric.

Example c84_symmetric_met :
  let s := Sess [] [] [] [(9, VData 4)] [] false (fun _ => XMain) (fun _ _ => Ok VNone) (VEvent 0) in
  param_eq 1 s (PArg (EnvArg 9 None)) (PArg (EnvArg 8 (Some (VData 4)))) = Ok true.
Proof. vm_compute. reflexivity. Qed.

(** ...and nothing is found different from what is built the same way. *)
Theorem c84_itself : forall n s p r, param_eq n s p p = Ok r -> r = true.
Proof. exact param_eq_self. Qed.
Print Assumptions c84_itself.

Example c84_itself_met :
  let s := Sess [] [] [] [] [6; 4] false (fun _ => XMain) (fun _ _ => Ok VNone) (VEvent 0) in
  param_eq 1 s (PArg (CliArg 6 None)) (PArg (CliArg 6 None)) = Ok true.
Proof. vm_compute. reflexivity. Qed.

(** Arguments got from the session are equal whatever their defaults, and a task is
    given the defaults. *)
Theorem c84_default_refuted : forall n m s k v w t, dget k (ss_params s) = None -> v <> w ->
  arg_eq n s (ArgKey k (Some v)) (ArgKey k (Some w)) = Ok true /\
  get_value (S m) s (Ctx (Some t) SMissing None) (ArgKey k (Some v)) = Ok v /\
  get_value (S m) s (Ctx (Some t) SMissing None) (ArgKey k (Some w)) = Ok w.
Proof. exact default_ignored. Qed.
Print Assumptions c84_default_refuted.

Example c84_default_met :
  let s := Sess [(2, PVal VNone)] [] [] [] [] false (fun _ => XMain) (fun _ _ => Ok VNone) (VEvent 0) in
  dget 1 (ss_params s) = None /\ VData 1 <> VData 2.
Proof. cbv zeta. split; [reflexivity|discriminate]. Qed.

(** Pipes of different secrets are equal. *)
Theorem c84_pipe_refuted : forall n m s v w t, v <> w ->
  arg_eq (S (S n)) s (PipeArg [PrivateArg v]) (PipeArg [PrivateArg w]) = Ok true /\
  get_value (S (S m)) s (Ctx (Some t) SMissing None) (PipeArg [PrivateArg v]) = Ok v /\
  get_value (S (S m)) s (Ctx (Some t) SMissing None) (PipeArg [PrivateArg w]) = Ok w.
Proof. exact secrets_piped. Qed.
Print Assumptions c84_pipe_refuted.

Example c84_pipe_met : VData 1 <> VData 2.
Proof. discriminate. Qed.

(** Functions of secrets are compared by what they make of the hidden text. *)
Theorem c84_function_refuted : forall n m s f k v w p t r, ss_call s f [(k, VHidden)] = Ok r ->
  arg_eq (S (S n)) s (FuncArg f [(k, PrivateArg v)] p) (FuncArg f [(k, PrivateArg w)] p) = Ok true /\
  get_value (S (S m)) s (Ctx (Some t) SMissing None) (FuncArg f [(k, PrivateArg v)] p) = ss_call s f [(k, v)] /\
  get_value (S (S m)) s (Ctx (Some t) SMissing None) (FuncArg f [(k, PrivateArg w)] p) = ss_call s f [(k, w)].
Proof. exact function_hidden. Qed.
Print Assumptions c84_function_refuted.

Example c84_function_met :
  let s := Sess [] [] [] [] [] false (fun _ => XMain)
    (fun _ kw => match kw with (_, v) :: _ => Ok v | [] => Err TypeError end) (VEvent 0) in
  ss_call s 1 [(2, VHidden)] = Ok VHidden /\ ss_call s 1 [(2, VData 3)] <> ss_call s 1 [(2, VData 4)].
Proof. cbv zeta. split; [reflexivity|discriminate]. Qed.

(** Comparing return values of tasks, flags, named tasks and the session is an
    error, also when they are built the same way. *)
Theorem c84_error_refuted : forall n s,
  (forall t d t' d', arg_eq (S n) s (ReturnArg t d) (ReturnArg t' d') = Err AttributeError) /\
  arg_eq (S n) s FlagArg FlagArg = Err AttributeError /\
  (forall x d x' d', arg_eq (S n) s (TaskArg (Some x) d) (TaskArg (Some x') d') = Err TypeError) /\
  (forall d, arg_eq (S n) s (SessionArg None) (SessionArg d) = Err TypeError).
Proof. exact not_compared. Qed.
Print Assumptions c84_error_refuted.
