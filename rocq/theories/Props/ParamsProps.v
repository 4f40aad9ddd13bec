(** Parameters and arguments: C37, C38, C39. *)
From Coq Require Import Bool Arith Lia ZifyBool.
From Verif Require Import Model.Base Model.World Model.Params Spec.ParamsSpec Proofs.ParamsProofs Proofs.ParamsExamples.
Open Scope Z_scope.

(** * C37 *)

(** Function tasks: the value passed for a key is that of the first source
    having the key, and a key chosen from none is not passed. *)
Theorem c37_precedence : forall n s s' t x flag passed kw,
  is_func t -> dictionaries s t passed ->
  run_kwargs n s s' t x flag passed = Ok kw ->
  forall k, match chosen s t x flag passed k with
            | None => dget k kw = None
            | Some p => exists v, dget k kw = Some v /\ worth n s s' t x flag p (Ok v)
            end.
Proof. exact precedence. Qed.
Print Assumptions c37_precedence.

Example c37_met :
  is_func ex_ptask /\ dictionaries ex_sess ex_ptask [] /\
  run_kwargs 9 ex_sess ex_sess ex_ptask XThread (VEvent 0) [] =
  Ok [(5, VData 42); (6, VData 61); (7, VData 77); (8, VData 70); (k_terminate, VEvent 0)].
Proof. split; [discriminate|]. split; [exact ex_dictionaries|exact ex_kwargs]. Qed.

(** Nothing but a chosen parameter without a value keeps a main or async run
    from getting its arguments. *)
Theorem c37_main_defined : forall n s s' t x flag passed,
  is_func t -> dictionaries s t passed -> x = XMain \/ x = XAsync ->
  (forall k p, chosen s t x flag passed k = Some p -> exists v, worth n s s' t x flag p (Ok v)) ->
  exists kw, run_kwargs n s s' t x flag passed = Ok kw.
Proof. exact main_gets_them. Qed.
Print Assumptions c37_main_defined.

Example c37_main_met :
  run_kwargs 9 ex_sess ex_sess ex_ptask XMain (VEvent 0) [(7, PVal VNone)] =
  Ok [(5, VData 42); (6, VData 61); (7, VData 77); (8, VData 70)].
Proof. vm_compute. reflexivity. Qed.

(** Not so for threads (and processes): they also evaluate parameters that are
    overridden, and fail when one of those has no value. *)
Theorem c37_overridden_refuted : exists n s t flag kw,
  is_func t /\ dictionaries s t [] /\
  (forall k p, chosen s t XThread flag [] k = Some p -> exists v, worth n s s t XThread flag p (Ok v)) /\
  run_kwargs n s s t XMain flag [] = Ok kw /\
  run_kwargs n s s t XThread flag [] = Err KeyError.
Proof. exact thread_evaluates_overridden. Qed.
Print Assumptions c37_overridden_refuted.

(** Tasks of other classes (command, code, maintenance, custom ones): their own
    parameters come first too, but the other parameters are read without the
    task. *)
Theorem c37_base : forall n s s' t x flag passed kw,
  pt_kind t = PBase -> dictionaries s t passed ->
  run_kwargs n s s' t x flag passed = Ok kw ->
  forall k,
    match first_with [request_of t; pt_own t] k with
    | Some p => exists v, dget k kw = Some v /\ worth n s s' t x flag p (Ok v)
    | None =>
        match (if pt_takes t k then first_with [built_in t x flag; passed; ss_params s] k else None) with
        | None => dget k kw = None
        | Some (PVal v) => dget k kw = Some v
        | Some (PArg a) => exists v, get_value n s no_kwargs a = Ok v /\ dget k kw = Some v
        end
    end.
Proof. exact base_precedence. Qed.
Print Assumptions c37_base.

Example c37_base_met :
  run_kwargs 9
    (Sess [(5, PArg (PrivateArg (VData 42))); (6, PVal (VData 60))] [1] [] [] [] false (fun _ => XMain) (fun _ _ => Ok VNone) (VEvent 1))
    (ex_sess : sess) (ex_base (fun k => k =? 6)) XMain (VEvent 0) [] = Ok [(6, VData 60)] /\
  run_kwargs 9
    (Sess [(5, PArg (PrivateArg (VData 42))); (6, PVal (VData 60))] [1] [] [] [] false (fun _ => XMain) (fun _ _ => Ok VNone) (VEvent 1))
    (ex_sess : sess) (ex_base (fun k => (k =? 5) || (k =? k_terminate))) XThread (VEvent 0) [] = Ok [(5, VHidden); (k_terminate, VEvent 0)].
Proof. split; vm_compute; reflexivity. Qed.

(** So a session secret reaches such a task as the placeholder, *)
Theorem c37_base_secret_refuted : exists n s t flag kw k v,
  pt_kind t = PBase /\ dictionaries s t [] /\
  chosen s t XMain flag [] k = Some (PArg (PrivateArg v)) /\
  worth n s s t XMain flag (PArg (PrivateArg v)) (Ok v) /\
  run_kwargs n s s t XMain flag [] = Ok kw /\
  dget k kw = Some VHidden /\ v <> VHidden.
Proof. exact base_hides_secret. Qed.
Print Assumptions c37_base_secret_refuted.

(** and a session parameter it does not take can keep it from starting. *)
Theorem c37_base_unrelated_refuted : exists n s t flag,
  pt_kind t = PBase /\ dictionaries s t [] /\
  (forall k, chosen s t XMain flag [] k = None) /\
  run_kwargs n s s t XMain flag [] = Err AttributeError.
Proof. exact base_fails_for_others. Qed.
Print Assumptions c37_base_unrelated_refuted.

(** Task.run(mapping, key=value ...): the keywords win over the mapping. *)
Theorem c37_request : forall given kwargs k, one_per_key given -> one_per_key kwargs ->
  dget k (request_params given kwargs) = first_with [kwargs; given] k.
Proof. exact request_kwargs. Qed.
Print Assumptions c37_request.

Example c37_request_met :
  request_params [(1, PVal (VData 1)); (2, PVal (VData 2))] [(2, PVal (VData 20)); (3, PVal (VData 30))] =
  [(1, PVal (VData 1)); (2, PVal (VData 20)); (3, PVal (VData 30))].
Proof. reflexivity. Qed.

(** * C38 *)

(** Reading a parameter mapping gives the same whatever the secrets are, also
    for parameters that refer to a secret. *)
Theorem c38_mapping : forall n s p q p' q' k,
  same_but_secrets p q -> same_but_secrets p' q' ->
  get_item n (with_params p s) p' k = get_item n (with_params q s) q' k.
Proof. exact items_alike. Qed.
Print Assumptions c38_mapping.

Example c38_met :
  same_but_secrets (ss_params ex_sess)
    [(5, PArg (PrivateArg (VData 43))); (6, PArg (ArgKey 5 None)); (7, PVal (VData 70));
     (8, PArg (FuncArg 1 [(0, ArgKey 7 None)] None))] /\
  get_item 9 ex_sess (ss_params ex_sess) 5 = Ok VHidden.
Proof. split; vm_compute; reflexivity. Qed.

(** So does every argument evaluated without a task. *)
Theorem c38_without_task : forall n s p q cx a b,
  cx_task cx = None -> same_but_secrets p q -> redact a = redact b ->
  get_value n (with_params p s) cx a = get_value n (with_params q s) cx b.
Proof. exact nothing_leaks. Qed.
Print Assumptions c38_without_task.

Example c38_without_task_met :
  get_value 9 ex_sess (Ctx None SGiven None) (ArgKey 6 None) = Ok VHidden /\
  get_value 9 ex_sess (Ctx (Some 1) SGiven None) (ArgKey 6 None) = Ok (VData 42).
Proof. split; vm_compute; reflexivity. Qed.

(** So do repr and str of arguments and repr of parameter sets. *)
Theorem c38_shown : forall n s p q, same_but_secrets p q ->
  (forall a b, redact a = redact b ->
     repr_arg n (with_params p s) a = repr_arg n (with_params q s) b /\
     str_arg n (with_params p s) a = str_arg n (with_params q s) b) /\
  (forall p' q', same_but_secrets p' q' ->
     repr_params n (with_params p s) p' = repr_params n (with_params q s) q').
Proof. exact (fun n s p q E => conj (fun a b A => repr_alike n s p q a b E A) (fun p' q' E' => params_repr_alike n s p q p' q' E E')). Qed.
Print Assumptions c38_shown.

Example c38_shown_met :
  repr_params 9 ex_sess (ss_params ex_sess) = Ok [(5, TxPrivate); (6, TxParam 5); (7, TxValue (VData 70)); (8, TxFunc 1)] /\
  repr_arg 9 ex_sess (PipeArg [PrivateArg (VData 42)]) = Ok (TxCls ClsPipe VHidden).
Proof. split; vm_compute; reflexivity. Qed.

(** The code of a function task does get the secret. *)
Theorem c38_reaches_task : forall n s s' t x flag passed kw k v,
  is_func t -> dictionaries s t passed -> run_kwargs (S n) s s' t x flag passed = Ok kw ->
  chosen s t x flag passed k = Some (PArg (PrivateArg v)) -> dget k kw = Some v.
Proof. exact secret_reaches. Qed.
Print Assumptions c38_reaches_task.

Example c38_reaches_met :
  chosen ex_sess ex_ptask XThread (VEvent 0) [] 5 = Some (PArg (PrivateArg (VData 42))).
Proof. vm_compute. reflexivity. Qed.

(** * C39 *)

(** However a >> b >> c was nested, its value is the first outcome that is not
    a missing value (KeyError), and it is missing when all are. *)
Theorem c39_pipe : forall n s cx l r, plain_members (Then l r) ->
  let v := get_value (S n) s cx (written (Then l r)) in
  let vs := map (get_value n s cx) (members (Then l r)) in
  first_found vs v \/ (v = Err KeyError /\ forall x, In x vs -> x = Err KeyError).
Proof. exact pipe_first. Qed.
Print Assumptions c39_pipe.

Example c39_met :
  plain_members ex_pipe /\
  get_value 9 ex_sess (Ctx (Some 1) SGiven None) (written ex_pipe) = Ok (VData 900).
Proof.
  split; [|vm_compute; reflexivity].
  intros a H. cbn in H. destruct H as [<- | [<- | [<- | [<- | []]]]]; reflexivity.
Qed.

(** Session parameters, returns, environment variables and command line words
    that are missing give the default, or KeyError without one; those present
    give their value. *)
Theorem c39_session_parameter : forall n s cx key default,
  (cx_session cx = SGiven \/ cx_task cx <> None) ->
  (dget key (ss_params s) = None ->
     get_value (S n) s cx (ArgKey key default) = match default with Some v => Ok v | None => Err KeyError end) /\
  (forall v, dget key (ss_params s) = Some (PVal v) -> get_value (S n) s cx (ArgKey key default) = Ok v).
Proof. exact arg_lookup. Qed.
Print Assumptions c39_session_parameter.

Theorem c39_return : forall n s cx t default,
  (cx_session cx = SGiven \/ cx_task cx <> None) -> In t (ss_tasks s) ->
  get_value (S n) s cx (ReturnArg t default) =
  match dget t (ss_returns s), default with
  | Some v, _ => Ok v
  | None, Some v => Ok v
  | None, None => Err KeyError
  end.
Proof. exact return_lookup. Qed.
Print Assumptions c39_return.

Theorem c39_environment : forall n s cx var default,
  get_value (S n) s cx (EnvArg var default) =
  match dget var (ss_environ s), default with
  | Some v, _ => Ok v
  | None, Some v => Ok v
  | None, None => Err KeyError
  end.
Proof. exact env_lookup. Qed.
Print Assumptions c39_environment.

Theorem c39_command_line : forall n s cx word default,
  (~ In word (ss_argv s) ->
     get_value (S n) s cx (CliArg word default) = match default with Some v => Ok v | None => Err KeyError end) /\
  (forall before v after, ss_argv s = before ++ word :: v :: after -> ~ In word before ->
     get_value (S n) s cx (CliArg word default) = Ok (VData v)).
Proof. exact cli_lookup. Qed.
Print Assumptions c39_command_line.

Example c39_lookups_met :
  get_value 9 ex_sess (Ctx (Some 1) SGiven None) (ArgKey 7 None) = Ok (VData 70) /\
  get_value 9 ex_sess (Ctx (Some 1) SGiven None) (ReturnArg 2 None) = Ok (VData 200) /\
  get_value 9 ex_sess (Ctx (Some 1) SGiven None) (EnvArg 3 (Some (VData 1))) = Ok (VData 1) /\
  get_value 9 ex_sess (Ctx (Some 1) SGiven None) (CliArg 11 None) = Ok (VData 12).
Proof. repeat split; vm_compute; reflexivity. Qed.

(** The return of a task that does not exist is not a missing value: its default
    is not used, and a pipe stops at it. *)
Theorem c39_unknown_task_refuted : exists n s cx v,
  get_value n s cx (ReturnArg 99 (Some v)) = Err ValueError /\
  get_value n s cx (rshift (ReturnArg 99 (Some v)) (SimpleArg v)) = Err ValueError.
Proof. exact (ex_intro _ 9%nat (ex_intro _ ex_sess (ex_intro _ (Ctx (Some 1) SGiven None) (ex_intro _ VNone (conj eq_refl eq_refl))))). Qed.
Print Assumptions c39_unknown_task_refuted.

(** Neither is the value of the last word of the command line. *)
Theorem c39_last_word_refuted : exists n s cx v,
  get_value n s cx (CliArg 12 (Some v)) = Err IndexError /\
  get_value n s cx (rshift (CliArg 12 (Some v)) (SimpleArg v)) = Err IndexError.
Proof. exact (ex_intro _ 9%nat (ex_intro _ ex_sess (ex_intro _ (Ctx (Some 1) SGiven None) (ex_intro _ VNone (conj eq_refl eq_refl))))). Qed.
Print Assumptions c39_last_word_refuted.
