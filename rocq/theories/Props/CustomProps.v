(** C57, C58, C59: conditions users make, checks made by tasks, parameters of the session. *)
From Coq Require Import List Bool Ascii String ZArith.
From Verif Require Import Model.Base Model.Anchored Model.Statement Model.Custom Spec.StatementSpec Spec.ParseSpec
  Spec.CustomSpec.
From Verif Require Model.Condition Model.Parse Model.Params Model.Period.
From Verif Require Import Proofs.StatementExamples Proofs.CustomResults Proofs.CustomTaskProofs Proofs.CustomExamples.
Import ListNotations.
Local Open Scope list_scope.

(** A text that fits a registered syntax in one way, and is neither a built-in sentence nor fits
    another syntax, gives the function last registered with that syntax, with the parts of the
    text for its groups. *)
Theorem c57_syntax : forall P V A (make : pcall -> result P) (of_text : list ascii -> V)
    (regs : list (statement * entry V A)) st c s gs,
  registered regs st (Recreate c) -> only_as st s gs -> ~ sentence s -> no_other regs st s ->
  parse_item make of_text s (with_syntaxes regs new_session) =
    (with_syntaxes regs new_session,
     Ok (MFunc (FuncCond (fc_sig c) (fc_body c) [] (map (fun kv => (fst kv, of_text (snd kv))) gs)))).
Proof. exact (@custom_condition). Qed.
Print Assumptions c57_syntax.

Example c57_syntax_nonvacuous : registered ex_regs ex_syntax (Recreate ex_foo) /\
  only_as ex_syntax (txt "is foo in house") [("myval"%string, txt "house")] /\
  ~ sentence (txt "is foo in house") /\ no_other ex_regs ex_syntax (txt "is foo in house").
Proof. exact ex_custom. Qed.

(** Texts that fit nothing are rejected. *)
Theorem c57_unknown : forall P V A (make : pcall -> result P) (of_text : list ascii -> V)
    (regs : list (statement * entry V A)) s,
  ~ sentence s -> (forall st gs, In st (map fst regs) -> ~ fits st s gs) ->
  parse_item make of_text s (with_syntaxes regs new_session) =
    (with_syntaxes regs new_session, Err ParserError).
Proof. exact (@custom_unknown). Qed.
Print Assumptions c57_unknown.

Example c57_unknown_nonvacuous : ~ sentence (txt "is foo") /\
  forall st gs, In st (map fst ex_regs) -> ~ fits st (txt "is foo") gs.
Proof. exact ex_unknown. Qed.

(** New syntaxes leave the built-in sentences as they are. *)
Theorem c57_builtin : forall P V A (make : pcall -> result P) (of_text : list ascii -> V)
    (regs : list (statement * entry V A)) s r,
  says make s r -> (forall st, In st (map fst regs) -> ~ In st (map fst cond_parsers)) ->
  parse_item make of_text s (with_syntaxes regs new_session) =
    (with_syntaxes regs new_session, let* t := r in Ok (MTree t)).
Proof. exact (@builtin_condition). Qed.
Print Assumptions c57_builtin.

Example c57_builtin_nonvacuous : says plain ex_daily (Ok (ex_meant ex_daily)) /\
  forall st, In st (map fst ex_regs) -> ~ In st (map fst cond_parsers).
Proof. exact (conj ex_daily_says ex_builtin). Qed.

(** Strings that combine sentences and custom conditions. *)
Theorem c57_string : forall P V A (make : pcall -> result P) (of_text : list ascii -> V)
    (regs : list (statement * entry V A)) num num_func num_task text_atom meant s e,
  reads true LAny s e ->
  (forall st, In st (map fst regs) -> ~ In st (map fst cond_parsers)) ->
  (forall t, In t (items e) ->
     (exists k, says make t (Ok k) /\ meant t = as_condition num k) \/
     (exists st c gs, registered regs st (Recreate c) /\ only_as st t gs /\ ~ sentence t /\ no_other regs st t /\
        meant t = Condition.CAtom (num_func (FuncCond (fc_sig c) (fc_body c) []
                    (map (fun kv => (fst kv, of_text (snd kv))) gs))))) ->
  exists c, Parse.parse_condition
      (session_item make of_text num num_func num_task (with_syntaxes regs new_session)) text_atom s = Returns c /\
    forall env, Condition.observe env c = answer env meant e.
Proof. exact (@custom_string). Qed.
Print Assumptions c57_string.

Example c57_string_nonvacuous : forall num num_func,
  reads true LAny (txt "is foo in house & daily") ex_mixed_tree /\
  forall t, In t (items ex_mixed_tree) ->
    (exists k, says plain t (Ok k) /\ ex_mixed_meant num num_func t = as_condition num k) \/
    (exists st c gs, registered ex_regs st (Recreate c) /\ only_as st t gs /\ ~ sentence t /\ no_other ex_regs st t /\
       ex_mixed_meant num num_func t = Condition.CAtom (num_func (FuncCond (fc_sig c) (fc_body c) []
                                 (map (fun kv => (fst kv, snd kv)) gs)))).
Proof. exact ex_mixed_ok. Qed.

(** The condition is what the function returns when each parameter has the value given for it,
    or its default, or what the argument in the signature stands for. *)
Theorem c57_value : forall V A (as_value : A -> V) resolve (sig : signature V A) body args kwargs bound,
  function_signature sig -> (List.length args <= List.length sig)%nat ->
  proper_values sig (given_to sig args kwargs) ->
  called_with resolve sig (given_to sig args kwargs) bound ->
  observe_func as_value resolve (FuncCond sig body args kwargs) = body bound.
Proof. exact (@observed_value). Qed.
Print Assumptions c57_value.

Example c57_value_nonvacuous : function_signature ex_sig /\
  proper_values ex_sig (given_to ex_sig [] [("myval"%string, txt "house")]) /\
  called_with ex_resolve ex_sig (given_to ex_sig [] [("myval"%string, txt "house")])
    [("myval", txt "house"); ("mode", txt "strict"); ("session", txt "the session")]%string /\
  ex_body [("myval", txt "house"); ("mode", txt "strict"); ("session", txt "the session")]%string = Ok true.
Proof. exact ex_value. Qed.

Example c57_value_positional : proper_values ex_sig (given_to ex_sig [txt "house"] [("mode"%string, txt "lax")]) /\
  called_with ex_resolve ex_sig (given_to ex_sig [txt "house"] [("mode"%string, txt "lax")])
    [("myval", txt "house"); ("mode", txt "lax"); ("session", txt "the session")]%string.
Proof. exact ex_position. Qed.

(** Values without a parameter and parameters without a value are errors, not a state. *)
Theorem c57_unexpected : forall V A (as_value : A -> V) resolve (sig : signature V A) body args kwargs k,
  (forall k a, In (k, FromArg a) sig -> exists v, resolve a = Ok v) ->
  In k (map fst kwargs) -> ~ In k (map fst sig) ->
  observe_func as_value resolve (FuncCond sig body args kwargs) = Err TypeError.
Proof. exact (@unexpected_value). Qed.
Print Assumptions c57_unexpected.

Theorem c57_missing : forall V A (as_value : A -> V) resolve (sig : signature V A) body args kwargs k,
  function_signature sig ->
  (forall k a, In (k, FromArg a) sig -> exists v, resolve a = Ok v) ->
  In (k, Required) sig -> ~ In k (map fst (given_to sig args kwargs)) ->
  observe_func as_value resolve (FuncCond sig body args kwargs) = Err TypeError.
Proof. exact (@missing_value). Qed.
Print Assumptions c57_missing.

Example c57_errors_nonvacuous : In "place"%string (map fst [("place"%string, txt "house")]) /\
  ~ In "place"%string (map fst ex_sig) /\ In ("myval"%string, Required) ex_sig /\
  ~ In "myval"%string (map fst (given_to ex_sig [] [("mode"%string, txt "lax")])).
Proof. exact ex_errors. Qed.

(** A value given for a parameter that has an argument for default does not replace it. *)
Theorem c57_argument_refuted : forall V A (as_value : A -> V) resolve (sig : signature V A) body args kwargs k a,
  (forall k a, In (k, FromArg a) sig -> exists v, resolve a = Ok v) ->
  In (k, FromArg a) sig -> In k (map fst kwargs) ->
  observe_func as_value resolve (FuncCond sig body args kwargs) = Err TypeError.
Proof. exact (@given_argument). Qed.
Print Assumptions c57_argument_refuted.

(** A syntax can be registered without effect: a built-in one comes first. *)
Theorem c57_shadowed_refuted : forall P V A (make : pcall -> result P) (of_text : list ascii -> V) (c : func_cond V A),
  exists st, fits st (txt "every blue moon") [] /\ ~ In st (map fst cond_parsers) /\
    snd (parse_item make of_text (txt "every blue moon") (register st (Recreate c) new_session)) =
      let* t := every make (txt "blue moon") OnRun in Ok (MTree t).
Proof. exact hidden. Qed.
Print Assumptions c57_shadowed_refuted.

(** bool(condition) passes the arguments of the signature, not what they stand for. *)
Theorem c57_bool_refuted : exists c : func_cond (list ascii) ex_arg,
  observe_func ex_object ex_resolve c = Ok true /\ bool_func ex_object c = Ok false.
Proof. exact bool_differs. Qed.
Print Assumptions c57_bool_refuted.

(** The state is the value of the latest successful check if that lies in the active time. *)
Theorem c58_state : forall cs t v fuel p now b, latest cs (Some (t, v)) ->
  Period.pcontains fuel (Period.use_reference p now) t = Returns b ->
  task_cond_state fuel p now (after_checks cs) = Returns (b && v).
Proof. exact checked_state. Qed.
Print Assumptions c58_state.

Example c58_state_nonvacuous : latest ex_checks (Some (100%Z, true)) /\
  Period.pcontains 0 (Period.use_reference (Period.mk_delta (Some 50%Z) None None) 120) 100 = Returns true /\
  Period.pcontains 0 (Period.use_reference (Period.mk_delta (Some 50%Z) None None) 200) 100 = Returns false.
Proof. exact (conj ex_latest ex_active). Qed.

(** With a time span as the active time: no longer ago than that *)
Theorem c58_past : forall cs t v fuel d now, latest cs (Some (t, v)) ->
  exists b, task_cond_state fuel (Period.mk_delta (Some d) None None) now (after_checks cs) = Returns b /\
    (b = true <-> v = true /\ (now - Z.abs d <= t <= now)%Z).
Proof. exact past_state. Qed.
Print Assumptions c58_past.

(** Before the first check the state is false. *)
Theorem c58_unchecked : forall cs fuel p now, latest cs None ->
  task_cond_state fuel p now (after_checks cs) = Returns false.
Proof. exact unchecked_state. Qed.
Print Assumptions c58_unchecked.

Example c58_unchecked_nonvacuous : latest [NotChecked; NotChecked] None.
Proof. exact ex_idle. Qed.

(** The first text makes the task, with the parts of the text for its parameters. *)
Theorem c58_text : forall P V A (make : pcall -> result P) (of_text : list ascii -> V)
    (regs : list (statement * entry V A)) st k t gs,
  registered regs st (SetTask k) -> only_as st t gs -> ~ sentence t -> no_other regs st t ->
  exists s, parse_item make of_text t (with_syntaxes regs new_session) =
    (s, Ok (MTask ("_condition-" ++ tc_func k)%string (map (fun kv => (fst kv, of_text (snd kv))) gs))) /\
    cs_tasks s = [("_condition-" ++ tc_func k)%string].
Proof. exact (@first_text). Qed.
Print Assumptions c58_text.

(** The same text gives the same condition ever after, and no further task. *)
Theorem c58_same : forall P V A (make : pcall -> result P) (of_text : list ascii -> V) t (s s' : csession P V A) n ps ts,
  parse_item make of_text t s = (s', Ok (MTask n ps)) ->
  parse_item make of_text t (after_texts make of_text ts s') =
    (after_texts make of_text ts s', Ok (MTask n ps)).
Proof. exact (@CustomTaskProofs.same_text). Qed.
Print Assumptions c58_same.

Example c58_text_nonvacuous :
  registered ex_task_regs ex_task_syntax (SetTask ex_task) /\
  only_as ex_task_syntax (txt "is foo at home") [("place"%string, txt "home")] /\
  ~ sentence (txt "is foo at home") /\ no_other ex_task_regs ex_task_syntax (txt "is foo at home") /\
  only_as ex_task_syntax (txt "is foo at work") [("place"%string, txt "work")] /\
  ~ sentence (txt "is foo at work") /\ no_other ex_task_regs ex_task_syntax (txt "is foo at work").
Proof. exact ex_tasks. Qed.

(** A second text with other values does not give a second task; it is an error. *)
Theorem c58_values_refuted : forall P V A (make : pcall -> result P) (of_text : list ascii -> V)
    (regs : list (statement * entry V A)) st k t gs t' gs',
  registered regs st (SetTask k) ->
  only_as st t gs -> ~ sentence t -> no_other regs st t ->
  only_as st t' gs' -> ~ sentence t' -> no_other regs st t' -> t <> t' ->
  snd (parse_item make of_text t' (fst (parse_item make of_text t (with_syntaxes regs new_session)))) =
    Err ValueError.
Proof. exact (@other_text). Qed.
Print Assumptions c58_values_refuted.

(** With the function given to the constructor the syntax does not get into the session that is
    given too. *)
Theorem c58_constructor_refuted : forall P V A (make : pcall -> result P) (of_text : list ascii -> V)
    (regs : list (statement * entry V A)) st k t default,
  ~ sentence t -> (forall st gs, In st (map fst regs) -> ~ fits st t gs) ->
  let '(_, s, r) := task_cond_init true st k default (with_syntaxes regs new_session) in
  (default = None -> r = Err AttributeError) /\ parse_item make of_text t s = (s, Err ParserError).
Proof. exact (@constructor). Qed.
Print Assumptions c58_constructor_refuted.

(** After a restart of the process a check that is still active no longer counts. *)
Theorem c58_restart_refuted : exists cs t d now, latest cs (Some (t, true)) /\ (now - Z.abs d <= t <= now)%Z /\
  task_cond_state 0 (Period.mk_delta (Some d) None None) now (after_checks cs) = Returns true /\
  forall fuel, task_cond_state fuel (Period.mk_delta (Some d) None None) now (restarted (after_checks cs)) =
    Returns false.
Proof. exact restart_loses. Qed.
Print Assumptions c58_restart_refuted.

(** A value whose record failed counts for ever, whatever the active time. *)
Theorem c58_unrecorded_refuted : forall fuel p now,
  task_cond_state fuel p now (after_checks [Unrecorded true]) = Returns true.
Proof. exact unrecorded_state. Qed.
Print Assumptions c58_unrecorded_refuted.

(** An active time put together from a time span and another period: with | the state is false
    even if the check lies in the other period, with & there is no answer at all. *)
Theorem c58_combined_refuted : forall cs t v fuel d now s e, latest cs (Some (t, v)) -> (s <= t < e)%Z ->
  task_cond_state fuel (Period.PAny [Period.mk_delta (Some d) None None; Period.PStatic s e]) now (after_checks cs) =
    Returns false /\
  task_cond_state fuel (Period.PAll [Period.mk_delta (Some d) None None; Period.PStatic s e]) now (after_checks cs) =
    OutOfFuel.
Proof. exact combined. Qed.
Print Assumptions c58_combined_refuted.

(** The condition on the environment compares the session's parameter. *)
Theorem c59_env : forall n s key same e v, (forall w, same w = true <-> w = e) -> has_param n s key v ->
  exists b, is_env n s key same = Ok b /\ (b = true <-> v = e).
Proof. exact env_compares. Qed.
Print Assumptions c59_env.

Theorem c59_env_missing : forall n s key same e, (forall w, same w = true <-> w = e) -> e <> Params.VNone ->
  Params.dget key (Params.ss_params s) = None -> is_env n s key same = Ok false.
Proof. exact env_absent. Qed.
Print Assumptions c59_env_missing.

(** bool(ParamExists(...)) tells whether all the parameters are there, with the values. *)
Theorem c59_exists : forall n s differs keys vals b, (forall v w, differs v w = false <-> v = w) ->
  param_bool n s differs keys vals = Ok b ->
  (b = true <-> (forall k, In k keys -> exists v, has_param n s k v) /\
                (forall k v, In (k, v) vals -> has_param n s k v)).
Proof. exact exists_value. Qed.
Print Assumptions c59_exists.

Example c59_nonvacuous :
  (has_param 5 (ex_sess [(1, Params.PVal (Params.VData 3)); (7, Params.PArg (Params.SimpleArg (Params.VData 42)))]%Z)
     7 (Params.VData 42) /\
   has_param 5 (ex_sess [(1, Params.PVal (Params.VData 3)); (7, Params.PArg (Params.SimpleArg (Params.VData 42)))]%Z)
     1 (Params.VData 3)) /\
  (forall v w, value_differs v w = false <-> v = w) /\
  param_bool 5 (ex_sess [(1, Params.PVal (Params.VData 3)); (7, Params.PVal (Params.VData 42))]%Z) value_differs [7%Z]
    [(1%Z, Params.VData 3)] = Ok true.
Proof. exact (conj ex_env (conj differs_ok ex_exists)). Qed.

(** The scheduler does not ask that: for it the condition never holds. *)
Theorem c59_observed_refuted : exists n s keys vals o,
  (forall k, In k keys -> exists v, has_param n s k v) /\ (forall k v, In (k, v) vals -> has_param n s k v) /\
  keys <> [] /\ vals <> [] /\ param_bool n s value_differs keys vals = Ok true /\
  param_observe keys vals = Ok o /\ truth o = false.
Proof. exact exists_observed. Qed.
Print Assumptions c59_observed_refuted.

(** An environment given as another parameter of the session raises. *)
Theorem c59_argument_refuted : forall n s key same key' default,
  Params.dget key (Params.ss_params s) = Some (Params.PArg (Params.ArgKey key' default)) ->
  is_env (S n) s key same = Err AttributeError.
Proof. exact env_argument. Qed.
Print Assumptions c59_argument_refuted.
