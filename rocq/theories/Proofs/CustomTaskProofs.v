(** Conditions checked by tasks, and conditions on session parameters. *)
From Coq Require Import List Bool Arith Lia ZifyBool Ascii String ZArith.
From Verif Require Import Model.Base Model.Interval Model.Statement Model.Custom Model.Period Spec.StatementSpec
  Spec.CustomSpec Proofs.CustomSyntaxProofs Proofs.CustomResults Proofs.PeriodProofs Proofs.AlgebraProofs Proofs.ClockProofs.
From Verif Require Model.Params.
Import ListNotations.
Local Open Scope list_scope.

(** ** The state *)

Lemma idle_checks : forall cs s, (forall c, In c cs -> c = NotChecked) -> fold_left check_step cs s = s.
Proof.
  induction cs as [|c cs IH]; intros s H; [reflexivity|]. cbn [fold_left].
  rewrite (H c (or_introl eq_refl)). apply IH. intros c' I. apply H. now right.
Qed.
Lemma latest_state : forall cs t v, latest cs (Some (t, v)) -> after_checks cs = CheckState (Some v) (Some t).
Proof.
  intros cs t v H. inversion H as [|before t' v' after N]; subst. unfold after_checks.
  rewrite fold_left_app. cbn [fold_left]. now rewrite idle_checks.
Qed.
Theorem checked_state : forall cs t v fuel p now b, latest cs (Some (t, v)) ->
  pcontains fuel (use_reference p now) t = Returns b ->
  task_cond_state fuel p now (after_checks cs) = Returns (b && v).
Proof.
  intros cs t v fuel p now b H C. rewrite (latest_state cs t v H). unfold task_cond_state.
  cbn [ck_value ck_success]. rewrite C. cbn [obind]. now destruct b.
Qed.
Theorem unchecked_state : forall cs fuel p now, latest cs None ->
  task_cond_state fuel p now (after_checks cs) = Returns false.
Proof.
  intros cs fuel p now H. inversion H as [cs' N|]; subst. unfold after_checks. now rewrite idle_checks.
Qed.
Theorem past_state : forall cs t v fuel d now, latest cs (Some (t, v)) ->
  exists b, task_cond_state fuel (mk_delta (Some d) None None) now (after_checks cs) = Returns b /\
    (b = true <-> v = true /\ (now - Z.abs d <= t <= now)%Z).
Proof.
  intros cs t v fuel d now H. exists (((now - Z.abs d <=? t)%Z && (t <=? now)%Z) && v). split.
  - apply checked_state with (t := t); [exact H|]. cbn [mk_delta use_reference pcontains delta_contains].
    f_equal. lia.
  - destruct v; lia.
Qed.

Theorem restarted_state : forall s fuel p now t b, ck_success s = Some t ->
  pcontains fuel (use_reference p now) t = Returns b ->
  task_cond_state fuel p now (restarted s) = Returns false.
Proof.
  intros s fuel p now t b S C. unfold task_cond_state. cbn [restarted ck_value ck_success]. rewrite S, C.
  cbn [obind]. now destruct b.
Qed.
Theorem unrecorded_state : forall fuel p now,
  task_cond_state fuel p now (after_checks [Unrecorded true]) = Returns true.
Proof. reflexivity. Qed.

(** A period put together with a time span that has passed *)
Section Combined.
  Local Open Scope Z_scope.
  Lemma delta_forward : forall t, delta_rollforward (Z.abs 0) t = Returns (Interval t t CLeft).
  Proof. intros t. unfold delta_rollforward. rewrite ivl_ok by lia. do 2 f_equal. lia. Qed.
  Lemma static_forward : forall s e t, s <= t < e -> static_rollforward s e t = Returns (Interval t e CLeft).
  Proof.
    intros s e t R. unfold static_rollforward. destruct (Z.ltb_spec e t) as [L|_]; [lia|].
    rewrite Z.max_r by lia. apply ivl_ok. lia.
  Qed.
  Theorem combined_any : forall cs t v fuel d now s e, latest cs (Some (t, v)) -> s <= t < e ->
    task_cond_state fuel (PAny [mk_delta (Some d) None None; PStatic s e]) now (after_checks cs) = Returns false.
  Proof.
    intros cs t v fuel d now s e H R. change false with (false && v).
    apply checked_state with (t := t); [exact H|].
    cbn [use_reference pcontains rollforward traverse mk_delta].
    rewrite delta_forward, (static_forward s e t R). cbn [obind].
    unfold any_forward, sort_by_left. cbn [fold_right insert_by_left left].
    rewrite Z.ltb_irrefl. cbn [extend_right right]. rewrite (proj2 (Z.ltb_lt t e)) by lia.
    unfold overlaps. cbn [left right closed op_lt op_eq Z_ops in_left_neither in_right_neither].
    destruct (Z.ltb_spec e t); [lia|]. destruct (Z.ltb_spec t t); [lia|]. cbn [orb].
    destruct (Z.eqb_spec e t); [lia|]. cbn [andb]. rewrite Z.eqb_refl. cbn [andb orb].
    cbn [left right]. rewrite ivl_ok by lia. cbn [obind contains closed left right op_le op_lt Z_ops].
    rewrite Z.ltb_irrefl, andb_false_r. reflexivity.
  Qed.
  Theorem combined_all : forall cs t v fuel d now s e, latest cs (Some (t, v)) -> s <= t < e ->
    task_cond_state fuel (PAll [mk_delta (Some d) None None; PStatic s e]) now (after_checks cs) = OutOfFuel.
  Proof.
    intros cs t v fuel d now s e H R. rewrite (latest_state cs t v H). unfold task_cond_state.
    cbn [ck_value ck_success use_reference pcontains rollforward].
    assert (L : forall n, all_rollforward (fun u => traverse (fun q => rollforward fuel q u)
                  [mk_delta (Some d) None None; PStatic s e]) n t = OutOfFuel).
    { induction n as [|n IH]; [reflexivity|]. cbn [all_rollforward].
      cbn [traverse mk_delta rollforward] in IH |- *. rewrite delta_forward, (static_forward s e t R) in *.
      assert (O : all_overlap [Interval t t CLeft; Interval t e CLeft] = false).
      { cbn [all_overlap forallb]. unfold overlaps.
        cbn [left right closed op_lt op_eq Z_ops in_left_neither in_right_neither].
        destruct (Z.ltb_spec t t); [lia|]. destruct (Z.ltb_spec e t); [lia|]. cbn [orb].
        rewrite Z.eqb_refl. reflexivity. }
      rewrite O.
      assert (M : max_left [Interval t t CLeft; Interval t e CLeft] = t) by (cbn; lia).
      rewrite M. cbn [existsb left closed in_left_both negb]. rewrite Z.eqb_refl. cbn [andb orb]. exact IH. }
    rewrite L. reflexivity.
  Qed.
  Theorem combined : forall cs t v fuel d now s e, latest cs (Some (t, v)) -> s <= t < e ->
    task_cond_state fuel (PAny [mk_delta (Some d) None None; PStatic s e]) now (after_checks cs) = Returns false /\
    task_cond_state fuel (PAll [mk_delta (Some d) None None; PStatic s e]) now (after_checks cs) = OutOfFuel.
  Proof.
    intros cs t v fuel d now s e H R. split; [now apply combined_any with (t := t) (v := v)|].
    now apply combined_all with (t := t) (v := v).
  Qed.
End Combined.

(** ** Texts *)

Section Texts.
  Context {P V A : Type}.
  Variable make : pcall -> result P.
  Variable of_text : list ascii -> V.
  Implicit Types (regs : list (statement * entry V A)) (s : csession P V A).
  Notation session regs := (with_syntaxes regs (new_session (P:=P) (V:=V) (A:=A))).

  Lemma parse_keeps : forall t s, cs_parsers (fst (parse_item make of_text t s)) = cs_parsers s.
  Proof using.
    intros t s. unfold parse_item. destruct (find_entry (cs_parsers s) t) as [[[q|c|k] gs]|]; try reflexivity.
    destruct (cached t (cs_cache s)); [reflexivity|]. unfold set_task. now destruct (existsb _ _).
  Qed.
  Lemma parse_cache : forall t s u c, cached u (cs_cache s) = Some c ->
    cached u (cs_cache (fst (parse_item make of_text t s))) = Some c.
  Proof using.
    intros t s u c H. unfold parse_item.
    destruct (find_entry (cs_parsers s) t) as [[[q|f|k] gs]|]; try exact H.
    destruct (cached t (cs_cache s)) eqn:C; [exact H|]. unfold set_task. destruct (existsb _ _); [exact H|].
    cbn [fst cs_cache cached]. destruct (list_eq_dec ascii_dec t u) as [E|_]; [|exact H]. congruence.
  Qed.
  Lemma texts_keep : forall ts s u c, cached u (cs_cache s) = Some c ->
    cached u (cs_cache (after_texts make of_text ts s)) = Some c /\
    cs_parsers (after_texts make of_text ts s) = cs_parsers s.
  Proof using.
    induction ts as [|t ts IH]; intros s u c H; [now split|]. cbn [after_texts].
    destruct (IH (fst (parse_item make of_text t s)) u c (parse_cache t s u c H)) as [H1 H2].
    split; [exact H1|]. rewrite H2. apply parse_keeps.
  Qed.
  Lemma task_known : forall t s s' n ps, parse_item make of_text t s = (s', Ok (MTask n ps)) ->
    exists k gs, find_entry (cs_parsers s) t = Some (SetTask k, gs) /\ cached t (cs_cache s') = Some (MTask n ps) /\
      cs_parsers s' = cs_parsers s.
  Proof using.
    intros t s s' n ps H. unfold parse_item in H.
    destruct (find_entry (cs_parsers s) t) as [[[q|f|k] gs]|] eqn:F; try discriminate.
    - injection H as _ H. destruct (call make q gs); discriminate.
    - exists k, gs. split; [reflexivity|]. destruct (cached t (cs_cache s)) as [c|] eqn:C.
      + injection H as <- ->. now split.
      + unfold set_task in H. destruct (existsb _ _); [discriminate|]. injection H as <- <- <-.
        cbn [cs_cache cached cs_parsers]. destruct (list_eq_dec ascii_dec t t); [now split|congruence].
  Qed.
  Theorem same_text : forall t s s' n ps ts, parse_item make of_text t s = (s', Ok (MTask n ps)) ->
    parse_item make of_text t (after_texts make of_text ts s') = (after_texts make of_text ts s', Ok (MTask n ps)).
  Proof using.
    intros t s s' n ps ts H. destruct (task_known t s s' n ps H) as (k & gs & F & C & E).
    destruct (texts_keep ts s' t _ C) as [C' E']. unfold parse_item at 1. rewrite E', E, F, C'. reflexivity.
  Qed.

  Theorem first_text : forall regs st k t gs, registered regs st (SetTask k) -> only_as st t gs ->
    ~ sentence t -> no_other regs st t ->
    exists s', parse_item make of_text t (session regs) =
      (s', Ok (MTask ("_condition-" ++ tc_func k)%string (map (fun kv => (fst kv, of_text (snd kv))) gs))) /\
      cs_tasks s' = [("_condition-" ++ tc_func k)%string].
  Proof using.
    intros regs st k t gs R F N O. unfold parse_item. rewrite (custom_found regs st _ t gs R F N O).
    destruct (with_rest regs (new_session (P:=P) (V:=V) (A:=A))) as [C T]. rewrite C. cbn [new_session cs_cache cached].
    unfold set_task. rewrite T. cbn [new_session cs_tasks existsb]. eexists. split; reflexivity.
  Qed.
  Theorem other_text : forall regs st k t gs t' gs', registered regs st (SetTask k) ->
    only_as st t gs -> ~ sentence t -> no_other regs st t ->
    only_as st t' gs' -> ~ sentence t' -> no_other regs st t' -> t <> t' ->
    snd (parse_item make of_text t' (fst (parse_item make of_text t (session regs)))) = Err ValueError.
  Proof using.
    intros regs st k t gs t' gs' R F N O F' N' O' D.
    assert (G := custom_found (P:=P) regs st _ t gs R F N O).
    assert (G' := custom_found (P:=P) regs st _ t' gs' R F' N' O').
    destruct (with_rest regs (new_session (P:=P) (V:=V) (A:=A))) as [C T].
    unfold parse_item at 2. rewrite G, C. cbn [new_session cs_cache cached]. unfold set_task at 1. rewrite T.
    cbn [new_session cs_tasks existsb fst]. unfold parse_item. cbn [cs_parsers]. rewrite G'.
    cbn [cs_cache cached]. destruct (list_eq_dec ascii_dec t t') as [E|_]; [congruence|].
    rewrite C. unfold set_task. cbn [new_session cs_cache cached cs_tasks existsb]. rewrite String.eqb_refl. reflexivity.
  Qed.

  (** The function given to the constructor *)
  Theorem constructor : forall regs st k t default, ~ sentence t ->
    (forall st gs, In st (map fst regs) -> ~ fits st t gs) ->
    let '(_, s, r) := task_cond_init true st k default (session regs) in
    (default = None -> r = Err AttributeError) /\
    parse_item make of_text t s = (s, Err ParserError).
  Proof using.
    intros regs st k t default N O. unfold task_cond_init. destruct default as [d|].
    - split; [discriminate|]. now apply custom_unknown.
    - split; [reflexivity|]. now apply custom_unknown.
  Qed.
End Texts.

(** ** Parameters of the session *)

Import Params.
Lemma item_value : forall n s k v, has_param n s k v <-> get_item n s (ss_params s) k = Ok v.
Proof.
  intros n s k v. unfold has_param, get_item. split.
  - intros (p & -> & H). destruct p; [now rewrite H|exact H].
  - destruct (dget k (ss_params s)) as [p|]; [|discriminate]. intros H. exists p. split; [reflexivity|].
    destruct p; [now injection H|exact H].
Qed.
Theorem env_state : forall n s k same v, has_param n s k v -> is_env n s k same = Ok (same v).
Proof. intros n s k same v H. apply item_value in H. unfold is_env, get_or. now rewrite H. Qed.
Theorem env_missing : forall n s k same, dget k (ss_params s) = None -> is_env n s k same = Ok (same VNone).
Proof. intros n s k same H. unfold is_env, get_or, get_item. now rewrite H. Qed.
Theorem env_argument : forall n s k same key default, dget k (ss_params s) = Some (PArg (ArgKey key default)) ->
  is_env (Datatypes.S n) s k same = Err AttributeError.
Proof. intros n s k same key default H. unfold is_env, get_or, get_item. now rewrite H. Qed.

Theorem env_compares : forall n s key same e v, (forall w, same w = true <-> w = e) -> has_param n s key v ->
  exists b, is_env n s key same = Ok b /\ (b = true <-> v = e).
Proof. intros n s key same e v H P. exists (same v). split; [now apply env_state|apply H]. Qed.
Theorem env_absent : forall n s key same e, (forall w, same w = true <-> w = e) -> e <> VNone ->
  dget key (ss_params s) = None -> is_env n s key same = Ok false.
Proof.
  intros n s key same e H N D. rewrite (env_missing n s key same D). f_equal.
  destruct (same VNone) eqn:S; [|reflexivity]. apply H in S. congruence.
Qed.

(** Each parameter has a value, or is not there. *)
Lemma in_params_iff : forall n s k b, in_params n s k = Ok b ->
  (b = true <-> exists v, has_param n s k v).
Proof.
  intros n s k b H. unfold in_params in H. destruct (get_item n s (ss_params s) k) as [v|x] eqn:G.
  - apply Ok_inj in H. subst b. split; [|reflexivity]. intros _. exists v. now apply item_value.
  - assert (b = false) as ->.
    { destruct x; try discriminate. now apply Ok_inj in H. }
    split; [discriminate|]. intros (v & I). apply item_value in I. congruence.
Qed.
Lemma keys_iff : forall n s keys b, has_keys n s keys = Ok b ->
  (b = true <-> forall k, In k keys -> exists v, has_param n s k v).
Proof.
  intros n s keys. induction keys as [|k keys IH]; intros b H.
  - apply Ok_inj in H. subst b. split; [intros _ k []|reflexivity].
  - cbn [has_keys] in H. destruct (in_params n s k) as [b'|x] eqn:I; [|discriminate]. cbn [bind] in H.
    apply in_params_iff in I. destruct b'; cbn [negb] in H.
    + rewrite (IH b H). split.
      * intros A k' [<-|J]; [now apply I|now apply A].
      * intros A k' J. apply A. now right.
    + apply Ok_inj in H. subst b. split; [discriminate|]. intros A. apply I. apply A. now left.
Qed.
Lemma values_iff : forall n s differs, (forall v w, differs v w = false <-> v = w) -> forall vals b,
  has_values n s differs vals = Ok b -> (b = true <-> forall k v, In (k, v) vals -> has_param n s k v).
Proof.
  intros n s differs D vals. induction vals as [|[k v] vals IH]; intros b H.
  - apply Ok_inj in H. subst b. split; [intros _ k v []|reflexivity].
  - cbn [has_values] in H. destruct (in_params n s k) as [b'|x] eqn:I; [|discriminate]. cbn [bind] in H.
    apply in_params_iff in I. destruct b'; cbn [negb] in H.
    + destruct (get_item n s (ss_params s) k) as [w|x] eqn:G; [|discriminate]. cbn [bind] in H.
      destruct (differs w v) eqn:W.
      * apply Ok_inj in H. subst b. split; [discriminate|]. intros A. specialize (A k v (or_introl eq_refl)).
        apply item_value in A. assert (w = v) by congruence. apply D in H. congruence.
      * rewrite (IH b H). apply D in W. subst w. split.
        { intros A k' v' [J|J]; [injection J as <- <-; now apply item_value|now apply A]. }
        { intros A k' v' J. apply A. now right. }
    + apply Ok_inj in H. subst b. split; [discriminate|]. intros A. apply I. exists v. apply A. now left.
Qed.
Theorem exists_value : forall n s differs keys vals b, (forall v w, differs v w = false <-> v = w) ->
  param_bool n s differs keys vals = Ok b ->
  (b = true <-> (forall k, In k keys -> exists v, has_param n s k v) /\
                (forall k v, In (k, v) vals -> has_param n s k v)).
Proof.
  intros n s differs keys vals b D H. unfold param_bool in H.
  destruct (has_keys n s keys) as [b'|x] eqn:K; [|discriminate]. cbn [bind] in H. apply keys_iff in K.
  destruct b'; cbn [negb] in H.
  - rewrite (values_iff n s differs D vals b H). split; [|tauto]. intros A. split; [now apply K|exact A].
  - apply Ok_inj in H. subst b. split; [discriminate|]. intros [A _]. now apply K.
Qed.
