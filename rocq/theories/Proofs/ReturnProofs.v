(** Proofs about return values. *)
From Coq Require Import Bool Arith Lia ZifyBool.
From Verif Require Import Model.Base Model.History Model.World Model.Run Model.Scheduler Model.Params.
From Verif Require Import Spec.SchedulerSpec Spec.ParamsSpec Spec.ReturnSpec.
From Verif Require Import Proofs.WorldProofs Proofs.LimitProofs Proofs.EventProofs Proofs.ParamsProofs.
Open Scope Z_scope.

(** * Computations that leave the return values alone *)
Definition leaves {A} (m : M A) : Prop := forall w, w_returns (fst (m w)) = w_returns w.
Lemma lv_ret {A} (a : A) : leaves (ret a).
Proof. intros w. reflexivity. Qed.
Lemma lv_raise {A} e : leaves (A := A) (raise e).
Proof. intros w. reflexivity. Qed.
Lemma lv_bind {A B} (m : M A) (f : A -> M B) : leaves m -> (forall a, leaves (f a)) -> leaves (mbind m f).
Proof.
  intros Hm Hf w. specialize (Hm w). unfold mbind. destruct (m w) as [w' [a|e|]]; cbn [fst] in *; try exact Hm.
  rewrite Hf. exact Hm.
Qed.
Lemma lv_attempt {A} (m : M A) : leaves m -> leaves (attempt m).
Proof. intros Hm w. specialize (Hm w). unfold attempt. destruct (m w) as [w' [a|e|]]; exact Hm. Qed.
Lemma lv_finally {A} (m : M A) f : leaves m -> leaves f -> leaves (finally m f).
Proof.
  intros Hm Hf. unfold finally. apply lv_bind; [now apply lv_attempt|]. intros r. apply lv_bind; [exact Hf|].
  intros _. destruct r; [apply lv_ret|apply lv_raise].
Qed.
Lemma lv_modify f : (forall w, w_returns (f w) = w_returns w) -> leaves (modify f).
Proof. intros H w. unfold modify. apply H. Qed.
Lemma lv_get {A} (f : world -> A) : leaves (get f).
Proof. intros w. reflexivity. Qed.
Lemma lv_get_task n : leaves (get_task n).
Proof. intros w. unfold get_task. destruct (find_task n w); reflexivity. Qed.
Lemma lv_raise_if e : leaves (raise_if e).
Proof. destruct e; [apply lv_raise|apply lv_ret]. Qed.
Lemma lv_ask {A} (f : nat -> A) : leaves (ask f).
Proof. intros w. reflexivity. Qed.

Lemma lv_set_status orc n a rid : leaves (set_status_m orc n a rid).
Proof.
  unfold set_status_m. apply lv_bind; [apply lv_ask|]. intros ok. apply lv_bind; [apply lv_get_task|]. intros t.
  apply lv_bind; [apply lv_get|]. intros w. destruct (set_status _ _ _ _ _ _ _ _) as [[st l] r].
  apply lv_bind; [now apply lv_modify|]. intros _. apply lv_bind; [now apply lv_modify|]. intros _.
  destruct r as [[]|e]; [apply lv_ret|apply lv_raise].
Qed.
Lemma lv_log_action orc child n a rid v : leaves (log_action orc child n a rid v).
Proof.
  unfold log_action. apply lv_bind.
  - destruct child; [|apply lv_set_status]. unfold set_status_child. apply lv_bind; [apply lv_get|]. intros w. now apply lv_modify.
  - intros _. destruct (_ && _); [now apply lv_modify|apply lv_ret].
Qed.
Lemma lv_log_record orc q : leaves (log_record_m orc q).
Proof.
  unfold log_record_m. apply lv_bind; [apply lv_ask|]. intros ok. apply lv_bind; [apply lv_get_task|]. intros t.
  apply lv_bind; [apply lv_get|]. intros w. destruct (log_record _ _ _ _ _ _ _) as [[st l] r].
  apply lv_bind; [now apply lv_modify|]. intros _. apply lv_bind; [now apply lv_modify|]. intros _.
  destruct r as [[]|e]; [apply lv_ret|apply lv_raise].
Qed.

Lemma bind_fst {A B} (m : M A) (f : A -> M B) w : (forall a, leaves (f a)) ->
  w_returns (fst (mbind m f w)) = w_returns (fst (m w)).
Proof. intros Hf. unfold mbind. destruct (m w) as [w' [a|e|]]; cbn [fst]; [apply Hf|reflexivity|reflexivity]. Qed.
Lemma finally_fst {A} (m : M A) f w : leaves f -> w_returns (fst (finally m f w)) = w_returns (fst (m w)).
Proof.
  intros Hf. unfold finally. rewrite bind_fst.
  - unfold attempt. destruct (m w) as [w' [a|e|]]; reflexivity.
  - intros r. apply lv_bind; [exact Hf|]. intros _. destruct r; [apply lv_ret|apply lv_raise].
Qed.

(** * The code of a run *)
Theorem body_returns orc child x n rid s w :
  w_returns (fst (run_body orc child x n rid s w)) =
  match child, s_exec s, s_return s with
  | false, None, None => (n, s_value s) :: w_returns w
  | _, _, _ => w_returns w
  end.
Proof.
  unfold run_body. rewrite finally_fst by (apply lv_bind; [apply lv_raise_if|intros; apply lv_raise_if]).
  destruct (s_exec s) as [e|].
  - assert (L : forall a r v, leaves (log_action orc child n a r v)) by (intros; apply lv_log_action).
    assert (F : leaves (match s_failure s with Some CancelledError => raise CancelledError
                | _ => log_action orc child n AFail rid 0 ;; match x with None => raise e | Some _ => ret tt end end)).
    { assert (G : leaves (log_action orc child n AFail rid 0 ;; match x with None => raise e | Some _ => ret tt end)).
      { apply lv_bind; [apply L|]. intros _. destruct x; [apply lv_ret|apply lv_raise]. }
      destruct (s_failure s) as [[]|]; first [apply lv_raise|exact G]. }
    replace (match child with true => _ | false => _ end) with (w_returns w) by (destruct child; reflexivity).
    assert (X : leaves (log_action orc child n ASuccess None 0 ;; raise_if (s_success s) ;; @raise unit e)).
    { apply lv_bind; [apply L|]. intros _. apply lv_bind; [apply lv_raise_if|]. intros _. apply lv_raise. }
    destruct e; first [apply X|apply F|apply L].
  - rewrite bind_fst by (intros; apply lv_log_action). destruct child; [reflexivity|].
    destruct (s_return s) as [e|]; reflexivity.
Qed.

(** A successful run in the session's process sets the value of its task only. *)
Theorem success_returns orc x n rid s w w' o :
  s_exec s = None -> s_return s = None -> run_body orc false x n rid s w = (w', o) ->
  return_of n w' = Some (s_value s) /\ forall m, m <> n -> return_of m w' = return_of m w.
Proof.
  intros E R H. pose proof (body_returns orc false x n rid s w) as B. rewrite H, E, R in B. cbn [fst] in B.
  unfold return_of. rewrite B. cbn [find fst]. rewrite Z.eqb_refl. split; [reflexivity|].
  intros m N. assert (X : (n =? m) = false) by lia. rewrite X. reflexivity.
Qed.
(** A run that does not succeed changes no value. *)
Theorem failure_returns orc child x n rid s w w' o :
  s_exec s <> None -> run_body orc child x n rid s w = (w', o) -> forall m, return_of m w' = return_of m w.
Proof.
  intros E H m. pose proof (body_returns orc child x n rid s w) as B. rewrite H in B. cbn [fst] in B.
  destruct (s_exec s) as [e|]; [|congruence]. unfold return_of. destruct child; rewrite B; reflexivity.
Qed.

(** * Executions: values are only added *)
Lemma ar_same w w' : w_returns w' = w_returns w -> adds_returns w w'.
Proof. intros E. exists []. exact E. Qed.
Lemma ar_trans a b c : adds_returns a b -> adds_returns b c -> adds_returns a c.
Proof. intros [x X] [y Y]. exists (y ++ x). rewrite Y, X. apply app_assoc. Qed.
Lemma ar_respects : respects all_moves adds_returns.
Proof.
  constructor; [constructor; [constructor|]|..]; intros; try (apply ar_same; reflexivity).
  - eapply ar_trans; eassumption.
  - exists [(n, v)]. reflexivity.
Qed.
Lemma ar_start n : start_rel adds_returns adds_returns n (fun _ => True).
Proof. constructor; [constructor|..]; intros; auto; try (eapply ar_trans; eassumption); apply ar_same; reflexivity. Qed.
Lemma ar_guarded orc cf fuel n : steps adds_returns (guarded orc cf fuel n).
Proof. apply (steps_guarded (rs_calm _ _ ar_respects) n (ar_start n) orc cf (fun _ _ _ => I)). Qed.
Theorem serve_adds orc cf fuel w w' o : serve orc cf fuel w = (w', o) -> adds_returns w w'.
Proof.
  intros H. refine (steps_eq _ _ _ _ _ H).
  apply (steps_serve ar_respects orc cf (fun _ _ _ => I) (ar_guarded orc cf)).
Qed.
Theorem cycle_adds orc cf fuel w w' o : run_cycle orc cf fuel w = (w', o) -> adds_returns w w'.
Proof.
  intros H. refine (steps_eq _ _ _ _ _ H).
  apply (steps_run_cycle ar_respects orc cf (fun _ _ _ => I) (ar_guarded orc cf)).
Qed.

Lemma find_app_none {A} (f : A -> bool) (a b : list A) : (forall x, In x a -> f x = false) -> find f (a ++ b) = find f b.
Proof.
  induction a as [|x a IH]; intros H; [reflexivity|]. cbn [app find]. rewrite (H x (or_introl eq_refl)).
  apply IH. intros y Hy. apply H. now right.
Qed.
Theorem serve_latest orc cf fuel w w' o : serve orc cf fuel w = (w', o) ->
  exists new, w_returns w' = new ++ w_returns w /\
    forall n, (forall v, ~ In (n, v) new) -> return_of n w' = return_of n w.
Proof.
  intros H. destruct (serve_adds _ _ _ _ _ _ H) as [new E]. exists new. split; [exact E|].
  intros n N. unfold return_of. rewrite E, find_app_none; [reflexivity|].
  intros [m v] I. cbn [fst]. destruct (m =? n) eqn:X; [|reflexivity]. exfalso. apply (N v).
  apply Z.eqb_eq in X. subst. exact I.
Qed.

(** * The values of child processes *)
Lemma no_env orc : (forall k, o_env orc k = []) -> forall w, env orc w = (bump w, Returns tt).
Proof. intros H w. unfold env, mbind, ask. now rewrite H. Qed.

Lemma queue_log_record orc q w : w_queue (fst (log_record_m orc q w)) = w_queue w.
Proof.
  unfold log_record_m. unfold mbind at 1. change (ask (o_write orc) w) with (bump w, Returns (o_write orc (w_tick w))).
  cbv beta iota. unfold mbind, get_task, get, modify, ret, raise.
  destruct (find_task _ _) as [t|]; [|reflexivity].
  destruct (log_record _ _ _ _ _ _ _) as [[st l] [[]|e]]; reflexivity.
Qed.
Theorem logs_return orc cf : (forall k, o_env orc k = []) -> forall fuel w w',
  handle_logs orc cf fuel w = (w', Returns tt) ->
  w_queue w' = [] /\ w_returns w' = rev (returned (w_queue w)) ++ w_returns w.
Proof.
  intros NE. induction fuel as [|fuel IH]; intros w w' H; cbn [handle_logs] in H; [discriminate H|].
  apply bind_returns in H as (w1 & [] & E1 & H). rewrite (no_env _ NE) in E1. injection E1 as <-.
  apply bind_returns in H as (w2 & v2 & E2 & H). unfold get in E2. injection E2 as <- <-.
  change (w_queue (bump w)) with (w_queue w) in H.
  destruct (w_queue w) as [|q rest] eqn:Q.
  - injection H as <-. split; [exact Q|]. reflexivity.
  - apply bind_returns in H as (w3 & [] & E3 & H). unfold modify in E3. injection E3 as E3.
    apply bind_returns in H as (w4 & t & E4 & H).
    assert (W4 : w4 = w3) by (unfold get_task in E4; destruct (find_task _ w3); now inversion E4). subst w4.
    apply bind_returns in H as (w5 & [] & E5 & H).
    apply bind_returns in H as (w6 & r & E6 & H).
    apply bind_returns in H as (w7 & [] & E7 & H).
    apply IH in H. destruct H as [HQ HR]. split; [exact HQ|]. rewrite HR.
    assert (R3 : w_returns w3 = w_returns w /\ w_queue w3 = rest) by (rewrite <- E3; split; reflexivity).
    destruct R3 as [R3 Q3].
    assert (R5 : w_returns w5 = rev (returned [q]) ++ w_returns w /\ w_queue w5 = rest).
    { unfold returned. cbn [flat_map]. rewrite app_nil_r.
      destruct (q_return q) as [v|]; [|injection E5 as <-; split; [exact R3|exact Q3]].
      destruct (action_eqb _ _); [|injection E5 as <-; split; [exact R3|exact Q3]].
      unfold handle_return in E5. unfold mbind, get, modify in E5. injection E5 as <-.
      cbn [w_returns w_queue set_returns rev app]. rewrite R3. split; [reflexivity|exact Q3]. }
    destruct R5 as [R5 Q5].
    assert (R6 : w_returns w6 = w_returns w5 /\ w_queue w6 = w_queue w5).
    { split.
      - pose proof (lv_attempt _ (lv_log_record orc q) w5) as L. rewrite E6 in L. exact L.
      - pose proof (queue_log_record orc q w5) as L.
        unfold attempt in E6. destruct (log_record_m orc q w5) as [v [a|e|]]; inversion E6; subst; exact L. }
    destruct R6 as [R6 Q6].
    assert (W7 : w7 = w6).
    { destruct r as [u|e]; [now inversion E7|]. destruct (_ || _); [discriminate E7|now inversion E7]. }
    subst w7. rewrite R6, R5, Q6, Q5.
    change (q :: rest) with ([q] ++ rest). unfold returned. rewrite flat_map_app, rev_app_distr, app_assoc. reflexivity.
Qed.

(** * Return arguments *)
Lemma reads_get : forall (l : list (Z * Z)) n,
  dget n (map (fun r => (fst r, VData (snd r))) l) = option_map VData (option_map snd (find (fun r => fst r =? n) l)).
Proof.
  induction l as [|[a v] l IH]; intros n; [reflexivity|]. cbn [map dget find fst snd].
  destruct (a =? n); [reflexivity|apply IH].
Qed.
Theorem return_argument k s w cx n default :
  (cx_session cx = SGiven \/ cx_task cx <> None) -> reads s w -> In n (map t_name (w_tasks w)) ->
  get_value (S k) s cx (ReturnArg n default) =
  match return_of n w, default with
  | Some v, _ => Ok (VData v)
  | None, Some v => Ok v
  | None, None => Err KeyError
  end.
Proof.
  intros H [T R] I. rewrite return_lookup; [|exact H|rewrite T; exact I].
  rewrite R, reads_get. unfold return_of. destruct (option_map snd _); [reflexivity|]. destruct default; reflexivity.
Qed.

(** * What a child process sends *)
Lemma child_log orc n a rid v w : log_action orc true n a rid v w =
  (set_queue (w_queue w ++ [QRec (Rec n a (w_clock w) rid) (if action_eqb a ASuccess then Some v else None)]) w, Returns tt).
Proof. unfold log_action. rewrite andb_false_r. reflexivity. Qed.
Lemma child_code orc n rid s w : s_setup s = None -> tidy s -> ~ leaves_scheduler (s_exec s) ->
  process_code orc n rid s w =
  (set_queue (w_queue w ++ [QRec (Rec n (classified (s_exec s)) (w_clock w) rid)
                              (match s_exec s with None => Some (s_value s) | Some _ => None end)]) w, Returns tt).
Proof.
  intros ST (T1 & T2 & T3 & T4 & T5) L. unfold process_code, run_as_async, run_setup, run_body. rewrite ST, T4, T5.
  cbn [raise_if]. unfold finally, attempt, mbind, ret.
  destruct (s_exec s) as [e|]; [|rewrite child_log; reflexivity].
  destruct e; try (exfalso; apply L; first [now left|now right]); rewrite ?child_log; try reflexivity;
    (destruct (s_failure s) as [[]|]; try (rewrite child_log; reflexivity); now destruct T2).
Qed.
Theorem child_sends orc u s w t r : find_run u w = Some (t, r) -> rn_kind r = XProcess -> rn_phase r = Busy ->
  s_setup s = None -> tidy s -> ~ leaves_scheduler (s_exec s) ->
  exists w', do_move orc (MProcess u s) w = (w', Returns tt) /\
    w_queue w' = w_queue w ++ [QRec (Rec (t_name t) (classified (s_exec s)) (w_clock w) (rn_id r))
                                 (match s_exec s with None => Some (s_value s) | Some _ => None end)].
Proof.
  intros F K P ST T L. eexists. split.
  - cbn [do_move]. unfold mbind at 1, get. rewrite F, K. unfold is_busy. rewrite P. cbn [exec_eqb andb].
    unfold end_coroutine, mbind, attempt. rewrite (child_code _ _ _ _ _ ST T L). reflexivity.
  - reflexivity.
Qed.
