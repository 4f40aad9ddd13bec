(** How runs end and what is recorded (C22, C23, C40). *)
From Coq Require Import Bool Arith Lia ZifyBool.
From Verif Require Import Model.Base Model.History Model.World Model.Run Model.Scheduler.
From Verif Require Import Spec.SchedulerSpec Proofs.WorldProofs Proofs.LimitProofs Proofs.EventProofs.
From Verif Require Import Proofs.RequestProofs Proofs.StackProofs Proofs.TerminationProofs Proofs.LogFailProofs.
Open Scope Z_scope.

(** * Recording changes nothing else *)
Lemma tracked_on_task n g w : (forall t, t_stack (g t) = t_stack t) -> tracked (on_task n g w) = tracked w.
Proof.
  intros H. unfold tracked, on_task. cbn. rewrite map_map. f_equal. apply map_ext. intros t. destruct (_ =? _); auto.
Qed.
Lemma recorded orc n a rid v w t : find_task n w = Some t -> o_write orc (w_tick w) = true ->
  exists w', log_action orc false n a rid v w = (w', Returns tt) /\ w_log w' = w_log w ++ [Rec n a (w_clock w) rid] /\
    status_of n w' = Some a /\ undisturbed w w'.
Proof.
  intros F O. destruct (log_written orc n a rid v w t F O) as (w' & E & L & S & _). exists w'. do 3 (split; [assumption|]).
  unfold log_action, mbind in E. rewrite (set_status_eq _ _ _ _ _ _ F), O in E. unfold set_status in E.
  destruct (action_eqb a ATerminate && negb false); cbn [modify ret] in E; injection E as <-;
    (constructor; try reflexivity; rewrite !tracked_on_task by reflexivity; reflexivity).
Qed.

(** * Classification *)
Definition ends_with (n : Z) (a : action) (rid : option Z) (w w' : world) : Prop := records n a rid w w' /\ undisturbed w w'.
Lemma body_finally (m : M unit) w w' o : m w = (w', o) -> finally m (ret tt ;; ret tt) w = (w', o).
Proof. intros E. unfold finally, mbind, attempt. rewrite E. now destruct o. Qed.
Lemma then_ok {B} (m : M unit) (k : M B) w w' : m w = (w', Returns tt) -> (m ;; k) w = k w'.
Proof. intros E. unfold mbind. now rewrite E. Qed.
Section Body.
Context (orc : oracle) (x : option exec) (n : Z) (rid : option Z) (s : script) (w : world) (t : task).
Context (F : find_task n w = Some t) (O : o_write orc (w_tick w) = true) (T : tidy s).
Lemma record_ends a i v : exists w', log_action orc false n a i v w = (w', Returns tt) /\ ends_with n a i w w'.
Proof using F O. destruct (recorded orc n a i v w t F O) as (w' & E & L & S & U). exists w'. split; [exact E|]. split; [split; assumption|exact U]. Qed.
Lemma body_success : s_exec s = None ->
  exists w', run_body orc false x n rid s w = (w', Returns tt) /\
    ends_with n ASuccess rid (set_returns ((n, s_value s) :: w_returns w) w) w'.
Proof using F O T.
  intros E. destruct T as (T1 & T2 & T3 & T4 & T5). unfold run_body. rewrite E, T3, T4, T5. cbn [raise_if].
  destruct (recorded orc n ASuccess rid (s_value s) (set_returns ((n, s_value s) :: w_returns w) w) t F O) as (w' & H & L & St & U).
  exists w'. split; [apply body_finally, H|]. split; [split; assumption|exact U].
Qed.
Lemma body_leaves e : leaves_scheduler (Some e) -> s_exec s = Some e ->
  exists w', run_body orc false x n rid s w = (w', Raises e) /\ ends_with n ASuccess None w w'.
Proof using F O T.
  intros L E. destruct T as (T1 & T2 & T3 & T4 & T5). unfold run_body. rewrite E, T1, T4, T5. cbn [raise_if].
  destruct (record_ends ASuccess None 0) as (w' & H & R). exists w'. split; [|exact R].
  destruct L as [L|L]; injection L as ->; (apply body_finally; rewrite (then_ok _ _ _ _ H); reflexivity).
Qed.
Lemma body_stops e : classified (Some e) = AInaction \/ classified (Some e) = ATerminate -> s_exec s = Some e ->
  exists w', run_body orc false x n rid s w = (w', Returns tt) /\ ends_with n (classified (Some e)) rid w w'.
Proof using F O T.
  intros L E. destruct T as (T1 & T2 & T3 & T4 & T5). unfold run_body. rewrite E, T4, T5. cbn [raise_if].
  destruct (record_ends (classified (Some e)) rid 0) as (w' & H & R). exists w'. split; [|exact R].
  destruct e; cbn in L; try (destruct L; discriminate); (apply body_finally, H).
Qed.
Lemma body_fails e : classified (Some e) = AFail -> s_exec s = Some e ->
  exists w', run_body orc false x n rid s w = (w', match x with None => Raises e | Some _ => Returns tt end) /\ ends_with n AFail rid w w'.
Proof using F O T.
  intros L E. destruct T as (T1 & T2 & T3 & T4 & T5). unfold run_body. rewrite E, T4, T5. cbn [raise_if].
  destruct (record_ends AFail rid 0) as (w' & H & R). exists w'. split; [|exact R].
  assert (K : (match s_failure s with
             | Some CancelledError => raise CancelledError
             | _ => log_action orc false n AFail rid 0 ;; match x with None => raise e | Some _ => ret tt end
             end) w = (w', match x with None => Raises e | Some _ => Returns tt end)).
  { destruct (s_failure s) as [[]|]; try (now destruct T2); rewrite (then_ok _ _ _ _ H); now destruct x. }
  destruct e; try discriminate L; (apply body_finally, K).
Qed.
(** All of it *)
Lemma body_ends : ~ leaves_scheduler (s_exec s) -> x <> None ->
  exists w', run_body orc false x n rid s w = (w', Returns tt) /\ records n (classified (s_exec s)) rid w w' /\
    w_queue w' = w_queue w /\ w_orphans w' = w_orphans w /\ w_clock w' = w_clock w /\ tracked w' = tracked w /\
    w_returns w' = match s_exec s with None => (n, s_value s) :: w_returns w | Some _ => w_returns w end.
Proof using F O T.
  intros L X. destruct (s_exec s) as [e|] eqn:E.
  - assert (D : classified (Some e) = AFail \/ classified (Some e) = AInaction \/ classified (Some e) = ATerminate).
    { destruct e; cbn; auto; destruct L; [now left|now right]. }
    destruct D as [D|D].
    + destruct (body_fails e D E) as (w' & H & R & []). exists w'. rewrite D. destruct x; [|now destruct X]. now split; [|split].
    + destruct (body_stops e D E) as (w' & H & R & []). exists w'. now split; [|split].
  - destruct (body_success E) as (w' & H & R & []). exists w'. now split; [|split].
Qed.
End Body.

(** * What the outside records meanwhile *)
Definition foreign (i : Z) (w w' : world) : Prop := unused i w -> unused i w' /\
  exists l, w_log w' = w_log w ++ l /\ Forall (fun r => r_run_id r <> Some i) l.
Section Foreign.
Context (orc : oracle) (i : Z).
Let R := foreign i.
Lemma fo_refl w : R w w.
Proof using Type. intros U. split; [exact U|]. exists []. split; [now rewrite app_nil_r|constructor]. Qed.
Lemma fo_trans a b c : R a b -> R b c -> R a c.
Proof using Type.
  intros H K U. destruct (H U) as [U1 (l1 & E1 & F1)]. destruct (K U1) as [U2 (l2 & E2 & F2)]. split; [exact U2|].
  exists (l1 ++ l2). split; [rewrite E2, E1; symmetry; apply app_assoc|]. apply Forall_app. now split.
Qed.
Lemma fo_bind {A B} (m : M A) (f : A -> M B) : steps R m -> (forall a, steps R (f a)) -> steps R (mbind m f).
Proof using Type.
  intros Hm Hf w. specialize (Hm w). unfold mbind. destruct (m w) as [w' [a|e|]]; cbn [fst] in *; auto. exact (fo_trans _ _ _ Hm (Hf a w')).
Qed.
Lemma fo_same w w' : tracked w' = tracked w -> w_orphans w' = w_orphans w -> w_log w' = w_log w -> R w w'.
Proof using Type.
  intros T O L U. split; [unfold unused; now rewrite T, O|]. exists []. split; [now rewrite app_nil_r|constructor].
Qed.
Lemma fo_ret {A} (a : A) : steps R (ret a).
Proof using Type. intro w. apply fo_refl. Qed.
Lemma fo_raise {A} e : steps R (raise (A := A) e).
Proof using Type. intro w. apply fo_refl. Qed.
Lemma fo_raise_if e : steps R (raise_if e).
Proof using Type. destruct e; [apply fo_raise|apply fo_ret]. Qed.
Lemma fo_get {A} (f : world -> A) : steps R (get f).
Proof using Type. intro w. apply fo_refl. Qed.
Lemma fo_ask {A} (f : nat -> A) : steps R (ask f).
Proof using Type. intro w. now apply fo_same. Qed.
Lemma fo_modify f : (forall w, R w (f w)) -> steps R (modify f).
Proof using Type. intros H w. apply H. Qed.
Lemma fo_attempt {A} (m : M A) : steps R m -> steps R (attempt m).
Proof using Type. intros H. now apply steps_attempt. Qed.
Lemma fo_finally {A} (m : M A) f : steps R m -> steps R f -> steps R (finally m f).
Proof using Type.
  intros Hm Hf. apply fo_bind; [now apply fo_attempt|]. intros r. apply fo_bind; [exact Hf|]. intros _. destruct r; [apply fo_ret|apply fo_raise].
Qed.
Ltac fo :=
  repeat lazymatch goal with
    | |- steps _ (ret _) => apply fo_ret
    | |- steps _ (raise _) => apply fo_raise
    | |- steps _ (get _) => apply fo_get
    | |- steps _ (raise_if _) => apply fo_raise_if
    | |- steps _ (ask _) => apply fo_ask
    | |- steps _ (mbind _ _) => apply fo_bind; [|intro]
    | |- steps _ (attempt _) => apply fo_attempt
    | |- steps _ (finally _ _) => apply fo_finally
    | |- steps _ (modify _) => apply fo_modify; intro
    end.
Lemma fo_log w l : Forall (fun r => r_run_id r <> Some i) l -> R w (set_log (w_log w ++ l) w).
Proof using Type. intros H U. split; [exact U|]. now exists l. Qed.
Lemma fo_on_task n g w : (forall t, t_stack (g t) = t_stack t) -> R w (on_task n g w).
Proof using Type. intros H. apply fo_same; [now apply tracked_on_task|reflexivity..]. Qed.
Lemma in_concat_map (r : run) (ts : list task) : In r (concat (map t_stack ts)) <-> exists t, In t ts /\ In r (t_stack t).
Proof using Type.
  rewrite in_concat. split.
  - intros (l & Hl & Hr). apply in_map_iff in Hl as (t & <- & Ht). now exists t.
  - intros (t & Ht & Hr). exists (t_stack t). split; [now apply in_map|exact Hr].
Qed.
Lemma fo_on_run u g w : (forall r, rn_id (g r) = rn_id r /\ rn_kind (g r) = rn_kind r) -> R w (on_run u g w).
Proof using Type.
  intros H [U1 U2]. split; [split; [|exact U2]|exists []; split; [symmetry; apply app_nil_r|constructor]].
  intros r Hr K. unfold tracked, on_run in Hr. cbn in Hr. rewrite in_concat_map in Hr. destruct Hr as (t & Ht & Hr).
  apply in_map_iff in Ht as (t0 & <- & Ht0). cbn in Hr. apply in_map_iff in Hr as (r0 & Er & Hr0).
  assert (In r0 (tracked w)) by (apply in_concat_map; now exists t0). specialize (U1 r0 H0).
  destruct (H r0) as [Hi Hk]. destruct (Nat.eqb (rn_uid r0) u); subst r; [|now apply U1]. rewrite Hi. apply U1. now rewrite <- Hk.
Qed.
Lemma fo_log_action ch n a rid v : rid <> Some i -> steps R (log_action orc ch n a rid v).
Proof using Type.
  intros N. unfold log_action. apply fo_bind.
  - destruct ch.
    + unfold set_status_child. apply fo_bind; [apply fo_get|]. intros w0. apply fo_modify. intros w. now apply fo_same.
    + intros w. destruct (find_task n w) as [t|] eqn:F.
      * rewrite (set_status_eq _ _ _ _ _ _ F). destruct (set_status _ _ _ _ _ _ _ _) as [[st l] r] eqn:E. cbn [fst].
        apply fo_trans with (set_log l (bump w)); [|apply fo_on_task; reflexivity].
        assert (exists l', l = w_log w ++ l' /\ Forall (fun r => r_run_id r <> Some i) l') as (l' & -> & Fl).
        { unfold set_status in E. destruct (o_write orc (w_tick w)); [|destruct (action_eqb a ARun)]; injection E as _ <- _.
          - eexists. split; [reflexivity|]. constructor; [exact N|constructor].
          - exists []. split; [symmetry; apply app_nil_r|constructor].
          - exists []. split; [symmetry; apply app_nil_r|constructor]. }
        exact (fo_log w l' Fl).
      * unfold set_status_m, mbind, get_task. change (ask (o_write orc) w) with (bump w, Returns (o_write orc (w_tick w))). cbv iota.
        rewrite find_bump, F. now apply fo_same.
  - intros _. destruct (_ && _); fo. now apply fo_on_task.
Qed.
Lemma fo_run_body ch x n rid s : rid <> Some i -> steps R (run_body orc ch x n rid s).
Proof using Type.
  intros N. unfold run_body. apply fo_finally; [|fo].
  assert (L : forall ch n a v, steps R (log_action orc ch n a rid v)) by (intros; now apply fo_log_action).
  assert (L0 : forall ch n a v, steps R (log_action orc ch n a None v)) by (intros; now apply fo_log_action).
  destruct (s_exec s) as [e|].
  - assert (Fl : steps R (match s_failure s with
             | Some CancelledError => raise CancelledError
             | _ => log_action orc ch n AFail rid 0 ;;
                    match x with None => raise e | Some _ => ret tt end
             end)).
    { destruct (s_failure s) as [[]|]; fo; try apply L; destruct x; fo. }
    destruct e; try exact Fl; fo; try apply L; apply L0.
  - apply fo_bind; [|intros _; apply L]. destruct ch; fo. unfold handle_return. fo. now apply fo_same.
Qed.
Lemma fo_run_as ch x n rid s : rid <> Some i -> steps R (run_as_async orc ch x n rid s).
Proof using Type. intros N. unfold run_as_async, run_setup. fo. now apply fo_run_body. Qed.
Lemma fo_end u m : steps R m -> steps R (end_coroutine u m).
Proof using Type. intros H. unfold end_coroutine. fo; [exact H|]. apply fo_on_run. now split. Qed.
Lemma find_run_tracked u w t r : find_run u w = Some (t, r) -> In r (tracked w).
Proof using Type. intros H. now apply TerminationProofs.find_run_in in H. Qed.
(** A move on the run [u] *)
Lemma fo_run u x0 (p : run -> bool) (k : task -> run -> M unit) : x0 <> XMain ->
  (forall t r, rn_id r <> Some i -> steps R (k t r)) ->
  steps R (w <- get (fun w => w) ;; match find_run u w with
    | Some (t, r) => if exec_eqb (rn_kind r) x0 && p r then k t r else ret tt
    | None => ret tt end).
Proof using Type.
  intros X H w. unfold mbind, get. destruct (find_run u w) as [[t r]|] eqn:E; [|apply fo_refl].
  destruct (exec_eqb (rn_kind r) x0) eqn:K; [|apply fo_refl]. destruct (p r); [|apply fo_refl].
  intros U. apply H; [|exact U]. apply U; [now apply (find_run_tracked u w t)|]. intros Q. rewrite Q in K. destruct x0; try discriminate K. now apply X.
Qed.
Lemma fo_move m : steps R (do_move orc m).
Proof using Type.
  destruct m; cbn [do_move]; try (apply fo_modify; intros w; first [now apply fo_same|apply fo_on_task; reflexivity]).
  - apply fo_bind; [apply fo_modify; intros w; now apply fo_same|intros _]. apply fo_modify. intros w. now apply fo_on_task.
  - apply (fo_run uid XAsync is_pending (fun _ _ => enter uid s)); [discriminate|]. intros t r _. unfold enter, run_setup. fo.
    destruct a; fo; apply fo_on_run; [unfold begin_run; intros r0; destruct (is_pending r0)|]; now split.
  - apply (fo_run uid XAsync is_busy (fun t r => end_coroutine uid (run_body orc false (Some XAsync) (t_name t) (rn_id r) s))); [discriminate|].
    intros t r N. now apply fo_end, fo_run_body.
  - intros w. unfold mbind at 1, get. destruct (w_orphans w) as [|[n r] rest] eqn:O; [apply fo_refl|].
    intros U. assert (N : rn_id r <> Some i) by (apply (proj2 U n); rewrite O; now left).
    assert (U' : unused i (set_orphans rest w)) by (split; [apply U|]; intros n0 r0 H0; apply (proj2 U n0); rewrite O; now right).
    exact (fo_bind _ _ (fo_attempt _ (fo_run_as false (Some XMain) n (rn_id r) s N)) (fun _ => fo_ret tt) (set_orphans rest w) U').
  - apply (fo_run uid XThread is_busy (fun t r => end_coroutine uid (thread_code orc (t_name t) uid (rn_id r) s))); [discriminate|].
    intros t r N. apply fo_end. unfold thread_code. fo; [now apply fo_run_as|]. destruct a as [[]|e]; fo. destruct (is_exception e); fo; [now apply fo_log_action|].
    destruct a as [[]|[]]; fo. apply fo_on_run. now split.
  - apply (fo_run uid XProcess is_busy (fun t r => end_coroutine uid (process_code orc (t_name t) (rn_id r) s))); [discriminate|].
    intros t r N. apply fo_end. unfold process_code. fo; [now apply fo_run_as|]. destruct a as [[]|e]; fo. destruct (is_exception e); fo. now apply fo_log_action.
  - apply (fo_run uid XProcess is_busy (fun _ _ => modify (on_run uid (with_phase (Over None))))); [discriminate|]. intros t r _. fo. apply fo_on_run. now split.
Qed.
Lemma fo_env : steps R (env orc).
Proof using Type.
  unfold env. fo. induction a as [|m ms IH]; cbn [do_moves]; fo; [apply fo_move|exact IH].
Qed.
End Foreign.

(** * A run in the main loop *)
Lemma bind_to {A B} (m : M A) (f : A -> M B) w w1 a : m w = (w1, Returns a) -> mbind m f w = f a w1.
Proof. intros E. unfold mbind. now rewrite E. Qed.
Lemma attempt_ok {A} (m : M A) w w1 a : m w = (w1, Returns a) -> attempt m w = (w1, Returns (Ok a)).
Proof. intros E. unfold attempt. now rewrite E. Qed.
Lemma attempt_err {A} (m : M A) w w1 e : m w = (w1, Raises e) -> attempt m w = (w1, Returns (Err e)).
Proof. intros E. unfold attempt. now rewrite E. Qed.
Lemma finally_ok {A} (m : M A) f w w1 w2 a : m w = (w1, Returns a) -> f w1 = (w2, Returns tt) -> finally m f w = (w2, Returns a).
Proof. intros E1 E2. unfold finally. rewrite (bind_to _ _ _ _ _ (attempt_ok _ _ _ _ E1)). now rewrite (bind_to _ _ _ _ _ E2). Qed.
Lemma finally_err {A} (m : M A) f w w1 w2 e : m w = (w1, Raises e) -> f w1 = (w2, Returns tt) -> finally m f w = (w2, Raises e).
Proof. intros E1 E2. unfold finally. rewrite (bind_to _ _ _ _ _ (attempt_err _ _ _ _ E1)). now rewrite (bind_to _ _ _ _ _ E2). Qed.
Lemma cfgs_find n w w' t : cfgs w w' -> find_task n w = Some t -> exists t', find_task n w' = Some t' /\ t_cfg t' = t_cfg t.
Proof.
  intros C F. apply (cfg_of_eq n) in C. unfold cfg_of in C. rewrite F in C. destruct (find_task n w') as [t'|]; [|discriminate C].
  exists t'. split; [reflexivity|]. now injection C.
Qed.
(** Moves end *)
Definition halts {A} (m : M A) : Prop := forall w, snd (m w) <> OutOfFuel.
Lemma ha_bind {A B} (m : M A) (f : A -> M B) : halts m -> (forall a, halts (f a)) -> halts (mbind m f).
Proof. intros H K w. specialize (H w). unfold mbind. destruct (m w) as [w' [a|e|]]; [apply K|discriminate|now destruct H]. Qed.
Lemma ha_attempt {A} (m : M A) : halts m -> halts (attempt m).
Proof. intros H w. specialize (H w). unfold attempt. destruct (m w) as [w' [a|e|]]; [discriminate..|now destruct H]. Qed.
Lemma ha_ret {A} (a : A) : halts (ret a).
Proof. discriminate. Qed.
Lemma ha_raise {A} e : halts (A := A) (raise e).
Proof. discriminate. Qed.
Lemma ha_finally {A} (m : M A) f : halts m -> halts f -> halts (finally m f).
Proof. intros H K. apply ha_bind; [now apply ha_attempt|]. intros r. apply ha_bind; [exact K|]. intros _. destruct r; [apply ha_ret|apply ha_raise]. Qed.
Lemma ha_get_task n : halts (get_task n).
Proof. intros w. unfold get_task. destruct (find_task n w); discriminate. Qed.
Lemma ha_raise_if e : halts (raise_if e).
Proof. destruct e; discriminate. Qed.
Ltac ha := repeat lazymatch goal with
  | |- halts (mbind _ _) => apply ha_bind; [|intro]
  | |- halts (attempt _) => apply ha_attempt
  | |- halts (finally _ _) => apply ha_finally
  | |- halts (get_task _) => apply ha_get_task
  | |- halts (raise_if _) => apply ha_raise_if
  | |- halts (ret _) => discriminate
  | |- halts (raise _) => discriminate
  | |- halts (get _) => discriminate
  | |- halts (ask _) => discriminate
  | |- halts (modify _) => discriminate
  end.
Lemma ha_log_action orc ch n a rid v : halts (log_action orc ch n a rid v).
Proof.
  unfold log_action. ha; [|destruct (_ && _); ha]. destruct ch; unfold set_status_child, set_status_m; ha.
  destruct (set_status _ _ _ _ _ _ _ _) as [[st l] [[]|e]]; ha.
Qed.
Lemma ha_run_body orc ch x n rid s : halts (run_body orc ch x n rid s).
Proof.
  unfold run_body. ha. destruct (s_exec s) as [e|]; [|ha; [destruct ch; unfold handle_return; ha|apply ha_log_action]].
  assert (Fl : halts (match s_failure s with
             | Some CancelledError => raise CancelledError
             | _ => log_action orc ch n AFail rid 0 ;;
                    match x with None => raise e | Some _ => ret tt end
             end)).
  { destruct (s_failure s) as [[]|]; ha; try apply ha_log_action; destruct x; ha. }
  destruct e; try exact Fl; ha; apply ha_log_action.
Qed.
Lemma ha_run_as orc ch x n rid s : halts (run_as_async orc ch x n rid s).
Proof. unfold run_as_async, run_setup. ha; apply ha_run_body. Qed.
Lemma ha_move orc m : halts (do_move orc m).
Proof.
  destruct m; cbn [do_move]; ha; try (destruct (find_run uid a) as [[t r]|]; ha; destruct (_ && _); ha).
  - unfold enter, run_setup. ha. destruct a0; ha.
  - unfold end_coroutine. ha. apply ha_run_body.
  - destruct (w_orphans a) as [|[n r] o]; ha. apply ha_run_as.
  - unfold end_coroutine, thread_code. ha; [apply ha_run_as|]. destruct a0 as [[]|e]; ha. destruct (is_exception e); ha; [apply ha_log_action|].
    destruct a0 as [[]|[]]; ha.
  - unfold end_coroutine, process_code. ha; [apply ha_run_as|]. destruct a0 as [[]|e]; ha. destruct (is_exception e); ha. apply ha_log_action.
Qed.
Lemma moves_return orc ms : forall w, exists w', do_moves orc ms w = (w', Returns tt).
Proof.
  induction ms as [|m ms IH]; intros w; cbn [do_moves]; [now exists w|]. unfold mbind, attempt.
  pose proof (ha_move orc m w) as H. destruct (do_move orc m w) as [w' [a|e|]]; [apply IH..|now destruct H].
Qed.
Lemma env_returns orc w : exists w', env orc w = (w', Returns tt) /\ cfgs w w'.
Proof.
  pose proof (steps_env (rs_calm _ _ cfgs_respects) orc (fun _ _ _ => I) w) as C.
  assert (K : exists w', env orc w = (w', Returns tt)) by (unfold env, mbind, ask; apply moves_return).
  destruct K as (w' & E). exists w'. split; [exact E|]. now rewrite E in C.
Qed.
Lemma env_foreign orc i w w' : env orc w = (w', Returns tt) -> foreign i w w'.
Proof. intros E. pose proof (fo_env orc i w) as H. now rewrite E in H. Qed.

Section Main.
Context (orc : oracle) (cf : config) (WR : forall k, o_write orc k = true) (n i : Z).
(** Up to the begin of the body *)
Lemma main_begins uid start w t : find_task n w = Some t -> unused i w ->
  let r := Run uid (Some i) start XMain Busy false false in
  exists w1, (modify (fun w => set_orphans (w_orphans w ++ [(n, r)]) w) ;; push_run n r ;; log_action orc false n ARun (Some i) 0 ;;
     modify (fun w => set_orphans (removelast (w_orphans w)) w)) w = (w1, Returns tt) /\
    w_log w1 = w_log w ++ [Rec n ARun (w_clock w) (Some i)] /\ unused i w1 /\ cfgs w w1 /\ status_of n w1 = Some ARun.
Proof using WR.
  intros F U r. set (w0 := set_orphans (w_orphans w ++ [(n, r)]) w).
  set (wp := on_task n (fun t => with_stack (t_stack t ++ [r]) t) w0).
  assert (Fp : exists tp, find_task n wp = Some tp).
  { unfold wp. rewrite find_on_task by reflexivity. change (find_task n w0) with (find_task n w). rewrite F. eexists. reflexivity. }
  destruct Fp as (tp & Fp). destruct (recorded orc n ARun (Some i) 0 wp tp Fp (WR _)) as (wl & E & L & St & [_ _ Ol Cl Tl]).
  assert (Cf : cfgs wp wl). { refine (steps_eq _ _ _ _ _ E). apply (steps_log_action (rs_calm _ _ cfgs_respects)). }
  assert (Ow : removelast (w_orphans wl) = w_orphans w).
  { rewrite Ol. unfold wp. change (w_orphans (on_task _ _ w0)) with (w_orphans w ++ [(n, r)]). apply removelast_last. }
  exists (set_orphans (removelast (w_orphans wl)) wl). split.
  { unfold push_run. unfold mbind at 1, modify at 1. unfold mbind at 1, modify at 1. rewrite (then_ok _ _ _ _ E). reflexivity. }
  split; [exact L|]. split; [|split; [|exact St]].
  - split; cbn [w_orphans set_orphans]; [|rewrite Ow; apply U].
    change (tracked (set_orphans _ wl)) with (tracked wl). rewrite Tl. intros r0 Hr K. unfold tracked, wp, on_task in Hr. cbn in Hr.
    rewrite in_concat_map in Hr. destruct Hr as (t0 & Ht & Hr). apply in_map_iff in Ht as (t1 & <- & Ht1).
    assert (D : In r0 (t_stack t1) \/ r0 = r).
    { destruct (t_name t1 =? n); [|now left]. cbn in Hr. apply in_app_or in Hr as [Hr|[Hr|[]]]; [now left|now right]. }
    destruct D as [D| ->]; [|now destruct K]. apply U; [|exact K]. apply in_concat_map. now exists t1.
  - unfold cfgs in *. cbn [w_tasks set_orphans]. rewrite Cf. exact (cfgs_on_task n (fun t => with_stack (t_stack t ++ [r]) t) w (fun _ => eq_refl)).
Qed.
Lemma foreign_logs w w' : foreign i w w' -> unused i w -> unused i w' /\ exists l, w_log w' = w_log w ++ l /\ Forall (fun r => r_run_id r <> Some i) l.
Proof using Type. intros H U. exact (H U). Qed.
Context (TD : forall k, tidy (o_script orc k)) (LV : forall k, ~ leaves_scheduler (s_exec (o_script orc k))).
Lemma main_launch fuel uid start w t : (forall k, s_setup (o_script orc k) = None) -> find_task n w = Some t -> unused i w ->
  exists w' l k c, launch orc fuel XMain n uid start i w = (w', Returns tt) /\
    w_log w' = w_log w ++ Rec n ARun (w_clock w) (Some i) :: l ++ [Rec n (classified (s_exec (o_script orc k))) c (Some i)] /\
    Forall (fun r => r_run_id r <> Some i) l.
Proof using WR TD LV.
  intros ST F U. destruct (main_begins uid start w t F U) as (w1 & E1 & L1 & U1 & C1 & _).
  destruct (env_returns orc w1) as (w2 & E2 & C2). destruct (foreign_logs _ _ (env_foreign orc i _ _ E2) U1) as [U2 (l2 & L2 & F2)].
  set (s := o_script orc (w_tick w2)). destruct (env_returns orc (bump w2)) as (w3 & E3 & C3).
  destruct (foreign_logs _ _ (env_foreign orc i _ _ E3) U2) as [U3 (l3 & L3 & F3)].
  assert (Fi : exists t3, find_task n w3 = Some t3).
  { destruct (cfgs_find n w w1 t C1 F) as (t1 & F1 & _). destruct (cfgs_find n w1 w2 t1 C2 F1) as (t2 & F2' & _).
    destruct (cfgs_find n (bump w2) w3 t2 C3 F2') as (t3 & F3' & _). now exists t3. }
  destruct Fi as (t3 & Ft3). destruct (body_ends orc (Some XMain) n (Some i) s w3 t3 Ft3 (WR _) (TD _) (LV _) ltac:(discriminate)) as (w4 & E4 & [L4 _] & _).
  exists w4, (l2 ++ l3), (w_tick w2), (w_clock w3). split; [|split].
  - cbn [launch]. set (r := Run _ _ _ _ _ _ _) in *. apply bind_returns in E1 as (v1 & [] & X1 & E1). rewrite (bind_to _ _ _ _ _ X1).
    apply bind_returns in E1 as (v2 & [] & X2 & E1). rewrite (bind_to _ _ _ _ _ X2). apply bind_returns in E1 as (v3 & [] & X3 & E1). rewrite (bind_to _ _ _ _ _ X3).
    rewrite (bind_to _ _ _ _ _ E1). rewrite (bind_to _ _ _ _ _ E2).
    assert (X5 : ask (o_script orc) w2 = (bump w2, Returns s)) by reflexivity. rewrite (bind_to _ _ _ _ _ X5).
    assert (X6 : run_setup s (bump w2) = (bump w2, Returns tt)) by (unfold run_setup, s; now rewrite ST). rewrite (bind_to _ _ _ _ _ X6).
    now rewrite (bind_to _ _ _ _ _ E3).
  - rewrite L4, L3. change (w_log (bump w2)) with (w_log w2). rewrite L2, L1. fold s. now rewrite <- !app_assoc.
  - apply Forall_app. now split.
Qed.
End Main.

(** Before the branches *)
Section Prelude.
Context (orc : oracle) (cf : config) (n i : Z) (fuel : nat) (w : world) (t : task) (F : find_task n w = Some t).
Context (PR : o_prep orc (w_tick w) = None) (RI : o_run_id orc (S (w_tick w)) = Ok i).
Lemma prelude w3 : (forall w2 t2, find_task n w2 = Some t2 -> (unused i w -> unused i w2) -> w_log w2 = w_log w -> w_clock w2 = w_clock w ->
    tracked w2 = tracked w -> w_tick w2 = S (S (w_tick w)) ->
    w3 w2 = fst (launch orc fuel (get_execution cf t) n (w_uid w) (w_clock w) i w2) /\
    snd (launch orc fuel (get_execution cf t) n (w_uid w) (w_clock w) i w2) = Returns tt) ->
  exists w2 t2, find_task n w2 = Some t2 /\ (unused i w -> unused i w2) /\ w_log w2 = w_log w /\ w_clock w2 = w_clock w /\
    tracked w2 = tracked w /\ w_tick w2 = S (S (w_tick w)) /\
    start_async orc cf fuel n w =
     (on_task n (fun t => with_stack (filter (fun r => negb (exec_eqb (rn_kind r) XMain)) (t_stack t)) t) (w3 w2), Returns tt).
Proof using F PR RI.
  intros HL. unfold start_async.
  assert (E0 : get_task n w = (w, Returns t)) by (unfold get_task; now rewrite F). rewrite (bind_to _ _ _ _ _ E0).
  unfold mbind at 1, get at 1. unfold mbind at 1, get at 1. unfold mbind at 1, modify at 1. unfold mbind at 1, modify at 1.
  set (w1 := emit (EvStart n (w_uid w)) (set_uid (S (w_uid w)) w)).
  assert (G : exists w2 t2, (e <- ask (o_prep orc) ;; raise_if e ;; get_direct_params n ;; get_run_id orc) w1 = (w2, Returns i) /\
     find_task n w2 = Some t2 /\ (unused i w -> unused i w2) /\ w_log w2 = w_log w /\ w_clock w2 = w_clock w /\ tracked w2 = tracked w /\ w_tick w2 = S (S (w_tick w))).
  { assert (A1 : ask (o_prep orc) w1 = (bump w1, Returns None)) by (unfold ask; change (w_tick w1) with (w_tick w); now rewrite PR).
    rewrite (bind_to _ _ _ _ _ A1). cbn [raise_if]. rewrite (bind_to (ret tt) _ _ (bump w1) tt eq_refl).
    assert (D : exists wd td, get_direct_params n (bump w1) = (wd, Returns tt) /\ find_task n wd = Some td /\ tracked wd = tracked w /\ w_orphans wd = w_orphans w /\
      w_log wd = w_log w /\ w_clock wd = w_clock w /\ w_tick wd = S (w_tick w)).
    { assert (E0' : get_task n (bump w1) = (bump w1, Returns t)) by (unfold get_task; change (find_task n (bump w1)) with (find_task n w); now rewrite F).
      unfold get_direct_params. rewrite (bind_to _ _ _ _ _ E0'). destruct (t_batches t) as [|p rest].
      - eexists _, t. split; [reflexivity|]. split; [exact F|]. now repeat split.
      - eexists _, (with_batches rest t). split; [reflexivity|]. split; [|split; [|now repeat split]].
        + change (find_task n (on_task n (with_batches rest) w) = Some (with_batches rest t)). rewrite find_on_task by reflexivity. rewrite F. cbn [option_map].
          now rewrite (find_name _ _ _ F), Z.eqb_refl.
        + change (tracked (on_task n (with_batches rest) w) = tracked w). now apply tracked_on_task. }
    destruct D as (wd & td & Ed & Fd & Tr & Or & Ld & Cd & Td). rewrite (bind_to _ _ _ _ _ Ed). exists (bump wd), td. split; [|split; [exact Fd|]; split; [|repeat split; auto]].
    - unfold get_run_id, mbind. change (ask (o_run_id orc) wd) with (bump wd, Returns (o_run_id orc (w_tick wd))). cbv iota. rewrite Td, RI. reflexivity.
    - intros U. unfold unused. change (tracked (bump wd)) with (tracked wd). change (w_orphans (bump wd)) with (w_orphans wd). rewrite Tr, Or. exact U.
    - cbn. now rewrite Td. }
  destruct G as (w2 & t2 & E2 & F2 & U2 & L2 & C2 & T2 & K2). destruct (HL w2 t2 F2 U2 L2 C2 T2 K2) as [Ew Eo].
  exists w2, t2. do 6 (split; [assumption|]). eapply finally_ok; [|reflexivity]. rewrite (bind_to _ _ _ _ _ (attempt_ok _ _ _ _ E2)). cbv iota.
  rewrite (bind_to _ _ (w2) (w3 w2) (Ok tt)); [reflexivity|]. unfold attempt.
  destruct (launch orc fuel (get_execution cf t) n (w_uid w) (w_clock w) i w2) as [w4 o]. cbn in Ew, Eo. now rewrite Ew, Eo.
Qed.
Lemma executes_eq x : executes cf t x -> get_execution cf t = x.
Proof using Type. unfold get_execution, executes. now destruct (tc_exec (t_cfg t)). Qed.
Lemma main_one : (forall k, o_write orc k = true) -> (forall k, tidy (o_script orc k)) -> (forall k, ~ leaves_scheduler (s_exec (o_script orc k))) ->
  (forall k, s_setup (o_script orc k) = None) -> executes cf t XMain -> unused i w ->
  exists w' l k c, start_async orc cf fuel n w = (w', Returns tt) /\
    w_log w' = w_log w ++ Rec n ARun (w_clock w) (Some i) :: l ++ [Rec n (classified (s_exec (o_script orc k))) c (Some i)] /\
    Forall (fun r => r_run_id r <> Some i) l.
Proof using F PR RI.
  intros WR TD LV ST X U. destruct (prelude (fun w2 => fst (launch orc fuel XMain n (w_uid w) (w_clock w) i w2))) as (w2 & t2 & F2 & U2 & L2 & C2 & _ & _ & E).
  { intros w2 t2 F2 U2 _ _ _ _. rewrite (executes_eq _ X). split; [reflexivity|].
    destruct (main_launch orc WR n i TD LV fuel (w_uid w) (w_clock w) w2 t2 ST F2 (U2 U)) as (w3 & l & k & c & E3 & _). now rewrite E3. }
  destruct (main_launch orc WR n i TD LV fuel (w_uid w) (w_clock w) w2 t2 ST F2 (U2 U)) as (w3 & l & k & c & E3 & L3 & Fl). rewrite E3 in E.
  eexists _, l, k, c. split; [exact E|]. split; [|exact Fl]. cbn [fst w_log on_task set_tasks]. rewrite <- L2, <- C2. exact L3.
Qed.
Lemma async_starts : (forall k, o_write orc k = true) -> executes cf t XAsync ->
  exists w', start_async orc cf fuel n w = (w', Returns tt) /\ w_log w' = w_log w ++ [Rec n ARun (w_clock w) (Some i)] /\
    In (Run (w_uid w) (Some i) (w_clock w) XAsync Pending false false) (tracked w').
Proof using F PR RI.
  intros WR X. set (r := Run (w_uid w) (Some i) (w_clock w) XAsync Pending false false).
  assert (K : forall w2 t2, find_task n w2 = Some t2 -> exists w3, launch orc fuel XAsync n (w_uid w) (w_clock w) i w2 = (w3, Returns tt) /\
    w_log w3 = w_log w2 ++ [Rec n ARun (w_clock w2) (Some i)] /\ In r (tracked w3)).
  { intros w2 t2 F2. set (wp := on_task n (fun t => with_stack (t_stack t ++ [r]) t) w2).
    assert (Fp : find_task n wp = Some (with_stack (t_stack t2 ++ [r]) t2)).
    { unfold wp. rewrite find_on_task by reflexivity. rewrite F2. cbn [option_map]. now rewrite (find_name _ _ _ F2), Z.eqb_refl. }
    destruct (recorded orc n ARun (Some i) 0 wp _ Fp (WR _)) as (wl & E & L & _ & [_ _ _ _ Tl]). exists wl. split; [exact E|]. split; [exact L|].
    rewrite Tl. apply in_concat_map. eexists. split; [apply find_some in Fp as [Fp _]; exact Fp|]. cbn. apply in_or_app. right. now left. }
  destruct (prelude (fun w2 => fst (launch orc fuel XAsync n (w_uid w) (w_clock w) i w2))) as (w2 & t2 & F2 & U2 & L2 & C2 & _ & _ & E).
  { intros w2 t2 F2 _ _ _ _ _. rewrite (executes_eq _ X). split; [reflexivity|]. destruct (K w2 t2 F2) as (w3 & E3 & _). now rewrite E3. }
  destruct (K w2 t2 F2) as (w3 & E3 & L3 & I3). rewrite E3 in E. eexists. split; [exact E|]. split.
  - cbn [fst w_log on_task set_tasks]. rewrite <- L2, <- C2. exact L3.
  - cbn [fst]. apply in_concat_map in I3 as (t3 & Ht & Hr). apply in_concat_map. eexists. split; [apply in_map; exact Ht|].
    cbv beta. destruct (t_name t3 =? n); [|exact Hr]. cbn. apply filter_In. now split.
Qed.
End Prelude.
(** The end of an asynchronous run *)
Lemma find_run_task u w t r : find_run u w = Some (t, r) -> In t (w_tasks w).
Proof.
  unfold find_run. destruct (task_of_run u w) as [t0|] eqn:E; [|discriminate].
  destruct (find _ (t_stack t0)) as [r0|]; [|discriminate]. cbn. intros H; injection H as <- <-. now apply find_some in E.
Qed.
Lemma async_ends orc u s w t r : find_run u w = Some (t, r) -> rn_kind r = XAsync -> rn_phase r = Busy -> o_write orc (w_tick w) = true ->
  tidy s -> ~ leaves_scheduler (s_exec s) ->
  exists w', do_move orc (MLeave u s) w = (w', Returns tt) /\
    w_log w' = w_log w ++ [Rec (t_name t) (classified (s_exec s)) (w_clock w) (rn_id r)] /\ ~ live_in w' u.
Proof.
  intros F K P O T L. assert (Ft : exists t', find_task (t_name t) w = Some t').
  { assert (In t (w_tasks w)) by (eapply find_run_task; exact F). unfold find_task.
    destruct (find (fun t0 => t_name t0 =? t_name t) (w_tasks w)) eqn:E; [now eexists|].
    apply (find_none _ _ E) in H. now rewrite Z.eqb_refl in H. }
  destruct Ft as (t' & Ft). destruct (body_ends orc (Some XAsync) (t_name t) (rn_id r) s w t' Ft O T L ltac:(discriminate)) as (w1 & E & [Lg _] & _).
  exists (on_run u (with_phase (Over None)) w1). split; [|split; [exact Lg|]].
  - cbn [do_move]. unfold mbind at 1, get at 1. rewrite F. unfold is_busy. rewrite K, P. cbn [exec_eqb andb]. unfold end_coroutine.
    now rewrite (bind_to _ _ _ _ _ (attempt_ok _ _ _ _ E)).
  - intros (r0 & Hr & Hu & Hl). unfold tracked, on_run in Hr. cbn in Hr. apply in_concat_map in Hr as (t0 & Ht & Hr).
    apply in_map_iff in Ht as (t1 & <- & _). cbn in Hr. apply in_map_iff in Hr as (r1 & <- & _).
    destruct (Nat.eqb_spec (rn_uid r1) u) as [Y|Y]; cbn in Hu; [|congruence]. discriminate Hl.
Qed.
