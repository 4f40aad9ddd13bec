(** Nothing is left running, and what the tasks remember. *)
From Coq Require Import ZArith List Bool Arith Lia Permutation.
From Verif Require Import Model.Base Model.History Model.Dynamic Spec.DynamicSpec Proofs.DynamicProofs Proofs.DynamicStart Proofs.DynamicCycle Proofs.DynamicOrder.
Import ListNotations.
Open Scope nat_scope.

Lemma wait_dead orc n b : forall w w', dwait orc n b w = (w', Returns tt) -> any_alive w' = false.
Proof.
  induction n as [|n IH]; cbn [dwait]; intros w w' H; [discriminate|].
  unfold dbind at 1, dget at 1 in H. destruct (any_alive w) eqn:A; [|injection H as <-; exact A].
  apply bind_returns in H. destruct H as (w1 & [] & _ & H). apply bind_returns in H. destruct H as (w2 & [] & _ & H). exact (IH _ _ H).
Qed.
Lemma logs_live w w' r : dhandle_logs w = (w', r) -> live_after (dw_trace w) = [] -> live_after (dw_trace w') = [].
Proof.
  intros E L.
  assert (H : hold (fun w => live_after (dw_trace w) = []) (fun _ => True) dhandle_logs).
  { apply (p_handle_logs (fun (_ : unit) w => live_after (dw_trace w) = []) (fun _ => True)); [| |exact tt].
    - intros c w1 q rs i H _ _. destruct (noted_view i q rs w1) as (_ & _ & T & _). rewrite T, live_app. exact H.
    - intros c w1 q rs H _ _. split; [exact H|exact I]. }
  destruct (H w L) as [K _]. rewrite E in K. exact K.
Qed.
Lemma finally_returns m f w w' : dfinally m f w = (w', Returns tt) -> exists w1, (exists r, m w = (w1, r)) /\ f w1 = (w', Returns tt).
Proof.
  unfold dfinally, dattempt. unfold dbind at 1. destruct (m w) as [w1 [[]|e|]]; intros H; [| |discriminate].
  - apply bind_returns in H. destruct H as (w2 & [] & H & [= <-]). exists w1. split; [eexists; reflexivity|exact H].
  - apply bind_returns in H. destruct H as (w2 & [] & H & K). discriminate.
Qed.
Lemma orderly_all_over orc cf n w w' : outset w -> orderly orc -> dserve orc cf n w = (w', Returns tt) -> live_after (dw_trace w') = [].
Proof.
  intros O OR E. apply serve_returns in E. destruct E as (w1 & w2 & E1 & E2 & E3).
  assert (F : forall e : exn, False -> False) by auto.
  assert (H0 : QQ (OQ cf) (dset_down false w)) by (exists tt; apply (o_like cf tt w); [repeat split|apply outset_OQ; exact O]).
  assert (H1 : QQ (OQ cf) w1).
  { assert (A : at_ (QQ (OQ cf)) (fun _ => False) (dstartup orc cf (dset_down false w))).
    { apply (p_startup orc cf (OQ cf) (fun _ _ => True) (fun _ => False)); eauto using o_like, o_move_, o_pop, o_lost, o_judge, o_start, o_note, o_kill, o_consider, o_order, o_phase, o_cached. }
    rewrite E1 in A. apply A. }
  assert (H2 : QQ (OQ cf) w2).
  { assert (A : at_ (QQ (OQ cf)) (fun _ => False) (dloop orc cf n w1)).
    { apply (p_loop orc cf (OQ cf) (fun _ _ => True) (fun _ => False)); eauto using o_like, o_move_, o_pop, o_lost, o_judge, o_start, o_note, o_kill, o_consider, o_order, o_phase. }
    rewrite E2 in A. apply A. }
  unfold dshut_down in E3. apply finally_returns in E3. destruct E3 as (w3 & (r & E3) & E4).
  assert (H3 : QQ (OQ cf) w3).
  { assert (A : at_ (QQ (OQ cf)) (fun _ => False) (dfinally (dlast orc cf) (dend_tasks orc cf n false) w2)).
    { apply h_finally; [| |exact H2].
      - apply (p_last orc cf (OQ cf) (fun _ _ => True) (fun _ => False)); eauto using o_like, o_move_, o_pop, o_lost, o_judge, o_start, o_note, o_kill, o_consider, o_order, o_phase.
      - apply (h_ex (OQ cf)). intros c. apply (p_end_tasks orc cf (OQ cf) (fun _ => False)); eauto using o_like, o_move_, o_pop, o_lost, o_kill. }
    rewrite E3 in A. apply A. }
  apply bind_returns in E4. destruct E4 as (w4 & [] & E4 & E5).
  assert (H4 : QQ (OQ cf) w4).
  { assert (A : at_ (QQ (OQ cf)) (fun _ => False) (dwait orc n false w3)).
    { apply (h_ex (OQ cf)); [|exact H3]. intros c. apply (p_wait orc (OQ cf) (fun _ => False)); eauto using o_like, o_move_, o_pop, o_lost, o_kill. }
    rewrite E4 in A. apply A. }
  destruct H4 as (c & H4 & _). apply (logs_live _ _ _ E5). apply alive_live; [exact H4|]. exact (wait_dead _ _ _ _ _ E4).
Qed.

(** ** What the tasks remember *)
Definition hits (name : Z) (a : action) (r : record) : Prop := r_task r = name /\ r_action r = a.
Lemma action_eqb_eq a b : action_eqb a b = true <-> a = b.
Proof. destruct a, b; cbn; split; intros H; try discriminate; reflexivity. Qed.
Lemma last_filter {A} (f : A -> bool) l :
  match last_of (filter f l) with
  | None => forall r, In r l -> f r = false
  | Some r => exists p q, l = p ++ r :: q /\ f r = true /\ forall r', In r' q -> f r' = false
  end.
Proof.
  induction l as [|x l IH] using rev_ind; [intros r []|]. rewrite filter_app. cbn [filter]. unfold last_of in *. destruct (f x) eqn:E.
  - rewrite rev_app_distr. cbn. exists l, []. split; [reflexivity|]. split; [exact E|intros r []].
  - rewrite app_nil_r. destruct (rev (filter f l)) as [|r t].
    + intros r H. apply in_app_or in H. destruct H as [H|[<- |[]]]; [apply IH; exact H|exact E].
    + destruct IH as (p & q & -> & F & G). exists p, (q ++ [x]). rewrite <- app_assoc. split; [reflexivity|]. split; [exact F|].
      intros r' H. apply in_app_or in H. destruct H as [H|[<- |[]]]; [apply G; exact H|exact E].
Qed.
Lemma log_remembers l name s : remembers name (TState (last_from_log l name) s) l.
Proof.
  intros a. cbn [ts_last]. unfold last_from_log, get_latest, filter_by.
  assert (HF : forall r, ((r_task r =? name)%Z && action_in [a] r) = true <-> r_task r = name /\ r_action r = a).
  { intros r. unfold action_in. cbn. rewrite orb_false_r, andb_true_iff, Z.eqb_eq, action_eqb_eq. reflexivity. }
  pose proof (last_filter (fun r => (r_task r =? name)%Z && action_in [a] r) l) as F.
  destruct (last_of _) as [r|]; cbn [option_map].
  - destruct F as (p & q & E & X & Y). apply HF in X. exists p, r, q. repeat split; try tauto. intros r' Hr' K. apply HF in K. rewrite (Y r' Hr') in K. discriminate.
  - intros r Hr K. apply HF in K. rewrite (F r Hr) in K. discriminate.
Qed.
Lemma remembers_own name st l a t s : remembers name st l -> remembers name (TState (set_last (ts_last st) a (Some t)) s) (l ++ [Rec name a t None]).
Proof.
  intros H b. cbn [ts_last]. unfold set_last. destruct (action_eqb a b) eqn:E.
  - apply action_eqb_eq in E. subst b. exists l, (Rec name a t None), []. repeat split. intros r [].
  - assert (N : a <> b) by (intros X; apply action_eqb_eq in X; congruence). specialize (H b). destruct (ts_last st b) as [u|].
    + destruct H as (p & r & q & -> & H1 & H2 & H3 & H4). exists p, r, (q ++ [Rec name a t None]). rewrite <- app_assoc. repeat split; try assumption.
      intros r' X. apply in_app_or in X. destruct X as [X|[<- |[]]]; [apply H4; exact X|]. cbn. tauto.
    + intros r X. apply in_app_or in X. destruct X as [X|[<- |[]]]; [apply H; exact X|]. cbn. tauto.
Qed.
Lemma remembers_other name name' st l a t : name <> name' -> remembers name st l -> remembers name st (l ++ [Rec name' a t None]).
Proof.
  intros N H b. specialize (H b). destruct (ts_last st b) as [u|].
  - destruct H as (p & r & q & -> & H1 & H2 & H3 & H4). exists p, r, (q ++ [Rec name' a t None]). rewrite <- app_assoc. repeat split; try assumption.
    intros r' X. apply in_app_or in X. destruct X as [X|[<- |[]]]; [apply H4; exact X|]. cbn. intros [K _]. congruence.
  - intros r X. apply in_app_or in X. destruct X as [X|[<- |[]]]; [apply H; exact X|]. cbn. intros [K _]. congruence.
Qed.

Definition ctx : Type := (list nat * nat)%type.
Record HQ (c : ctx) (w : dworld) : Prop := {
  h_len : snd c <= length (dw_objs w);
  h_names : forall i j, i < length (dw_objs w) -> j < length (dw_objs w) -> do_name (obj i w) = do_name (obj j w) -> i = j;
  h_mem : forall i, i < length (dw_objs w) -> ~ In i (fst c) -> remembers (do_name (obj i w)) (do_state (obj i w)) (dw_log w);
  h_valid : forall i, In i (dw_members w) -> i < length (dw_objs w);
  h_judge : forall i st l, In (DJudge i st l) (dw_trace w) -> i < length (dw_objs w) /\ remembers (do_name (obj i w)) st l }.
Definition hmay (c : ctx) (i : nat) : Prop := ~ In i (fst c) /\ i < snd c.

(** nothing of what is remembered changes *)
Lemma HQ_same c w w' : length (dw_objs w') = length (dw_objs w) ->
  (forall i, i < length (dw_objs w) -> do_name (obj i w') = do_name (obj i w) /\ do_state (obj i w') = do_state (obj i w)) ->
  dw_log w' = dw_log w -> (forall i, In i (dw_members w') -> i < length (dw_objs w)) ->
  (forall i st l, In (DJudge i st l) (dw_trace w') -> In (DJudge i st l) (dw_trace w)) -> HQ c w -> HQ c w'.
Proof.
  intros L O G M T [H1 H2 H3 H4 H5]. constructor; rewrite ?L.
  - exact H1.
  - intros i j A B. rewrite (proj1 (O i A)), (proj1 (O j B)). apply H2; assumption.
  - intros i A. rewrite (proj1 (O i A)), (proj2 (O i A)), G. apply H3. exact A.
  - exact M.
  - intros i st l X. destruct (H5 i st l (T _ _ _ X)) as [A B]. split; [exact A|]. rewrite (proj1 (O i A)). exact B.
Qed.
Lemma in_snoc {A} (x e : A) l : In x (l ++ [e]) -> x <> e -> In x l.
Proof. intros H N. apply in_app_or in H. destruct H as [H|[H|[]]]; [exact H|congruence]. Qed.
Lemma HQ_note c i a t w : HQ c w -> HQ c (note i a t w).
Proof.
  intros H. unfold note. destruct (nth_error (dw_objs w) i) as [o|] eqn:E; [|exact H]. apply nth_error_obj in E. destruct E as [L E].
  cbn [set_status fst snd]. set (st := TState (set_last (ts_last (do_state o)) a (Some t)) (Some a)). cbn zeta iota beta.
  assert (OB : forall j, obj j (on_obj i (with_dstate st) w) = if j =? i then with_dstate st (obj j w) else obj j w).
  { intros j. rewrite obj_on. apply Nat.ltb_lt in L. rewrite L, andb_true_r. reflexivity. }
  assert (NM : forall j, do_name (obj j (on_obj i (with_dstate st) w)) = do_name (obj j w)) by (intros j; rewrite OB; destruct (j =? i); reflexivity).
  destruct H as [H1 H2 H3 H4 H5]. constructor.
  - cbn. rewrite update_length. exact H1.
  - intros j1 j2. cbn [dset_log dw_objs on_obj dset_objs]. rewrite !update_length. change (obj ?x (dset_log ?l ?y)) with (obj x y). rewrite !NM. apply H2.
  - intros j. cbn [dset_log dw_objs on_obj dset_objs dw_log]. rewrite update_length. change (obj j (dset_log ?l ?y)) with (obj j y). intros Lj Hj. rewrite NM, OB. specialize (H3 j Lj Hj).
    destruct (j =? i) eqn:X.
    + apply Nat.eqb_eq in X. subst j. cbn [with_dstate do_state]. rewrite E in *. apply remembers_own. exact H3.
    + apply remembers_other; [|exact H3]. intros Y. rewrite <- E in Y. apply (H2 j i Lj L) in Y. apply Nat.eqb_neq in X. contradiction.
  - intros j X. cbn. rewrite update_length. apply H4. exact X.
  - intros j s l X. cbn [dset_log dw_objs on_obj dset_objs]. rewrite update_length. change (obj j (dset_log ?y ?z)) with (obj j z). rewrite NM. apply H5. exact X.
Qed.
Lemma HQ_cached i l b w : HQ (i :: l, b) w -> HQ (l, b) (dcached i w).
Proof.
  intros H. unfold dcached. destruct (nth_error (dw_objs w) i) as [o|] eqn:E.
  2:{ apply nth_error_no in E. destruct E as [L _]. destruct H as [H1 H2 H3 H4 H5]. constructor; auto. intros j Lj Hj. apply H3; [exact Lj|]. intros [<- |X]; [lia|exact (Hj X)]. }
  apply nth_error_obj in E. destruct E as [L E].
  assert (S1 : exists st lg, set_cached (do_state o) (dw_log w) (do_name o) (dw_clock w) (dw_clock w) true = (st, lg, Ok tt) /\
             remembers (do_name o) st lg /\ forall n s, n <> do_name o -> remembers n s (dw_log w) -> remembers n s lg).
  { unfold set_cached. pose proof (log_remembers (dw_log w) (do_name o)) as R. destruct (max_action _ _ _) as [[x t]|].
    - destruct x.
      + cbn [set_status]. eexists _, _. split; [reflexivity|]. split; [apply remembers_own; apply R|]. intros n s N K. apply remembers_other; assumption.
      + eexists _, _. split; [reflexivity|]. split; [apply R|auto].
      + eexists _, _. split; [reflexivity|]. split; [apply R|auto].
      + eexists _, _. split; [reflexivity|]. split; [apply R|auto].
      + eexists _, _. split; [reflexivity|]. split; [apply R|auto].
      + eexists _, _. split; [reflexivity|]. split; [apply R|auto].
    - eexists _, _. split; [reflexivity|]. split; [apply R|auto]. }
  destruct S1 as (st & lg & -> & R1 & R2).
  assert (OB : forall j, obj j (on_obj i (with_dstate st) w) = if j =? i then with_dstate st (obj j w) else obj j w).
  { intros j. rewrite obj_on. apply Nat.ltb_lt in L. rewrite L, andb_true_r. reflexivity. }
  assert (NM : forall j, do_name (obj j (on_obj i (with_dstate st) w)) = do_name (obj j w)) by (intros j; rewrite OB; destruct (j =? i); reflexivity).
  destruct H as [H1 H2 H3 H4 H5]. constructor.
  - cbn. rewrite update_length. exact H1.
  - intros j1 j2. cbn [dset_log dw_objs on_obj dset_objs]. rewrite !update_length. change (obj ?x (dset_log ?y ?z)) with (obj x z). rewrite !NM. apply H2.
  - intros j. cbn [dset_log dw_objs on_obj dset_objs dw_log fst]. rewrite update_length. change (obj j (dset_log ?y ?z)) with (obj j z). intros Lj Hj. rewrite NM, OB.
    destruct (j =? i) eqn:X.
    + apply Nat.eqb_eq in X. subst j. cbn [with_dstate do_state]. rewrite E. exact R1.
    + apply Nat.eqb_neq in X. apply R2; [|apply H3; [exact Lj|intros [Y|Y]; [congruence|exact (Hj Y)]]]. rewrite <- E. intros Y. exact (X (H2 j i Lj L Y)).
  - intros j X. cbn. rewrite update_length. apply H4. exact X.
  - intros j s k X. cbn [dset_log dw_objs on_obj dset_objs]. rewrite update_length. change (obj j (dset_log ?y ?z)) with (obj j z). rewrite NM. apply H5. exact X.
Qed.

Section Memory.
Context (orc : doracle) (cf : dconfig) (NN : new_names orc).
Notation any := (fun _ : exn => True).
Lemma m_like c w w' : alike w w' -> HQ c w -> HQ c w'.
Proof using.
  intros (A1 & A2 & A3 & A4 & A5 & _) [H1 H2 H3 H4 H5]. constructor; unfold obj in *; rewrite ?A1, ?A2, ?A4, ?A5; assumption.
Qed.
Lemma HQ_runs c i f w : (forall o, do_name (f o) = do_name o /\ do_state (f o) = do_state o) -> HQ c w -> HQ c (on_obj i f w).
Proof using.
  intros F H. pose proof (h_valid c w H) as V. revert H. apply HQ_same; auto.
  - cbn. apply update_length.
  - intros j _. rewrite obj_on. destruct (_ && _); [apply F|split; reflexivity].
Qed.
Lemma HQ_emit c e w : (forall i st l, e <> DJudge i st l) -> HQ c w -> HQ c (demit e w).
Proof using.
  intros N H. pose proof (h_valid c w H) as V. revert H. apply HQ_same; auto. intros i st l X. apply in_snoc in X; [exact X|]. intros K. exact (N i st l (eq_sym K)).
Qed.
Lemma HQ_queue c q w : HQ c w -> HQ c (dset_queue q w).
Proof using. intros [H1 H2 H3 H4 H5]. constructor; assumption. Qed.
Lemma HQ_members c m w : (forall i, In i m -> i < length (dw_objs w)) -> HQ c w -> HQ c (dset_members m w).
Proof using. intros M [H1 H2 H3 H4 H5]. constructor; assumption. Qed.
Lemma m_move c k w : HQ c w -> HQ c (do_move (o_move orc k w) w).
Proof using NN.
  intros H. specialize (NN k w). pose proof (h_valid c w H) as V. destruct (o_move orc k w) as [d|n kd p u d|i|i|i b|i u e|]; cbn [do_move].
  - revert H. apply m_like. repeat split.
  - destruct (by_name n w); [exact H|]. destruct NN as [N1 N2]. unfold dadd. set (o := DObj n kd p u d false fresh_state []).
    apply HQ_emit; [discriminate|]. apply HQ_members.
    { intros i X. cbn. rewrite app_length. cbn. apply in_app_or in X. destruct X as [X|[<- |[]]]; [specialize (V i X); lia|lia]. }
    assert (OB : forall j, j < S (length (dw_objs w)) -> obj j (dset_objs (dw_objs w ++ [o]) w) = if j =? length (dw_objs w) then o else obj j w).
    { intros j L. unfold obj. cbn. destruct (j =? length (dw_objs w)) eqn:E.
      - apply Nat.eqb_eq in E. rewrite E, app_nth2, Nat.sub_diag by lia. reflexivity.
      - apply Nat.eqb_neq in E. rewrite app_nth1 by lia. reflexivity. }
    assert (FR : forall j, j < length (dw_objs w) -> do_name (obj j w) <> n) by (intros j L; apply N1; apply nth_In; exact L).
    destruct H as [H1 H2 H3 H4 H5]. constructor.
    + cbn. rewrite app_length. lia.
    + intros j1 j2. cbn [dset_objs dw_objs]. rewrite app_length. cbn [length]. rewrite Nat.add_1_r. intros L1 L2. rewrite (OB j1 L1), (OB j2 L2).
      destruct (j1 =? length (dw_objs w)) eqn:E1, (j2 =? length (dw_objs w)) eqn:E2; rewrite ?Nat.eqb_eq, ?Nat.eqb_neq in *; cbn [o do_name].
      * congruence.
      * intros X. exfalso. apply (FR j2); [lia|congruence].
      * intros X. exfalso. apply (FR j1); [lia|congruence].
      * apply H2; lia.
    + intros j. cbn [dset_objs dw_objs dw_log]. rewrite app_length. cbn [length]. rewrite Nat.add_1_r. intros L K. rewrite (OB j L). destruct (j =? length (dw_objs w)) eqn:E1; rewrite ?Nat.eqb_eq, ?Nat.eqb_neq in *.
      * intros a. cbn. intros r Hr [X _]. exact (N2 r Hr X).
      * apply H3; [lia|exact K].
    + intros i X. cbn. rewrite app_length. cbn. specialize (H4 i X). lia.
    + intros i st l X. destruct (H5 i st l X) as [A B]. cbn [dset_objs dw_objs]. rewrite app_length. cbn [length]. rewrite (OB i ltac:(lia)).
      destruct (i =? length (dw_objs w)) eqn:E; [apply Nat.eqb_eq in E; lia|]. split; [lia|exact B].
  - destruct (Nat.ltb i (length (dw_objs w))) eqn:L; [|exact H]. destruct (by_name _ w); [exact H|]. apply HQ_emit; [discriminate|]. apply HQ_members; [|exact H].
    intros j X. apply in_app_or in X. destruct X as [X|[<- |[]]]; [apply V; exact X|apply Nat.ltb_lt; exact L].
  - destruct (existsb _ _); [|exact H]. apply HQ_emit; [discriminate|]. apply HQ_members; [|exact H]. intros j X. apply filter_In in X. apply V. apply X.
  - apply HQ_runs; [intros o; split; reflexivity|exact H].
  - destruct (going i u w); [|exact H].
    assert (H1 : HQ c (demit (DOver i u) (on_obj i (fun o => with_druns (end_run u (do_runs o)) o) w))).
    { apply HQ_emit; [discriminate|]. apply HQ_runs; [intros o; split; reflexivity|exact H]. }
    destruct (is_process (obj i w)); [apply HQ_queue; exact H1|apply HQ_note; exact H1].
  - revert H. apply m_like. repeat split.
Qed.
Lemma m_pop c w r q i : HQ c w -> dw_queue w = r :: q -> by_name (q_name r) w = Some i -> HQ c (noted i r q w).
Proof using. intros H _ _. unfold noted. apply HQ_emit; [discriminate|]. apply HQ_note. apply HQ_queue. exact H. Qed.
Lemma m_lost c w r q : HQ c w -> dw_queue w = r :: q -> by_name (q_name r) w = None -> HQ c (dset_queue q w) /\ True.
Proof using. intros H _ _. split; [apply HQ_queue; exact H|exact I]. Qed.
Lemma m_order c w q : Permutation (dw_queue w) q -> HQ c w -> HQ c (dset_queue q w).
Proof using. intros _. apply HQ_queue. Qed.
Lemma m_judge c i w : hmay c i -> HQ c w -> HQ c (judged i w).
Proof using.
  intros [M1 M2] [H1 H2 H3 H4 H5]. constructor; auto. intros j st l X. apply in_app_or in X. destruct X as [X|[X|[]]]; [apply H5; exact X|].
  injection X as <- <- <-. assert (L : i < length (dw_objs w)) by lia. split; [exact L|]. apply H3; assumption.
Qed.
Lemma m_start c i w : hmay c i -> HQ c w -> drunnable cf i w = true -> HQ c (enqueued i (push_run i w)).
Proof using.
  intros _ H _.
  assert (P : HQ c (push_run i w)).
  { unfold push_run. apply HQ_emit; [discriminate|].
    assert (X : forall w1, HQ c w1 -> HQ c (dset_uid (S (dw_uid w)) w1)) by (intros w1 [H1 H2 H3 H4 H5]; constructor; assumption).
    apply X. destruct (do_kind (obj i w)); [exact H| |]; apply HQ_runs; try exact H; intros o; split; reflexivity. }
  unfold enqueued. destruct (do_kind _); [exact P|exact P|apply HQ_queue; exact P].
Qed.
Lemma m_note c i a t w : HQ c w -> HQ c (note i a t w).
Proof using. apply HQ_note. Qed.
Lemma m_kill c i r w : HQ c w -> HQ c (kill_run i w r).
Proof using.
  intros H. unfold kill_run. destruct (dr_alive r); [|exact H]. apply HQ_note. apply HQ_emit; [discriminate|]. apply HQ_runs; [intros o; split; reflexivity|exact H].
Qed.
Lemma m_consider c i w : hmay c i -> HQ c w -> HQ c (demit (DConsider i) w).
Proof using. intros _. apply HQ_emit. discriminate. Qed.
Lemma m_guarded c i : hmay c i -> hold (HQ c) any (dguarded orc cf i).
Proof using NN. intros M. apply (p_guarded orc cf HQ hmay any); eauto using m_like, m_move, m_pop, m_lost, m_judge, m_start, m_note, m_order. Qed.
Lemma m_env c : hold (HQ c) any (denv orc).
Proof using NN. apply (p_env orc HQ any); eauto using m_like, m_move. Qed.
Lemma kept {A} c (m : D A) w w' r : hold (HQ c) any m -> m w = (w', r) -> HQ c w -> HQ c w'.
Proof using. intros M E H. destruct (M w H) as [K _]. rewrite E in K. exact K. Qed.
Lemma startup_memory b l : forall w w', NoDup l -> (forall i, In i l -> i < b) -> HQ (l, b) w ->
  deach (fun i => dbind (denv orc) (fun _ => dbind (dmod (dcached i)) (fun _ => dbind (dget (obj i)) (fun o => if do_startup o then dguarded orc cf i else dret tt)))) l w = (w', Returns tt) ->
  HQ ([], b) w'.
Proof using NN.
  induction l as [|i l IH]; intros w w' N B H E; cbn [deach] in E; [injection E as <-; exact H|].
  apply bind_returns in E. destruct E as (w1 & [] & E1 & E). inversion N as [|? ? NI N']; subst.
  apply (IH w1 w' N' ltac:(intros j Hj; apply B; right; exact Hj)); [|exact E]. clear E IH.
  apply bind_returns in E1. destruct E1 as (w2 & [] & E2 & E1). pose proof (kept _ _ _ _ _ (m_env _) E2 H) as H2.
  unfold dbind at 1, dmod in E1. apply HQ_cached in H2. unfold dbind, dget in E1.
  destruct (do_startup _); [|injection E1 as <-; exact H2].
  refine (kept _ _ _ _ _ (m_guarded (l, b) i _) E1 H2). split; [exact NI|apply B; left; reflexivity].
Qed.
Definition HQ2 (b : nat) (w : dworld) : Prop := HQ ([], b) w.
Definition hmay2 (b : nat) (i : nat) : Prop := i < b.
Lemma memory_serve n w w' : outset w -> dserve orc cf n w = (w', Returns tt) ->
  forall i st l, In (DJudge i st l) (dw_trace w') -> remembers (do_name (obj i w')) st l.
Proof using NN.
  intros (M & NM & _ & _ & T) E. apply serve_returns in E. destruct E as (w1 & w2 & E1 & E2 & E3).
  set (b := length (dw_objs w)).
  assert (H1 : HQ ([], b) w1).
  { unfold dstartup in E1. unfold dbind at 1, dmod at 1 in E1. unfold dbind at 1, dmod at 1 in E1. unfold dbind at 1, dget at 1 in E1.
    rewrite (dtasks_like w (dset_cycles 0 (demit DPhase (dset_down false w))) eq_refl eq_refl) in E1.
    pose proof (dtasks_perm w) as P. rewrite M in P.
    apply (startup_memory b (dtasks w)) in E1; [exact E1| | |].
    - apply (Permutation_NoDup (Permutation_sym P)). apply seq_NoDup.
    - intros i Hi. apply (Permutation_in _ P) in Hi. apply in_seq in Hi. unfold b. lia.
    - constructor.
      + cbn. unfold b. lia.
      + exact NM.
      + intros i L K. exfalso. apply K. cbn [fst]. apply (Permutation_in _ (Permutation_sym P)). apply in_seq. cbn in L. lia.
      + intros i. cbn. rewrite M. intros X. apply in_seq in X. lia.
      + intros i st l. cbn. rewrite T. intros [X|[]]. discriminate. }
  assert (X1 : forall c w w', alike w w' -> HQ2 c w -> HQ2 c w') by (unfold HQ2; eauto using m_like).
  assert (X2 : forall c k w, HQ2 c w -> HQ2 c (do_move (o_move orc k w) w)) by (unfold HQ2; eauto using m_move).
  assert (X3 : forall c w r q i, HQ2 c w -> dw_queue w = r :: q -> by_name (q_name r) w = Some i -> HQ2 c (noted i r q w)) by (unfold HQ2; eauto using m_pop).
  assert (X4 : forall c w r q, HQ2 c w -> dw_queue w = r :: q -> by_name (q_name r) w = None -> HQ2 c (dset_queue q w) /\ True) by (unfold HQ2; eauto using m_lost).
  assert (XO : forall c w q, Permutation (dw_queue w) q -> HQ2 c w -> HQ2 c (dset_queue q w)) by (unfold HQ2; eauto using m_order).
  assert (X5 : forall c i w, hmay2 c i -> HQ2 c w -> HQ2 c (judged i w)).
  { intros c i w0 L H. apply m_judge; [|exact H]. split; [intros []|exact L]. }
  assert (X6 : forall c i w, hmay2 c i -> HQ2 c w -> drunnable cf i w = true -> HQ2 c (enqueued i (push_run i w))).
  { intros c i w0 L H R. apply m_start; [|exact H|exact R]. split; [intros []|exact L]. }
  assert (X7 : forall c i a t w, HQ2 c w -> HQ2 c (note i a t w)) by (unfold HQ2; eauto using m_note).
  assert (X8 : forall c i r w, HQ2 c w -> HQ2 c (kill_run i w r)) by (unfold HQ2; eauto using m_kill).
  assert (X9 : forall c i w, hmay2 c i -> HQ2 c w -> HQ2 c (demit (DConsider i) w)).
  { intros c i w0 L H. apply HQ_emit; [discriminate|exact H]. }
  assert (X10 : forall c w, HQ2 c w -> exists c', HQ2 c' (demit DPhase w) /\ forall i, In i (dtasks w) -> hmay2 c' i).
  { intros c w0 H. exists (length (dw_objs w0)). split.
    - apply HQ_emit; [discriminate|]. destruct H as [K1 K2 K3 K4 K5]. constructor; auto.
    - intros i Hi. apply dtasks_in in Hi. apply (h_valid _ _ H). exact Hi. }
  assert (H2 : QQ HQ2 w2).
  { assert (A : at_ (QQ HQ2) any (dloop orc cf n w1)); [|rewrite E2 in A; apply A].
    apply (p_loop orc cf HQ2 hmay2 any); auto. exists b. exact H1. }
  assert (H3 : QQ HQ2 w').
  { assert (A : at_ (QQ HQ2) any (dshut_down orc cf n false w2)); [|rewrite E3 in A; apply A].
    apply (p_shut_down orc cf HQ2 hmay2 any); auto. }
  destruct H3 as (c & H3). intros i st l X. apply (h_judge _ _ H3). exact X.
Qed.
End Memory.
