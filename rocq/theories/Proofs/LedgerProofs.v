(** The records of a run over a whole session (C22). *)
From Coq Require Import Bool Arith Lia ZifyBool.
From Verif Require Import Model.Base Model.History Model.World Model.Run Model.Scheduler.
From Verif Require Import Spec.SchedulerSpec Proofs.WorldProofs Proofs.LimitProofs Proofs.EventProofs.
From Verif Require Import Proofs.RequestProofs Proofs.StackProofs Proofs.TerminationProofs Proofs.LogFailProofs.
From Verif Require Import Proofs.ShutdownProofs Proofs.OutcomeProofs Proofs.ReturnProofs.
Open Scope Z_scope.

(** * What everything but starting a run respects *)
Definition state_of (P : list task -> Prop) (e : event) : Prop := match e with EvState ts => P ts | _ => True end.
Definition drift (w w' : world) : Prop :=
  shrinks w w' /\ (w_tick w <= w_tick w')%nat /\
  exists evs, w_trace w' = evs ++ w_trace w /\ Forall (state_of (Forall2 less_task (w_tasks w))) evs.
Lemma drift_frame w w' : w_tasks w' = w_tasks w -> (w_uid w <= w_uid w')%nat -> (w_tick w <= w_tick w')%nat ->
  w_trace w' = w_trace w -> drift w w'.
Proof. intros T U K E. split; [now apply shrinks_frame|]. split; [exact K|]. exists []. split; [exact E|constructor]. Qed.
Lemma drift_emit e w : state_of (fun _ => False) e -> drift w (emit e w).
Proof.
  intros H. split; [apply shrinks_frame; [reflexivity|cbn; lia]|]. split; [cbn; lia|]. exists [e]. split; [reflexivity|].
  constructor; [now destruct e|constructor].
Qed.
Lemma drift_set ts w : shrinks w (set_tasks ts w) -> drift w (set_tasks ts w).
Proof.
  intros H. split; [exact H|]. split; [cbn; lia|]. exists [EvState ts]. split; [reflexivity|]. constructor; [exact (proj1 H)|constructor].
Qed.
Lemma drift_trans a b c : drift a b -> drift b c -> drift a c.
Proof.
  intros (S1 & K1 & e1 & E1 & F1) (S2 & K2 & e2 & E2 & F2). split; [eapply shrinks_trans; eassumption|]. split; [lia|].
  exists (e2 ++ e1). split; [rewrite E2, E1; apply app_assoc|]. apply Forall_app. split; [|exact F1].
  eapply Forall_impl; [|exact F2]. intros [ts| | | | | | | | |] H; cbn in *; auto.
  pose (cs := set_tasks ts b). assert (Hc : shrinks b cs) by (split; [exact H|cbn; lia]). exact (proj1 (shrinks_trans _ _ _ S1 Hc)).
Qed.
Lemma drift_refl w : drift w w.
Proof. apply drift_frame; auto. Qed.
Lemma drift_calm A : calm A drift.
Proof.
  pose proof (shrinks_calm A) as S.
  constructor; [constructor|]; intros; try (apply drift_frame; [reflexivity|cbn; lia|cbn; lia|reflexivity]);
    try (apply drift_set; first [apply (c_state _ _ S)|apply (c_term _ _ S)|apply (c_term_req _ _ S); assumption|apply (c_disabled _ _ S); assumption
      |apply (c_begin _ _ S)|apply (c_over _ _ S)|apply (c_exc _ _ S)|apply (c_stop _ _ S)|apply (c_clean _ _ S)|apply (c_drop _ _ S)]).
  - eapply drift_trans; eassumption.
  - eapply drift_trans; [apply (drift_emit (EvRequest n p)); exact I|]. apply drift_set. apply shrinks_on_task. intros t. now apply less_same.
  - now apply drift_emit.
Qed.
Lemma drift_tracked w w' r' : drift w w' -> In r' (tracked w') -> exists r, In r (tracked w) /\ later r r'.
Proof. intros [S _] H. exact (less_in _ _ _ (shrinks_tracked _ _ S) H). Qed.
Lemma drift_find n w w' t : drift w w' -> find_task n w = Some t -> exists t', find_task n w' = Some t'.
Proof. intros [S _] F. destruct (shrinks_find _ _ _ _ S F) as (t' & F' & _). now exists t'. Qed.
Lemma drift_event w w' e : drift w w' -> In e (w_trace w) -> In e (w_trace w').
Proof. intros (_ & _ & evs & E & _) H. rewrite E. apply in_or_app. now right. Qed.
Lemma drift_obs w w' ts : drift w w' -> observed w' ts -> observed w ts \/ Forall2 less_task (w_tasks w) ts.
Proof.
  intros ([S _] & _ & evs & E & F) [-> | H]; [right; exact S|]. rewrite E in H. apply in_app_or in H as [H|H]; [|left; now right].
  rewrite Forall_forall in F. right. exact (F _ H).
Qed.
Lemma less_tasks_in ts ts' t' r' : Forall2 less_task ts ts' -> In t' ts' -> In r' (t_stack t') ->
  exists t r, In t ts /\ In r (t_stack t) /\ t_name t = t_name t' /\ later r r'.
Proof.
  induction 1 as [|a b ts ts' [E L] _ IH]; intros Ht Hr; [destruct Ht|]. destruct Ht as [-> | Ht].
  - destruct (less_in _ _ _ L Hr) as (r & H & K). exists a, r. split; [now left|]. split; [exact H|]. split; [|exact K]. unfold t_name. now rewrite E.
  - destruct (IH Ht Hr) as (t & r & H & K). exists t, r. split; [now right|exact K].
Qed.
Lemma drift_seen w w' n u i : drift w w' -> seen_run w' n u i -> seen_run w n u i.
Proof.
  intros D (ts & t & r & O & Ht & Hr & N & U & Ir). destruct (drift_obs _ _ _ D O) as [O'|L].
  - now exists ts, t, r.
  - destruct (less_tasks_in _ _ _ _ L Ht Hr) as (t0 & r0 & Ht0 & Hr0 & N0 & (U0 & _ & _ & I0 & _)).
    exists (w_tasks w), t0, r0. split; [now left|]. split; [exact Ht0|]. split; [exact Hr0|]. split; [congruence|]. split; congruence.
Qed.
Lemma seen_kept w w' n u i : (exists ts t r, In (EvState ts) (w_trace w) /\ In t ts /\ In r (t_stack t) /\ t_name t = n /\ rn_uid r = u /\ rn_id r = Some i) ->
  drift w w' -> seen_run w' n u i.
Proof. intros (ts & t & r & H & K) D. exists ts, t, r. split; [right; now apply (drift_event _ _ _ D)|exact K]. Qed.

(** * The state of one id *)
Lemma option_eq_dec (r : run) (i : Z) : {rn_id r = Some i} + {rn_id r <> Some i}.
Proof. destruct (rn_id r) as [j|]; [|right; discriminate]. destruct (Z.eq_dec j i) as [-> |N]; [now left|right; congruence]. Qed.
Section Ledger.
Context (i : Z).
Let hasid (r : record) : bool := match r_run_id r with Some j => j =? i | None => false end.
Lemma hasid_iff r : hasid r = true <-> r_run_id r = Some i.
Proof using Type. unfold hasid. destruct (r_run_id r) as [j|]; [|split; discriminate]. rewrite Z.eqb_eq. split; [now intros -> |congruence]. Qed.
Lemma story_app l l' : story i (l ++ l') = story i l ++ story i l'.
Proof using Type. apply filter_app. Qed.
Lemma story_none l : (forall r, In r l -> r_run_id r <> Some i) -> story i l = [].
Proof using Type.
  intros H. unfold story. fold hasid. induction l as [|r l IH]; [reflexivity|]. cbn. destruct (hasid r) eqn:E.
  - apply hasid_iff in E. destruct (H r); [now left|exact E].
  - apply IH. intros x Hx. apply H. now right.
Qed.
Lemma story_one n a c : story i [Rec n a c (Some i)] = [Rec n a c (Some i)].
Proof using Type. unfold story. cbn. now rewrite Z.eqb_refl. Qed.
Lemma story_in r l : In r (story i l) <-> In r l /\ r_run_id r = Some i.
Proof using Type. unfold story. fold hasid. rewrite filter_In. now rewrite hasid_iff. Qed.
(** Records written and on their way *)
Definition book (w : world) : log := w_log w ++ map q_rec (w_queue w).
Definition acts (w : world) : list record := story i (w_log w) ++ story i (map q_rec (w_queue w)).
Definition alive_id (w : world) : Prop := exists r, In r (tracked w) /\ rn_id r = Some i /\ live r = true.
Definition told (n : Z) (u : nat) (w : world) : Prop := exists c rest, acts w = Rec n ARun c (Some i) :: rest /\
  ((rest = [] /\ alive_id w) \/
   (~ alive_id w /\ outcomes n rest /\ (length rest = 1%nat \/ In (EvTerminate n u) (w_trace w)))).
(** [p]: no run has the id yet, or the run [u] of task [n] *)
Definition state (orc : oracle) (p : option (Z * nat)) (w : world) : Prop :=
  match p with
  | None => acts w = []
  | Some (n, u) => told n u w /\ (exists k, (k < w_tick w)%nat /\ o_run_id orc k = Ok i) /\
     exists ts t r, In (EvState ts) (w_trace w) /\ In t ts /\ In r (t_stack t) /\ t_name t = n /\ rn_uid r = u /\ rn_id r = Some i
  end.
Record ledger (orc : oracle) (p : option (Z * nat)) (w : world) : Prop := Ledger {
  lg_fit : fit_ids w;
  lg_seen : forall n u, seen_run w n u i -> p = Some (n, u);
  lg_orphans : w_orphans w = [];
  lg_exc : forall r, In r (tracked w) -> rn_exc r = false;
  lg_queue : forall q, In q (w_queue w) -> exists t, find_task (r_task (q_rec q)) w = Some t;
  lg_kind : forall r, In r (tracked w) -> rn_id r = Some i -> rn_kind r <> XProcess ->
    forall q, In q (w_queue w) -> r_run_id (q_rec q) <> Some i;
  lg_state : state orc p w }.

Lemma tracked_seen w r : In r (tracked w) -> rn_id r = Some i -> exists n, seen_run w n (rn_uid r) i.
Proof using Type.
  intros H E. apply in_concat_map in H as (t & Ht & Hr). exists (t_name t), (w_tasks w), t, r. split; [now left|]. now repeat (split; [assumption||reflexivity|]).
Qed.
Lemma ledger_uid orc n u w r : ledger orc (Some (n, u)) w -> In r (tracked w) -> rn_id r = Some i -> rn_uid r = u.
Proof using Type. intros L H E. destruct (tracked_seen w r H E) as (m & S). apply (lg_seen _ _ _ L) in S. congruence. Qed.
Lemma ledger_none orc w r : ledger orc None w -> In r (tracked w) -> rn_id r <> Some i.
Proof using Type. intros L H E. destruct (tracked_seen w r H E) as (m & S). apply (lg_seen _ _ _ L) in S. discriminate S. Qed.

(** Steps that write nothing under the id *)
Definition away (l : list record) : Prop := forall r, In r l -> r_run_id r <> Some i.
Lemma told_frame_gen orc p w w' : acts w' = acts w -> (alive_id w <-> alive_id w') -> (w_tick w <= w_tick w')%nat ->
  (forall e, In e (w_trace w) -> In e (w_trace w')) -> state orc p w -> state orc p w'.
Proof using Type.
  intros A L TK D. destruct p as [[n u]|]; cbn; [|now rewrite A]. intros ((c & rest & E & H) & (k & K & Ek) & (ts & X)). split; [|split].
  - exists c, rest. rewrite A. split; [exact E|]. destruct H as [[R V]|(V & O & T)]; [left; split; [exact R|now apply L]|right].
    split; [now rewrite <- L|]. split; [exact O|]. destruct T as [T|T]; [now left|right; now apply D].
  - exists k. split; [lia|exact Ek].
  - exists ts. destruct X as (t & r & X1 & X2). exists t, r. split; [now apply D|exact X2].
Qed.
Lemma told_frame orc p w w' : acts w' = acts w -> (alive_id w -> alive_id w') -> drift w w' -> state orc p w -> state orc p w'.
Proof using Type.
  intros A L D. apply told_frame_gen; [exact A| |apply D|intros e; apply (drift_event _ _ _ D)]. split; [exact L|].
  intros (r' & Hr' & Er & Lr). destruct (drift_tracked _ _ _ D Hr') as (r & Hr & (_ & _ & _ & I1 & L1 & _)).
  exists r. split; [exact Hr|]. split; [congruence|auto].
Qed.
Lemma ledger_away orc p w w' l lq : ledger orc p w -> drift w w' -> w_orphans w' = w_orphans w ->
  (forall r, In r (tracked w') -> rn_exc r = true -> exists r0, In r0 (tracked w) /\ rn_exc r0 = true) ->
  w_log w' = w_log w ++ l -> w_queue w' = w_queue w ++ lq -> away l -> away (map q_rec lq) ->
  (forall q, In q lq -> exists t, find_task (r_task (q_rec q)) w = Some t) ->
  (alive_id w -> alive_id w') -> ledger orc p w'.
Proof using Type.
  intros [F S O X Q K T] D EO EX EL EQ Al Aq QT LV. constructor.
  - exact (shrinks_fit _ _ (proj1 D) F).
  - intros n u H. exact (S n u (drift_seen _ _ _ _ _ D H)).
  - congruence.
  - intros r H. destruct (rn_exc r) eqn:E; [|reflexivity]. destruct (EX r H E) as (r0 & H0 & E0). rewrite (X r0 H0) in E0. discriminate.
  - intros q H. rewrite EQ in H. assert (Z : exists t, find_task (r_task (q_rec q)) w = Some t) by (apply in_app_or in H as [H|H]; auto).
    destruct Z as (t & Ft). exact (drift_find _ _ _ _ D Ft).
  - intros r H E N q Hq. destruct (drift_tracked _ _ _ D H) as (r0 & H0 & (_ & K1 & _ & I1 & _)).
    rewrite EQ in Hq. apply in_app_or in Hq as [Hq|Hq]; [apply (K r0 H0); congruence|]. apply Aq. now apply in_map.
  - apply told_frame with w; auto. unfold acts. rewrite EL, EQ, map_app, !story_app, (story_none l Al), (story_none _ Aq). now rewrite !app_nil_r.
Qed.
Lemma exc_same w w' : (forall r', In r' (tracked w') -> exists r, In r (tracked w) /\ rn_exc r = rn_exc r') ->
  forall r, In r (tracked w') -> rn_exc r = true -> exists r0, In r0 (tracked w) /\ rn_exc r0 = true.
Proof using Type. intros H r Hr E. destruct (H r Hr) as (r0 & H0 & E0). exists r0. split; congruence. Qed.
(** Steps that leave the runs alone *)
Lemma ledger_same orc p w w' : ledger orc p w -> drift w w' -> w_orphans w' = w_orphans w -> tracked w' = tracked w ->
  w_log w' = w_log w -> w_queue w' = w_queue w -> ledger orc p w'.
Proof using Type.
  intros L D O T El Eq. apply ledger_away with w [] []; auto; try (now rewrite app_nil_r); try (intros ? []).
  - intros r H E. exists r. rewrite <- T. now split.
  - intros (r & H). exists r. now rewrite T.
Qed.
(** The one outcome *)
Lemma outcomes_insert n a c l l' : is_outcome a -> (l ++ l' = [] \/ (outcomes n (l ++ l') /\ a = ATerminate)) ->
  outcomes n (l ++ Rec n a c (Some i) :: l').
Proof using Type.
  intros A H. split; [now destruct l|]. split.
  - intros r Hr. apply in_app_or in Hr as [Hr|[<- |Hr]]; [| |].
    + destruct H as [H|[H _]]; [apply app_eq_nil in H as [-> _]; destruct Hr|]. apply H. apply in_or_app. now left.
    + now split.
    + destruct H as [H|[H _]]; [apply app_eq_nil in H as [_ ->]; destruct Hr|]. apply H. apply in_or_app. now right.
  - destruct H as [H|[H ->]].
    + apply app_eq_nil in H as [-> ->]. cbn. destruct (negb _); cbn; lia.
    + destruct H as (_ & _ & H). rewrite filter_app, app_length in *. cbn. lia.
Qed.
Definition unlogged_run (w : world) : Prop := forall q, In q (w_queue w) -> r_run_id (q_rec q) = Some i -> r_action (q_rec q) <> ARun.
Lemma told_insert n u w w' a c A A' B B' : is_outcome a -> told n u w -> drift w w' ->
  story i (w_log w) = A -> story i (map q_rec (w_queue w)) = B -> story i (w_log w') = A' -> story i (map q_rec (w_queue w')) = B' ->
  (exists l l', A ++ B = l ++ l' /\ A' ++ B' = l ++ Rec n a c (Some i) :: l' /\ l <> []) -> ~ alive_id w' ->
  (alive_id w \/ (a = ATerminate /\ In (EvTerminate n u) (w_trace w'))) -> told n u w'.
Proof using Type.
  intros OA (c0 & rest & E & H) D EA EB EA' EB' (l & l' & E1 & E2 & N) V K. unfold acts in E. rewrite EA, EB, E1 in E.
  destruct l as [|x l]; [now destruct N|]. injection E as -> E. exists c0, (l ++ Rec n a c (Some i) :: l'). split; [unfold acts; now rewrite EA', EB', E2|].
  right. split; [exact V|]. destruct H as [[R _]|(V0 & O & T)].
  - rewrite R in E. split; [apply outcomes_insert; [exact OA|now left]|]. left. apply app_eq_nil in E as [-> ->]. reflexivity.
  - destruct K as [K|[-> K]]; [now destruct V0|]. split; [apply outcomes_insert; [exact OA|right; split; [now rewrite E|reflexivity]]|now right].
Qed.
Section Told.
Context (orc : oracle) (n : Z) (u : nat) (w w' : world) (a : action) (c : Z).
Context (L : ledger orc (Some (n, u)) w) (D : drift w w') (OA : is_outcome a) (EO : w_orphans w' = w_orphans w).
Context (EX : forall r, In r (tracked w') -> rn_exc r = true -> exists r0, In r0 (tracked w) /\ rn_exc r0 = true).
Context (V : ~ alive_id w') (K : alive_id w \/ (a = ATerminate /\ In (EvTerminate n u) (w_trace w'))).
Let rest_state : told n u w' -> state orc (Some (n, u)) w'.
Proof using L D.
  intros T. split; [exact T|]. destruct (lg_state _ _ _ L) as (_ & (k & K1 & K2) & (ts & t & r & X1 & X2)). split.
  - exists k. split; [|exact K2]. destruct D as (_ & D1 & _). lia.
  - exists ts, t, r. split; [exact (drift_event _ _ _ D X1)|exact X2].
Qed.
Lemma ledger_logged : w_log w' = w_log w ++ [Rec n a c (Some i)] -> w_queue w' = w_queue w -> unlogged_run w -> ledger orc (Some (n, u)) w'.
Proof using L D OA EO EX V K.
  intros EL EQ Q. destruct L as [F S O X QT KD (T & _)]. constructor.
  - exact (shrinks_fit _ _ (proj1 D) F).
  - intros m v H. exact (S m v (drift_seen _ _ _ _ _ D H)).
  - congruence.
  - intros r H. destruct (rn_exc r) eqn:E; [|reflexivity]. destruct (EX r H E) as (r0 & H0 & E0). rewrite (X r0 H0) in E0. discriminate.
  - intros q H. rewrite EQ in H. destruct (QT q H) as (t & Ft). exact (drift_find _ _ _ _ D Ft).
  - intros r H E N q Hq. destruct (drift_tracked _ _ _ D H) as (r0 & H0 & (_ & K1 & _ & I1 & _)). rewrite EQ in Hq. apply (KD r0 H0); congruence.
  - apply rest_state. eapply told_insert with (w := w) (a := a) (c := c); auto.
    rewrite EL, EQ, story_app, story_one. exists (story i (w_log w)), (story i (map q_rec (w_queue w))). split; [reflexivity|].
    split; [now rewrite <- app_assoc|]. destruct T as (c0 & rest & E & _). unfold acts in E. intros E0. rewrite E0 in E. cbn in E.
    assert (H : In (Rec n ARun c0 (Some i)) (story i (map q_rec (w_queue w)))) by (rewrite E; now left).
    apply story_in in H as [H _]. apply in_map_iff in H as (q & Eq & Hq). apply (Q q Hq); now rewrite Eq.
Qed.
Lemma ledger_queued q : q_rec q = Rec n a c (Some i) -> w_log w' = w_log w -> w_queue w' = w_queue w ++ [q] ->
  (exists t, find_task n w = Some t) -> (forall r, In r (tracked w) -> rn_id r = Some i -> rn_kind r = XProcess) ->
  ledger orc (Some (n, u)) w'.
Proof using L D OA EO EX V K.
  intros Eq EL EQ FT KP. destruct L as [F S O X QT KD (T & _)]. constructor.
  - exact (shrinks_fit _ _ (proj1 D) F).
  - intros m v H. exact (S m v (drift_seen _ _ _ _ _ D H)).
  - congruence.
  - intros r H. destruct (rn_exc r) eqn:E; [|reflexivity]. destruct (EX r H E) as (r0 & H0 & E0). rewrite (X r0 H0) in E0. discriminate.
  - intros q0 H. assert (Z : exists t, find_task (r_task (q_rec q0)) w = Some t).
    { rewrite EQ in H. apply in_app_or in H as [H|[<- |[]]]; [auto|]. now rewrite Eq. }
    destruct Z as (t & Ft). exact (drift_find _ _ _ _ D Ft).
  - intros r H E N q0 Hq. destruct (drift_tracked _ _ _ D H) as (r0 & H0 & (_ & K1 & _ & I1 & _)). destruct N. rewrite K1. apply (KP r0 H0). congruence.
  - apply rest_state. eapply told_insert with (w := w) (a := a) (c := c); auto.
    rewrite EL, EQ, map_app, story_app. cbn [map]. rewrite Eq, story_one.
    exists (story i (w_log w) ++ story i (map q_rec (w_queue w))), []. split; [now rewrite app_nil_r|]. split; [apply app_assoc|].
    destruct T as (c0 & rest & E & _). unfold acts in E. rewrite E. discriminate.
Qed.
End Told.

(** * The outside *)
Section Env.
Context (orc : oracle) (PS : proper_session orc).
Let C := drift_calm proper_move.
Let HP := ps_env orc PS.
Definition queued (w w' : world) : Prop := exists lq, w_queue w' = w_queue w ++ lq /\ Forall (fun q => r_action (q_rec q) <> ARun) lq.
Lemma queued_same w w' : w_queue w' = w_queue w -> queued w w'.
Proof using Type. intros E. exists []. split; [now rewrite app_nil_r|constructor]. Qed.
Lemma queued_trans a b c : queued a b -> queued b c -> queued a c.
Proof using Type.
  intros (l1 & E1 & F1) (l2 & E2 & F2). exists (l1 ++ l2). split; [rewrite E2, E1; symmetry; apply app_assoc|]. apply Forall_app. now split.
Qed.
Definition holds (p : option (Z * nat)) (w w' : world) : Prop := ledger orc p w -> ledger orc p w' /\ queued w w'.
Lemma holds_refl p w : holds p w w.
Proof using Type. intros L. split; [exact L|now apply queued_same]. Qed.
Lemma holds_trans p a b c : holds p a b -> holds p b c -> holds p a c.
Proof using Type. intros H K L. destruct (H L) as [L1 Q1], (K L1) as [L2 Q2]. split; [exact L2|eapply queued_trans; eassumption]. Qed.
Lemma holds_same p w w' : drift w w' -> w_orphans w' = w_orphans w -> tracked w' = tracked w ->
  w_log w' = w_log w -> w_queue w' = w_queue w -> holds p w w'.
Proof using Type. intros D O T El Eq L. split; [eapply ledger_same; eassumption|now apply queued_same]. Qed.
(** Changing a run without ending it *)
Lemma on_run_exc v g w : (forall r, rn_exc (g r) = rn_exc r) ->
  forall r, In r (tracked (on_run v g w)) -> rn_exc r = true -> exists r0, In r0 (tracked w) /\ rn_exc r0 = true.
Proof using Type.
  intros G r Hr E. rewrite tracked_on_run in Hr. apply in_map_iff in Hr as (r0 & <- & H0). exists r0. split; [exact H0|].
  destruct (Nat.eqb _ _); [now rewrite <- G|exact E].
Qed.
Lemma holds_on_run p v g w : drift w (on_run v g w) -> (forall r, rn_exc (g r) = rn_exc r) -> (forall r, rn_id (g r) = rn_id r) ->
  (forall r, In r (tracked w) -> rn_uid r = v -> rn_id r = Some i -> live r = true -> live (g r) = true) -> holds p w (on_run v g w).
Proof using Type.
  intros D G GI GL L. split; [|now apply queued_same].
  apply ledger_away with w [] []; auto; try (now rewrite app_nil_r); try (intros ? []); [now apply on_run_exc|].
  intros (r & H & E & V). exists (if Nat.eqb (rn_uid r) v then g r else r).
  split; [rewrite tracked_on_run; exact (in_map (fun r => if Nat.eqb (rn_uid r) v then g r else r) _ _ H)|].
  destruct (Nat.eqb_spec (rn_uid r) v) as [Ev|]; [|now split]. rewrite GI. split; [exact E|]. now apply GL.
Qed.
Lemma over_not_alive v e w : (forall r, In r (tracked w) -> rn_id r = Some i -> rn_uid r = v) -> ~ alive_id (on_run v (with_phase (Over e)) w).
Proof using Type.
  intros H (r & Hr & E & L). rewrite tracked_on_run in Hr. apply in_map_iff in Hr as (r0 & <- & H0).
  destruct (Nat.eqb_spec (rn_uid r0) v) as [|N]; [discriminate L|]. apply N, H; assumption.
Qed.
Lemma found_id v w t r : fit_ids w -> find_run v w = Some (t, r) -> forall r0, In r0 (tracked w) -> rn_uid r0 = v -> r0 = r.
Proof using Type.
  intros (_ & DR & _) F r0 H0 E0. apply find_run_in in F as [F U]. apply (one_id w); congruence.
Qed.
Lemma found_task v w t r : find_run v w = Some (t, r) -> In t (w_tasks w) /\ In r (t_stack t) /\ rn_uid r = v.
Proof using Type.
  unfold find_run. destruct (task_of_run v w) as [t0|] eqn:E; [|discriminate].
  destruct (find _ (t_stack t0)) as [r0|] eqn:F; [|discriminate]. cbn. intros H; injection H as <- <-.
  apply find_some in F as [F1 F2]. apply find_some in E as [E1 _]. split; [exact E1|]. split; [exact F1|]. now apply Nat.eqb_eq.
Qed.
Lemma in_find w t : fit_ids w -> In t (w_tasks w) -> find_task (t_name t) w = Some t.
Proof using Type.
  intros (N & _) H. unfold find_task, distinct_names in *. induction (w_tasks w) as [|a ts IH]; [destruct H|]. cbn in *.
  inversion N as [|? ? N1 N2]; subst. destruct H as [-> | H]; [now rewrite Z.eqb_refl|].
  destruct (Z.eqb_spec (t_name a) (t_name t)) as [E|]; [|auto]. destruct N1. rewrite E. now apply in_map.
Qed.
(** A run ends: its outcome is recorded *)
Lemma body_holds p v w t r x s : proper s -> find_run v w = Some (t, r) -> live r = true -> rn_kind r <> XProcess -> x <> None ->
  exists w1, run_body orc false x (t_name t) (rn_id r) s w = (w1, Returns tt) /\
    forall e, holds p w (on_run v (with_phase (Over e)) w1).
Proof using PS.
  intros (S1 & S2 & S3) F LV KP X. destruct (find_task (t_name t) w) as [t'|] eqn:Ft.
  2:{ destruct (found_task _ _ _ _ F) as (H & _). exfalso. pose proof (find_none _ _ Ft t H) as Z. cbn in Z. now rewrite Z.eqb_refl in Z. }
  destruct (body_ends orc x (t_name t) (rn_id r) s w t' Ft (ps_write orc PS _) S2 S3 X) as (w1 & E & [RL _] & Q1 & O1 & _ & T1 & _).
  exists w1. split; [exact E|]. intros e L. set (w' := on_run v (with_phase (Over e)) w1).
  assert (D1 : drift w w1). { eapply steps_eq; [|exact E]. apply (steps_run_body C). }
  assert (D : drift w w') by (eapply drift_trans; [exact D1|apply (c_over _ _ C)]).
  split; [|now apply queued_same].
  assert (EX : forall r, In r (tracked w') -> rn_exc r = true -> exists r0, In r0 (tracked w) /\ rn_exc r0 = true).
  { rewrite <- T1. now apply on_run_exc. }
  destruct (found_task _ _ _ _ F) as (Ht & Hr & Uv).
  assert (Hw : In r (tracked w)) by (now apply find_run_in in F).
  assert (OC : is_outcome (classified (s_exec s))).
  { destruct (s_exec s) as [[]|]; cbn; unfold is_outcome; auto. }
  destruct (option_eq_dec r i) as [Ei|Ei].
  - assert (P : p = Some (t_name t, v)).
    { apply (lg_seen _ _ _ L). exists (w_tasks w), t, r. split; [now left|]. now repeat (split; [assumption||reflexivity|]). }
    subst p. apply ledger_logged with w (classified (s_exec s)) (w_clock w); auto.
    + unfold w'. apply over_not_alive. rewrite T1. intros r0 H0 E0. exact (ledger_uid _ _ _ _ _ L H0 E0).
    + left. exists r. auto.
    + rewrite <- Ei. exact RL.
    + intros q Hq Eq. destruct (lg_kind _ _ _ L r Hw Ei KP q Hq Eq).
  - apply ledger_away with w [Rec (t_name t) (classified (s_exec s)) (w_clock w) (rn_id r)] [].
    + exact L.
    + exact D.
    + exact O1.
    + exact EX.
    + exact RL.
    + cbn. rewrite app_nil_r. exact Q1.
    + intros x0 [<- | []]. exact Ei.
    + intros x0 [].
    + intros x0 [].
    + intros (r0 & H0 & E0 & L0). exists r0. split; [|now split]. unfold w'. rewrite tracked_on_run, T1. apply in_map_iff. exists r0.
      split; [|exact H0]. destruct (Nat.eqb_spec (rn_uid r0) v) as [E1|]; [|reflexivity].
      rewrite (found_id _ _ _ _ (lg_fit _ _ _ L) F r0 H0 E1) in E0. contradiction.
Qed.
Lemma process_holds p v w t r s : proper s -> find_run v w = Some (t, r) -> live r = true -> rn_kind r = XProcess ->
  exists w1, process_code orc (t_name t) (rn_id r) s w = (w1, Returns tt) /\ holds p w (on_run v (with_phase (Over None)) w1).
Proof using PS.
  intros (S1 & S2 & S3) F LV KP. rewrite (child_code orc _ _ _ w S1 S2 S3). eexists. split; [reflexivity|].
  set (q := QRec _ _). set (w1 := set_queue (w_queue w ++ [q]) w). set (w' := on_run v (with_phase (Over None)) w1). intros L.
  destruct (found_task _ _ _ _ F) as (Ht & Hr & Uv). pose proof (in_find w t (lg_fit _ _ _ L) Ht) as Ft.
  assert (D : drift w w') by (eapply drift_trans; [apply (c_queue _ _ C)|apply (c_over _ _ C)]).
  assert (OC : is_outcome (classified (s_exec s))) by (destruct (s_exec s) as [[]|]; cbn; unfold is_outcome; auto).
  assert (EX : forall r, In r (tracked w') -> rn_exc r = true -> exists r0, In r0 (tracked w) /\ rn_exc r0 = true).
  { change (tracked w) with (tracked w1). now apply on_run_exc. }
  assert (Hw : In r (tracked w)) by (now apply find_run_in in F).
  split.
  2:{ exists [q]. split; [reflexivity|]. constructor; [|constructor]. cbn. intros E. rewrite E in OC. unfold is_outcome in OC.
      destruct OC as [OC|[OC|[OC|OC]]]; discriminate. }
  destruct (option_eq_dec r i) as [Ei|Ei].
  - assert (P : p = Some (t_name t, v)).
    { apply (lg_seen _ _ _ L). exists (w_tasks w), t, r. split; [now left|]. now repeat (split; [assumption||reflexivity|]). }
    subst p. apply ledger_queued with w (classified (s_exec s)) (w_clock w) q; auto.
    + unfold w'. apply over_not_alive. intros r0 H0 E0. exact (ledger_uid _ _ _ _ _ L H0 E0).
    + left. exists r. auto.
    + unfold q. now rewrite Ei.
    + now exists t.
    + intros r0 H0 E0. rewrite (found_id _ _ _ _ (lg_fit _ _ _ L) F r0 H0); [exact KP|]. exact (ledger_uid _ _ _ _ _ L H0 E0).
  - apply ledger_away with w [] [q].
    + exact L.
    + exact D.
    + reflexivity.
    + exact EX.
    + cbn. now rewrite app_nil_r.
    + reflexivity.
    + intros x0 [].
    + intros x0 [<- | []]. exact Ei.
    + intros x0 [<- | []]. now exists t.
    + intros (r0 & H0 & E0 & L0). exists r0. split; [|now split]. unfold w'. rewrite tracked_on_run. apply in_map_iff. exists r0.
      split; [|exact H0]. destruct (Nat.eqb_spec (rn_uid r0) v) as [E1|]; [|reflexivity].
      rewrite (found_id _ _ _ _ (lg_fit _ _ _ L) F r0 H0 E1) in E0. contradiction.
Qed.
Lemma busy_live r : is_busy r = true -> live r = true.
Proof using Type. unfold is_busy, live. now destruct (rn_phase r). Qed.
Lemma holds_move p m : proper_move m -> steps (holds p) (do_move orc m).
Proof using PS.
  intros HM w. pose proof (steps_move C orc m HM w) as D.
  destruct m; try (apply holds_same; [exact D|reflexivity|first [reflexivity|now apply tracked_on_task]|reflexivity|reflexivity]).
  - apply holds_same; [exact D|reflexivity| |reflexivity|reflexivity].
    change (tracked w) with (tracked (emit (EvRequest name p0) w)). now apply tracked_on_task.
  - cbn [do_move] in *. unfold mbind, get in *. destruct (find_run uid w) as [[t r]|] eqn:F; [|apply holds_refl].
    destruct (exec_eqb (rn_kind r) XAsync && is_pending r); [|apply holds_refl].
    unfold enter, run_setup, mbind, attempt. destruct HM as (-> & _). cbn [raise_if ret fst]. apply holds_on_run.
    + apply (c_begin _ _ C).
    + intros r0. unfold begin_run. now destruct (is_pending r0).
    + intros r0. unfold begin_run. now destruct (is_pending r0).
    + intros r0 _ _ _ L0. unfold begin_run. destruct (is_pending r0); [reflexivity|exact L0].
  - cbn [do_move]. unfold mbind at 1, get. destruct (find_run uid w) as [[t r]|] eqn:F; [|apply holds_refl].
    destruct (exec_eqb (rn_kind r) XAsync) eqn:KX; [|apply holds_refl]. destruct (is_busy r) eqn:B; [|apply holds_refl]. cbn [andb].
    assert (KN : rn_kind r <> XProcess) by (intros Q; rewrite Q in KX; discriminate).
    destruct (body_holds p uid w t r (Some XAsync) s HM F (busy_live r B) KN) as (w1 & E & H); [discriminate|].
    unfold end_coroutine, mbind, attempt. rewrite E. apply H.
  - cbn [do_move]. unfold mbind at 1, get. intros L. rewrite (lg_orphans _ _ _ L). now apply holds_refl.
  - cbn [do_move]. unfold mbind at 1, get. destruct (find_run uid w) as [[t r]|] eqn:F; [|apply holds_refl].
    destruct (exec_eqb (rn_kind r) XThread) eqn:KX; [|apply holds_refl]. destruct (is_busy r) eqn:B; [|apply holds_refl]. cbn [andb].
    assert (KN : rn_kind r <> XProcess) by (intros Q; rewrite Q in KX; discriminate).
    destruct (body_holds p uid w t r (Some XThread) s HM F (busy_live r B) KN) as (w1 & E & H); [discriminate|].
    unfold end_coroutine, thread_code, run_as_async, run_setup, mbind, attempt. destruct HM as (-> & _). cbn [raise_if ret]. rewrite E. apply H.
  - cbn [do_move]. unfold mbind at 1, get. destruct (find_run uid w) as [[t r]|] eqn:F; [|apply holds_refl].
    destruct (exec_eqb (rn_kind r) XProcess) eqn:KX; [|apply holds_refl]. destruct (is_busy r) eqn:B; [|apply holds_refl]. cbn [andb].
    assert (KN : rn_kind r = XProcess) by (destruct (rn_kind r); try discriminate KX; reflexivity).
    destruct (process_holds p uid w t r s HM F (busy_live r B) KN) as (w1 & E & H).
    unfold end_coroutine, mbind, attempt. rewrite E. apply H.
  - destruct HM.
Qed.
Lemma holds_moves p ms : (forall m, In m ms -> proper_move m) -> steps (holds p) (do_moves orc ms).
Proof using PS.
  induction ms as [|m ms IH]; intros H w; cbn [do_moves]; [apply holds_refl|]. unfold mbind, attempt.
  pose proof (holds_move p m (H m (or_introl eq_refl)) w) as K. pose proof (ha_move orc m w) as N.
  assert (IH' : steps (holds p) (do_moves orc ms)) by (apply IH; intros m' Hm'; apply H; now right).
  destruct (do_move orc m w) as [w1 [a|e|]]; cbn [fst] in *; [| |now destruct N]; (eapply holds_trans; [exact K|apply IH']).
Qed.
Lemma holds_bump p w : holds p w (bump w).
Proof using Type. apply holds_same; try reflexivity. apply (c_bump _ _ (drift_calm proper_move)). Qed.
Lemma holds_env p w w' : env orc w = (w', Returns tt) -> holds p w w' /\ drift w w'.
Proof using PS.
  intros E. split.
  - unfold env, mbind, ask in E. eapply holds_trans; [apply holds_bump|].
    pose proof (holds_moves p (o_env orc (w_tick w)) (HP (w_tick w)) (bump w)) as K. change (bump w) with
      (World (w_clock w) (w_log w) (w_tasks w) (w_queue w) (w_returns w) (w_orphans w) (w_enabled w)
     (w_shutdown w) (w_restart w) (w_force w) (w_shut w) (w_cycles w) (w_uid w) (S (w_tick w)) (w_trace w)) in K. rewrite E in K. exact K.
  - eapply steps_eq; [|exact E]. apply (steps_env C _ HP).
Qed.

(** * The scheduler between starts *)
Definition keeps (J : world -> Prop) {A} (m : M A) : Prop := forall w, J w -> snd (m w) <> OutOfFuel -> J (fst (m w)).
Lemma kp_bind (J : world -> Prop) {A B} (m : M A) (f : A -> M B) : keeps J m -> (forall a, keeps J (f a)) -> keeps J (mbind m f).
Proof using Type.
  intros H K w Hw N. specialize (H w Hw). unfold mbind in *. destruct (m w) as [w1 [a|e|]]; cbn [fst snd] in *.
  - apply K; [apply H; discriminate|exact N].
  - apply H. discriminate.
  - congruence.
Qed.
Lemma kp_attempt (J : world -> Prop) {A} (m : M A) : keeps J m -> keeps J (attempt m).
Proof using Type. intros H w Hw N. specialize (H w Hw). unfold attempt in *. destruct (m w) as [w1 [a|e|]]; cbn [fst snd] in *; [apply H; discriminate..|congruence]. Qed.
Lemma kp_ret (J : world -> Prop) {A} (a : A) : keeps J (ret a).
Proof using Type. intros w H _. exact H. Qed.
Lemma kp_raise (J : world -> Prop) {A} e : keeps J (@raise A e).
Proof using Type. intros w H _. exact H. Qed.
Lemma kp_fuel (J : world -> Prop) {A} : keeps J (fun w => (w, @OutOfFuel A)).
Proof using Type. intros w H _. exact H. Qed.
Lemma kp_get (J : world -> Prop) {A} (f : world -> A) : keeps J (get f).
Proof using Type. intros w H _. exact H. Qed.
Lemma kp_get_task (J : world -> Prop) n : keeps J (get_task n).
Proof using Type. intros w H _. unfold get_task. now destruct (find_task n w). Qed.
Lemma kp_raise_if (J : world -> Prop) e : keeps J (raise_if e).
Proof using Type. destruct e; [apply kp_raise|apply kp_ret]. Qed.
Lemma kp_modify (J : world -> Prop) f : (forall w, J w -> J (f w)) -> keeps J (modify f).
Proof using Type. intros H w Hw _. now apply H. Qed.
Lemma kp_finally (J : world -> Prop) {A} (m : M A) f : keeps J m -> keeps J f -> keeps J (finally m f).
Proof using Type.
  intros Hm Hf. apply kp_bind; [now apply kp_attempt|]. intros r. apply kp_bind; [exact Hf|]. intros _. destruct r; [apply kp_ret|apply kp_raise].
Qed.
Lemma kp_for_each (J : world -> Prop) f ns : (forall n, keeps J (f n)) -> keeps J (for_each f ns).
Proof using Type. intros H; induction ns as [|n ns IH]; [apply kp_ret|]. cbn [for_each]. apply kp_bind; [apply H|intros _; exact IH]. Qed.
Lemma kp_with (J : world -> Prop) {A B} (f : world -> A) (k : A -> M B) :
  (forall w, J w -> snd (k (f w) w) <> OutOfFuel -> J (fst (k (f w) w))) -> keeps J (mbind (get f) k).
Proof using Type. intros H w Hw N. now apply H. Qed.

Record inv (p : option (Z * nat)) (w : world) : Prop := Inv {
  iv_ledger : ledger orc p w;
  iv_main : forall r, In r (tracked w) -> rn_kind r <> XMain;
  iv_run : forall q, In q (w_queue w) -> r_action (q_rec q) <> ARun }.
Lemma inv_holds p w w' : holds p w w' -> drift w w' -> inv p w -> inv p w'.
Proof using Type.
  intros H D [L M Q]. destruct (H L) as [L' (lq & E & F)]. split; [exact L'| |].
  - intros r' Hr'. destruct (drift_tracked _ _ _ D Hr') as (r & Hr & (_ & K & _)). rewrite K. auto.
  - intros q Hq. rewrite E in Hq. apply in_app_or in Hq as [Hq|Hq]; [auto|]. rewrite Forall_forall in F. auto.
Qed.
Lemma inv_same p w w' : drift w w' -> w_orphans w' = w_orphans w -> tracked w' = tracked w ->
  w_log w' = w_log w -> w_queue w' = w_queue w -> inv p w -> inv p w'.
Proof using Type. intros D O T El Eq. apply inv_holds; [now apply holds_same|exact D]. Qed.
Lemma kp_ask p {A} (f : nat -> A) : keeps (inv p) (ask f).
Proof using Type. intros w H _. eapply inv_holds; [apply (holds_bump p w)|apply (c_bump _ _ C)|exact H]. Qed.
Lemma kp_env p : keeps (inv p) (env orc).
Proof using PS.
  intros w H _. destruct (env_returns orc w) as (w' & E & _). rewrite E. destruct (holds_env p w w' E) as [H1 H2]. eapply inv_holds; eassumption.
Qed.
Ltac kp :=
  repeat lazymatch goal with
    | |- keeps _ (ret _) => apply kp_ret
    | |- keeps _ (raise _) => apply kp_raise
    | |- keeps _ (fun w => (w, OutOfFuel)) => apply kp_fuel
    | |- keeps _ (get _) => apply kp_get
    | |- keeps _ (get_task _) => apply kp_get_task
    | |- keeps _ (raise_if _) => apply kp_raise_if
    | |- keeps _ (ask _) => apply kp_ask
    | |- keeps _ (env _) => apply kp_env
    | |- keeps _ (mbind _ _) => apply kp_bind; [|intro]
    | |- keeps _ (attempt _) => apply kp_attempt
    | |- keeps _ (finally _ _) => apply kp_finally
    | |- keeps _ (modify _) => apply kp_modify; intro
    end.
Lemma kp_with_task (J : world -> Prop) {B} n (k : task -> M B) :
  (forall w t, J w -> find_task n w = Some t -> snd (k t w) <> OutOfFuel -> J (fst (k t w))) -> keeps J (mbind (get_task n) k).
Proof using Type. intros H w Hw N. unfold mbind, get_task in *. destruct (find_task n w) as [t|] eqn:F; [now apply H|exact Hw]. Qed.
Lemma kp_at (J : world -> Prop) {A B} (m : M A) (f : A -> M B) w : J (fst (m w)) -> (forall a, keeps J (f a)) ->
  snd (mbind m f w) <> OutOfFuel -> J (fst (mbind m f w)).
Proof using Type. intros H K N. unfold mbind in *. destruct (m w) as [w1 [a|e|]]; cbn [fst snd] in *; [now apply K|exact H..]. Qed.
(** A record from the queue is written *)
Lemma ledger_pop p w w' q rest : ledger orc p w -> drift w w' -> w_orphans w' = w_orphans w -> tracked w' = tracked w ->
  w_queue w = q :: rest -> w_queue w' = rest -> w_log w' = w_log w ++ [q_rec q] -> ledger orc p w'.
Proof using Type.
  intros [F S O X Q K T] D EO ET EQ EQ' EL. constructor.
  - exact (shrinks_fit _ _ (proj1 D) F).
  - intros m v H. exact (S m v (drift_seen _ _ _ _ _ D H)).
  - congruence.
  - rewrite ET. exact X.
  - intros q0 H. destruct (Q q0) as (t & Ft); [rewrite EQ; right; congruence|]. exact (drift_find _ _ _ _ D Ft).
  - intros r H E N q0 Hq. rewrite ET in H. apply (K r H E N). rewrite EQ. right. congruence.
  - apply told_frame with w; auto.
    + unfold acts. rewrite EL, EQ', EQ. cbn [map]. change (q_rec q :: map q_rec rest) with ([q_rec q] ++ map q_rec rest).
      rewrite !story_app. symmetry. apply app_assoc.
    + intros (r & H). exists r. now rewrite ET.
Qed.
Lemma log_record_eq q w t : find_task (r_task (q_rec q)) w = Some t ->
  exists st, log_record_m orc q w = (on_task (r_task (q_rec q)) (with_state st) (set_log (w_log w ++ [q_rec q]) (bump w)), Returns tt).
Proof using PS.
  intros F. unfold log_record_m, mbind, get_task, get, modify. change (ask (o_write orc) w) with (bump w, Returns (o_write orc (w_tick w))). cbv iota.
  rewrite find_bump, F. rewrite (ps_write orc PS). unfold log_record, set_status. eexists. cbn [w_log bump]. destruct q as [[n a c r] v]. reflexivity.
Qed.
Lemma pop_logs p w q rest r w1 : ledger orc p w -> w_queue w = q :: rest -> drift (set_queue rest w) w1 ->
  w_orphans w1 = w_orphans w -> tracked w1 = tracked w -> w_queue w1 = rest -> w_log w1 = w_log w ->
  attempt (log_record_m orc q) w1 = r -> exists w2, r = (w2, Returns (Ok tt)) /\ ledger orc p w2 /\ drift w w2 /\ w_queue w2 = rest.
Proof using PS.
  intros L EQ D1 EO ET EQ1 EL <-. destruct (lg_queue _ _ _ L q) as (t & Ft); [rewrite EQ; now left|].
  destruct (drift_find _ _ _ t D1 Ft) as (t1 & Ft1). destruct (log_record_eq q w1 t1 Ft1) as (st & E).
  unfold attempt. rewrite E. eexists. split; [reflexivity|].
  assert (D : drift w (on_task (r_task (q_rec q)) (with_state st) (set_log (w_log w1 ++ [q_rec q]) (bump w1)))).
  { apply drift_trans with (set_queue rest w); [apply (c_queue _ _ C)|]. apply drift_trans with w1; [exact D1|].
    apply drift_trans with (bump w1); [apply (c_bump _ _ C)|]. eapply drift_trans; [apply (c_log _ _ C [q_rec q])|]. apply (c_state _ _ C _ (fun _ => st)). }
  split; [|split; [exact D|exact EQ1]]. apply ledger_pop with w q rest; auto.
  - rewrite tracked_on_task by reflexivity. exact ET.
  - cbn. now rewrite EL.
Qed.
Lemma handle_logs_ok cf fuel p : forall w, inv p w ->
  exists w' o, handle_logs orc cf fuel w = (w', o) /\ (o = OutOfFuel \/ (o = Returns tt /\ inv p w' /\ w_queue w' = [])).
Proof using PS.
  induction fuel as [|fuel IH]; intros w0 H0; cbn [handle_logs]; [do 2 eexists; split; [reflexivity|now left]|].
  destruct (env_returns orc w0) as (w & Ew & _). rewrite (bind_to _ _ _ _ _ Ew). destruct (holds_env p w0 w Ew) as [Hw Dw].
  destruct (inv_holds _ _ _ Hw Dw H0) as [L M Q]. rewrite (bind_to (get (fun w => w)) _ w w w eq_refl). clear w0 H0 Ew Hw Dw.
  destruct (w_queue w) as [|q rest] eqn:EQ.
  { exists w, (Returns tt). split; [reflexivity|]. right. split; [reflexivity|]. split; [|exact EQ]. split; [exact L|exact M|rewrite EQ; exact Q]. }
  destruct (lg_queue _ _ _ L q) as (t & Ft); [rewrite EQ; now left|].
  set (w0 := set_queue rest w).
  assert (Em : exists w1, match q_return q with Some v => if action_eqb (r_action (q_rec q)) ASuccess then handle_return (r_task (q_rec q)) v else ret tt | None => ret tt end w0
     = (w1, Returns tt) /\ drift w0 w1 /\ w_orphans w1 = w_orphans w /\ tracked w1 = tracked w /\ w_queue w1 = rest /\ w_log w1 = w_log w).
  { assert (Z : exists w1, ret tt w0 = (w1, Returns tt) /\ drift w0 w1 /\ w_orphans w1 = w_orphans w /\ tracked w1 = tracked w /\ w_queue w1 = rest /\ w_log w1 = w_log w).
    { exists w0. split; [reflexivity|]. split; [apply drift_refl|]. now repeat split. }
    destruct (q_return q) as [v|]; [|exact Z]. destruct (action_eqb _ _); [|exact Z]. eexists. split; [reflexivity|].
    split; [apply (c_returns _ _ C)|]. now repeat split. }
  destruct Em as (w1 & Em & D1 & O1 & T1 & Q1 & L1).
  destruct (pop_logs p w q rest _ w1 L EQ D1 O1 T1 Q1 L1 eq_refl) as (w2 & E2 & L2 & D2 & Q2).
  destruct (IH w2) as (w' & o & E' & HO).
  { split; [exact L2| |].
    - intros r' Hr'. destruct (drift_tracked _ _ _ D2 Hr') as (r0 & Hr & (_ & K & _)). rewrite K. auto.
    - intros q0 Hq0. apply Q. right. congruence. }
  exists w', o. split; [|exact HO].
  erewrite bind_to by reflexivity. erewrite bind_to by (unfold get_task; change (find_task (r_task (q_rec q)) (set_queue rest w)) with (find_task (r_task (q_rec q)) w); rewrite Ft; reflexivity).
  rewrite (bind_to _ _ _ _ _ Em). rewrite (bind_to _ _ _ _ _ E2). exact E'.
Qed.
Lemma kp_handle_logs cf fuel p : keeps (inv p) (handle_logs orc cf fuel).
Proof using PS.
  intros w H N. destruct (handle_logs_ok cf fuel p w H) as (w' & o & E & HO). rewrite E in *. destruct HO as [-> |(_ & HO & _)]; [now destruct N|exact HO].
Qed.
Lemma inv_filter n f p w : (forall r, In r (tracked w) -> live r = true -> f r = true) ->
  inv p w -> inv p (on_task n (fun t => with_stack (filter f (t_stack t)) t) w).
Proof using Type.
  intros Hf. set (w' := on_task n _ w).
  assert (SB : forall r, In r (tracked w') -> In r (tracked w)).
  { intros r H. unfold w', tracked, on_task in H. cbn in H. rewrite map_map in H. apply in_concat in H as (l & Hl & Hr).
    apply in_map_iff in Hl as (t & <- & Ht). apply in_concat_map. exists t. split; [exact Ht|]. destruct (_ =? _); [|exact Hr]. cbn in Hr. now apply filter_In in Hr. }
  assert (D : drift w w') by (apply drift_set, shrinks_on_task; intros t; split; [reflexivity|apply less_filter]).
  apply inv_holds; [|exact D]. intros L. split; [|now apply queued_same].
  apply ledger_away with w [] []; auto; try (cbn; now rewrite app_nil_r); try (intros ? []).
  - intros r H E. exists r. split; auto.
  - intros (r & H & E & V). exists r. split; [|now split]. pose proof (Hf r H V) as Hf'. apply in_concat_map in H as (t & Ht & Hr). unfold w', tracked, on_task. cbn. rewrite map_map.
    apply in_concat. eexists. split; [apply in_map, Ht|]. destruct (_ =? _); [|exact Hr]. cbn. apply filter_In. now split.
Qed.
Lemma kp_clean cf n p : keeps (inv p) (clean_run_stack cf n).
Proof using Type. apply kp_modify. intros w. apply inv_filter. intros r _ H. unfold keep_run. rewrite <- live_alive, H. reflexivity. Qed.
Lemma drop_none l : (forall r, In r l -> rn_exc r = false) -> drop_first_exc l = None.
Proof using Type.
  induction l as [|r l IH]; intros H; [reflexivity|]. cbn. rewrite (H r) by now left. rewrite IH; [reflexivity|]. intros x Hx. apply H. now right.
Qed.
Lemma kp_check_exceptions n p : keeps (inv p) (check_exceptions n).
Proof using Type.
  intros w H _. unfold check_exceptions, mbind, get_task. destruct (find_task n w) as [t|] eqn:F; [|exact H].
  rewrite drop_none; [exact H|]. intros r Hr. apply (lg_exc _ _ _ (iv_ledger _ _ H)). apply in_concat_map. exists t. split; [|exact Hr]. now apply find_some in F.
Qed.

(** * Termination *)
Definition snap (p : option (Z * nat)) (n : Z) (r : run) (w : world) : Prop :=
  (rn_id r = Some i -> p = Some (n, rn_uid r)) /\
  (forall r', In r' (tracked w) -> rn_uid r' = rn_uid r -> rn_kind r' = rn_kind r /\ rn_id r' = rn_id r) /\
  exists t, find_task n w = Some t.
Lemma snap_drift p n r w w' : drift w w' -> snap p n r w -> snap p n r w'.
Proof using Type.
  intros D (S1 & S2 & t & S3). split; [exact S1|]. split; [|exact (drift_find _ _ _ _ D S3)].
  intros r' Hr' E. destruct (drift_tracked _ _ _ D Hr') as (r0 & H0 & (U0 & K0 & _ & I0 & _)). destruct (S2 r0 H0) as [A1 A2]; [congruence|]. split; congruence.
Qed.
Definition dead (v : nat) (w : world) : Prop := forall r, In r (tracked w) -> rn_uid r = v -> live r = false.
Lemma over_dead v e w : dead v (on_run v (with_phase (Over e)) w).
Proof using Type.
  intros r Hr E. rewrite tracked_on_run in Hr. apply in_map_iff in Hr as (r0 & <- & H0). destruct (Nat.eqb_spec (rn_uid r0) v); [reflexivity|contradiction].
Qed.
Lemma find_dead v w t r : fit_ids w -> find_run v w = Some (t, r) -> live r = false -> dead v w.
Proof using Type. intros F E L r0 H0 E0. now rewrite (found_id _ _ _ _ F E r0 H0 E0). Qed.
Lemma none_dead v w : find_run v w = None -> dead v w.
Proof using Type. intros F r H E. destruct (find_run_none _ _ F r H E). Qed.
Definition obj_result (p : option (Z * nat)) (v : nat) (w w' : world) (o : outcome unit) : Prop :=
  o <> OutOfFuel /\ drift w w' /\
  ((holds p w w' /\ (o = Raises CancelledError -> dead v w') /\
    (forall r, In r (tracked w) -> rn_uid r = v -> rn_kind r = XProcess -> dead v w')) \/
   (exists e, w' = on_run v (with_phase (Over e)) w) /\ (o = Raises CancelledError \/
      (o = Returns tt /\ exists r, In r (tracked w) /\ rn_uid r = v /\ rn_kind r = XProcess))).
Lemma obj_same p v w o : (o = Raises CancelledError -> dead v w) -> o <> OutOfFuel ->
  (forall r, In r (tracked w) -> rn_uid r = v -> rn_kind r = XProcess -> dead v w) -> obj_result p v w w o.
Proof using Type. intros H N K. split; [exact N|]. split; [apply drift_refl|]. left. split; [apply holds_refl|]. now split. Qed.
Lemma on_run_phase v e w w' : fit_ids w' -> w' = on_run v (with_phase (Over e)) w -> forall t r, find_run v w' = Some (t, r) -> rn_phase r = Over e.
Proof using Type.
  intros _ -> t r F. apply find_run_in in F as [F U]. rewrite tracked_on_run in F. apply in_map_iff in F as (r0 & <- & _).
  destruct (Nat.eqb_spec (rn_uid r0) v); [reflexivity|contradiction].
Qed.
Lemma obj_holds p v w w' o : ledger orc p w -> terminate_run_obj orc v w = (w', o) -> obj_result p v w w' o.
Proof using PS.
  intros L E. unfold terminate_run_obj in E. unfold mbind at 1, get at 1 in E. cbn beta iota in E.
  destruct (find_run v w) as [[t r]|] eqn:F.
  2:{ injection E as <- <-. apply obj_same; [discriminate|discriminate|]. intros. now apply none_dead. }
  pose proof (lg_fit _ _ _ L) as FI. pose proof (found_id _ _ _ _ FI F) as FD.
  assert (KP : rn_kind r <> XProcess -> forall w1 r0, In r0 (tracked w) -> rn_uid r0 = v -> rn_kind r0 = XProcess -> dead v w1).
  { intros N w1 r0 H0 E0 K0. rewrite (FD r0 H0 E0) in K0. contradiction. }
  destruct (rn_kind r) eqn:K.
  - injection E as <- <-. apply obj_same; [discriminate|discriminate|now apply KP].
  - destruct (rn_phase r) as [| |[e|]] eqn:P.
    + injection E as <- <-. split; [discriminate|]. split; [apply (c_over _ _ C)|]. right. split; [now eexists|now left].
    + destruct (env_returns orc w) as (w1 & E1 & _). destruct (holds_env p w w1 E1) as [H1 D1]. unfold mbind at 1 in E. rewrite E1 in E.
      unfold mbind at 1 in E. change (ask (o_script orc) w1) with (bump w1, Returns (o_script orc (w_tick w1))) in E. cbv iota in E.
      unfold mbind at 1, get at 1 in E. cbn beta iota in E.
      assert (H2 : holds p w (bump w1)) by (eapply holds_trans; [exact H1|apply holds_bump]).
      assert (D2 : drift w (bump w1)) by (eapply drift_trans; [exact D1|apply (c_bump _ _ C)]).
      destruct (H2 L) as [L2 _]. pose proof (lg_fit _ _ _ L2) as FI2.
      set (w2 := bump w1) in *. destruct (find_run v w2) as [[t2 r2]|] eqn:F2.
      2:{ injection E as <- <-. split; [discriminate|]. split; [exact D2|]. left. split; [exact H2|]. split; [discriminate|now apply KP]. }
      assert (K2 : rn_kind r2 = XAsync).
      { pose proof F2 as F2'. apply find_run_in in F2' as [I2 U2]. destruct (drift_tracked _ _ _ D2 I2) as (r0 & H0 & (U0 & K0 & _)).
        rewrite K0. rewrite (FD r0 H0); [exact K|congruence]. }
      assert (BH : live r2 = true -> (end_coroutine v (run_body orc false (Some XAsync) (t_name t2) (rn_id r2) (o_script orc (w_tick w1))) ;;
                w <- get (fun w => w) ;;
                match find_run v w with
                | Some (_, r) => match rn_phase r with Over (Some e) => raise e | _ => ret tt end
                | None => ret tt end) w2 = (w', o) -> obj_result p v w w' o).
      { intros LV E'. destruct (body_holds p v w2 t2 r2 (Some XAsync) (o_script orc (w_tick w1)) (ps_script orc PS _) F2 LV) as (w3 & E3 & H3);
          [congruence|discriminate|].
        unfold end_coroutine, mbind, attempt, get, modify in E'. rewrite E3 in E'. set (w4 := on_run v (with_phase (Over None)) w3) in *.
        specialize (H3 None). assert (D4 : drift w w4).
        { eapply drift_trans; [exact D2|]. eapply drift_trans; [eapply steps_eq; [|exact E3]; apply (steps_run_body C)|apply (c_over _ _ C)]. }
        assert (Z : w' = w4 /\ o = Returns tt).
        { destruct (find_run v w4) as [[t4 r4]|] eqn:F4; [|injection E' as <- <-; now split].
          assert (FI4 : fit_ids w4) by exact (shrinks_fit _ _ (proj1 D4) FI).
          rewrite (on_run_phase v None w3 w4 FI4 eq_refl _ _ F4) in E'. injection E' as <- <-. now split. }
        destruct Z as [-> ->]. split; [discriminate|]. split; [exact D4|]. left. split; [eapply holds_trans; [exact H2|exact H3]|]. split; [discriminate|now apply KP]. }
      destruct (rn_phase r2) as [| |[e|]] eqn:P2.
      * apply BH; [unfold live; now rewrite P2|exact E].
      * apply BH; [unfold live; now rewrite P2|exact E].
      * injection E as <- <-. split; [discriminate|]. split; [exact D2|]. left. split; [exact H2|]. split; [|now apply KP].
        intros _. apply (find_dead _ _ _ _ FI2 F2). unfold live. now rewrite P2.
      * injection E as <- <-. split; [discriminate|]. split; [exact D2|]. left. split; [exact H2|]. split; [discriminate|now apply KP].
    + injection E as <- <-. apply obj_same; [|discriminate|now apply KP]. intros _. apply (find_dead _ _ _ _ FI F). unfold live. now rewrite P.
    + injection E as <- <-. apply obj_same; [discriminate|discriminate|now apply KP].
  - injection E as <- <-. split; [discriminate|]. split; [apply (c_stop _ _ C)|]. left. split; [|split; [discriminate|now apply KP]].
    apply holds_on_run; try reflexivity; [apply (c_stop _ _ C)|]. intros. assumption.
  - destruct (run_alive r) eqn:A.
    + injection E as <- <-. split; [discriminate|]. split; [apply (c_over _ _ C)|]. right. split; [now eexists|]. right. split; [reflexivity|].
      exists r. apply find_run_in in F as [F1 F2]. now split.
    + injection E as <- <-. apply obj_same; [discriminate|discriminate|]. intros. now apply (find_dead _ _ _ _ FI F).
Qed.
Lemma log_term p n rid v w w1 : inv p w -> (w1 = w \/ exists e, w1 = on_run v (with_phase (Over e)) w) -> dead v w1 ->
  (exists t, find_task n w = Some t) -> (rid = Some i -> p = Some (n, v) /\ In (EvTerminate n v) (w_trace w)) ->
  (rid <> Some i -> forall r, In r (tracked w) -> rn_uid r = v -> rn_id r <> Some i) ->
  inv p (fst (log_action orc false n ATerminate rid 0 w1)).
Proof using PS.
  intros [L M Q] W DV (t & Ft) HI HN.
  assert (D1 : drift w w1) by (destruct W as [-> |(e & ->)]; [apply drift_refl|apply (c_over _ _ C)]).
  assert (E1 : w_log w1 = w_log w /\ w_queue w1 = w_queue w /\ w_orphans w1 = w_orphans w /\ w_clock w1 = w_clock w) by (destruct W as [-> |(e & ->)]; now repeat split).
  destruct E1 as (EL & EQ & EO & EC). destruct (drift_find _ _ _ _ D1 Ft) as (t1 & Ft1).
  destruct (recorded orc n ATerminate rid 0 w1 t1 Ft1 (ps_write orc PS _)) as (w2 & E & RL & _ & [_ U2 U3 U4 U5]). rewrite E. cbn [fst].
  assert (D : drift w w2). { eapply drift_trans; [exact D1|]. eapply steps_eq; [|exact E]. apply (steps_log_action C). }
  assert (EX : forall r, In r (tracked w2) -> rn_exc r = true -> exists r0, In r0 (tracked w) /\ rn_exc r0 = true).
  { rewrite U5. destruct W as [-> |(e & ->)]; [intros r H HE; now exists r|now apply on_run_exc]. }
  assert (LG : ledger orc p w2).
  { assert (Dec : {rid = Some i} + {rid <> Some i}) by (destruct rid as [j|]; [destruct (Z.eq_dec j i) as [-> |]; [now left|right; congruence]|right; discriminate]).
    destruct Dec as [-> |N].
    - destruct (HI eq_refl) as [-> T]. apply ledger_logged with w ATerminate (w_clock w1); auto.
      + unfold is_outcome. auto.
      + congruence.
      + intros (r & Hr & Er & Lr). rewrite U5 in Hr. rewrite (DV r Hr) in Lr; [discriminate|].
        destruct (drift_tracked _ _ _ D1 Hr) as (r0 & H0 & (U0 & _ & _ & I0 & _)). rewrite U0. apply (ledger_uid _ _ _ _ _ L H0). congruence.
      + right. split; [reflexivity|]. exact (drift_event _ _ _ D T).
      + rewrite RL, EL. reflexivity.
      + congruence.
      + intros q Hq _. auto.
    - apply ledger_away with w [Rec n ATerminate (w_clock w1) rid] []; auto; try (intros ? []).
      + congruence.
      + now rewrite RL, EL.
      + rewrite app_nil_r. congruence.
      + subst. exact N.
      + destruct H.
      + intros (r & Hr & Er & Lr). exists r. split; [|now split]. rewrite U5. destruct W as [-> |(e & ->)]; [exact Hr|].
        rewrite tracked_on_run. apply in_map_iff. exists r. split; [|exact Hr]. destruct (Nat.eqb_spec (rn_uid r) v) as [Ev|]; [|reflexivity].
        destruct (HN N r Hr Ev Er). }
  split; [exact LG| |].
  - intros r' Hr'. destruct (drift_tracked _ _ _ D Hr') as (r0 & Hr & (_ & K & _)). rewrite K. auto.
  - rewrite U2, EQ. exact Q.
Qed.
Lemma terminate_run_inv p n r w : snap p n r w -> inv p w -> inv p (fst (terminate_run orc n r w)).
Proof using PS.
  intros SN H. unfold terminate_run, mbind at 1, modify. set (w0 := emit (EvTerminate n (rn_uid r)) w).
  assert (D0 : drift w w0) by (apply drift_emit; exact I). assert (H0 : inv p w0) by (eapply inv_same; [exact D0|reflexivity..|exact H]).
  assert (T0 : In (EvTerminate n (rn_uid r)) (w_trace w0)) by now left. pose proof (snap_drift _ _ _ _ _ D0 SN) as (S1 & S2 & S3).
  clearbody w0. clear w H SN D0. unfold mbind, attempt. destruct (terminate_run_obj orc (rn_uid r) w0) as [w1 o] eqn:E.
  destruct (obj_holds p (rn_uid r) w0 w1 o (iv_ledger _ _ H0) E) as (NO & D1 & R).
  assert (HN0 : rn_id r <> Some i -> forall w2, drift w0 w2 -> forall r', In r' (tracked w2) -> rn_uid r' = rn_uid r -> rn_id r' <> Some i).
  { intros N w2 D2 r' Hr' Ur'. destruct (drift_tracked _ _ _ D2 Hr') as (r0 & Hr0 & (U0 & _ & _ & I0 & _)).
    destruct (S2 r0 Hr0) as [_ A]; [congruence|]. congruence. }
  destruct R as [(H1 & RC & RP)|((e & ->) & RO)].
  - assert (I1 : inv p w1) by (eapply inv_holds; eassumption).
    assert (LT : dead (rn_uid r) w1 -> inv p (fst (log_action orc false n ATerminate (rn_id r) 0 w1))).
    { intros DV. apply log_term with (rn_uid r) w1; auto.
      - destruct S3 as (t & S3). exact (drift_find _ _ _ _ D1 S3).
      - intros Ei. split; [now apply S1|]. exact (drift_event _ _ _ D1 T0).
      - intros N. exact (HN0 N w1 D1). }
    destruct o as [[]|x|]; [| |now destruct NO].
    + destruct (exec_eqb (rn_kind r) XProcess) eqn:K; [|exact I1]. assert (K' : rn_kind r = XProcess) by (destruct (rn_kind r); try discriminate K; reflexivity).
      apply LT. intros r' Hr' Ur'. destruct (drift_tracked _ _ _ D1 Hr') as (r0 & Hr0 & (U0 & _)).
      apply (RP r0); auto; [congruence|]. destruct (S2 r0 Hr0) as [A _]; congruence.
    + destruct x; try exact I1. apply LT. now apply RC.
  - assert (LT : inv p (fst (log_action orc false n ATerminate (rn_id r) 0 (on_run (rn_uid r) (with_phase (Over e)) w0)))).
    { apply log_term with (rn_uid r) w0; auto.
      - right. now exists e.
      - apply over_dead.
      - intros N. exact (HN0 N w0 (drift_refl w0)). }
    destruct RO as [-> |(-> & r0 & Hr0 & U0 & K0)]; [exact LT|]. destruct (S2 r0 Hr0 U0) as [K1 _]. rewrite <- K1, K0. exact LT.
Qed.
Lemma drift_terminate n r w : drift w (fst (terminate_run orc n r w)).
Proof using PS. exact (steps_terminate_run C orc HP n r w). Qed.
Lemma stack_snap p n w t r : inv p w -> find_task n w = Some t -> In r (t_stack t) -> snap p n r w.
Proof using Type.
  intros H F Hr. pose proof (lg_fit _ _ _ (iv_ledger _ _ H)) as (_ & DR & _). pose proof F as F'. apply find_some in F' as [Ht _]. split; [|split; [|now exists t]].
  - intros Ei. apply (lg_seen _ _ _ (iv_ledger _ _ H)). exists (w_tasks w), t, r. split; [now left|]. split; [exact Ht|]. split; [exact Hr|]. split; [exact (find_name _ _ _ F)|now split].
  - intros r' Hr' Er. rewrite (one_id w r' r DR Hr'); [now split| |exact Er]. apply in_concat_map. now exists t.
Qed.
Lemma terminate_each_inv p n rs : forall w, inv p w -> (forall r, In r rs -> snap p n r w) -> inv p (fst (terminate_each orc n rs w)).
Proof using PS.
  induction rs as [|r rs IH]; intros w H S; cbn [terminate_each]; [exact H|].
  pose proof (terminate_run_inv p n r w (S r (or_introl eq_refl)) H) as H1. pose proof (drift_terminate n r w) as D1. unfold mbind.
  destruct (terminate_run orc n r w) as [w1 [[]|e|]]; cbn [fst] in *; [|exact H1..].
  destruct (env_returns orc w1) as (w2 & E2 & _). rewrite E2. destruct (holds_env p w1 w2 E2) as [H2 D2].
  apply IH; [now apply (inv_holds p w1)|]. intros r0 Hr0. apply (snap_drift _ _ _ w); [eapply drift_trans; eassumption|]. apply S. now right.
Qed.
Lemma inv_term p n b w : inv p w -> inv p (on_task n (with_term b) w).
Proof using Type.
  apply inv_same; try reflexivity; [|now apply tracked_on_task]. apply drift_set, shrinks_on_task. intros t. now apply less_same.
Qed.
Lemma kp_terminate_all cf n p : keeps (inv p) (terminate_all_runs orc cf n).
Proof using PS.
  unfold terminate_all_runs. apply kp_with_task. intros w t H F. apply kp_at.
  - apply terminate_each_inv; [exact H|]. intros r Hr. now apply (stack_snap p n w t).
  - intros _. kp; [apply kp_clean|now apply inv_term].
Qed.
Lemma terminate_late_inv p n now d rs : forall w, inv p w -> (forall r, In r rs -> snap p n r w) -> inv p (fst (terminate_late orc n now d rs w)).
Proof using PS.
  induction rs as [|r rs IH]; intros w H S; cbn [terminate_late]; [exact H|]. unfold mbind at 1, get.
  assert (S' : forall w', drift w w' -> forall r0, In r0 rs -> snap p n r0 w').
  { intros w' D r0 Hr0. apply (snap_drift _ _ _ w); [exact D|]. apply S. now right. }
  destruct (_ && _); [|unfold mbind, ret; apply IH; [exact H|apply S', drift_refl]].
  pose proof (terminate_run_inv p n r w (S r (or_introl eq_refl)) H) as H1. pose proof (drift_terminate n r w) as D1. unfold mbind.
  destruct (terminate_run orc n r w) as [w1 [[]|e|]]; cbn [fst] in *; [|exact H1..].
  destruct (env_returns orc w1) as (w2 & E2 & _). rewrite E2. destruct (holds_env p w1 w2 E2) as [H2 D2].
  apply IH; [now apply (inv_holds p w1)|]. apply S'. eapply drift_trans; eassumption.
Qed.
Lemma kp_check_termination cf n p : keeps (inv p) (check_termination orc cf n).
Proof using PS.
  unfold check_termination. apply kp_bind; [apply kp_ask|intros a]. apply kp_bind; [|intros a0].
  - destruct a as [b|e]; kp. destruct (_ || _); kp.
  - apply kp_with_task. intros w t H F. destruct (t_term t); [now apply kp_terminate_all|]. destruct a0; [now apply kp_terminate_all|].
    intros _. unfold mbind, get. destruct (tc_permanent (t_cfg t)); [exact H|]. apply terminate_late_inv; [exact H|]. intros r Hr. now apply (stack_snap p n w t).
Qed.
Lemma kp_is_task_runnable cf n p : keeps (inv p) (is_task_runnable orc cf n).
Proof using PS.
  unfold is_task_runnable. kp.
  - destruct (exec_eqb _ _); unfold has_free_processors; kp.
  - destruct a0; cbn [negb]; kp. destruct (_ && _); kp. unfold check_task_cond. kp.
    + unfold is_runnable. kp. destruct (t_batches a3); [|kp]. destruct (t_disabled a3); [kp|]. destruct (tc_always_false _); kp. destruct a5; kp.
    + destruct a3; kp. destruct (_ || _); kp.
Qed.

(** * Starting *)
Lemma in_pushed n r w r' : In r' (tracked (on_task n (fun t => with_stack (t_stack t ++ [r]) t) w)) -> In r' (tracked w) \/ r' = r.
Proof using Type.
  unfold tracked, on_task. cbn. rewrite map_map. intros H. apply in_concat in H as (l & Hl & Hr). apply in_map_iff in Hl as (t & <- & Ht).
  assert (K : In r' (t_stack t) \/ r' = r). { destruct (_ =? _); [|now left]. cbn in Hr. apply in_app_or in Hr as [Hr|[<- |[]]]; auto. }
  destruct K as [K|K]; [left|now right]. apply in_concat_map. now exists t.
Qed.
Lemma pushed_in n r w r' : In r' (tracked w) -> In r' (tracked (on_task n (fun t => with_stack (t_stack t ++ [r]) t) w)).
Proof using Type.
  intros H. apply in_concat_map in H as (t & Ht & Hr). unfold tracked, on_task. cbn. rewrite map_map. apply in_concat. eexists.
  split; [apply in_map, Ht|]. destruct (_ =? _); [|exact Hr]. cbn. apply in_or_app. now left.
Qed.
Lemma pushed_new n r w t : find_task n w = Some t -> In r (tracked (on_task n (fun t => with_stack (t_stack t ++ [r]) t) w)).
Proof using Type.
  intros F. pose proof (find_name _ _ _ F) as N. apply find_some in F as [F _]. unfold tracked, on_task. cbn. rewrite map_map. apply in_concat. eexists.
  split; [apply in_map, F|]. rewrite N, Z.eqb_refl. cbn. apply in_or_app. right. now left.
Qed.
Lemma pushed_seen n r w m u : seen_run (on_task n (fun t => with_stack (t_stack t ++ [r]) t) w) m u i ->
  seen_run w m u i \/ (m = n /\ u = rn_uid r /\ rn_id r = Some i).
Proof using Type.
  set (w' := on_task n _ w). intros (ts & t & r0 & O & Ht & Hr & N & U & Ei).
  assert (O' : ts = w_tasks w' \/ observed w ts). { destruct O as [O|[O|O]]; [now left| |right; now right]. left. now injection O as <-. }
  destruct O' as [-> |O']; [|left; now exists ts, t, r0]. unfold w', on_task in Ht. cbn in Ht. apply in_map_iff in Ht as (t0 & <- & Ht0).
  destruct (Z.eqb_spec (t_name t0) n) as [E|E].
  - cbn in Hr. apply in_app_or in Hr as [Hr|[<- |[]]].
    + left. exists (w_tasks w), t0, r0. split; [now left|]. now repeat (split; [assumption|]).
    + right. split; [|split; [congruence|exact Ei]]. change (t_name t0 = m) in N. congruence.
  - left. exists (w_tasks w), t0, r0. split; [now left|]. now repeat (split; [assumption|]).
Qed.
(** The start is recorded *)
Definition after (j : Z) (n : Z) (u : nat) (p : option (Z * nat)) : option (Z * nat) := if j =? i then Some (n, u) else p.
Section Push.
Context (p : option (Z * nat)) (n j : Z) (u : nat) (start c : Z) (x : exec) (ph : phase) (w w3 : world) (t : task).
Let r := Run u (Some j) start x ph false false.
Let wp := on_task n (fun t => with_stack (t_stack t ++ [r]) t) w.
Context (L : ledger orc p w) (F : find_task n w = Some t) (FR : fresh_id u w) (LV : live r = true).
Context (PN : j = i -> p = None /\ exists k, (k < w_tick w)%nat /\ o_run_id orc k = Ok i).
Context (D : drift wp w3) (T3 : tracked w3 = tracked wp) (O3 : w_orphans w3 = w_orphans w).
Lemma push_fit_ids : fit_ids wp.
Proof using L FR. exact (sr_push _ _ _ _ (push_fit n u) r w eq_refl FR (lg_fit _ _ _ L)). Qed.
Lemma push_away : j <> i -> ledger orc p wp.
Proof using L FR.
  intros N. pose proof push_fit_ids as PF. destruct L as [FI S O X Q K T]. constructor.
  - exact PF.
  - intros m v H. apply pushed_seen in H as [H|(_ & _ & H)]; [auto|]. cbn in H. congruence.
  - exact O.
  - intros r0 H. apply in_pushed in H as [H| ->]; [auto|reflexivity].
  - intros q H. destruct (Q q H) as (t0 & Ft0). unfold wp. rewrite find_on_task by reflexivity. rewrite Ft0. eexists. reflexivity.
  - intros r0 H E. apply in_pushed in H as [H| ->]; [now apply K|]. cbn in E. congruence.
  - apply told_frame_gen with w; [reflexivity| |apply le_n|intros e He; now right|exact T]. split.
    + intros (r0 & H & V). exists r0. split; [now apply pushed_in|exact V].
    + intros (r0 & H & E & V). exists r0. apply in_pushed in H as [H| ->]; [now split|]. cbn in E. congruence.
Qed.
Lemma push_common A B : story i (w_log w3) = A -> story i (map q_rec (w_queue w3)) = B -> A ++ B = [Rec n ARun c (Some i)] -> j = i ->
  (forall q, In q (w_queue w3) -> exists t, find_task (r_task (q_rec q)) w = Some t) ->
  (x <> XProcess -> B = []) -> ledger orc (Some (n, u)) w3.
Proof using L F FR LV PN D T3 O3.
  intros EA EB E EJ QT KX. pose proof push_fit_ids as PF. destruct (PN EJ) as [-> (k & Kt & Ek)]. constructor.
  - exact (shrinks_fit _ _ (proj1 D) PF).
  - intros m v H. apply (drift_seen _ _ _ _ _ D) in H. apply pushed_seen in H as [H|(-> & -> & _)]; [|reflexivity]. apply (lg_seen _ _ _ L) in H. discriminate.
  - rewrite O3. exact (lg_orphans _ _ _ L).
  - rewrite T3. intros r0 H. apply in_pushed in H as [H| ->]; [exact (lg_exc _ _ _ L r0 H)|reflexivity].
  - intros q H. destruct (QT q H) as (t0 & Ft0). apply (drift_find _ wp w3 (if t_name t0 =? n then with_stack (t_stack t0 ++ [r]) t0 else t0) D).
    unfold wp. rewrite find_on_task by reflexivity. now rewrite Ft0.
  - rewrite T3. intros r0 H E0 N q Hq Eq. apply in_pushed in H as [H| ->]; [destruct (ledger_none _ _ _ L H E0)|].
    assert (Hs : In (q_rec q) (story i (map q_rec (w_queue w3)))) by (apply story_in; split; [now apply in_map|exact Eq]).
    rewrite EB, (KX N) in Hs. destruct Hs.
  - assert (Hr : In r (tracked wp)) by (eapply pushed_new; exact F). split; [|split].
    + exists c, []. split; [unfold acts; now rewrite EA, EB|]. left. split; [reflexivity|]. exists r. rewrite T3. split; [exact Hr|]. split; [cbn; congruence|exact LV].
    + exists k. split; [|exact Ek]. destruct D as (_ & D1 & _). change (w_tick wp) with (w_tick w) in D1. lia.
    + apply in_concat_map in Hr as (t0 & Ht0 & Hr0). exists (w_tasks wp), t0, r. split; [apply (drift_event _ _ _ D); now left|]. split; [exact Ht0|]. split; [exact Hr0|].
      split; [|split; [reflexivity|cbn; congruence]]. unfold wp, on_task in Ht0. cbn in Ht0. apply in_map_iff in Ht0 as (t1 & <- & Ht1).
      destruct (Z.eqb_spec (t_name t1) n) as [E1|E1]; [exact E1|]. exfalso. destruct FR as [_ FR']. apply (FR' r); [|reflexivity]. apply in_concat_map. now exists t1.
Qed.
Lemma push_logged : x <> XProcess -> w_log w3 = w_log w ++ [Rec n ARun c (Some j)] -> w_queue w3 = w_queue w -> ledger orc (after j n u p) w3.
Proof using L F FR LV PN D T3 O3.
  intros KX EL EQ. unfold after. destruct (Z.eqb_spec j i) as [E|N].
  - destruct (PN E) as [EP _]. pose proof (lg_state _ _ _ L) as S. rewrite EP in S. cbn in S. unfold acts in S. apply app_eq_nil in S as [S1 S2].
    eapply push_common; [reflexivity|reflexivity| |exact E| |].
    + rewrite EL, EQ, story_app, S1, S2, E, story_one. reflexivity.
    + rewrite EQ. exact (lg_queue _ _ _ L).
    + intros _. now rewrite EQ.
  - apply ledger_away with wp [Rec n ARun c (Some j)] []; [now apply push_away|exact D|exact O3| |exact EL| | |intros ? []|intros ? []|].
    + intros r0 H E. exists r0. rewrite <- T3. now split.
    + rewrite app_nil_r. exact EQ.
    + intros r0 [<- | []]. cbn. congruence.
    + intros (r0 & H & V). exists r0. rewrite T3. now split.
Qed.
Lemma push_queued q : q_rec q = Rec n ARun c (Some j) -> x = XProcess -> w_log w3 = w_log w -> w_queue w3 = w_queue w ++ [q] -> ledger orc (after j n u p) w3.
Proof using L F FR LV PN D T3 O3.
  intros Eq KX EL EQ. assert (FP : exists t, find_task n wp = Some t) by (unfold wp; rewrite find_on_task by reflexivity; rewrite F; eexists; reflexivity).
  unfold after. destruct (Z.eqb_spec j i) as [E|N].
  - destruct (PN E) as [EP _]. pose proof (lg_state _ _ _ L) as S. rewrite EP in S. cbn in S. unfold acts in S. apply app_eq_nil in S as [S1 S2].
    eapply push_common; [reflexivity|reflexivity| |exact E| |].
    + rewrite EL, EQ, map_app, story_app, S1, S2. cbn [map]. rewrite Eq, E, story_one. reflexivity.
    + rewrite EQ. intros q0 H. apply in_app_or in H as [H|[<- |[]]]; [exact (lg_queue _ _ _ L q0 H)|]. rewrite Eq. now exists t.
    + intros N. now destruct N.
  - apply ledger_away with wp [] [q]; [now apply push_away|exact D|exact O3| | |exact EQ|intros ? []| | |].
    + intros r0 H E. exists r0. rewrite <- T3. now split.
    + rewrite app_nil_r. exact EL.
    + intros r0 [<- | []]. rewrite Eq. cbn. congruence.
    + intros q0 [<- | []]. now rewrite Eq.
    + intros (r0 & H & V). exists r0. rewrite T3. now split.
Qed.
End Push.
Definition one_run (w : world) : Prop := exists q1 qa q2, w_queue w = q1 ++ qa :: q2 /\ r_action (q_rec qa) = ARun /\
  Forall (fun q => r_action (q_rec q) <> ARun) q1 /\ Forall (fun q => r_action (q_rec q) <> ARun) q2.
Lemma lock_inv p n u fuel : forall w, ledger orc p w -> one_run w ->
  exists w' o, lock_to_run_log orc fuel n u None w = (w', o) /\
    (o = OutOfFuel \/ (o = Returns tt /\ ledger orc p w' /\ drift w w' /\ forall q, In q (w_queue w') -> r_action (q_rec q) <> ARun)).
Proof using PS.
  induction fuel as [|fuel IH]; intros w L (q1 & qa & q2 & EQ & RA & F1 & F2); [do 2 eexists; split; [reflexivity|now left]|].
  cbn [lock_to_run_log]. destruct (env_returns orc w) as (w1 & E1 & _). rewrite (bind_to _ _ _ _ _ E1). destruct (holds_env p w w1 E1) as [H1 D1].
  destruct (H1 L) as [L1 (lq & EQ1 & Fq)]. erewrite bind_to by reflexivity. cbv beta.
  assert (F2' : Forall (fun q => r_action (q_rec q) <> ARun) (q2 ++ lq)) by (apply Forall_app; now split).
  rewrite EQ, <- app_assoc in EQ1. cbn [app] in EQ1.
  assert (HQ : exists q rest, w_queue w1 = q :: rest) by (rewrite EQ1; destruct q1; cbn; eauto). destruct HQ as (q & rest & HQ). rewrite HQ.
  destruct (lg_queue _ _ _ L1 q) as (t & Ft); [rewrite HQ; now left|].
  destruct (pop_logs p w1 q rest _ (set_queue rest w1) L1 HQ (drift_refl _) eq_refl eq_refl eq_refl eq_refl eq_refl) as (w2 & E2 & L2 & D2 & Q2).
  erewrite bind_to by reflexivity.
  erewrite bind_to by (unfold get_task; change (find_task (r_task (q_rec q)) (set_queue rest w1)) with (find_task (r_task (q_rec q)) w1); rewrite Ft; reflexivity).
  rewrite (bind_to _ _ _ _ _ E2). cbv beta iota. assert (D : drift w w2) by (eapply drift_trans; eassumption).
  destruct q1 as [|q0 q1].
  - cbn in EQ1. rewrite HQ in EQ1. injection EQ1 as -> ->. rewrite RA. cbn. do 2 eexists. split; [reflexivity|]. right. split; [reflexivity|].
    split; [exact L2|]. split; [exact D|]. rewrite Q2. rewrite Forall_forall in F2'. exact F2'.
  - cbn in EQ1. rewrite HQ in EQ1. injection EQ1 as -> ->. inversion F1 as [|? ? N1 F1']; subst.
    assert (NE : action_eqb (r_action (q_rec q0)) ARun = false) by (destruct (r_action (q_rec q0)); try reflexivity; now destruct N1). rewrite NE.
    destruct (IH w2 L2) as (w' & o & E & R); [exists q1, qa, (q2 ++ lq); now split|]. exists w', o. split; [exact E|].
    destruct R as [R|(R1 & R2 & R3 & R4)]; [now left|right]. split; [exact R1|]. split; [exact R2|]. split; [eapply drift_trans; eassumption|exact R4].
Qed.
(** What happens meanwhile leaves runs on the main thread alone *)
Definition mains (w w' : world) : Prop := fit_ids w -> forall r, In r (tracked w) -> rn_kind r = XMain -> In r (tracked w').
Lemma mains_same w w' : tracked w' = tracked w -> mains w w'.
Proof using Type. intros E _ r H _. now rewrite E. Qed.
Lemma mains_on_run v g w w1 t r : find_run v w = Some (t, r) -> rn_kind r <> XMain -> tracked w1 = tracked w -> mains w (on_run v g w1).
Proof using Type.
  intros F K T FI r0 H0 K0. rewrite tracked_on_run, T. apply in_map_iff. exists r0. split; [|exact H0].
  destruct (Nat.eqb_spec (rn_uid r0) v) as [E|]; [|reflexivity]. rewrite (found_id _ _ _ _ FI F r0 H0 E) in K0. contradiction.
Qed.
Lemma body_tracked v w t r x s : proper s -> find_run v w = Some (t, r) -> x <> None ->
  exists w1, run_body orc false x (t_name t) (rn_id r) s w = (w1, Returns tt) /\ tracked w1 = tracked w.
Proof using PS.
  intros (S1 & S2 & S3) F X. destruct (find_task (t_name t) w) as [t'|] eqn:Ft.
  2:{ destruct (found_task _ _ _ _ F) as (H & _). exfalso. pose proof (find_none _ _ Ft t H) as Z. cbn in Z. now rewrite Z.eqb_refl in Z. }
  destruct (body_ends orc x (t_name t) (rn_id r) s w t' Ft (ps_write orc PS _) S2 S3 X) as (w1 & E & _ & _ & _ & _ & T1 & _). now exists w1.
Qed.
Lemma exec_is x y : exec_eqb x y = true -> x = y.
Proof using Type. now destruct x, y. Qed.
Lemma mains_move m w : proper_move m -> w_orphans w = [] -> mains w (fst (do_move orc m w)).
Proof using PS.
  intros HM O. destruct m; try (apply mains_same; first [reflexivity|now apply tracked_on_task]).
  - apply mains_same. change (tracked w) with (tracked (emit (EvRequest name p) w)). now apply tracked_on_task.
  - cbn [do_move]. unfold mbind, get. destruct (find_run uid w) as [[t r]|] eqn:F; [|now apply mains_same].
    destruct (exec_eqb (rn_kind r) XAsync) eqn:KX; [|now apply mains_same]. destruct (is_pending r); [|now apply mains_same]. cbn [andb].
    unfold enter, run_setup, mbind, attempt. destruct HM as (-> & _). cbn [raise_if ret fst]. apply exec_is in KX.
    refine (mains_on_run _ _ _ _ _ _ F _ eq_refl). congruence.
  - cbn [do_move]. unfold mbind at 1, get. destruct (find_run uid w) as [[t r]|] eqn:F; [|now apply mains_same].
    destruct (exec_eqb (rn_kind r) XAsync) eqn:KX; [|now apply mains_same]. destruct (is_busy r) eqn:B; [|now apply mains_same]. cbn [andb]. apply exec_is in KX.
    destruct (body_tracked uid w t r (Some XAsync) s HM F) as (w1 & E & T); [discriminate|].
    unfold end_coroutine, mbind, attempt. rewrite E. refine (mains_on_run _ _ _ _ _ _ F _ T). congruence.
  - cbn [do_move]. unfold mbind at 1, get. rewrite O. now apply mains_same.
  - cbn [do_move]. unfold mbind at 1, get. destruct (find_run uid w) as [[t r]|] eqn:F; [|now apply mains_same].
    destruct (exec_eqb (rn_kind r) XThread) eqn:KX; [|now apply mains_same]. destruct (is_busy r) eqn:B; [|now apply mains_same]. cbn [andb]. apply exec_is in KX.
    destruct (body_tracked uid w t r (Some XThread) s HM F) as (w1 & E & T); [discriminate|].
    unfold end_coroutine, thread_code, run_as_async, run_setup, mbind, attempt. destruct HM as (-> & _). cbn [raise_if ret]. rewrite E.
    refine (mains_on_run _ _ _ _ _ _ F _ T). congruence.
  - cbn [do_move]. unfold mbind at 1, get. destruct (find_run uid w) as [[t r]|] eqn:F; [|now apply mains_same].
    destruct (exec_eqb (rn_kind r) XProcess) eqn:KX; [|now apply mains_same]. destruct (is_busy r) eqn:B; [|now apply mains_same]. cbn [andb]. apply exec_is in KX.
    destruct HM as (S1 & S2 & S3). unfold end_coroutine, mbind, attempt. rewrite (child_code orc _ _ _ w S1 S2 S3).
    refine (mains_on_run _ _ _ _ _ _ F _ eq_refl). congruence.
  - destruct HM.
Qed.
Lemma mains_moves p ms : (forall m, In m ms -> proper_move m) -> forall w, ledger orc p w -> mains w (fst (do_moves orc ms w)).
Proof using PS.
  induction ms as [|m ms IH]; intros H w L; cbn [do_moves]; [now apply mains_same|]. unfold mbind, attempt.
  pose proof (H m (or_introl eq_refl)) as Hm. pose proof (holds_move p m Hm w) as K. pose proof (ha_move orc m w) as N.
  pose proof (mains_move m w Hm (lg_orphans _ _ _ L)) as M. pose proof (steps_move C orc m Hm w) as D.
  assert (IH' : forall w, ledger orc p w -> mains w (fst (do_moves orc ms w))) by (apply IH; intros m' Hm'; apply H; now right).
  destruct (do_move orc m w) as [w1 [a|e|]]; cbn [fst] in *; [| |now destruct N]; (intros FI r Hr Kr; apply (IH' w1); [apply K, L|exact (shrinks_fit _ _ (proj1 D) FI)|now apply M|exact Kr]).
Qed.
Lemma mains_env p w w' : env orc w = (w', Returns tt) -> ledger orc p w -> mains w w'.
Proof using PS.
  intros E L. assert (Lb : ledger orc p (bump w)) by (apply (holds_bump p w), L).
  pose proof (mains_moves p (o_env orc (w_tick w)) (HP (w_tick w)) (bump w) Lb) as K.
  assert (E' : do_moves orc (o_env orc (w_tick w)) (bump w) = (w', Returns tt)) by (rewrite <- E; reflexivity). rewrite E' in K. exact K.
Qed.
(** * The launch of a run *)
Lemma log_frame n j w0 t : find_task n w0 = Some t ->
  exists w3, log_action orc false n ARun (Some j) 0 w0 = (w3, Returns tt) /\ drift w0 w3 /\ tracked w3 = tracked w0 /\
    w_orphans w3 = w_orphans w0 /\ w_queue w3 = w_queue w0 /\ w_log w3 = w_log w0 ++ [Rec n ARun (w_clock w0) (Some j)].
Proof using PS.
  intros F. destruct (recorded orc n ARun (Some j) 0 w0 t F (ps_write orc PS _)) as (w3 & E & L & _ & U).
  exists w3. split; [exact E|]. split; [eapply steps_eq; [|exact E]; apply (steps_log_action C)|]. split; [apply (ud_tracked _ _ U)|].
  split; [apply (ud_orphans _ _ U)|]. split; [apply (ud_queue _ _ U)|exact L].
Qed.
Definition drop_main (n : Z) (w : world) : world :=
  on_task n (fun t => with_stack (filter (fun r => negb (exec_eqb (rn_kind r) XMain)) (t_stack t)) t) w.
Lemma inv_drop_main n p w : inv p w -> inv p (drop_main n w).
Proof using Type.
  intros H. apply inv_filter; [|exact H]. intros r Hr _. pose proof (iv_main _ _ H r Hr) as K. now destruct (rn_kind r).
Qed.
Section Launch.
Context (p : option (Z * nat)) (n j : Z) (u : nat) (start : Z).
(** What is needed of the state in which a run is launched *)
Record ready (w : world) : Prop := Ready {
  rd_inv : inv p w;
  rd_find : exists t, find_task n w = Some t;
  rd_fresh : fresh_id u w;
  rd_id : j = i -> p = None /\ exists k, (k < w_tick w)%nat /\ o_run_id orc k = Ok i }.
Lemma ready_bump w : ready w -> ready (bump w).
Proof using Type.
  intros [H F R Q]. split; [|exact F|exact R|].
  - eapply inv_holds; [apply (holds_bump p w)|apply (c_bump _ _ C)|exact H].
  - intros E. destruct (Q E) as (Q1 & k & K & Ek). split; [exact Q1|]. exists k. split; [cbn; lia|exact Ek].
Qed.
Definition launched (w' : world) : Prop := inv (after j n u p) (drop_main n w').
Lemma find_pushed r w t : find_task n w = Some t -> exists t', find_task n (on_task n (fun t => with_stack (t_stack t ++ [r]) t) w) = Some t'.
Proof using Type. intros F. rewrite find_on_task by reflexivity. rewrite F. eexists. reflexivity. Qed.
Lemma inv_pushed r w w3 : inv p w -> ledger orc (after j n u p) w3 -> tracked w3 = tracked (on_task n (fun t => with_stack (t_stack t ++ [r]) t) w) ->
  rn_kind r <> XMain -> (forall q, In q (w_queue w3) -> r_action (q_rec q) <> ARun) -> launched w3.
Proof using Type.
  intros H L T K Q. apply inv_drop_main. split; [exact L| |exact Q].
  rewrite T. intros r0 H0. apply in_pushed in H0 as [H0| ->]; [exact (iv_main _ _ H r0 H0)|exact K].
Qed.
Lemma launch_async fuel w : ready w -> exists w', launch orc fuel XAsync n u start j w = (w', Returns tt) /\ launched w'.
Proof using PS.
  intros [H (t & F) R Q]. unfold launch, push_run. rewrite (bind_to (modify _) _ w _ tt eq_refl). set (r := Run u (Some j) start XAsync Pending false false).
  destruct (find_pushed r w t F) as (t' & F'). destruct (log_frame n j _ t' F') as (w3 & E & D & T & O & EQ & EL). exists w3. split; [exact E|].
  apply (inv_pushed r w w3 H); [|exact T|discriminate|rewrite EQ; exact (iv_run _ _ H)].
  refine (push_logged p n j u start _ XAsync Pending w w3 t (iv_ledger _ _ H) F R eq_refl Q D T O _ EL EQ). discriminate.
Qed.
Lemma launch_thread fuel w : ready w -> exists w', launch orc fuel XThread n u start j w = (w', Returns tt) /\ launched w'.
Proof using PS.
  intros RD. unfold launch, push_run.
  rewrite (bind_to (ask (o_prep orc)) _ w (bump w) None) by (unfold ask; now rewrite (ps_prep orc PS)). apply ready_bump in RD. set (w1 := bump w) in *. clearbody w1. cbn [raise_if].
  rewrite (bind_to (ret tt) _ w1 w1 tt eq_refl). rewrite (bind_to (ask (o_spawn orc)) _ w1 (bump w1) None) by (unfold ask; now rewrite (ps_spawn orc PS)).
  apply ready_bump in RD. set (w2 := bump w1) in *. clearbody w2. destruct RD as [H (t & F) R Q]. cbv iota.
  set (r := Run u (Some j) start XThread Busy false false). destruct (find_pushed r w2 t F) as (t' & F').
  rewrite (bind_to (modify _) _ w2 _ tt eq_refl). set (wp := on_task n _ w2) in *.
  rewrite (bind_to (modify _) _ wp _ tt eq_refl). set (ws := on_task n _ wp).
  assert (Fs : exists t2, find_task n ws = Some t2) by (unfold ws; rewrite find_on_task by reflexivity; rewrite F'; eexists; reflexivity).
  destruct Fs as (t2 & Fs). destruct (log_frame n j ws t2 Fs) as (w3 & E & D & T & O & EQ & EL).
  rewrite (bind_to _ _ _ _ _ (attempt_ok _ _ _ _ E)). exists w3. split; [reflexivity|].
  assert (Ds : drift wp ws) by (apply (c_state _ _ C n (fun t => TState (set_last (ts_last (t_state t)) ARun (Some (w_clock wp))) (ts_status (t_state t))))).
  assert (Ts : tracked ws = tracked wp) by (now apply tracked_on_task).
  assert (T3 : tracked w3 = tracked wp) by congruence.
  apply (inv_pushed r w2 w3 H); [|exact T3|discriminate|rewrite EQ; exact (iv_run _ _ H)].
  refine (push_logged p n j u start _ XThread Busy w2 w3 t (iv_ledger _ _ H) F R eq_refl Q (drift_trans _ _ _ Ds D) T3 O _ EL EQ). discriminate.
Qed.
Lemma launch_process fuel w : ready w -> exists w' o, launch orc fuel XProcess n u start j w = (w', o) /\ (o = OutOfFuel \/ (o = Returns tt /\ launched w')).
Proof using PS.
  intros RD. unfold launch, push_run.
  rewrite (bind_to (ask (o_prep orc)) _ w (bump w) None) by (unfold ask; now rewrite (ps_prep orc PS)). apply ready_bump in RD. set (w1 := bump w) in *. clearbody w1. cbn [raise_if].
  rewrite (bind_to (ret tt) _ w1 w1 tt eq_refl). rewrite (bind_to (ask (o_spawn orc)) _ w1 (bump w1) None) by (unfold ask; now rewrite (ps_spawn orc PS)).
  apply ready_bump in RD. set (w2 := bump w1) in *. clearbody w2. cbv iota.
  rewrite (bind_to (ask (o_boot orc)) _ w2 (bump w2) true) by (unfold ask; now rewrite (ps_boot orc PS)). apply ready_bump in RD. set (w3 := bump w2) in *. clearbody w3. cbv iota.
  destruct RD as [H (t & F) R Q]. set (r := Run u (Some j) start XProcess Busy false false).
  rewrite (bind_to (modify _) _ w3 _ tt eq_refl). set (wp := on_task n _ w3).
  rewrite (bind_to _ _ wp _ tt (child_log orc n ARun (Some j) 0 wp)). set (q := QRec _ _). set (w4 := set_queue _ wp).
  assert (L4 : ledger orc (after j n u p) w4).
  { refine (push_queued p n j u start (w_clock wp) XProcess Busy w3 w4 t (iv_ledger _ _ H) F R eq_refl Q _ eq_refl eq_refl q eq_refl eq_refl eq_refl eq_refl). apply (c_queue _ _ C). }
  destruct (lock_inv (after j n u p) n u fuel w4 L4) as (w' & o & E & HO).
  { exists (w_queue w3), q, []. split; [reflexivity|]. split; [reflexivity|]. split; [|constructor]. apply Forall_forall. exact (iv_run _ _ H). }
  exists w', o. split; [exact E|]. destruct HO as [HO|(HO & L' & D' & Q')]; [now left|right]. split; [exact HO|].
  apply inv_drop_main. split; [exact L'| |exact Q']. intros r' Hr'. destruct (drift_tracked _ _ _ D' Hr') as (r0 & H0 & (_ & K & _)). rewrite K.
  change (tracked w4) with (tracked wp) in H0. apply in_pushed in H0 as [H0| ->]; [exact (iv_main _ _ H r0 H0)|discriminate].
Qed.
Lemma launch_main fuel w : ready w -> exists w', launch orc fuel XMain n u start j w = (w', Returns tt) /\ launched w'.
Proof using PS.
  intros [H (t & F) R Q]. unfold launch, push_run. set (r := Run u (Some j) start XMain Busy false false).
  rewrite (bind_to (modify _) _ w _ tt eq_refl). set (wo := set_orphans _ w). rewrite (bind_to (modify _) _ wo _ tt eq_refl).
  set (wp := on_task n (fun t => with_stack (t_stack t ++ [r]) t) w). set (w0 := on_task n _ wo).
  destruct (find_pushed r w t F) as (t' & F'). assert (D0 : drift wp w0) by (apply drift_frame; [reflexivity|apply le_n|apply le_n|reflexivity]).
  destruct (log_frame n j w0 t' F') as (w3 & E3 & D3 & T3 & O3 & EQ3 & EL3). rewrite (bind_to _ _ _ _ _ E3).
  rewrite (bind_to (modify _) _ w3 _ tt eq_refl). set (w4 := set_orphans _ w3).
  assert (D4 : drift wp w4). { eapply drift_trans; [exact D0|]. eapply drift_trans; [exact D3|]. apply drift_frame; [reflexivity|apply le_n|apply le_n|reflexivity]. }
  assert (O4 : w_orphans w4 = w_orphans w). { cbn. rewrite O3. cbn. apply removelast_last. }
  assert (L4 : ledger orc (after j n u p) w4).
  { refine (push_logged p n j u start _ XMain Busy w w4 t (iv_ledger _ _ H) F R eq_refl Q D4 T3 O4 _ EL3 EQ3). discriminate. }
  assert (R4 : In r (tracked w4)). { change (tracked w4) with (tracked w3). rewrite T3. exact (pushed_new n r w t F). }
  destruct (env_returns orc w4) as (w5 & E5 & _). rewrite (bind_to _ _ _ _ _ E5). destruct (holds_env (after j n u p) w4 w5 E5) as [H5 D5].
  destruct (H5 L4) as [L5 (q5 & EQ5 & F5)]. pose proof (mains_env _ _ _ E5 L4 (lg_fit _ _ _ L4) r R4 eq_refl) as R5.
  rewrite (bind_to (ask (o_script orc)) _ w5 (bump w5) (o_script orc (w_tick w5)) eq_refl). destruct (ps_script orc PS (w_tick w5)) as (S1 & S2 & S3).
  set (sc := o_script orc (w_tick w5)) in *. unfold run_setup. rewrite S1. cbn [raise_if]. rewrite (bind_to (ret tt) _ (bump w5) (bump w5) tt eq_refl).
  assert (L5' : ledger orc (after j n u p) (bump w5)) by (apply (holds_bump (after j n u p) w5), L5).
  destruct (env_returns orc (bump w5)) as (w6 & E6 & _). rewrite (bind_to _ _ _ _ _ E6). destruct (holds_env (after j n u p) _ w6 E6) as [H6 D6].
  destruct (H6 L5') as [L6 (q6 & EQ6 & F6)]. pose proof (mains_env _ _ _ E6 L5' (lg_fit _ _ _ L5') r R5 eq_refl) as R6.
  assert (D46 : drift wp w6). { eapply drift_trans; [exact D4|]. eapply drift_trans; [exact D5|]. eapply drift_trans; [apply (c_bump _ _ C w5)|exact D6]. }
  assert (Q6 : forall q, In q (w_queue w6) -> r_action (q_rec q) <> ARun).
  { intros q Hq. rewrite EQ6 in Hq. apply in_app_or in Hq as [Hq|Hq]; [|rewrite Forall_forall in F6; auto].
    change (w_queue (bump w5)) with (w_queue w5) in Hq. rewrite EQ5 in Hq. apply in_app_or in Hq as [Hq|Hq]; [|rewrite Forall_forall in F5; auto].
    change (w_queue w4) with (w_queue w3) in Hq. rewrite EQ3 in Hq. exact (iv_run _ _ H q Hq). }
  destruct (drift_find n _ _ t' D46 F') as (t6 & F6').
  destruct (body_ends orc (Some XMain) n (Some j) sc w6 t6 F6' (ps_write orc PS _) S2 S3) as (w7 & E7 & [RL _] & Q7 & O7 & _ & T7 & _); [discriminate|].
  exists w7. split; [exact E7|]. assert (D7 : drift w6 w7) by (eapply steps_eq; [|exact E7]; apply (steps_run_body C)).
  set (w8 := drop_main n w7). assert (D8 : drift w7 w8) by (apply drift_set, shrinks_on_task; intros t0; split; [reflexivity|apply less_filter]).
  assert (D68 : drift w6 w8) by (eapply drift_trans; eassumption).
  assert (M : forall t0 r0 w', drift wp w' -> In t0 (w_tasks w') -> In r0 (t_stack t0) -> rn_kind r0 = XMain -> t_name t0 = n /\ rn_id r0 = Some j).
  { intros t0 r0 w' [[DS _] _] Ht0 Hr0 K0. destruct (less_tasks_in _ _ _ _ DS Ht0 Hr0) as (t1 & r1 & Ht1 & Hr1 & N1 & (_ & K1 & _ & I1 & _)).
    rewrite <- N1, I1. unfold wp, on_task in Ht1. cbn in Ht1. apply in_map_iff in Ht1 as (t2 & <- & Ht2).
    assert (NM : forall r2, In r2 (t_stack t2) -> rn_kind r2 <> XMain) by (intros r2 H2; apply (iv_main _ _ H); apply in_concat_map; now exists t2).
    destruct (Z.eqb_spec (t_name t2) n) as [En|En].
    - cbn in Hr1. apply in_app_or in Hr1 as [Hr1|[<- |[]]]; [|now split]. exfalso. apply (NM r1 Hr1). congruence.
    - exfalso. apply (NM r1 Hr1). congruence. }
  assert (NM8 : forall r0, In r0 (tracked w8) -> rn_kind r0 <> XMain).
  { intros r0 H0 K0. apply in_concat_map in H0 as (t0 & Ht0 & Hr0). destruct (M t0 r0 w8 (drift_trans _ _ _ D46 D68) Ht0 Hr0 K0) as [N0 _].
    unfold w8, drop_main, on_task in Ht0. cbn in Ht0. apply in_map_iff in Ht0 as (t1 & <- & Ht1). destruct (Z.eqb_spec (t_name t1) n) as [En|En].
    - cbn in Hr0. apply filter_In in Hr0 as [_ Hr0]. rewrite K0 in Hr0. discriminate.
    - contradiction. }
  assert (EX : forall r, In r (tracked w8) -> rn_exc r = true -> exists r0, In r0 (tracked w6) /\ rn_exc r0 = true).
  { intros r0 H0 X0. exists r0. split; [|exact X0]. rewrite <- T7. apply in_concat_map in H0 as (t0 & Ht0 & Hr0). unfold w8, drop_main, on_task in Ht0. cbn in Ht0.
    apply in_map_iff in Ht0 as (t1 & <- & Ht1). apply in_concat_map. exists t1. split; [exact Ht1|]. destruct (_ =? _); [|exact Hr0]. cbn in Hr0. now apply filter_In in Hr0. }
  change (inv (after j n u p) w8). split; [|exact NM8|intros q Hq; apply Q6; rewrite <- Q7; exact Hq].
  unfold after in *. destruct (Z.eqb_spec j i) as [Ej|Ej].
  - destruct (Q Ej) as [EP _]. subst p.
    assert (OC : is_outcome (classified (s_exec sc))) by (destruct (s_exec sc) as [[]|]; cbn; unfold is_outcome; auto).
    apply ledger_logged with w6 (classified (s_exec sc)) (w_clock w6); auto.
    + intros (r0 & H0 & E0 & _). apply (NM8 r0 H0). destruct (drift_tracked _ _ _ (drift_trans _ _ _ D46 D68) H0) as (r1 & H1 & (_ & K1 & _ & I1 & _)).
      rewrite K1. apply in_pushed in H1 as [H1| ->]; [|reflexivity]. rewrite E0 in I1. symmetry in I1. destruct (ledger_none _ _ _ (iv_ledger _ _ H) H1 I1).
    + left. exists r. split; [exact R6|]. split; [cbn; congruence|reflexivity].
    + change (w_log w8) with (w_log w7). rewrite RL, Ej. reflexivity.
    + intros q Hq _. exact (Q6 q Hq).
  - apply ledger_away with w6 [Rec n (classified (s_exec sc)) (w_clock w6) (Some j)] []; [exact L6|exact D68|exact O7|exact EX|exact RL| | |intros ? []|intros ? []|].
    + rewrite app_nil_r. exact Q7.
    + intros r0 [<- | []]. cbn. congruence.
    + intros (r0 & H0 & E0 & V0). exists r0. split; [|now split]. rewrite <- T7 in H0. pose proof H0 as H0'. apply in_concat_map in H0 as (t0 & Ht0 & Hr0).
      unfold w8, drop_main, tracked, on_task. cbn. rewrite map_map. apply in_concat. eexists. split; [apply in_map, Ht0|]. destruct (_ =? _); [|exact Hr0].
      cbn. apply filter_In. split; [exact Hr0|]. destruct (rn_kind r0) eqn:K0; try reflexivity.
      destruct (M t0 r0 w7 (drift_trans _ _ _ D46 D7) Ht0 Hr0 K0) as [_ I0]. congruence.
Qed.
Lemma launch_inv fuel x w : ready w -> exists w' o, launch orc fuel x n u start j w = (w', o) /\ (o = OutOfFuel \/ (o = Returns tt /\ launched w')).
Proof using PS.
  intros RD. destruct x; [destruct (launch_main fuel w RD) as (w' & E & H)|destruct (launch_async fuel w RD) as (w' & E & H)
    |destruct (launch_thread fuel w RD) as (w' & E & H)|exact (launch_process fuel w RD)]; exists w', (Returns tt); (split; [exact E|now right]).
Qed.
End Launch.
Definition some_inv (w : world) : Prop := exists p, inv p w.
Lemma kp_some {A} (m : M A) : (forall p, keeps (inv p) m) -> keeps some_inv m.
Proof using Type. intros H w (p & Hw) N. exists p. now apply H. Qed.
Lemma params_keep n p w : inv p w -> exists wd, get_direct_params n w = match find_task n w with Some _ => (wd, Returns tt) | None => (w, Raises KeyError) end /\
  inv p wd /\ drift w wd /\ w_tick wd = w_tick w.
Proof using Type.
  intros H. unfold get_direct_params, mbind, get_task. destruct (find_task n w) as [t|]; [|exists w; split; [reflexivity|]; split; [exact H|]; split; [apply drift_refl|reflexivity]].
  destruct (t_batches t) as [|b rest]; eexists; (split; [reflexivity|]).
  - split; [|split; [now apply drift_emit|reflexivity]]. apply inv_same with w; try reflexivity; [now apply drift_emit|exact H].
  - assert (D : drift w (emit (EvTake n (Some b)) (on_task n (with_batches rest) w))).
    { eapply drift_trans; [|now apply drift_emit]. apply drift_set, shrinks_on_task. intros t0. now apply less_same. }
    split; [|split; [exact D|reflexivity]]. apply inv_same with w; try reflexivity; [exact D| |exact H].
    change (tracked (on_task n (with_batches rest) w) = tracked w). now apply tracked_on_task.
Qed.
Lemma kp_start cf fuel n : keeps some_inv (start_async orc cf fuel n).
Proof using PS.
  intros w (p & H) N. rewrite start_async_eq in *. destruct (find_task n w) as [t|] eqn:F; [|now exists p].
  set (u := w_uid w) in *. set (w1 := emit _ _) in *. set (x := get_execution cf t) in *.
  assert (D1 : drift w w1) by (eapply drift_trans; [apply (drift_frame w (set_uid (Datatypes.S u) w)); cbn; try reflexivity; lia|now apply drift_emit]).
  assert (H1 : inv p w1) by (apply inv_same with w; try reflexivity; [exact D1|exact H]).
  assert (FR1 : fresh_id u w1).
  { split; [cbn; lia|]. intros r Hr E. pose proof (lg_fit _ _ _ (iv_ledger _ _ H)) as (_ & _ & B). specialize (B r Hr). unfold u in E. lia. }
  assert (Hb : inv p (bump w1)) by (eapply inv_holds; [apply (holds_bump p w1)|apply (c_bump _ _ C)|exact H1]).
  destruct (params_keep n p (bump w1) Hb) as (wd & Ed & Hd & Dd & Td).
  change (find_task n (bump w1)) with (find_task n w) in Ed. rewrite F in Ed.
  destruct (ps_id orc PS (w_tick wd)) as (j & Ej).
  assert (G : (e <- ask (o_prep orc) ;; raise_if e ;; get_direct_params n ;; get_run_id orc) w1 = (bump wd, Returns j)).
  { assert (A1 : ask (o_prep orc) w1 = (bump w1, Returns None)) by (unfold ask; now rewrite (ps_prep orc PS)).
    rewrite (bind_to _ _ _ _ _ A1). cbn [raise_if]. rewrite (bind_to (ret tt) _ _ (bump w1) tt eq_refl). rewrite (bind_to _ _ _ _ _ Ed).
    unfold get_run_id, mbind. change (ask (o_run_id orc) wd) with (bump wd, Returns (o_run_id orc (w_tick wd))). cbv iota. now rewrite Ej. }
  assert (RD : ready p n j u (bump wd)).
  { split.
    - eapply inv_holds; [apply (holds_bump p wd)|apply (c_bump _ _ C)|exact Hd].
    - apply (drift_find n (bump w1) (bump wd) t); [|exact F]. eapply drift_trans; [exact Dd|apply (c_bump _ _ C)].
    - apply (shrinks_fresh u (bump w1)); [|exact FR1]. exact (proj1 Dd).
    - intros ->. destruct p as [[m v]|]; [|split; [reflexivity|]; exists (w_tick wd); split; [cbn; lia|exact Ej]].
      exfalso. destruct (lg_state _ _ _ (iv_ledger _ _ Hd)) as (_ & (k & K & Ek) & _). pose proof (ps_ids orc PS _ _ _ Ek Ej). lia. }
  destruct (launch_inv p n j u (w_clock w) fuel x (bump wd) RD) as (w' & o & El & HO).
  assert (E : start_rest orc fuel n x (w_clock w) u w1 = match o with OutOfFuel => (w', OutOfFuel) | _ => (drop_main n w', Returns tt) end).
  { unfold start_rest, finally. unfold mbind at 1, attempt at 1. unfold mbind at 1, attempt at 1. rewrite G. unfold mbind at 1, attempt at 1. rewrite El.
    destruct HO as [-> |[-> _]]; reflexivity. }
  rewrite E in *. destruct HO as [-> |[-> HL]]; [now destruct N|]. exists (after j n u p). exact HL.
Qed.
Lemma kp_run_task cf fuel n : keeps some_inv (run_task orc cf fuel n).
Proof using PS.
  unfold run_task. apply kp_bind; [apply kp_attempt, kp_start|]. intros [[]|e]; [apply kp_ret|].
  destruct e; try apply kp_raise; [destruct (cf_silence_prerun cf)|destruct (cf_silence_logging cf)]; first [apply kp_ret|apply kp_raise].
Qed.
Ltac ks := repeat lazymatch goal with
  | |- keeps _ (mbind _ _) => apply kp_bind; [|intro]
  | |- keeps _ (ret _) => apply kp_ret
  | |- keeps _ (raise _) => apply kp_raise
  | |- keeps _ (fun w => (w, OutOfFuel)) => apply kp_fuel
  | |- keeps _ (get _) => apply kp_get
  | |- keeps _ (get_task _) => apply kp_get_task
  | |- keeps _ (raise_if _) => apply kp_raise_if
  | |- keeps _ (ask _) => apply kp_some; intro; apply kp_ask
  | |- keeps _ (env _) => apply kp_some; intro; apply kp_env
  | |- keeps _ (attempt _) => apply kp_attempt
  | |- keeps _ (finally _ _) => apply kp_finally
  | |- keeps _ (for_each _ _) => apply kp_for_each; intro
  | |- keeps _ tasks => apply kp_get
  | |- keeps _ (run_task _ _ _ _) => apply kp_run_task
  | |- keeps _ (is_task_runnable _ _ _) => apply kp_some; intro; apply kp_is_task_runnable
  | |- keeps _ (handle_logs _ _ _) => apply kp_some; intro; apply kp_handle_logs
  | |- keeps _ (clean_run_stack _ _) => apply kp_some; intro; apply kp_clean
  | |- keeps _ (check_termination _ _ _) => apply kp_some; intro; apply kp_check_termination
  | |- keeps _ (terminate_all_runs _ _ _) => apply kp_some; intro; apply kp_terminate_all
  | |- keeps _ (check_exceptions _) => apply kp_some; intro; apply kp_check_exceptions
  | |- keeps _ (if ?b then _ else _) => destruct b
  | |- keeps _ (match ?b with _ => _ end) => destruct b
  end.
Lemma kp_frame (f : world -> world) : (forall w, drift w (f w)) -> (forall w, w_orphans (f w) = w_orphans w) -> (forall w, tracked (f w) = tracked w) ->
  (forall w, w_log (f w) = w_log w) -> (forall w, w_queue (f w) = w_queue w) -> keeps some_inv (modify f).
Proof using Type. intros D O T L Q. apply kp_modify. intros w (p & H). exists p. now apply inv_same with w. Qed.
Lemma kp_emit e : state_of (fun _ => False) e -> keeps some_inv (modify (emit e)).
Proof using Type. intros H. apply kp_frame; try reflexivity. intros w. now apply drift_emit. Qed.
Lemma kp_hook : keeps some_inv (hook orc).
Proof using PS. unfold hook. ks. Qed.
Lemma kp_cycle_task cf fuel n : keeps some_inv (cycle_task orc cf fuel n).
Proof using PS. unfold cycle_task. ks. now apply kp_emit. Qed.
Lemma kp_thread_errors cf : keeps some_inv (check_thread_errors cf).
Proof using PS. unfold check_thread_errors. ks. Qed.
Lemma kp_run_cycle cf fuel : keeps some_inv (run_cycle orc cf fuel).
Proof using PS.
  unfold run_cycle. ks; [now apply kp_emit|apply kp_hook|apply kp_cycle_task|apply kp_thread_errors|apply kp_hook|].
  apply kp_frame; try reflexivity. intros w. now apply drift_frame.
Qed.
Lemma kp_cached n : keeps some_inv (set_cached_m orc n).
Proof using PS.
  intros w (p & H) N. exists p. unfold set_cached_m in *. rewrite (bind_to (ask (o_write orc)) _ w (bump w) true) in * by (unfold ask; now rewrite (ps_write orc PS)).
  assert (Hb : inv p (bump w)) by (eapply inv_holds; [apply (holds_bump p w)|apply (c_bump _ _ C)|exact H]). clear N H. set (wb := bump w) in *. clearbody wb.
  unfold mbind at 1, get_task. destruct (find_task n wb) as [t|] eqn:F; [|exact Hb]. unfold mbind at 1, get.
  assert (G : exists st l, set_cached (t_state t) (w_log wb) n (w_clock wb) (w_clock wb) true = (st, w_log wb ++ l, Ok tt) /\ away l).
  { assert (Z : away []) by (intros ? []). unfold set_cached. destruct (max_action _ _ _) as [[[] ?]|]; try (do 2 eexists; split; [rewrite app_nil_r; reflexivity|exact Z]).
    unfold set_status. do 2 eexists. split; [reflexivity|]. intros r [<- | []]. discriminate. }
  destruct G as (st & l & -> & A). cbn. set (w' := on_task n _ _).
  assert (D : drift wb w') by (eapply drift_trans; [apply (c_log _ _ C l)|apply (c_state _ _ C n (fun _ => st))]).
  assert (T : tracked w' = tracked wb) by (unfold w'; rewrite tracked_on_task by reflexivity; reflexivity).
  destruct Hb as [L M Q]. split; [|rewrite T; exact M|exact Q].
  apply ledger_away with wb l []; [exact L|exact D|reflexivity| |reflexivity| |exact A|intros ? []|intros ? []|].
  - rewrite T. intros r Hr E. now exists r.
  - symmetry. apply app_nil_r.
  - intros (r & Hr & E). exists r. rewrite T. now split.
Qed.
Lemma kp_special cf fuel n : keeps some_inv (run_special orc cf fuel n).
Proof using PS.
  unfold run_special. ks; [now apply kp_emit|]. apply kp_frame; try reflexivity; intros w; [|now apply tracked_on_task].
  apply drift_set, shrinks_on_task. intros t0. now apply less_same.
Qed.
Lemma kp_startup_task cf fuel n : keeps some_inv (startup_task orc cf fuel n).
Proof using PS. unfold startup_task. ks; [apply kp_cached|apply kp_special]. Qed.
Lemma kp_startup cf fuel : keeps some_inv (startup orc cf fuel).
Proof using PS.
  unfold startup. ks; [now apply kp_emit|apply kp_hook| |apply kp_startup_task|apply kp_hook|now apply kp_emit].
  apply kp_frame; try reflexivity. intros w. now apply drift_frame.
Qed.
Lemma kp_shut_cond : keeps some_inv (check_shut_cond orc).
Proof using PS. unfold check_shut_cond. ks. Qed.
Lemma kp_main_loop cf fuel : keeps some_inv (main_loop orc cf fuel).
Proof using PS. induction fuel as [|fuel IH]; cbn [main_loop]; ks; [apply kp_shut_cond|apply kp_run_cycle|exact IH]. Qed.
Lemma kp_wait cf fuel : keeps some_inv (wait_for_finish orc cf fuel).
Proof using PS. induction fuel as [|fuel IH]; cbn [wait_for_finish]; ks; [unfold wait_turn; ks|exact IH]. Qed.
Lemma kp_shut_down_tasks cf fuel : forall e, keeps some_inv (shut_down_tasks orc cf fuel e).
Proof using PS.
  induction fuel as [|fuel IH]; intros e; cbn [shut_down_tasks]; ks; [apply kp_wait|apply IH|]. unfold terminate_everything. ks. unfold terminate_if_alive. ks.
Qed.
Lemma kp_shutdown_tasks cf fuel : keeps some_inv (run_shutdown_tasks orc cf fuel).
Proof using PS. unfold run_shutdown_tasks. ks. unfold shutdown_task. ks. apply kp_special. Qed.
Lemma kp_wait_alive fuel : keeps some_inv (wait_task_alive orc fuel).
Proof using PS. induction fuel as [|fuel IH]; cbn [wait_task_alive]; ks. exact IH. Qed.
Lemma kp_shut_down cf fuel e : keeps some_inv (shut_down orc cf fuel e).
Proof using PS.
  unfold shut_down. ks; [now apply kp_emit|apply kp_hook|apply kp_shutdown_tasks|apply kp_shut_down_tasks|apply kp_wait_alive|apply kp_thread_errors|apply kp_hook].
Qed.
Lemma kp_serve cf fuel : keeps some_inv (serve orc cf fuel).
Proof using PS.
  unfold serve. ks; [|apply kp_startup|apply kp_main_loop|apply kp_shut_down..].
  apply kp_frame; try reflexivity. intros w. now apply drift_frame.
Qed.
(** * The whole session *)
Lemma errors_none cf w p : inv p w -> exists w', check_thread_errors cf w = (w', Returns tt) /\ w_queue w' = w_queue w \/
  exists e, check_thread_errors cf w = (w', Raises e) /\ w_queue w' = w_queue w.
Proof using Type.
  intros H. unfold check_thread_errors. destruct (cf_silence_logging cf); [exists w; left; now split|].
  unfold mbind at 1 2, tasks, get. generalize (map t_name (by_priority (w_tasks w))). intros ns.
  induction ns as [|n ns IH]; [exists w; left; now split|]. cbn [for_each].
  assert (E : check_exceptions n w = (w, match find_task n w with Some _ => Returns tt | None => Raises KeyError end)).
  { unfold check_exceptions, mbind, get_task. destruct (find_task n w) as [t|] eqn:F; [|reflexivity]. rewrite drop_none; [reflexivity|].
    intros r Hr. apply (lg_exc _ _ _ (iv_ledger _ _ H)). apply in_concat_map. exists t. split; [|exact Hr]. now apply find_some in F. }
  destruct (find_task n w) eqn:F.
  - rewrite (bind_to _ _ _ _ _ E). exact IH.
  - exists w. right. exists KeyError. unfold mbind. rewrite E. now split.
Qed.
Lemma hook_queue w : w_queue (fst (hook orc w)) = w_queue w.
Proof using Type. unfold hook, mbind, ask. now destruct (o_hook orc (w_tick w)). Qed.
Lemma shut_down_empty cf fuel x w w' o : some_inv w -> o_hook orc (w_tick w) = None -> shut_down orc cf fuel x w = (w', o) -> o <> OutOfFuel -> w_queue w' = [].
Proof using PS.
  intros I0 HK H N. unfold shut_down in H.
  apply bind_inv in H as [(wa & [] & Ea & H)|[(e & Ea & _)|(Ea & _)]]; [|discriminate Ea..]. injection Ea as <-.
  assert (Eh : hook orc (emit EvShutdown w) = (bump (emit EvShutdown w), Returns tt)).
  { unfold hook, mbind, ask. change (w_tick (emit EvShutdown w)) with (w_tick w). rewrite HK. reflexivity. }
  rewrite (bind_to _ _ _ _ _ Eh) in H.
  assert (I1 : some_inv (bump (emit EvShutdown w))).
  { assert (K : keeps some_inv (modify (emit EvShutdown) ;; hook orc)) by (ks; [now apply kp_emit|apply kp_hook]).
    specialize (K w I0). rewrite (bind_to (modify _) _ w _ tt eq_refl), Eh in K. apply K. discriminate. }
  set (w0 := bump _) in *. clearbody w0. clear Eh I0.
  apply finally_inv in H as (w1 & o1 & o2 & H & N1 & H2 & _); [|exact N].
  pose proof (hook_queue w1) as Q1. rewrite H2 in Q1. cbn [fst] in Q1. rewrite Q1. clear Q1 H2.
  apply finally_inv in H as (w3 & o3 & o4 & H & N3 & H4 & N4 & _); [|exact N1].
  assert (I3 : some_inv w3).
  { assert (K : keeps some_inv (finally (run_shutdown_tasks orc cf fuel) (shut_down_tasks orc cf fuel x))) by (ks; [apply kp_shutdown_tasks|apply kp_shut_down_tasks]).
    specialize (K w0 I1). rewrite H in K. now apply K. }
  clear H. destruct (wait_task_alive orc fuel w3) as [w5 o5] eqn:W.
  assert (N5 : o5 <> OutOfFuel).
  { intros ->. unfold mbind at 1 in H4. rewrite W in H4. inversion H4; subst. congruence. }
  destruct (wait_alive_over orc fuel _ _ _ W N5) as [-> _]. rewrite (bind_to _ _ _ _ _ W) in H4.
  assert (I5 : some_inv w5) by (pose proof (kp_wait_alive fuel w3 I3) as K; rewrite W in K; apply K; discriminate).
  destruct I5 as (p & I5). destruct (handle_logs_ok cf fuel p w5 I5) as (w6 & o6 & E6 & HO).
  destruct HO as [-> |(-> & I6 & Q6)].
  - unfold mbind in H4. rewrite E6 in H4. inversion H4; subst. congruence.
  - rewrite (bind_to _ _ _ _ _ E6) in H4. destruct (errors_none cf w6 p I6) as (w7 & [[E7 Q7]|(e & E7 & Q7)]); rewrite E7 in H4; inversion H4; subst; congruence.
Qed.
Lemma serve_empty cf fuel w : some_inv w -> (forall k, o_hook orc k = None) -> snd (serve orc cf fuel w) <> OutOfFuel -> w_queue (fst (serve orc cf fuel w)) = [].
Proof using PS.
  intros I0 HK N. destruct (serve orc cf fuel w) as [w' o] eqn:E. cbn [fst snd] in *. unfold serve in E.
  apply bind_inv in E as [(w1 & [] & E1 & E)|[(e & E1 & _)|(E1 & _)]]; [|discriminate E1..].
  assert (I1 : some_inv w1). { injection E1 as <-. destruct I0 as (p & I0). exists p. apply inv_same with w; try reflexivity; [now apply drift_frame|exact I0]. }
  apply bind_inv in E as [(w2 & r & E2 & E)|[(e & E2 & ->)|(E2 & ->)]]; [| |congruence].
  - assert (I2 : some_inv w2).
    { assert (K : keeps some_inv (attempt (startup orc cf fuel ;; main_loop orc cf fuel))) by (ks; [apply kp_startup|apply kp_main_loop]).
      specialize (K w1 I1). rewrite E2 in K. apply K. discriminate. }
    apply bind_inv in E as [(w3 & [] & E3 & E)|[(e & E3 & ->)|(E3 & ->)]].
    + assert (w' = w3) as -> by (destruct r as [?|[]]; inversion E; reflexivity). eapply shut_down_empty; [exact I2|apply HK|exact E3|discriminate].
    + eapply shut_down_empty; [exact I2|apply HK|exact E3|discriminate].
    + congruence.
  - unfold attempt in E2. destruct ((startup orc cf fuel ;; main_loop orc cf fuel) w1) as [? [?|?|]]; discriminate E2.
Qed.
Lemma fresh_inv w : distinct_names w -> no_runs w -> w_queue w = [] -> w_orphans w = [] -> new_id i w -> inv None w.
Proof using Type.
  unfold no_runs. intros DN R Q O [NL NS]. split; [constructor| |rewrite Q; intros ? []].
  - split; [exact DN|]. unfold distinct_runs. rewrite R. split; [constructor|]. intros r [].
  - intros n u H. destruct (NS n u H).
  - exact O.
  - rewrite R. intros r [].
  - rewrite Q. intros q [].
  - rewrite R. intros r [].
  - cbn. unfold acts. rewrite Q. cbn. rewrite app_nil_r. now apply story_none.
  - rewrite R. intros r [].
Qed.
Theorem session_ledger cf fuel w : distinct_names w -> no_runs w -> w_queue w = [] -> w_orphans w = [] -> new_id i w ->
  (forall k, o_hook orc k = None) -> snd (serve orc cf fuel w) <> OutOfFuel ->
  let w' := fst (serve orc cf fuel w) in
  (forall n u, seen_run w' n u i ->
     (forall m v, seen_run w' m v i -> m = n /\ v = u) /\
     exists c rest, story i (w_log w') = Rec n ARun c (Some i) :: rest /\ outcomes n rest /\
       (~ In (EvTerminate n u) (w_trace w') -> length rest = 1%nat)) /\
  ((forall n u, ~ seen_run w' n u i) -> story i (w_log w') = []).
Proof using PS.
  intros DN R Q O NI HK N w'. assert (I0 : some_inv w) by (exists None; now apply fresh_inv).
  assert (I1 : some_inv w') by (now apply kp_serve). pose proof (serve_empty cf fuel w I0 HK N) as Q'. fold w' in Q'.
  pose proof (serve_over orc cf fuel w HK N) as AO. fold w' in AO. destruct I1 as (p & [L _ _]).
  assert (A : acts w' = story i (w_log w')) by (unfold acts; rewrite Q'; apply app_nil_r).
  assert (NA : ~ alive_id w') by (intros (r & Hr & _ & V); rewrite (AO r Hr) in V; discriminate V). split.
  - intros n u S. pose proof (lg_seen _ _ _ L n u S) as ->. split.
    + intros m v S'. pose proof (lg_seen _ _ _ L m v S') as E. injection E as -> ->. now split.
    + destruct (lg_state _ _ _ L) as ((c & rest & E & [[_ V]|(_ & OC & T)]) & _); [contradiction|].
      exists c, rest. rewrite <- A. split; [exact E|]. split; [exact OC|]. intros NT. destruct T as [T|T]; [exact T|contradiction].
  - intros NS. destruct p as [[n u]|]; [|rewrite <- A; exact (lg_state _ _ _ L)].
    destruct (lg_state _ _ _ L) as (_ & _ & (ts & t & r & X1 & X2)). destruct (NS n u). exists ts, t, r. split; [now right|exact X2].
Qed.
End Env.
End Ledger.

(** * Every start makes a run with an id *)
Section Shows.
Context (P : Z -> Prop).
Definition shown (n : Z) (u : nat) (tr : list event) : Prop :=
  exists i ts t r, In (EvState ts) tr /\ In t ts /\ In r (t_stack t) /\ t_name t = n /\ rn_uid r = u /\ rn_id r = Some i /\ P i.
Definition shows (w w' : world) : Prop :=
  exists evs, w_trace w' = evs ++ w_trace w /\ forall n u, In (EvStart n u) evs -> shown n u (w_trace w').
Definition no_start (e : event) : Prop := match e with EvStart _ _ => False | _ => True end.
Lemma shown_more n u evs tr : shown n u tr -> shown n u (evs ++ tr).
Proof. intros (i & ts & t & r & H & K). exists i, ts, t, r. split; [apply in_or_app; now right|exact K]. Qed.
Lemma shows_quiet w w' evs : w_trace w' = evs ++ w_trace w -> Forall no_start evs -> shows w w'.
Proof. intros E F. exists evs. split; [exact E|]. intros n u H. rewrite Forall_forall in F. destruct (F _ H). Qed.
Lemma shows_trans a b c : shows a b -> shows b c -> shows a c.
Proof.
  intros (e1 & E1 & H1) (e2 & E2 & H2). exists (e2 ++ e1). split; [rewrite E2, E1; apply app_assoc|].
  intros n u H. apply in_app_or in H as [H|H]; [auto|]. rewrite E2. apply shown_more. auto.
Qed.
Lemma shows_same w w' : w_trace w' = w_trace w -> shows w w'.
Proof. intros E. now apply shows_quiet with []. Qed.
Lemma shows_one w w' e : w_trace w' = e :: w_trace w -> no_start e -> shows w w'.
Proof. intros E H. apply shows_quiet with [e]; [exact E|]. now constructor. Qed.
Lemma shows_calm A : calm A shows.
Proof.
  constructor; [constructor|]; intros; try (now apply shows_same); try (eapply shows_one; [reflexivity|exact I]).
  - eapply shows_trans; eassumption.
  - eapply shows_quiet with [_; _]; [reflexivity|]. repeat constructor.
Qed.
Lemma shows_respects A : respects A shows.
Proof.
  constructor; [apply shows_calm|intros..]; try (now apply shows_same); try (eapply shows_one; [reflexivity|exact I]).
  eapply shows_quiet with [_; _]; [reflexivity|]. repeat constructor.
Qed.
Lemma shows_push n : push_rel shows shows n (fun _ => True).
Proof.
  constructor; intros; try (eapply shows_trans; eassumption); try assumption; eapply shows_one; try reflexivity; exact I.
Qed.
End Shows.
Section Shown.
Context (orc : oracle) (cf : config) (PS : proper_session orc).
Let P (i : Z) : Prop := exists k, o_run_id orc k = Ok i.
Local Notation shown := (shown P).
Local Notation shows := (shows P).
Let C := shows_calm P all_moves.
Let HT : forall k m, In m (o_env orc k) -> all_moves m := fun _ _ _ => I.
Lemma shown_then {A B} n u (m : M A) (k : A -> M B) w : (forall a, steps shows (k a)) -> shown n u (w_trace (fst (m w))) -> shown n u (w_trace (fst (mbind m k w))).
Proof using Type.
  intros K H. unfold mbind. destruct (m w) as [w1 [a|e|]]; cbn [fst] in *; try exact H. destruct (K a w1) as (evs & E & _). rewrite E. now apply shown_more.
Qed.
Lemma shown_push n w t r i : find_task n w = Some t -> rn_id r = Some i -> P i -> shown n (rn_uid r) (w_trace (fst (push_run n r w))).
Proof using Type.
  intros F E HP. pose proof (find_name _ _ _ F) as N. apply find_some in F as [F _].
  exists i, (w_tasks (fst (push_run n r w))), (with_stack (t_stack t ++ [r]) t), r. split; [now left|]. split.
  - cbn. apply in_map_iff. exists t. rewrite N, Z.eqb_refl. now split.
  - split; [cbn; apply in_or_app; right; now left|]. split; [exact N|]. now split.
Qed.
Lemma launch_shown fuel x n u start i w t : find_task n w = Some t -> P i -> shown n u (w_trace (fst (launch orc fuel x n u start i w))).
Proof using PS.
  intros F HP. destruct x; cbn [launch].
  - rewrite (bind_to (modify _) _ w _ tt eq_refl). apply shown_then; [|apply (shown_push n _ t (Run u (Some i) start XMain Busy false false) i); [exact F|reflexivity|exact HP]].
    intros _. unfold run_setup. st C; [apply (steps_log_action C)|apply (c_orphans _ _ C)|apply (steps_env C _ HT)|apply (steps_env C _ HT)|apply (steps_run_body C)].
  - apply shown_then; [|apply (shown_push n _ t (Run u (Some i) start XAsync Pending false false) i); [exact F|reflexivity|exact HP]]. intros _. apply (steps_log_action C).
  - rewrite (bind_to (ask (o_prep orc)) _ w (bump w) None) by (unfold ask; now rewrite (ps_prep orc PS)). cbn [raise_if].
    rewrite (bind_to (ret tt) _ (bump w) (bump w) tt eq_refl). rewrite (bind_to (ask (o_spawn orc)) _ (bump w) (bump (bump w)) None) by (unfold ask; now rewrite (ps_spawn orc PS)).
    apply shown_then; [|apply (shown_push n _ t (Run u (Some i) start XThread Busy false false) i); [exact F|reflexivity|exact HP]]. intros _.
    st C; [apply (c_state _ _ C)|apply (steps_log_action C)|]. destruct a0; st C; [apply (c_exc _ _ C)|apply (steps_log_action C)|apply (c_over _ _ C)].
  - rewrite (bind_to (ask (o_prep orc)) _ w (bump w) None) by (unfold ask; now rewrite (ps_prep orc PS)). cbn [raise_if].
    rewrite (bind_to (ret tt) _ (bump w) (bump w) tt eq_refl). rewrite (bind_to (ask (o_spawn orc)) _ (bump w) (bump (bump w)) None) by (unfold ask; now rewrite (ps_spawn orc PS)).
    cbv iota. rewrite (bind_to (ask (o_boot orc)) _ _ (bump (bump (bump w))) true) by (unfold ask; now rewrite (ps_boot orc PS)).
    apply shown_then; [|apply (shown_push n _ t (Run u (Some i) start XProcess Busy false false) i); [exact F|reflexivity|exact HP]]. intros _.
    st C; [apply (steps_log_action C)|apply (steps_lock C _ HT)].
Qed.
Lemma shows_start fuel n : steps shows (start_async orc cf fuel n).
Proof using PS.
  intros w. rewrite start_async_eq. destruct (find_task n w) as [t|] eqn:F; [|apply (c_refl _ _ C)].
  set (u := w_uid w). set (w1 := emit _ _). set (x := get_execution cf t).
  assert (S : shows w1 (fst (start_rest orc fuel n x (w_clock w) u w1))).
  { pose proof (shows_push P n) as SP. revert w1. intros w1. unfold start_rest, finally. clearbody w1. revert w1.
    apply (steps_bind_r SP).
    - apply steps_attempt. apply (steps_bind_l SP).
      + st C; [|apply (steps_get_run_id C)]. unfold get_direct_params. st C. destruct (t_batches a1); st C; eapply shows_one; try reflexivity; exact I.
      + intros [rid|e]; [|apply (steps_start_failed C)]. apply (steps_bind_r SP); [apply steps_attempt, (steps_launch C SP _ HT); auto|].
        intros [?|e]; [st C|apply (steps_start_failed C)].
    - intros r. st C; [apply (sr_main _ _ _ _ SP)|]. destruct r; st C. }
  destruct S as (evs & E & H). exists (evs ++ [EvStart n u]). split; [rewrite E; cbn; now rewrite <- app_assoc|].
  intros m v Hin. apply in_app_or in Hin as [Hin|[Hin|[]]]; [auto|]. injection Hin as <- <-. clear evs E H.
  unfold start_rest, finally. apply shown_then.
  { intros r. st C; [eapply shows_one; [reflexivity|exact I]|]. destruct r; st C. }
  assert (G : exists w2 t2 j, (e <- ask (o_prep orc) ;; raise_if e ;; get_direct_params n ;; get_run_id orc) w1 = (w2, Returns j) /\ find_task n w2 = Some t2 /\ P j).
  { assert (A1 : ask (o_prep orc) w1 = (bump w1, Returns None)) by (unfold ask; now rewrite (ps_prep orc PS)).
    rewrite (bind_to _ _ _ _ _ A1). cbn [raise_if]. rewrite (bind_to (ret tt) _ _ (bump w1) tt eq_refl).
    assert (D : exists wd td, get_direct_params n (bump w1) = (wd, Returns tt) /\ find_task n wd = Some td).
    { unfold get_direct_params, mbind, get_task. change (find_task n (bump w1)) with (find_task n w). rewrite F. destruct (t_batches t) as [|b rest].
      - do 2 eexists. split; [reflexivity|exact F].
      - eexists _, (with_batches rest t). split; [reflexivity|]. change (find_task n (on_task n (with_batches rest) w) = Some (with_batches rest t)). rewrite find_on_task by reflexivity. rewrite F. cbn [option_map].
        now rewrite (find_name _ _ _ F), Z.eqb_refl. }
    destruct D as (wd & td & Ed & Fd). rewrite (bind_to _ _ _ _ _ Ed). destruct (ps_id orc PS (w_tick wd)) as (j & Ej). exists (bump wd), td, j. split; [|split; [exact Fd|now exists (w_tick wd)]].
    unfold get_run_id, mbind. change (ask (o_run_id orc) wd) with (bump wd, Returns (o_run_id orc (w_tick wd))). cbv iota. now rewrite Ej. }
  destruct G as (w2 & t2 & j & G & F2 & Pj). unfold attempt at 1.
  assert (K : shown n u (w_trace (fst (mbind (attempt (launch orc fuel x n u (w_clock w) j)) (fun r => match r with Ok _ => ret tt | Err e => start_failed orc x n (Some j) e end) w2)))).
  { apply shown_then; [intros [?|e]; [st C|apply (steps_start_failed C)]|]. pose proof (launch_shown fuel x n u (w_clock w) j w2 t2 F2 Pj) as L. unfold attempt.
    destruct (launch orc fuel x n u (w_clock w) j w2) as [w3 [a|e|]]; exact L. }
  rewrite (bind_to _ _ _ _ _ (attempt_ok _ _ _ _ G)).
  destruct (mbind (attempt (launch orc fuel x n u (w_clock w) j)) _ w2) as [w4 [a|e|]]; exact K.
Qed.
Lemma shows_serve fuel : steps shows (serve orc cf fuel).
Proof using PS.
  apply (steps_serve (shows_respects P all_moves) orc cf HT). intros f n. unfold guarded.
  st C; [apply (steps_is_task_runnable C _ _ HT)|apply (steps_env C _ HT)|]. destruct a; st C.
  unfold run_task. st C; [apply shows_start|]. destruct a as [?|[]]; st C; [destruct (cf_silence_prerun cf)|destruct (cf_silence_logging cf)]; st C.
Qed.
Theorem started_seen fuel w n u : In (EvStart n u) (w_trace (fst (serve orc cf fuel w))) -> In (EvStart n u) (w_trace w) \/
  exists i k, o_run_id orc k = Ok i /\ seen_run (fst (serve orc cf fuel w)) n u i.
Proof using PS.
  intros H. destruct (shows_serve fuel w) as (evs & E & S). rewrite E in H. apply in_app_or in H as [H|H]; [right|now left].
  destruct (S n u H) as (i & ts & t & r & X & Y1 & Y2 & Y3 & Y4 & Y5 & k & Y6). exists i, k. split; [exact Y6|]. exists ts, t, r. split; [now right|]. now repeat (split; [assumption|]).
Qed.
Theorem every_start fuel w : distinct_names w -> no_runs w -> w_queue w = [] -> w_orphans w = [] ->
  (forall k i, o_run_id orc k = Ok i -> new_id i w) -> (forall k, o_hook orc k = None) -> snd (serve orc cf fuel w) <> OutOfFuel ->
  let w' := fst (serve orc cf fuel w) in
  forall n u, In (EvStart n u) (w_trace w') -> In (EvStart n u) (w_trace w) \/
    exists i c rest, story i (w_log w') = Rec n ARun c (Some i) :: rest /\ outcomes n rest /\
      (~ In (EvTerminate n u) (w_trace w') -> length rest = 1%nat) /\ (forall m v, seen_run w' m v i -> m = n /\ v = u).
Proof using PS.
  intros DN R Q O NI HK N w' n u H. destruct (started_seen fuel w n u H) as [H0|(i & k & E & S)]; [now left|right].
  destruct (session_ledger i orc PS cf fuel w DN R Q O (NI k i E) HK N) as [G _]. destruct (G n u S) as (U & c & rest & G1 & G2 & G3).
  exists i, c, rest. now repeat (split; [assumption|]).
Qed.
Theorem no_stray fuel w i : distinct_names w -> no_runs w -> w_queue w = [] -> w_orphans w = [] -> new_id i w ->
  (forall k, o_hook orc k = None) -> snd (serve orc cf fuel w) <> OutOfFuel ->
  (forall n u, ~ seen_run (fst (serve orc cf fuel w)) n u i) -> story i (w_log (fst (serve orc cf fuel w))) = [].
Proof using PS. intros DN R Q O NI HK N. exact (proj2 (session_ledger i orc PS cf fuel w DN R Q O NI HK N)). Qed.
End Shown.
