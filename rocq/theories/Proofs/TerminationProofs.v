(** Which runs a check terminates (C31, C32). *)
From Coq Require Import Bool Arith Lia ZifyBool.
From Verif Require Import Model.Base Model.History Model.World Model.Run Model.Scheduler.
From Verif Require Import Spec.SchedulerSpec Proofs.WorldProofs Proofs.LimitProofs Proofs.EventProofs.
From Verif Require Import Proofs.RequestProofs Proofs.StartProofs Proofs.StackProofs.
Open Scope Z_scope.

(** * The terminations that happened *)
Definition ends (T : Z -> nat -> Prop) (w w' : world) : Prop :=
  exists evs, happened w w' evs /\ forall m u, In (EvTerminate m u) evs -> T m u.
Lemma ends_refl (T : Z -> nat -> Prop) w w' : w_trace w' = w_trace w -> ends T w w'.
Proof. intros E. exists []. split; [now apply happened_refl|intros m u []]. Qed.
Lemma ends_trans (T : Z -> nat -> Prop) a b c : ends T a b -> ends T b c -> ends T a c.
Proof.
  intros (e1 & H1 & K1) (e2 & H2 & K2). exists (e1 ++ e2). split; [eapply happened_trans; eassumption|].
  intros m u Hin. apply in_app_or in Hin as [Hin|Hin]; auto.
Qed.
Lemma ends_one (T : Z -> nat -> Prop) e w w' : w_trace w' = e :: w_trace w -> (forall m u, e = EvTerminate m u -> T m u) -> ends T w w'.
Proof. intros E H. exists [e]. split; [exact E|]. intros m u [Hin|[]]. auto. Qed.
Lemma ends_still (T : Z -> nat -> Prop) : still all_moves (ends T).
Proof.
  constructor; intros; try (apply ends_refl; reflexivity);
    try (eapply ends_one; [reflexivity|discriminate]).
  - eapply ends_trans; eassumption.
  - apply ends_trans with (emit (EvRequest n p) w); (eapply ends_one; [reflexivity|discriminate]).
Qed.
Definition grows : world -> world -> Prop := ends (fun _ _ => True).
Lemma grows_calm : calm all_moves grows.
Proof. constructor; [apply ends_still|]. intros n u w. eapply ends_one; [reflexivity|auto]. Qed.
(** This run was terminated in the meantime *)
Definition got (n : Z) (u : nat) (w w' : world) : Prop :=
  exists evs, happened w w' evs /\ In (EvTerminate n u) evs.
Lemma got_l n u a b c : got n u a b -> grows b c -> got n u a c.
Proof.
  intros (e1 & H1 & K1) (e2 & H2 & _). exists (e1 ++ e2). split; [eapply happened_trans; eassumption|]. apply in_or_app. now left.
Qed.
Lemma got_r n u a b c : grows a b -> got n u b c -> got n u a c.
Proof.
  intros (e1 & H1 & _) (e2 & H2 & K2). exists (e1 ++ e2). split; [eapply happened_trans; eassumption|]. apply in_or_app. now right.
Qed.
Lemma got_in n u w w' evs : got n u w w' -> happened w w' evs -> In (EvTerminate n u) evs.
Proof. intros (e & H & K) H'. now rewrite (happened_unique _ _ _ _ H' H). Qed.
Lemma ends_in (T : Z -> nat -> Prop) n u w w' evs : ends T w w' -> happened w w' evs -> In (EvTerminate n u) evs -> T n u.
Proof. intros (e & H & K) H'. rewrite (happened_unique _ _ _ _ H' H). apply K. Qed.

(** * Finding a run by its identity *)
Lemma find_run_in u w t r : find_run u w = Some (t, r) -> In r (tracked w) /\ rn_uid r = u.
Proof.
  unfold find_run. destruct (task_of_run u w) as [t0|] eqn:E; [|discriminate].
  destruct (find _ (t_stack t0)) as [r0|] eqn:F; [|discriminate]. cbn. intros H; injection H as <- <-.
  apply find_some in F as [F1 F2]. apply find_some in E as [E1 _]. split; [|now apply Nat.eqb_eq].
  apply in_concat. exists (t_stack t0). split; [now apply in_map|exact F1].
Qed.
Lemma find_run_none u w : find_run u w = None -> forall r, In r (tracked w) -> rn_uid r <> u.
Proof.
  unfold find_run. destruct (task_of_run u w) as [t|] eqn:E.
  - apply find_some in E as [_ E]. apply existsb_exists in E as (r & Hr & Er).
    destruct (find _ (t_stack t)) eqn:F; [discriminate|]. apply (find_none _ _ F) in Hr. congruence.
  - intros _ r Hr Er. apply in_concat in Hr as (l & Hl & Hr). apply in_map_iff in Hl as (t & <- & Ht).
    apply (find_none _ _ E) in Ht. cbn in Ht. assert (K : existsb (fun r => Nat.eqb (rn_uid r) u) (t_stack t) = true); [|congruence].
    apply existsb_exists. exists r. split; [exact Hr|now apply Nat.eqb_eq].
Qed.
Lemma nodup_map_inj {A B} (f : A -> B) l a b : NoDup (map f l) -> In a l -> In b l -> f a = f b -> a = b.
Proof.
  induction l as [|x l IH]; intros N Ha Hb E; [destruct Ha|]. cbn in N. inversion N as [|? ? N1 N2]; subst.
  destruct Ha as [->|Ha], Hb as [->|Hb]; auto; destruct N1; [rewrite E|rewrite <- E]; now apply in_map.
Qed.
Lemma one_id w r r' : distinct_runs w -> In r (tracked w) -> In r' (tracked w) -> rn_uid r = rn_uid r' -> r = r'.
Proof. intros D. apply (nodup_map_inj rn_uid _ _ _ D). Qed.
Lemma tracked_on_run u g w : tracked (on_run u g w) = map (fun r => if Nat.eqb (rn_uid r) u then g r else r) (tracked w).
Proof.
  unfold tracked, on_run. cbn. rewrite map_map. cbn. rewrite concat_map, map_map. reflexivity.
Qed.
Lemma dead_stopped w u : ~ live_in w u -> stopped w u.
Proof. intros H r Hr E. left. destruct (live r) eqn:L; [|reflexivity]. destruct H. now exists r. Qed.
Lemma over_stopped u e w : stopped (on_run u (with_phase (Over e)) w) u.
Proof.
  apply dead_stopped. intros (r & Hr & E & L). rewrite tracked_on_run in Hr. apply in_map_iff in Hr as (r0 & <- & _).
  destruct (Nat.eqb_spec (rn_uid r0) u); [discriminate L|congruence].
Qed.
Lemma live_alive r : live r = run_alive r.
Proof. reflexivity. Qed.
Lemma dead_find w u t r : distinct_runs w -> find_run u w = Some (t, r) -> run_alive r = false -> ~ live_in w u.
Proof.
  intros D F A (r' & Hr' & E & L). apply find_run_in in F as [Hr Er].
  rewrite (one_id w r' r D Hr' Hr) in L by congruence. rewrite live_alive in L. congruence.
Qed.

Section Termination.
Context (orc : oracle) (cf : config).
Let HT : forall k m, In m (o_env orc k) -> all_moves m := fun _ _ _ => I.
Let C := shrinks_calm all_moves.
Let G := grows_calm.

(** * Terminating one run *)
Lemma end_coroutine_stops u m w w' : end_coroutine u m w = (w', Returns tt) -> stopped w' u.
Proof.
  unfold end_coroutine. intros H. apply bind_returns in H as (w1 & r & _ & H). injection H as <-. apply over_stopped.
Qed.
(** When awaiting the run gave control back, the run is over or asked to stop,
    except that a run of the main execution can not be terminated. *)
Lemma obj_stopped u w : distinct_runs w ->
  match terminate_run_obj orc u w with
  | (w', Returns _) => stopped w' u
  | (w', Raises e) => e = TypeError \/ stopped w' u
  | (_, OutOfFuel) => True
  end.
Proof.
  intros D. unfold terminate_run_obj. unfold mbind at 1, get at 1. cbn beta iota. destruct (find_run u w) as [[t r]|] eqn:F.
  2:{ intros r Hr E. destruct (find_run_none _ _ F r Hr E). }
  destruct (rn_kind r) eqn:X; cbn [raise].
  - now left.
  - destruct (rn_phase r) as [| |[e|]] eqn:P.
    + unfold mbind, modify, raise. right. apply over_stopped.
    + destruct (env_returns orc w) as (w1 & E1). unfold mbind at 1. rewrite E1. cbn beta iota.
      assert (S1 : shrinks w w1) by (eapply steps_eq; [|exact E1]; apply (steps_env C _ HT)).
      unfold mbind at 1, ask. cbn beta iota. unfold mbind at 1, get at 1. cbn beta iota.
      set (w2 := World _ _ _ _ _ _ _ _ _ _ _ _ _ _ _).
      assert (D2 : distinct_runs w2) by exact (shrinks_distinct _ _ S1 D).
      destruct (find_run u w2) as [[t2 r2]|] eqn:F2.
      2:{ intros x Hx E. destruct (find_run_none _ _ F2 x Hx E). }
      assert (B : forall w3 o, mbind (end_coroutine u (run_body orc false (Some XAsync) (t_name t2) (rn_id r2) (o_script orc (w_tick w1))))
               (fun _ => mbind (get (fun w => w)) (fun w => match find_run u w with
                 | Some (_, r) => match rn_phase r with Over (Some e) => raise e | _ => ret tt end
                 | None => ret tt end)) w2 = (w3, o) -> o = OutOfFuel \/ stopped w3 u).
      { intros w3 o E. apply bind_inv in E as [(w4 & [] & E & E')|[(e & E & ->)|(E & ->)]]; [| |now left].
        - right. apply end_coroutine_stops in E. unfold mbind, get in E'.
          destruct (find_run u w4) as [[? r4]|]; [|now inversion E'; subst].
          destruct (rn_phase r4) as [| |[e|]]; now inversion E'; subst.
        - unfold end_coroutine in E. apply bind_inv in E as [(w4 & x & E & E')|[(e' & E & E')|(E & E')]]; [discriminate E'| |discriminate E'].
          unfold attempt in E. destruct (run_body _ _ _ _ _ _ _) as [w5 [?|?|]]; discriminate E. }
      destruct (rn_phase r2) as [| |[e|]] eqn:P2.
      * match goal with |- match ?m with _ => _ end => destruct m as [w3 o] eqn:E end. destruct (B _ _ eq_refl) as [-> | S]; [exact I|destruct o; auto].
      * match goal with |- match ?m with _ => _ end => destruct m as [w3 o] eqn:E end. destruct (B _ _ eq_refl) as [-> | S]; [exact I|destruct o; auto].
      * right. apply dead_stopped. eapply dead_find; [exact D2|exact F2|]. unfold run_alive. now rewrite P2.
      * apply dead_stopped. eapply dead_find; [exact D2|exact F2|]. unfold run_alive. now rewrite P2.
    + right. apply dead_stopped. eapply dead_find; [exact D|exact F|]. unfold run_alive. now rewrite P.
    + apply dead_stopped. eapply dead_find; [exact D|exact F|]. unfold run_alive. now rewrite P.
  - unfold modify. intros x Hx E. rewrite tracked_on_run in Hx. apply in_map_iff in Hx as (x0 & <- & Hx0). right.
    destruct (Nat.eqb_spec (rn_uid x0) u) as [E0|E0]; [|congruence]. split; [|reflexivity]. cbn.
    apply find_run_in in F as [Hr Er]. now rewrite (one_id w x0 r D Hx0 Hr) by congruence.
  - destruct (run_alive r) eqn:A.
    + unfold modify. apply over_stopped.
    + apply dead_stopped. eapply dead_find; eassumption.
Qed.
Lemma terminate_run_stops n r w w' : distinct_runs w -> terminate_run orc n r w = (w', Returns tt) ->
  stopped w' (rn_uid r) /\ got n (rn_uid r) w w'.
Proof.
  intros D H. unfold terminate_run in H. apply bind_returns in H as (w1 & [] & E1 & H). injection E1 as <-.
  apply bind_returns in H as (w2 & o & E2 & H).
  pose proof (obj_stopped (rn_uid r) (emit (EvTerminate n (rn_uid r)) w) D) as O.
  assert (S2 : steps shrinks (terminate_run_obj orc (rn_uid r))) by apply (steps_terminate_run_obj C _ HT).
  assert (G2 : steps grows (terminate_run_obj orc (rn_uid r))) by apply (steps_terminate_run_obj G _ HT).
  apply (steps_eq _ _ _ _ (steps_attempt _ G2)) in E2 as G3. unfold attempt in E2.
  assert (S3 : stopped w2 (rn_uid r) /\ grows w2 w' /\ shrinks w2 w').
  { destruct (terminate_run_obj orc (rn_uid r) _) as [w3 [[]|e|]]; inversion E2; subst; cbn beta iota in *.
    - split; [exact O|]. destruct (exec_eqb _ _).
      + split; (eapply steps_eq; [|exact H]); [apply (steps_log_action G)|apply (steps_log_action C)].
      + inversion H; subst. split; [apply (c_refl _ _ G)|apply (c_refl _ _ C)].
    - destruct O as [-> | O]; [discriminate H|]. split; [exact O|].
      destruct e; try discriminate H.
      split; (eapply steps_eq; [|exact H]); [apply (steps_log_action G)|apply (steps_log_action C)]. }
  destruct S3 as (S3 & S4 & S5). split; [eapply shrinks_stopped; eassumption|].
  eapply got_l; [|exact S4]. eapply got_l; [|exact G3]. exists [EvTerminate n (rn_uid r)]. split; [reflexivity|now left].
Qed.
Lemma terminate_run_ends (T : Z -> nat -> Prop) n r : T n (rn_uid r) -> steps (ends T) (terminate_run orc n r).
Proof.
  pose proof (ends_still T) as E. intros H. unfold terminate_run. st E; [|apply (steps_terminate_run_obj E _ HT)|].
  - eapply ends_one; [reflexivity|]. intros m u K. now inversion K; subst.
  - destruct a0 as [?|[]]; st E; try apply (steps_log_action E). destruct (exec_eqb _ _); st E. apply (steps_log_action E).
Qed.

(** * Terminating all runs *)
Lemma each_ends (T : Z -> nat -> Prop) n rs : (forall r, In r rs -> T n (rn_uid r)) -> steps (ends T) (terminate_each orc n rs).
Proof.
  pose proof (ends_still T) as E. induction rs as [|r rs IH]; intros H; cbn [terminate_each]; st E;
    [apply terminate_run_ends, H; now left|apply (steps_env E _ HT)|apply IH; intros; apply H; now right].
Qed.
Lemma each_stops n rs w w' : distinct_runs w -> terminate_each orc n rs w = (w', Returns tt) ->
  forall r, In r rs -> stopped w' (rn_uid r) /\ got n (rn_uid r) w w'.
Proof.
  revert w; induction rs as [|r0 rs IH]; intros w D H r Hr; [destruct Hr|]. cbn [terminate_each] in H.
  assert (S0 : shrinks w w') by (eapply steps_eq; [apply (steps_terminate_each C _ HT n (r0 :: rs))|exact H]).
  apply bind_returns in H as (w1 & [] & E1 & H). apply bind_returns in H as (w2 & [] & E2 & H).
  assert (S1 : shrinks w w1) by (eapply steps_eq; [|exact E1]; apply (steps_terminate_run C _ HT)).
  assert (S2 : shrinks w1 w2) by (eapply steps_eq; [|exact E2]; apply (steps_env C _ HT)).
  assert (S3 : shrinks w2 w') by (eapply steps_eq; [|exact H]; apply (steps_terminate_each C _ HT)).
  assert (G1 : grows w w1) by (eapply steps_eq; [|exact E1]; apply (steps_terminate_run G _ HT)).
  assert (G2 : grows w1 w2) by (eapply steps_eq; [|exact E2]; apply (steps_env G _ HT)).
  assert (G3 : grows w2 w') by (eapply steps_eq; [|exact H]; apply (steps_terminate_each G _ HT)).
  destruct Hr as [-> | Hr].
  - destruct (terminate_run_stops n r w w1 D E1) as [A B]. split.
    + eapply shrinks_stopped; [exact S3|]. eapply shrinks_stopped; eassumption.
    + eapply got_l; [|exact G3]. eapply got_l; eassumption.
  - destruct (IH w2 (shrinks_distinct _ _ S2 (shrinks_distinct _ _ S1 D)) H r Hr) as [A B]. split; [exact A|].
    eapply got_r; [|exact B]. eapply (c_trans _ _ G); eassumption.
Qed.
Lemma all_ends (T : Z -> nat -> Prop) n w t : find_task n w = Some t -> (forall r, In r (t_stack t) -> T n (rn_uid r)) ->
  ends T w (fst (terminate_all_runs orc cf n w)).
Proof.
  pose proof (ends_still T) as E. intros F H. unfold terminate_all_runs, mbind at 1, get_task. rewrite F.
  match goal with |- ends T w (fst (?m w)) => assert (S : steps (ends T) m) end; [|apply S].
  st E; [now apply each_ends|apply (steps_clean E)|]. apply (c_term _ _ E).
Qed.
Lemma all_stops n w w' t : distinct_runs w -> find_task n w = Some t -> terminate_all_runs orc cf n w = (w', Returns tt) ->
  (forall r, In r (t_stack t) -> stopped w' (rn_uid r) /\ got n (rn_uid r) w w') /\
  exists t', find_task n w' = Some t' /\ t_term t' = false.
Proof.
  intros D F H. unfold terminate_all_runs in H. apply bind_returns in H as (w1 & t1 & E1 & H).
  apply get_task_returns in E1 as (-> & F1). rewrite F in F1. injection F1 as <-.
  apply bind_returns in H as (w2 & [] & E2 & H). apply bind_returns in H as (w3 & [] & E3 & H). injection H as <-.
  assert (S2 : shrinks w w2) by (eapply steps_eq; [|exact E2]; apply (steps_terminate_each C _ HT)).
  assert (S3 : shrinks w2 w3) by (eapply steps_eq; [|exact E3]; apply (steps_clean C)).
  assert (G3 : grows w2 w3) by (eapply steps_eq; [|exact E3]; apply (steps_clean G)).
  split.
  - intros r Hr. destruct (each_stops n _ w w2 D E2 r Hr) as [A B]. split.
    + eapply shrinks_stopped; [apply (c_term _ _ C n)|]. eapply shrinks_stopped; eassumption.
    + eapply got_l; [|apply (c_term _ _ G)]. eapply got_l; eassumption.
  - destruct (shrinks_find n w w3 t (shrinks_trans _ _ _ S2 S3) F) as (t' & F' & _). exists (with_term false t').
    rewrite find_on_task by reflexivity. rewrite F'. cbn. rewrite (find_name _ _ _ F'), Z.eqb_refl. now split.
Qed.

(** * Terminating the runs that are late *)
Definition late_runs (w : world) (rs : list run) (n now d : Z) (m : Z) (u : nat) : Prop :=
  m = n /\ exists r, In r rs /\ rn_uid r = u /\ live r = true /\ d < now - rn_start r.
Lemma late_ends w0 n now d all : distinct_runs w0 -> (forall r, In r all -> In r (tracked w0)) ->
  forall rs w, (forall r, In r rs -> In r all) -> shrinks w0 w ->
  ends (late_runs w0 all n now d) w (fst (terminate_late orc n now d rs w)).
Proof.
  intros D A. pose proof (ends_still (late_runs w0 all n now d)) as E. induction rs as [|r rs IH]; intros w Hrs S; cbn [terminate_late].
  { apply (c_refl _ _ E). }
  unfold mbind at 1, get at 1. cbn beta iota.
  set (alive := match find_run (rn_uid r) w with Some (_, r') => run_alive r' | None => false end).
  set (m := if alive && (d <? now - rn_start r) then _ else _).
  assert (Em : steps (ends (late_runs w0 all n now d)) m).
  { subst m. destruct (alive && (d <? now - rn_start r)) eqn:B; [|st E]. st E; [|apply (steps_env E _ HT)].
    apply terminate_run_ends. split; [reflexivity|]. exists r. repeat split; [apply Hrs; now left| |lia].
    subst alive. destruct (find_run (rn_uid r) w) as [[t' r']|] eqn:F; [|discriminate B].
    apply find_run_in in F as [Hr' Er']. destruct (less_in _ _ _ (shrinks_tracked _ _ S) Hr') as (r0 & Hr0 & (L1 & _ & _ & _ & L5 & _)).
    assert (r0 = r) by (apply (one_id w0); auto; [apply A, Hrs; now left|congruence]). subst r0. apply L5. rewrite live_alive. lia. }
  assert (Sm : steps shrinks m).
  { subst m. destruct (_ && _); st C; [apply (steps_terminate_run C _ HT)|apply (steps_env C _ HT)]. }
  specialize (Em w). specialize (Sm w). unfold mbind. destruct (m w) as [w1 [[]|e|]]; cbn [fst] in *; auto.
  eapply ends_trans; [exact Em|]. apply IH; [intros; apply Hrs; now right|eapply shrinks_trans; eassumption].
Qed.
Lemma late_stops n now d rs w w' : distinct_runs w -> terminate_late orc n now d rs w = (w', Returns tt) ->
  forall r, In r rs -> d < now - rn_start r -> stopped w' (rn_uid r) /\ (got n (rn_uid r) w w' \/ ~ live_in w' (rn_uid r)).
Proof.
  revert w; induction rs as [|r0 rs IH]; intros w D H r Hr L; [destruct Hr|]. cbn [terminate_late] in H.
  apply bind_returns in H as (w0 & a & E0 & H). injection E0 as <- <-.
  apply bind_returns in H as (w2 & [] & E2 & H).
  assert (S3 : shrinks w2 w') by (eapply steps_eq; [|exact H]; apply (steps_terminate_late C _ HT)).
  assert (G3 : grows w2 w') by (eapply steps_eq; [|exact H]; apply (steps_terminate_late G _ HT)).
  assert (S2 : shrinks w w2).
  { eapply steps_eq; [|exact E2]. destruct (_ && _); st C; [apply (steps_terminate_run C _ HT)|apply (steps_env C _ HT)]. }
  assert (G2 : grows w w2).
  { eapply steps_eq; [|exact E2]. destruct (_ && _); st G; [apply (steps_terminate_run G _ HT)|apply (steps_env G _ HT)]. }
  destruct Hr as [-> | Hr].
  - destruct (find_run (rn_uid r) w) as [[t' r']|] eqn:F.
    + destruct (run_alive r') eqn:A.
      * replace (d <? now - rn_start r) with true in E2 by lia. cbn [andb] in E2.
        apply bind_returns in E2 as (w1 & [] & E1 & E2). destruct (terminate_run_stops n r w w1 D E1) as [P Q].
        assert (S1 : shrinks w1 w2) by (eapply steps_eq; [|exact E2]; apply (steps_env C _ HT)).
        assert (G1 : grows w1 w2) by (eapply steps_eq; [|exact E2]; apply (steps_env G _ HT)).
        split; [eapply shrinks_stopped; [exact S3|]; eapply shrinks_stopped; eassumption|].
        left. eapply got_l; [|exact G3]. eapply got_l; eassumption.
      * assert (X : ~ live_in w (rn_uid r)) by (eapply dead_find; eassumption).
        assert (X' : ~ live_in w' (rn_uid r)) by (intros Y; apply X; eapply shrinks_live; [exact S2|]; eapply shrinks_live; eassumption).
        split; [now apply dead_stopped|now right].
    + assert (X' : ~ live_in w' (rn_uid r)).
      { intros Y. assert (Z : live_in w (rn_uid r)) by (eapply shrinks_live; [exact S2|]; eapply shrinks_live; eassumption).
        destruct Z as (x & Hx & Ex & _). now destruct (find_run_none _ _ F x Hx). }
      split; [now apply dead_stopped|now right].
  - destruct (IH w2 (shrinks_distinct _ _ S2 D) H r Hr L) as [P [Q|Q]]; (split; [exact P|]); [left|now right].
    eapply got_r; eassumption.
Qed.

(** * A check *)
Lemma check_eq n w t : find_task n w = Some t ->
  check_termination orc cf n w =
  match o_end orc (w_tick w) with
  | Err e => if negb (cf_silence_cond cf) || negb (is_exception e) then (bump w, Raises e) else terminate_all_runs orc cf n (bump w)
  | Ok b => if t_term t then terminate_all_runs orc cf n (bump w)
            else if b then terminate_all_runs orc cf n (bump w)
            else if tc_permanent (t_cfg t) then (bump w, Returns tt)
            else terminate_late orc n (w_clock w) (get_timeout cf t) (t_stack t) (bump w)
  end.
Proof.
  intros F. unfold check_termination, mbind at 1, ask. fold (bump w). destruct (o_end orc (w_tick w)) as [b|e].
  - unfold mbind at 1, ret at 1. unfold mbind at 1, get_task. change (find_task n (bump w)) with (find_task n w). rewrite F.
    destruct (t_term t); [reflexivity|]. destruct b; [reflexivity|]. unfold mbind, get. destruct (tc_permanent _); reflexivity.
  - destruct (_ || _); [reflexivity|]. unfold mbind at 1, ret at 1. unfold mbind at 1, get_task.
    change (find_task n (bump w)) with (find_task n w). rewrite F. now destruct (t_term t).
Qed.
Lemma stack_tracked w t r : In t (w_tasks w) -> In r (t_stack t) -> In r (tracked w).
Proof. intros Ht Hr. apply in_concat. exists (t_stack t). split; [now apply in_map|exact Hr]. Qed.
Lemma happened_bump w w' evs : happened w w' evs -> happened (bump w) w' evs.
Proof. intros H. exact H. Qed.

Lemma only_late w t evs m u : distinct_names w -> distinct_runs w -> In t (w_tasks w) ->
  ~ end_holds orc cf w -> t_term t = false ->
  happened w (fst (check_termination orc cf (t_name t) w)) evs -> In (EvTerminate m u) evs ->
  m = t_name t /\ tc_permanent (t_cfg t) = false /\
  exists r, In r (t_stack t) /\ rn_uid r = u /\ live r = true /\ get_timeout cf t < w_clock w - rn_start r.
Proof.
  intros N D Ht NE NT H Hin. pose proof (find_unique w (t_name t) t N Ht eq_refl) as F. rewrite (check_eq _ _ _ F) in H. rewrite NT in H.
  assert (B0 : forall v, v = bump w -> happened w v evs -> False).
  { intros v -> Hv. rewrite (happened_unique _ _ _ _ Hv (happened_refl w (bump w) eq_refl)) in Hin. destruct Hin. }
  destruct (o_end orc (w_tick w)) as [[]|e] eqn:O.
  - destruct NE. now left.
  - destruct (tc_permanent (t_cfg t)) eqn:P; [now destruct (B0 _ eq_refl H)|].
    pose proof (late_ends (bump w) (t_name t) (w_clock w) (get_timeout cf t) (t_stack t) D
      (fun r Hr => stack_tracked w t r Ht Hr) (t_stack t) (bump w) (fun r Hr => Hr) (c_refl _ _ C (bump w))) as K.
    destruct (ends_in _ _ _ _ _ _ K H Hin) as (-> & K'). auto.
  - destruct (_ || _) eqn:S; [now destruct (B0 _ eq_refl H)|]. destruct NE. right. exists e. repeat split; auto; destruct (is_exception e), (cf_silence_cond cf); auto; discriminate.
Qed.
Lemma late_terminated w w' t evs r : distinct_names w -> distinct_runs w -> In t (w_tasks w) ->
  ~ end_holds orc cf w -> t_term t = false -> tc_permanent (t_cfg t) = false ->
  check_termination orc cf (t_name t) w = (w', Returns tt) -> happened w w' evs ->
  In r (t_stack t) -> get_timeout cf t < w_clock w - rn_start r ->
  stopped w' (rn_uid r) /\ (In (EvTerminate (t_name t) (rn_uid r)) evs \/ ~ live_in w' (rn_uid r)).
Proof.
  intros N D Ht NE NT NP E H Hr L. pose proof (find_unique w (t_name t) t N Ht eq_refl) as F. rewrite (check_eq _ _ _ F), NT, NP in E.
  destruct (o_end orc (w_tick w)) as [[]|e] eqn:O.
  - destruct NE. now left.
  - destruct (late_stops _ _ _ _ (bump w) _ D E r Hr L) as [A [B|B]]; (split; [exact A|]); [left|now right]. eapply got_in; eassumption.
  - destruct (_ || _) eqn:S; [discriminate E|]. destruct NE. right. exists e. repeat split; auto; destruct (is_exception e), (cf_silence_cond cf); auto; discriminate.
Qed.
Lemma end_cases w : end_holds orc cf w \/ (exists e, end_loud orc cf w e) \/ o_end orc (w_tick w) = Ok false.
Proof.
  unfold end_holds, end_loud. destruct (o_end orc (w_tick w)) as [[]|e]; auto.
  destruct (is_exception e) eqn:X, (cf_silence_cond cf) eqn:S; [left; right; eauto|right; left; eauto..].
Qed.
Lemma must_end_eq w t : find_task (t_name t) w = Some t -> end_holds orc cf w \/ (t_term t = true /\ o_end orc (w_tick w) = Ok false) ->
  check_termination orc cf (t_name t) w = terminate_all_runs orc cf (t_name t) (bump w).
Proof.
  intros F H. rewrite (check_eq _ _ _ F). destruct H as [[-> | (e & -> & -> & ->)]|[-> ->]]; [now destruct (t_term t)|reflexivity|reflexivity].
Qed.
Lemma all_terminated w w' t evs : distinct_names w -> distinct_runs w -> In t (w_tasks w) ->
  end_holds orc cf w \/ (t_term t = true /\ o_end orc (w_tick w) = Ok false) ->
  check_termination orc cf (t_name t) w = (w', Returns tt) -> happened w w' evs ->
  (forall r, In r (t_stack t) -> stopped w' (rn_uid r) /\ In (EvTerminate (t_name t) (rn_uid r)) evs) /\
  exists t', In t' (w_tasks w') /\ t_name t' = t_name t /\ t_term t' = false.
Proof.
  intros N D Ht HE E H. pose proof (find_unique w (t_name t) t N Ht eq_refl) as F. rewrite (must_end_eq _ _ F HE) in E.
  destruct (all_stops (t_name t) (bump w) w' t D F E) as [A (t' & F' & T')]. split.
  - intros r Hr. destruct (A r Hr) as [P Q]. split; [exact P|]. eapply got_in; eassumption.
  - exists t'. apply find_some in F' as [F1 F2]. apply Z.eqb_eq in F2. auto.
Qed.
Lemma all_only w t evs m u : distinct_names w -> In t (w_tasks w) ->
  end_holds orc cf w \/ (t_term t = true /\ o_end orc (w_tick w) = Ok false) ->
  happened w (fst (check_termination orc cf (t_name t) w)) evs -> In (EvTerminate m u) evs ->
  m = t_name t /\ exists r, In r (t_stack t) /\ rn_uid r = u.
Proof.
  intros N Ht HE H Hin. pose proof (find_unique w (t_name t) t N Ht eq_refl) as F. rewrite (must_end_eq _ _ F HE) in H.
  pose proof (all_ends (fun m u => m = t_name t /\ exists r, In r (t_stack t) /\ rn_uid r = u) (t_name t) (bump w) t F) as K.
  eapply (ends_in _ m u _ _ _ (K _) H Hin). Unshelve. intros r Hr. split; [reflexivity|now exists r].
Qed.
Lemma loud_raises w t e : distinct_names w -> In t (w_tasks w) -> end_loud orc cf w e ->
  exists w', check_termination orc cf (t_name t) w = (w', Raises e) /\ happened w w' [] /\ w_tasks w' = w_tasks w.
Proof.
  intros N Ht [O L]. pose proof (find_unique w (t_name t) t N Ht eq_refl) as F. rewrite (check_eq _ _ _ F), O.
  replace (negb (cf_silence_cond cf) || negb (is_exception e)) with true by (destruct L as [-> | ->]; [now rewrite orb_true_r|reflexivity]).
  exists (bump w). repeat split.
Qed.

(** * In the words of the specification *)
Lemma timeout_spec t : tc_timeout (t_cfg t) <> Some 0 -> get_timeout cf t = timeout_of cf t.
Proof.
  unfold get_timeout, timeout_of. destruct (tc_timeout (t_cfg t)) as [d|]; [|reflexivity]. intros H.
  destruct (Z.eqb_spec d 0); [congruence|reflexivity].
Qed.
Lemma only_late_spec w t evs m u : distinct_names w -> distinct_runs w -> In t (w_tasks w) -> tc_timeout (t_cfg t) <> Some 0 ->
  ~ end_holds orc cf w -> t_term t = false ->
  happened w (fst (check_termination orc cf (t_name t) w)) evs -> In (EvTerminate m u) evs ->
  m = t_name t /\ tc_permanent (t_cfg t) = false /\
  exists r, In r (t_stack t) /\ rn_uid r = u /\ live r = true /\ late cf w t r.
Proof. intros N D Ht HZ. unfold late. rewrite <- (timeout_spec t HZ). now apply only_late. Qed.
Lemma late_terminated_spec w w' t evs r : distinct_names w -> distinct_runs w -> In t (w_tasks w) -> tc_timeout (t_cfg t) <> Some 0 ->
  ~ end_holds orc cf w -> t_term t = false -> tc_permanent (t_cfg t) = false ->
  check_termination orc cf (t_name t) w = (w', Returns tt) -> happened w w' evs ->
  In r (t_stack t) -> late cf w t r ->
  stopped w' (rn_uid r) /\ (In (EvTerminate (t_name t) (rn_uid r)) evs \/ ~ live_in w' (rn_uid r)).
Proof. intros N D Ht HZ. unfold late. rewrite <- (timeout_spec t HZ). now apply late_terminated. Qed.
End Termination.
