(** The theorems on cycles, requests, holding and startup in the words of the
    specification. *)
From Coq Require Import Bool Arith Lia ZifyBool Sorted Permutation.
From Verif Require Import Model.Base Model.History Model.World Model.Run Model.Scheduler.
From Verif Require Import Spec.SchedulerSpec Proofs.WorldProofs Proofs.LimitProofs Proofs.EventProofs.
From Verif Require Import Proofs.PriorityProofs Proofs.RequestProofs Proofs.StartProofs Proofs.HoldProofs.
Open Scope Z_scope.

(** * The order of considering *)
Lemma turns_consider cfg d ns tl : turns cfg d ns tl -> forall l1 b h l2, tl = l1 ++ EvConsider b h :: l2 ->
  exists ns1 ns2, ns = ns1 ++ b :: ns2 /\ forall a k, In (EvConsider a k) l1 -> In a ns1.
Proof.
  assert (T : forall n d ms l1 b h l2, turn_miles (cfg n) n d (rev ms) -> ms = l1 ++ EvConsider b h :: l2 -> b = n /\ l1 = []).
  { intros n d0 ms l1 b h l2 H E. assert (Eb : b = n).
    { apply (proj2 (turn_names _ _ _ _ H) b h). rewrite E. apply in_or_app. right. now left. }
    split; [exact Eb|]. unfold turn_miles in H.
    assert (G : ms = [] \/ exists k s, ms = EvConsider n k :: s /\ forall x j, ~ In (EvConsider x j) s).
    { destruct (cfg n) as [c|]; [destruct (ordinary c)|].
      - destruct H as [[_ H]|[H|(s & H & S)]]; apply (f_equal (@rev event)) in H; rewrite rev_involutive in H; auto.
        + right. exists true, []. split; [exact H|]. intros x j [].
        + right. exists false, (rev s). rewrite rev_app_distr in H. split; [exact H|].
          destruct S as [->|[(v & ->)|(v & p & ->)]]; cbn; intuition discriminate.
      - apply (f_equal (@rev event)) in H; rewrite rev_involutive in H; auto.
      - destruct H as [_ H]. apply (f_equal (@rev event)) in H; rewrite rev_involutive in H; auto. }
    destruct G as [->|(k & s & -> & N)]; [destruct l1; discriminate|]. destruct l1 as [|e l1]; [reflexivity|].
    cbn in E. injection E as _ E. destruct (N b h). rewrite E. apply in_or_app. right. now left. }
  induction 1 as [|n ns ms H|d n ns ms rest H H' IH]; intros l1 b h l2 E.
  - destruct l1; discriminate.
  - destruct (T _ _ _ _ _ _ _ H E) as [-> ->]. exists [], ns. split; [reflexivity|]. intros a k [].
  - apply app_eq_app in E as (l & [[E1 E2]|[E1 E2]]).
    + destruct l as [|e l].
      * cbn in E2. rewrite app_nil_r in E1. subst l1. destruct (IH [] b h l2 (eq_sym E2)) as (ns1 & ns2 & -> & _).
        exists (n :: ns1), ns2. split; [reflexivity|]. intros a k Ha. left. symmetry. now apply (proj2 (turn_names _ _ _ _ H)) in Ha.
      * cbn in E2. injection E2 as <- ->. destruct (T _ _ _ _ _ _ _ H E1) as [-> ->].
        exists [], ns. split; [reflexivity|]. intros a k [].
    + destruct (IH l b h l2 E2) as (ns1 & ns2 & -> & Ha). exists (n :: ns1), ns2. split; [reflexivity|]. subst l1.
      intros a k Hin. apply in_app_or in Hin as [Hin|Hin]; [left; symmetry; now apply (proj2 (turn_names _ _ _ _ H)) in Hin|right; eauto].
Qed.
Lemma consider_order orc cf fuel w evs ta tb ha hb : distinct_names w -> happened w (fst (run_cycle orc cf fuel w)) evs ->
  In ta (w_tasks w) -> In tb (w_tasks w) -> earlier evs (EvConsider (t_name ta) ha) (EvConsider (t_name tb) hb) ->
  priority tb <= priority ta.
Proof.
  intros U Hap Hta Htb (l1 & l2 & l3 & E). destruct (cycle_shape orc cf fuel w evs Hap) as (tl & d & F & T & _).
  rewrite E in F. rewrite filter_split in F by reflexivity. rewrite filter_split in F by reflexivity.
  rewrite app_comm_cons, app_assoc in F.
  assert (exists k1, tl = k1 ++ EvConsider (t_name tb) hb :: filter mile l3 /\ In (EvConsider (t_name ta) ha) k1) as (k1 & K1 & K2).
  { destruct (filter mile l1) as [|e k]; cbn in F; inversion F; subst. eexists. split; [reflexivity|].
    apply in_or_app. right. now left. }
  destruct T as [T|[_ T]]; [|rewrite T in K1; destruct k1; discriminate].
  destruct (turns_consider _ _ _ _ T _ _ _ _ K1) as (ns1 & ns2 & Ens & Ha). specialize (Ha _ _ K2).
  apply map_eq_app in Ens as (s1 & s2' & Eby & <- & Es2). apply map_eq_cons in Es2 as (tb' & s2 & -> & Eb & <-).
  destruct (by_priority_spec (w_tasks w)) as [P S]. rewrite Eby in P, S.
  apply in_map_iff in Ha as (ta' & Ea & Ia).
  assert (X : forall t t', In t (w_tasks w) -> In t' (s1 ++ tb' :: s2) -> t_name t' = t_name t -> t' = t).
  { intros t t' Ht Ht' En. rewrite <- P in Ht'. pose proof (find_unique w _ _ U Ht eq_refl). pose proof (find_unique w _ _ U Ht' En). congruence. }
  assert (ta' = ta) by (apply X; auto; apply in_or_app; now left).
  assert (tb' = tb) by (apply X; auto; apply in_or_app; right; now left). subst ta' tb'.
  exact (proj1 (sorted_split _ _ _ _ S) ta Ia).
Qed.

(** * In the words of the specification *)
Lemma mile_decision e : mile e = false -> ~ decision e.
Proof. destruct e; cbn; intros H K; congruence || exact K. Qed.
Lemma exec_spec cf t x : executes cf t x <-> get_execution cf t = x.
Proof. unfold executes, get_execution. destruct (tc_exec (t_cfg t)); split; congruence. Qed.
Lemma may_spec cf t : may_start cf t -> get_execution cf t = XMain \/ allow_multilaunch cf t = true \/ n_alive t = 0%nat.
Proof.
  intros [H|[H|H]].
  - left. now apply exec_spec.
  - right; left. unfold multilaunch in H. unfold allow_multilaunch. now destruct (tc_multi (t_cfg t)).
  - right; right. unfold n_alive. now rewrite <- live_spec, H.
Qed.
Lemma slot_spec cf w : free_slot cf w <-> total_processes (w_tasks w) < cf_max_process cf.
Proof.
  unfold free_slot. enough (E : Z.of_nat (length (live_process_runs (w_tasks w))) = total_processes (w_tasks w)) by now rewrite E.
  unfold live_process_runs. induction (w_tasks w) as [|t ts IH]; [reflexivity|]. cbn [map concat total_processes fold_right].
  rewrite filter_app, app_length, Nat2Z.inj_add, IH. unfold total_processes. f_equal. f_equal. unfold count_processes_taken. f_equal.
  clear. induction (t_stack t) as [|r l IH]; [reflexivity|]. cbn [filter]. rewrite IH.
  unfold live_process, live, run_alive, exec_eqb. now destruct (rn_phase r), (rn_kind r).
Qed.
Lemma start_after_consider orc cf fuel w evs l1 b u l2 : distinct_names w -> happened w (fst (run_cycle orc cf fuel w)) evs ->
  evs = l1 ++ EvStart b u :: l2 ->
  exists l0 l, l1 = l0 ++ EvConsider b false :: l /\ (forall e, In e l -> ~ decision e).
Proof.
  intros U H E. destruct (start_considered orc cf fuel w evs U H _ _ _ _ E) as (l0 & l & -> & N). exists l0, l. split; [reflexivity|].
  intros e He. now apply mile_decision, N.
Qed.
Lemma disabled_idle orc cf fuel w evs t : distinct_names w -> (forall p, never orc (MRequest (t_name t) p)) -> never orc (MDisable (t_name t) false) ->
  In t (w_tasks w) -> t_disabled t = true -> ~ requested t -> happened w (fst (serve orc cf fuel w)) evs ->
  forall u, ~ In (EvStart (t_name t) u) evs.
Proof.
  intros U Nr Nd Hin D R Hev. assert (F := find_unique w _ _ U Hin eq_refl).
  assert (HA : forall k m, In m (o_env orc k) -> leaves_idle (t_name t) m).
  { intros k m Hm. destruct m as [| k' p | |k' [|]| | | | | | | | |]; cbn; auto; intros ->; [now apply (Nr p k)|now apply (Nd k)]. }
  destruct (idle_serve orc cf (t_name t) HA fuel w) as (evs' & H' & K). rewrite (happened_unique _ _ _ _ Hev H').
  destruct (K t F) as (t' & _ & I'). apply I'. split; [exact D|]. unfold requested in R. destruct (t_batches t); [reflexivity|].
  destruct R. discriminate.
Qed.
Lemma fifo orc cf fuel w evs t : distinct_names w -> In t (w_tasks w) -> happened w (fst (serve orc cf fuel w)) evs ->
  exists t', In t' (w_tasks (fst (serve orc cf fuel w))) /\ t_name t' = t_name t /\
    t_batches t ++ requests (t_name t) evs = takes (t_name t) evs ++ t_batches t'.
Proof.
  intros U Hin Hev. destruct (fifo_serve orc cf fuel _ w evs t (find_unique w _ _ U Hin eq_refl) Hev) as (t' & F & E). exists t'.
  split; [now apply find_some in F as [F _]|]. split; [exact (find_name _ _ _ F)|exact E].
Qed.
Lemma take_starts orc cf fuel w evs l1 n p l2 : happened w (fst (serve orc cf fuel w)) evs -> evs = l1 ++ EvTake n p :: l2 ->
  exists l0 u l, l1 = l0 ++ EvStart n u :: l /\ forall e, In e l -> ~ decision e.
Proof.
  intros Hev E. destruct (take_after_start orc cf fuel w evs l1 n p l2 Hev E) as (l0 & u & l & -> & N). exists l0, u, l.
  split; [reflexivity|]. intros e He. now apply mile_decision, N.
Qed.
Lemma no_hold_never orc b : never orc (MHold b) -> forall k m, In m (o_env orc k) -> no_hold b m.
Proof. intros N k m Hm ->. now apply (N k). Qed.
Lemma requested_starts orc cf fuel w w' evs t : distinct_names w -> w_enabled w = true -> never orc (MHold true) ->
  In t (w_tasks w) -> cyclic_task t -> requested t -> may_start cf t -> ~ executes cf t XProcess ->
  run_cycle orc cf fuel w = (w', Returns tt) -> happened w w' evs -> exists u, In (EvStart (t_name t) u) evs.
Proof.
  intros U En Nh Hin Cy R Ms Np H Hev.
  apply (cycle_starts orc cf (t_name t) (no_hold_never _ _ Nh) fuel w w' t evs); auto.
  - split; [exact R|now apply may_spec].
  - intros X. now apply Np, exec_spec.
Qed.
Lemma requested_process_starts orc cf fuel w w' evs t : distinct_names w -> w_enabled w = true -> never orc (MHold true) ->
  In t (w_tasks w) -> cyclic_task t -> requested t -> may_start cf t -> free_slot cf w ->
  cycle_task orc cf fuel (t_name t) w = (w', Returns tt) -> happened w w' evs -> exists u, In (EvStart (t_name t) u) evs.
Proof.
  intros U En Nh Hin Cy R Ms Fs H Hev.
  destruct (cycle_task_starts orc cf (t_name t) (no_hold_never _ _ Nh) fuel w w' t (find_unique w _ _ U Hin eq_refl) Cy) as (u & e & He & Ie); auto.
  - split; [exact R|now apply may_spec].
  - intros _. split; [now apply slot_spec|exact U].
  - exists u. now rewrite (happened_unique _ _ _ _ Hev He).
Qed.
Lemma held_no_start orc cf fuel w evs : w_enabled w = false -> never orc (MHold false) ->
  happened w (fst (main_loop orc cf fuel w)) evs -> forall n u, ~ In (EvStart n u) evs.
Proof. intros Hw N. apply hold_no_start; [now apply no_hold_never|exact Hw]. Qed.
Lemma released_considers orc cf fuel w evs t : distinct_names w -> w_enabled w = true -> never orc (MHold true) ->
  snd (run_cycle orc cf fuel w) = Returns tt -> happened w (fst (run_cycle orc cf fuel w)) evs ->
  In t (w_tasks w) -> cyclic_task t -> considered (t_name t) evs = [EvConsider (t_name t) false].
Proof. intros U Hw N. apply release_considers; auto. now apply no_hold_never. Qed.
Lemma startup_runs orc cf fuel w w' evs t : distinct_names w -> never orc (MDisable (t_name t) true) ->
  In t (w_tasks w) -> tc_startup (t_cfg t) = true -> no_condition t -> t_disabled t = false -> may_start cf t -> ~ executes cf t XProcess ->
  startup orc cf fuel w = (w', Returns tt) -> happened w w' evs -> exists u, In (EvStart (t_name t) u) evs.
Proof.
  intros U N Hin Su Nc D Ms Np H Hev.
  assert (HA : forall k m, In m (o_env orc k) -> no_disable (t_name t) m) by (intros k m Hm ->; now apply (N k)).
  apply (startup_starts orc cf (t_name t) HA fuel w w' t evs); auto.
  split; [exact Nc|]. split; [|now apply may_spec]. intros X. now apply Np, exec_spec.
Qed.
Lemma shutdown_runs orc cf fuel w w' evs t : distinct_names w -> never orc (MDisable (t_name t) true) ->
  In t (w_tasks w) -> tc_shutdown (t_cfg t) = true -> no_condition t -> t_disabled t = false -> may_start cf t -> ~ executes cf t XProcess ->
  run_shutdown_tasks orc cf fuel w = (w', Returns tt) -> happened w w' evs -> exists u, In (EvStart (t_name t) u) evs.
Proof.
  intros U N Hin Su Nc D Ms Np H Hev.
  assert (HA : forall k m, In m (o_env orc k) -> no_disable (t_name t) m) by (intros k m Hm ->; now apply (N k)).
  apply (shutdown_starts orc cf (t_name t) HA fuel w w' t evs); auto.
  split; [exact Nc|]. split; [|now apply may_spec]. intros X. now apply Np, exec_spec.
Qed.
