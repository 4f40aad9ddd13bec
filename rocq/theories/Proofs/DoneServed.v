(** Served sessions in which a coroutine or thread has a history condition (C75). *)
From Coq Require Import Bool Arith Lia ZifyBool.
From Verif Require Import Model.Base Model.Interval Model.Calendar Model.Anchored Model.Period Model.Condition Model.History Spec.ConditionSpec Spec.HistorySpec Spec.SchedulerSpec Model.World Model.Run Model.Scheduler.
From Verif Require Import Proofs.BookkeepingProofs.
From Verif Require Import Spec.OnceSpec Spec.DoneSpec Proofs.ConditionProofs Proofs.HistoryProofs Proofs.HistoryRunProofs Proofs.DependProofs Proofs.WindowProofs Proofs.SchedulerExamples Proofs.OnceServed Proofs.OnceExamples Proofs.DoneProofs.
Open Scope Z_scope.

(** Looking for records of a kind in a span that ends now *)
Lemma looked_back me force a st l fuel p d : noted me st l d ->
  status_observe force [(OpEq, BInt 0)] st l me (WOne a) fuel p d = Returns true ->
  exists s e, get_period_span fuel (Some p) d = Returns (s, e) /\
    (e = d -> forall x, In x l -> about me [a] x -> r_created x < s).
Proof.
  intros N H. unfold status_observe in H. destruct (get_period_span fuel (Some p) d) as [[s e]|x|]; [|discriminate|discriminate].
  exists s, e. split; [reflexivity|]. intros -> x Hx [Rx [Ra|[]]]. destruct (N x Hx Rx) as (c & Ec & B). cbn [obind fst snd] in H. injection H as H.
  unfold get_measurement in H. destruct force.
  - destruct (Z.lt_ge_cases (r_created x) s) as [|G]; [assumption|exfalso].
    assert (I : In (r_created x) (map r_created (filter_by l me (fun r => (s <=? r_created r) && (r_created r <=? d) && action_in (watched_list (WOne a)) r)))).
    { apply in_map. unfold filter_by. apply filter_In. split; [exact Hx|]. unfold action_in. cbn [watched_list existsb].
      rewrite <- Ra, action_eqb_refl. lia. }
    unfold measure_log in H. destruct (map r_created _) as [|y ys] eqn:E; [destruct I|]. cbn in H. discriminate H.
  - rewrite Ra, Ec in H. cbn [occurred_single cannot_single] in H. destruct (c <? s) eqn:E1; [lia|].
    destruct ((s <=? c) && (c <=? d)) eqn:E2; [|lia]. vm_compute in H. discriminate H.
Qed.
(** Counting failures in a span *)
Lemma counted me force st l fuel p d n :
  status_observe force [(OpLe, BInt n)] st l me w_failed fuel p d = Returns true ->
  exists s e, get_period_span fuel (Some p) d = Returns (s, e) /\ times l me [AFail] s e <= n.
Proof.
  intros H. unfold status_observe in H. destruct (get_period_span fuel (Some p) d) as [[s e]|x|]; [|discriminate|discriminate].
  exists s, e. split; [reflexivity|]. cbn [obind fst snd] in H. injection H as H.
  destruct force; [cbn [get_measurement] in H|rewrite measurement_cases in H; cbv zeta in H].
  - rewrite observe_log in H. cbn in H. rewrite andb_true_r in H. lia.
  - unfold is_equal_zero, is_any_over_zero in H. cbn [only comps_get op_eqb forallb absent existsb bound_is orb andb] in H.
    rewrite observe_log in H. cbn in H. rewrite andb_true_r in H. lia.
Qed.
Lemma times_foreign me acts s e l : (forall x, In x l -> r_task x <> me) -> times l me acts s e = 0.
Proof.
  induction l as [|x l IH]; intros H; [reflexivity|]. cbn [times]. rewrite IH by (intros y Hy; apply H; now right).
  pose proof (H x (or_introl eq_refl)). destruct (r_task x =? me) eqn:E; [lia|reflexivity].
Qed.
Lemma times_within me acts s e s' e' l : (forall x, In x l -> r_task x = me -> s <= r_created x <= e -> s' <= r_created x <= e') ->
  times l me acts s e <= times l me acts s' e'.
Proof.
  induction l as [|x l IH]; intros H; [cbn; lia|]. cbn [times]. specialize (IH (fun y Hy => H y (or_intror Hy))). pose proof (H x (or_introl eq_refl)) as Hx.
  destruct (r_task x =? me) eqn:T; [|cbn [andb]; lia]. assert (T' : r_task x = me) by lia. destruct (existsb (action_eqb (r_action x)) acts); [|cbn [andb]; lia].
  destruct (Z.leb_spec s (r_created x)) as [B1|B1]; [|cbn [andb]; destruct (_ && _); lia]. destruct (Z.leb_spec (r_created x) e) as [B2|B2]; [|cbn [andb]; destruct (_ && _); lia].
  specialize (Hx T' (conj B1 B2)). destruct Hx as [X1 X2]. apply Z.leb_le in X1, X2. rewrite X1, X2. cbn [andb]. lia.
Qed.
Lemma times_zero me acts s e l : (forall x, In x l -> r_task x = me -> r_created x < s) -> times l me acts s e = 0.
Proof.
  induction l as [|x l IH]; intros H; [reflexivity|]. cbn [times]. rewrite IH by (intros y Hy; apply H; now right).
  pose proof (H x (or_introl eq_refl)) as Hx. destruct (r_task x =? me) eqn:T; [|reflexivity]. specialize (Hx ltac:(lia)).
  destruct (s <=? r_created x) eqn:B; [lia|]. now rewrite andb_false_r.
Qed.

(** The task's own records, as [retry_state] sees them *)
Definition own (me : Z) (l : log) : log := filter (fun r => r_task r =? me) l.
Lemma own_filter me l f : filter_by (own me l) me f = filter_by l me f.
Proof.
  unfold filter_by, own. induction l as [|x l IH]; [reflexivity|]. cbn [filter]. destruct (r_task x =? me) eqn:E; cbn [filter andb]; [|exact IH].
  rewrite E. cbn [andb]. now rewrite IH.
Qed.
Lemma own_retry n force st l me : retry_state n force st (own me l) me = retry_state n force st l me.
Proof. unfold retry_state, get_status, get_latest, get_latest_any. now rewrite !own_filter. Qed.
Lemma own_fails me l : forall k, fold_left (fail_step me) (own me l) k = fold_left (fail_step me) l k.
Proof.
  unfold own. induction l as [|x l IH]; intros k; [reflexivity|]. cbn [filter fold_left]. destruct (r_task x =? me) eqn:E; cbn [fold_left]; [apply IH|].
  rewrite IH. f_equal. unfold fail_step. now rewrite E.
Qed.
Lemma foreign_fails me l : (forall x, In x l -> r_task x <> me) -> forall k, fold_left (fail_step me) l k = k.
Proof.
  induction l as [|x l IH]; intros H k; [reflexivity|]. cbn [fold_left]. rewrite IH by (intros y Hy; apply H; now right).
  pose proof (H x (or_introl eq_refl)). unfold fail_step. destruct (r_task x =? me) eqn:E; [lia|reflexivity].
Qed.
Lemma filter_middle {A} (f : A -> bool) l : forall l1 a l2, filter f l = l1 ++ a :: l2 ->
  exists k1 k2, l = k1 ++ a :: k2 /\ filter f k2 = l2 /\ f a = true.
Proof.
  induction l as [|x l IH]; intros l1 a l2 E; cbn [filter] in E; [destruct l1; discriminate E|]. destruct (f x) eqn:Fx.
  - destruct l1 as [|y l1]; cbn [app] in E.
    + injection E as -> <-. exists [], l. auto.
    + injection E as _ E. destruct (IH _ _ _ E) as (k1 & k2 & -> & E2 & Fa). exists (x :: k1), k2. auto.
  - destruct (IH _ _ _ E) as (k1 & k2 & -> & E2 & Fa). exists (x :: k1), k2. auto.
Qed.
Lemma own_chronological me l : own_in_order me l -> chronological (own me l).
Proof.
  intros O l1 a l2 b l3 E. unfold own in E. apply filter_middle in E as (k1 & k & -> & E & Ea). apply filter_middle in E as (k2 & k3 & -> & _ & Eb).
  apply (O k1 a k2 b k3 eq_refl); lia.
Qed.
Lemma retried n force st l me : 0 < n -> own_in_order me l -> after_epoch l me -> retry_state n force st l me = true -> failures_in_a_row l me <= n.
Proof.
  intros Hn O A H. rewrite <- own_retry in H. unfold failures_in_a_row. rewrite <- own_fails.
  refine (proj2 (retry_sound n force st (own me l) me Hn (own_chronological _ _ O) _ H)). intros x Hx. apply filter_In in Hx as [Hx _]. now apply A.
Qed.

(** By the log, a retry is of a failure *)
Lemma fails_nonneg me l : forall k, 0 <= k -> 0 <= fold_left (fail_step me) l k.
Proof.
  induction l as [|x l IH]; intros k H; [exact H|]. cbn [fold_left]. apply IH. unfold fail_step. destruct (_ =? _); [|exact H]. destruct (r_action x); lia.
Qed.
Lemma retried_failure n st l me : retry_state n true st l me = true -> 0 < failures_in_a_row l me.
Proof.
  unfold retry_state. destruct (n =? 0); [discriminate|]. unfold get_status. destruct (get_latest_any l me) as [r|] eqn:E; [|discriminate].
  cbn [option_map]. intros H. assert (A : r_action r = AFail) by (destruct (r_action r); try discriminate H; reflexivity).
  apply latest_any_spec in E. destruct E as (l1 & l2 & -> & Er & No). unfold failures_in_a_row. rewrite fold_left_app. cbn [fold_left].
  rewrite (foreign_fails me l2 No). pose proof (fails_nonneg me l1 0 ltac:(lia)). unfold fail_step at 1. rewrite A. replace (r_task r =? me) with true by lia. lia.
Qed.

Section Served.
Context (orc : oracle) (cf : config) (me : Z) (time : nat -> Z) (fuel : nat) (w : world)
  (TG : time_goes_on orc time) (CK : w_clock w <= time (w_tick w)) (BC : by_condition orc me w) (OA : one_at_a_time_here cf me w) (CH : complete_history me w).

Lemma executed_served force retries n p s e : requires orc me (gate_executable me force retries n p) -> window p s e ->
  every_new_run me (w_log w) (w_log (fst (serve orc cf fuel w)))
    (fun old r => s <= r_created r < e ->
       (forall x, In x old -> about me [ASuccess; AInaction; ATerminate] x -> r_created x < s) /\
       times old me [AFail] s (r_created r) <= match retries with None => 0 | Some n => n end).
Proof using All.
  intros RQ WI. eapply new_run_more; [|exact (served_justified orc cf me _ time fuel w TG CK BC OA CH RQ)].
  intros pre r (d & (st & seen & un & -> & U & N & _ & G) & D) _ Hr.
  unfold gate_executable in G. apply holds_true in G. unfold executable in G. cbv zeta in G. rewrite !oand_true in G. destruct G as (_ & Gi & Gs & Gf & Gt).
  cbn [fst snd] in *.
  assert (IN : forall x, In x (seen ++ un) -> r_task x = me -> In x seen).
  { intros x Hx Ex. apply in_app_or in Hx as [Hx|Hx]; [exact Hx|]. now destruct (U x Hx). }
  assert (LE : forall x, In x seen -> r_task x = me -> r_created x <= d).
  { intros x Hx Ex. destruct (N x Hx Ex) as (c & _ & B). lia. }
  assert (LB : forall a, status_observe force [(OpEq, BInt 0)] st seen me (WOne a) n p d = Returns true ->
     forall x, In x seen -> about me [a] x -> r_created x < s).
  { intros a Ha x Hx Rx. destruct (looked_back _ _ _ _ _ _ _ _ N Ha) as (s' & e' & Es & L). destruct (Z.lt_ge_cases d s) as [B|B].
    - pose proof (LE x Hx (proj1 Rx)). lia.
    - destruct (WI n d s' e' ltac:(lia) Es) as [W1 W2]. specialize (L W2 x Hx Rx). lia. }
  split.
  - intros x Hx [Ex Ax]. specialize (IN x Hx Ex). destruct Ax as [Ax|[Ax|[Ax|[]]]].
    + apply (LB ASuccess Gs x IN). split; [exact Ex|now left].
    + apply (LB AInaction Gi x IN). split; [exact Ex|now left].
    + apply (LB ATerminate Gt x IN). split; [exact Ex|now left].
  - rewrite times_app, (times_foreign me _ _ _ un U). destruct (counted _ _ _ _ _ _ _ _ Gf) as (s' & e' & Es & L).
    destruct (Z.lt_ge_cases d s) as [B|B].
    + rewrite (times_zero me _ s _ seen). { pose proof (times_nonneg seen me [AFail] s' e'). lia. } intros x Hx Ex. pose proof (LE x Hx Ex). lia.
    + destruct (WI n d s' e' ltac:(lia) Es) as [W1 ->].
      pose proof (times_within me [AFail] s (r_created r) s' d seen ltac:(intros x Hx Ex Bx; pose proof (LE x Hx Ex); lia)). lia.
Qed.
Lemma every_based_served force a n past : requires orc me (gate_every me force (WOne a) n past) ->
  every_new_run me (w_log w) (w_log (fst (serve orc cf fuel w)))
    (fun old r => forall x, In x old -> about me [a] x -> r_created x + Z.abs past < r_created r).
Proof using All.
  intros RQ. eapply new_run_more; [|exact (served_justified orc cf me _ time fuel w TG CK BC OA CH RQ)].
  intros pre r (d & (st & seen & un & -> & U & N & _ & G) & D) _ x Hx Rx.
  assert (Hs : In x seen) by (apply in_app_or in Hx as [Hx|Hx]; [exact Hx|now destruct (U x Hx (proj1 Rx))]).
  apply holds_true in G. unfold every_based in G. cbn [fst snd] in G. destruct (looked_back _ _ _ _ _ _ _ _ N G) as (s' & e' & Es & L).
  rewrite span_delta in Es. injection Es as <- <-. specialize (L eq_refl x Hs Rx). lia.
Qed.
Lemma retried_served force k p s e n : 0 < n -> after_epoch (w_log (fst (serve orc cf fuel w))) me ->
  requires orc me (gate_or_retry (gate_runnable me force k p) me force n) -> window p s e ->
  every_new_run me (w_log w) (w_log (fst (serve orc cf fuel w)))
    (fun old r => s <= r_created r < e -> (forall x, In x old -> run_record me x -> r_created x < s) \/
      failures_in_a_row old me <= n /\ (force = true -> 0 < failures_in_a_row old me)).
Proof using All.
  intros Hn AE RQ WI. destruct (served_justified orc cf me _ time fuel w TG CK BC OA CH RQ) as (new & E & J). exists new. split; [exact E|].
  intros pre r post En Rr Hr. destruct (J pre r post En Rr) as (d & (st & seen & un & Es & U & N & O & G) & D). rewrite Es.
  unfold gate_or_retry in G. apply orb_prop in G as [G|G].
  - left. intros x Hx [Ex Ax]. assert (Hs : In x seen) by (apply in_app_or in Hx as [Hx|Hx]; [exact Hx|now destruct (U x Hx Ex)]).
    unfold gate_runnable in G. apply holds_true in G. unfold runnable in G. rewrite oand_true in G. destruct G as [_ G]. cbn [fst snd] in G.
    destruct (N x Hs Ex) as (c & _ & B). destruct (looked_back _ _ _ _ _ _ _ _ N G) as (s' & e' & Ep & L). destruct (Z.lt_ge_cases d s) as [Q|Q]; [lia|].
    destruct (WI k d s' e' ltac:(lia) Ep) as [W1 W2]. specialize (L W2 x Hs (conj Ex (or_introl (eq_sym Ax)))). lia.
  - right. cbn [fst snd] in G. unfold failures_in_a_row. rewrite fold_left_app, (foreign_fails me un U).
    split; [|intros ->; exact (retried_failure n st seen me G)]. apply (retried n force st seen me Hn O); [|exact G].
    intros x Hx Ex. apply AE; [|exact Ex]. rewrite E, En, app_assoc, Es. apply in_or_app. left. apply in_or_app. now left.
Qed.
End Served.

(** * Examples: a coroutine and a thread over four days; the first run of each fails *)
Definition ex_fails : script := Script None (Some ValueError) 0 None None None None None.
Definition ex_code (u : nat) : script := if Nat.leb u 1 then ex_fails else good_script.
Definition ex_leave (us : list nat) : list move := flat_map (fun u => [MEnter u (ex_code u); MLeave u (ex_code u); MThread u (ex_code u)]) us.
Definition ex_gone (step : Z) (k : nat) : list move := MClock (ex_time step k) :: ex_leave (seq 0 k).
Definition ex_here (gate : Z -> HistorySpec.world -> Z -> bool) : oracle := ex_conditioned gate (ex_gone ex_twenty) good_script.
Definition ex_both : world := ex_new 8 [ex_task (ex_cfg 1 XAsync 0); ex_task (ex_cfg 2 XThread 0)].
Definition ex_gate_retry (n : Z) : HistorySpec.world -> Z -> bool := gate_executable n false (Some 1) 5 ex_day.
Definition ex_gate_succeeded (n : Z) : HistorySpec.world -> Z -> bool := gate_every n true w_succeeded 5 (20 * us_hour).
Definition ex_story (me : Z) (w : world) : list (action * Z) :=
  map (fun r => (r_action r, (r_created r - 1000 * us_day) / us_hour)) (filter (fun r => r_task r =? me) (w_log w)).
Lemma ex_both_served gate me : me = 1 \/ me = 2 ->
  time_goes_on (ex_here gate) (ex_time ex_twenty) /\ w_clock ex_both <= ex_time ex_twenty (w_tick ex_both) /\
  by_condition (ex_here gate) me ex_both /\ one_at_a_time_here ex_patient me ex_both /\ complete_history me ex_both /\
  requires (ex_here gate) me (gate me).
Proof.
  intros M. split; [|split; [vm_compute; discriminate|split; [|split; [|split; [|apply ex_requires]]]]].
  - split; [intros j k; now apply ex_time_mono|]. intros k t [H|H]; [now injection H|]. unfold ex_leave in H. rewrite in_flat_map in H.
    destruct H as (u & _ & H). cbn in H. intuition discriminate.
  - constructor.
    + destruct M as [-> | ->]; eexists; reflexivity.
    + intros k p [E|E]; [discriminate E|]. unfold ex_leave in E. rewrite in_flat_map in E. destruct E as (u & _ & H). cbn in H. intuition discriminate.
    + intros t [<- |[<- |[]]]; reflexivity.
    + intros t [<- |[<- |[]]]; reflexivity.
  - intros t [<- |[<- |[]]] _; (split; [cbn; auto|cbn; discriminate]).
  - constructor.
    + intros [|] ? ? ? ? E; discriminate E.
    + intros r [].
    + intros t r _ _ [].
    + intros t a c [<- |[<- |[]]] _ E; discriminate E.
    + cbn. constructor; [intros [E|[]]; discriminate E|]. constructor; [intros []|constructor].
    + intros q [].
    + intros n r [].
    + intros t r [<- |[<- |[]]] _ [].
Qed.

(** * A coroutine and a thread whose first two runs fail, after 1970 *)
Definition ex_code_twice (u : nat) : script := if Nat.leb u 3 then ex_fails else good_script.
Definition ex_modern (k : nat) : Z := 25567 * 29 * us_day + ex_time ex_twenty k.
Definition ex_gone_twice (k : nat) : list move :=
  MClock (ex_modern k) :: flat_map (fun u => [MEnter u (ex_code_twice u); MLeave u (ex_code_twice u); MThread u (ex_code_twice u)]) (seq 0 k).
Definition ex_gate_again (n : Z) : HistorySpec.world -> Z -> bool := gate_or_retry (gate_runnable n true 5 ex_day) n true 1.
Definition ex_twice : oracle := ex_conditioned ex_gate_again ex_gone_twice good_script.
Lemma ex_twice_served me : me = 1 \/ me = 2 ->
  time_goes_on ex_twice ex_modern /\ w_clock ex_both <= ex_modern (w_tick ex_both) /\
  by_condition ex_twice me ex_both /\ one_at_a_time_here ex_patient me ex_both /\ complete_history me ex_both /\
  requires ex_twice me (ex_gate_again me).
Proof.
  intros M. destruct (ex_both_served ex_gate_again me M) as (_ & _ & BC & OA & CH & _).
  assert (L : forall k m, In m (o_env ex_twice k) -> m = MClock (ex_modern k) \/ exists u s, m = MEnter u s \/ m = MLeave u s \/ m = MThread u s).
  { intros k m [<-|H]; [now left|]. right. apply in_flat_map in H as (u & _ & H). cbn in H. exists u, (ex_code_twice u). intuition auto. }
  split; [|split; [vm_compute; discriminate|split; [|split; [exact OA|split; [exact CH|apply ex_requires]]]]].
  - split; [intros j k Le; pose proof (ex_time_mono ex_twenty j k ltac:(discriminate) Le); unfold ex_modern; lia|].
    intros k t H. destruct (L k _ H) as [E|(u & s & [E|[E|E]])]; try discriminate E. injection E as E. exact E.
  - destruct BC as [B1 B2 B3 B4]. constructor; [exact B1| |exact B3|exact B4].
    intros k p H. destruct (L k _ H) as [E|(u & s & [E|[E|E]])]; discriminate E.
Qed.
Definition ex_story_modern (me : Z) (w : world) : list (action * Z) :=
  map (fun r => (r_action r, (r_created r - (25567 * 29 + 1000) * us_day) / us_hour)) (filter (fun r => r_task r =? me) (w_log w)).
Definition ex_all_modern (w : world) : bool := forallb (fun r => unix_epoch <=? r_created r) (w_log w).
Lemma ex_modern_epoch me w : ex_all_modern w = true -> after_epoch (w_log w) me.
Proof. intros H r I _. unfold ex_all_modern in H. rewrite forallb_forall in H. specialize (H r I). lia. Qed.
