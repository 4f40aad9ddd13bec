(** Tasks with history conditions that are due in a cycle are run (C76). *)
From Coq Require Import Bool Arith Lia ZifyBool.
From Verif Require Import Model.Base Model.Interval Model.Calendar Model.Anchored Model.Period Model.Condition Model.History.
From Verif Require Import Spec.PeriodSpec Spec.HistorySpec Spec.SchedulerSpec Model.World Model.Run Model.Scheduler.
From Verif Require Import Spec.OnceSpec Spec.LiveSpec Proofs.HistoryProofs Proofs.HistoryRunProofs Proofs.WindowProofs Proofs.DependProofs Proofs.LimitProofs Proofs.LiveTurn.
From Verif Require Import Proofs.SchedulerExamples Proofs.OnceServed Proofs.OnceExamples Proofs.DoneServed.
Open Scope Z_scope.

(** Looking for records in a span finds some *)
Lemma looked_found me force a t w fuel p d s : cache_recorded me w -> find_task me w = Some t -> get_period_span fuel (Some p) d = Returns (s, d) ->
  status_observe force [(OpEq, BInt 0)] (t_state t) (w_log w) me (WOne a) fuel p d = Returns true \/
  status_observe force [(OpEq, BInt 0)] (t_state t) (w_log w) me (WOne a) fuel p d = Returns false /\
  exists x, In x (w_log w) /\ about me [a] x /\ s <= r_created x <= d.
Proof.
  intros CR F Es. unfold status_observe. rewrite Es. cbn [obind fst snd].
  destruct (comparable_observe _ _) eqn:O; [now left|right]. split; [reflexivity|].
  assert (L : comparable_observe [(OpEq, BInt 0)] (measure_log (w_log w) me (WOne a) s d) = false -> exists x, In x (w_log w) /\ about me [a] x /\ s <= r_created x <= d).
  { intros H. rewrite observe_log in H. cbn [watched_list] in H.
    destruct (Z.eq_dec (times (w_log w) me [a] s d) 0) as [E|E]; [rewrite E in H; discriminate H|].
    assert (N : ~ ~ did (w_log w) me [a] s d) by (intros N; now apply times_zero_iff in N).
    assert (X : did (w_log w) me [a] s d \/ ~ did (w_log w) me [a] s d).
    { clear. unfold did. induction (w_log w) as [|r l IH]; [right; intros (x & [] & _)|].
      destruct IH as [(x & I & P)|IH]; [left; exists x; split; [now right|exact P]|].
      assert (D : (about me [a] r /\ s <= r_created r <= d) \/ ~ (about me [a] r /\ s <= r_created r <= d)).
      { unfold about. destruct (Z.eq_dec (r_task r) me) as [E1|E1]; [|right; tauto].
        destruct (Z_le_dec s (r_created r)) as [E2|E2]; [|right; tauto]. destruct (Z_le_dec (r_created r) d) as [E3|E3]; [|right; tauto].
        destruct (action_eqb a (r_action r)) eqn:E4.
        - left. split; [split; [exact E1|left; now destruct a, (r_action r)]|now split].
        - right. intros [[_ [E5|[]]] _]. rewrite E5 in E4. now destruct (r_action r). }
      destruct D as [D|D]; [left; exists r; split; [now left|exact D]|]. right. intros (x & [<-|I] & P); [now apply D|]. apply IH. now exists x. }
    destruct X as [(x & I & A & B)|X]; [now exists x|now destruct N]. }
  unfold get_measurement in O. destruct force; [now apply L|].
  destruct (is_equal_zero [(OpEq, BInt 0)] && cannot_single (ts_last (t_state t) a) s) eqn:B1; [discriminate O|].
  destruct (is_equal_zero [(OpEq, BInt 0)] && occurred_single (ts_last (t_state t) a) s d) eqn:B2.
  - unfold occurred_single in B2. destruct (ts_last (t_state t) a) as [c|] eqn:Ec; [|rewrite andb_false_r in B2; discriminate].
    apply find_some in F as [I N]. destruct (CR t a c I ltac:(lia) Ec) as (x & Ix & Ax & Cx). exists x. split; [exact Ix|]. split; [exact Ax|].
    change (is_equal_zero [(OpEq, BInt 0)]) with true in B2. cbn [andb] in B2. lia.
  - change (is_any_over_zero [(OpEq, BInt 0)]) with false in O. now apply L.
Qed.

Section Served.
Context (orc : oracle) (cf : config) (me : Z) (time : nat -> Z) (fuel : nat) (w w1 w2 : world)
  (FS : fair_session orc me time w) (HM : always_made orc) (SC : session_cycle orc cf fuel w w1 w2) (RD : ready cf me w1) (SL : slot_when_considered cf me w1 w2).
Let w' := fst (serve orc cf fuel w).

Lemma turn_taken gate : follows orc me gate -> ext me w2 w' /\ exists v t, between w1 v w2 /\ cache_recorded me v /\ find_task me v = Some t /\
  (gate (t_state t, w_log v) (w_clock v) = false \/ run_in_cycle me w1 w2 w').
Proof using FS HM SC RD SL.
  intros FO. destruct FS as [TG CK HW ND NH U CR].
  destruct (session_turn orc cf me time TG HW ND NH HM gate FO fuel w w1 w2 U CK CR SC RD) as [_ [(X & bf & af & H & L)|(v & t & X1 & [_ Gv] & F & X2 & R)]];
    [specialize (SL X bf af H); lia|].
  pose proof (session_rest orc cf me time TG HW ND NH fuel w w1 w2 CK CR SC) as X3. fold w' in X3.
  split; [exact X3|]. exists v, t. split.
  { split; [exact (e_log _ _ _ X1)|]. split; [exact (e_log _ _ _ X2)|]. pose proof (e_clock _ _ _ X1). pose proof (e_clock _ _ _ X2). lia. }
  split; [exact Gv|]. split; [exact F|]. destruct R as [R|R]; [now left|right].
  destruct R as (r & S & Rr & B). exists r. split; [exact (since_more me _ _ _ _ X1 (since_on me _ _ _ _ S X3))|]. split; [exact Rr|].
  pose proof (e_clock _ _ _ X1). lia.
Qed.
Lemma log_known v x : between w1 v w2 -> In x (w_log v) -> ext me w2 w' -> In x (w_log w2) /\ In x (w_log w').
Proof using Type.
  intros (_ & (y & E) & _) I X. assert (I2 : In x (w_log w2)) by (rewrite E; apply in_or_app; now left). split; [exact I2|].
  destruct (e_log _ _ _ X) as (z & E'). rewrite E'. apply in_or_app. now left.
Qed.
Lemma run_known : run_in_cycle me w1 w2 w' -> exists r, In r (w_log w') /\ run_record me r /\ w_clock w1 <= r_created r <= w_clock w2.
Proof using Type. intros (r & (new & E & I) & R & B). exists r. split; [rewrite E; apply in_or_app; now right|]. now split. Qed.

Lemma due_run gate : follows orc me gate -> due_during me gate w1 w2 -> run_in_cycle me w1 w2 w'.
Proof using FS HM SC RD SL.
  intros FO D. destruct (turn_taken gate FO) as (_ & v & t & B & _ & F & [G|R]); [|exact R]. rewrite (D v t B F) in G. discriminate G.
Qed.
Lemma once_run force n p s e : follows orc me (gate_runnable me force n p) -> occurrence p s e -> s < w_clock w1 -> w_clock w2 < e ->
  exists r, In r (w_log w') /\ run_record me r /\ s <= r_created r < e.
Proof using FS HM SC RD SL.
  intros FO OC S1 S2. destruct (turn_taken _ FO) as (X & v & t & B & CR & F & [G|R]).
  - pose proof B as (_ & _ & B'). destruct (OC n (w_clock v) ltac:(lia)) as [Ei Es]. unfold gate_runnable, runnable in G. cbn [fst snd] in G. rewrite Ei in G. cbn [oand obind] in G.
    destruct (looked_found me force ARun t v n p (w_clock v) s CR F Es) as [H|[_ (x & Ix & [Tx Ax] & Bx)]].
    + change (WOne ARun) with w_started in H. rewrite H in G. discriminate G.
    + exists x. split; [exact (proj2 (log_known v x B Ix X))|]. split; [|lia]. destruct Ax as [Ax|[]]. now split.
  - destruct (run_known R) as (r & I & Rr & Br). exists r. split; [exact I|]. split; [exact Rr|lia].
Qed.
Lemma executed_run force retries n p s e : follows orc me (gate_executable me force retries n p) -> occurrence p s e -> s < w_clock w1 -> w_clock w2 < e ->
  run_in_cycle me w1 w2 w' \/
  (exists x, In x (w_log w2) /\ about me [ASuccess; AInaction; ATerminate] x /\ s <= r_created x < e) \/
  match retries with None => 0 | Some n => n end < times (w_log w2) me [AFail] s (w_clock w2).
Proof using FS HM SC RD SL.
  intros FO OC S1 S2. destruct (turn_taken _ FO) as (X & v & t & B & CR & F & [G|R]); [right|now left].
  pose proof B as (_ & (y & Ey) & B'). destruct (OC n (w_clock v) ltac:(lia)) as [Ei Es]. unfold gate_executable, executable in G. cbv zeta in G. cbn [fst snd] in G. rewrite Ei in G. cbn [oand obind] in G.
  assert (K : forall a, In a [ASuccess; AInaction; ATerminate] -> status_observe force [(OpEq, BInt 0)] (t_state t) (w_log v) me (WOne a) n p (w_clock v) = Returns true \/
    exists x, In x (w_log w2) /\ about me [ASuccess; AInaction; ATerminate] x /\ s <= r_created x < e).
  { intros a Ha. destruct (looked_found me force a t v n p (w_clock v) s CR F Es) as [H|[_ (x & Ix & [Tx Ax] & Bx)]]; [now left|right].
    exists x. split; [exact (proj1 (log_known v x B Ix X))|]. split; [split; [exact Tx|]|lia]. destruct Ax as [<-|[]]. exact Ha. }
  destruct (K AInaction) as [H1|H1]; [cbn; auto| |now left]. destruct (K ASuccess) as [H2|H2]; [cbn; auto| |now left].
  destruct (K ATerminate) as [H3|H3]; [cbn; auto| |now left]. right.
  change (WOne AInaction) with w_inacted in H1. change (WOne ASuccess) with w_succeeded in H2. change (WOne ATerminate) with w_terminated in H3.
  rewrite H1, H2 in G. cbn [oand obind] in G. rewrite H3 in G.
  unfold status_observe in G. rewrite Es in G. cbn [oand obind fst snd] in G.
  set (m := match retries with None => 0 | Some n => n end) in *.
  assert (V : comparable_observe [(OpLe, BInt m)] (get_measurement force [(OpLe, BInt m)] (t_state t) (w_log v) me w_failed s (w_clock v))
              = comp_state [(OpLe, BInt m)] (times (w_log v) me [AFail] s (w_clock v))).
  { destruct force; [cbn [get_measurement]|rewrite measurement_cases; cbv zeta].
    - now rewrite observe_log.
    - unfold is_equal_zero, is_any_over_zero. cbn [only comps_get op_eqb forallb absent existsb bound_is orb andb]. now rewrite observe_log. }
  rewrite V in G. cbn in G. rewrite andb_true_r in G.
  assert (T : m < times (w_log v) me [AFail] s (w_clock v)) by (destruct (_ <=? m) eqn:E in G; [discriminate G|lia]).
  rewrite Ey, times_app. pose proof (times_nonneg y me [AFail] s (w_clock w2)).
  pose proof (times_within me [AFail] s (w_clock v) s (w_clock w2) (w_log v) ltac:(intros; lia)). lia.
Qed.
Lemma every_run force a n past : follows orc me (gate_every me force (WOne a) n past) ->
  run_in_cycle me w1 w2 w' \/ exists x, In x (w_log w2) /\ about me [a] x /\ w_clock w1 - Z.abs past <= r_created x.
Proof using FS HM SC RD SL.
  intros FO. destruct (turn_taken _ FO) as (X & v & t & B & CR & F & [G|R]); [right|now left]. pose proof B as (_ & _ & B').
  unfold gate_every, every_based in G. cbn [fst snd] in G.
  destruct (looked_found me force a t v n (mk_delta (Some past) None None) (w_clock v) _ CR F (span_delta _ _ _)) as [H|[_ (x & Ix & Ax & Bx)]].
  - rewrite H in G. discriminate G.
  - exists x. split; [exact (proj1 (log_known v x B Ix X))|]. split; [exact Ax|lia].
Qed.
Lemma depend_run dep acts o : follows orc me (gate_depend me dep acts) -> In o (w_log w1) -> about dep acts o -> r_created o <= w_clock w1 ->
  (forall old x new, w_log w2 = old ++ o :: new -> In x new -> about dep acts x -> r_created o <= r_created x) ->
  exists r, In r (w_log w') /\ run_record me r /\ r_created o <= r_created r.
Proof using FS HM SC RD SL.
  intros FO Io Ao Po Ord. destruct (turn_taken _ FO) as (X & v & t & B & CR & F & [G|R]).
  - pose proof B as ((z & Ez) & (y & Ey) & B'). unfold gate_depend, depend_state in G. cbn [snd] in G.
    destruct (get_latest (w_log v) dep acts) as [d|] eqn:Ed.
    2:{ exfalso. apply (proj1 (latest_none _ _ _) Ed o); [rewrite Ez; apply in_or_app; now left|exact Ao]. }
    destruct (get_latest (w_log v) me [ARun]) as [r|] eqn:Er; [|discriminate G]. apply latest_spec in Ed, Er.
    destruct Er as (k1 & k2 & Ek & [Tr Ar] & _). destruct Ed as (l1 & l2 & El & Ad & Last).
    exists r. split; [apply (log_known v r B); [rewrite Ek; apply in_or_app; right; now left|exact X]|].
    split; [split; [exact Tr|destruct Ar as [Ar|[]]; now symmetry]|].
    assert (r_created o <= r_created d); [|lia].
    assert (Iv : In o (w_log v)) by (rewrite Ez; apply in_or_app; now left). rewrite El in Iv.
    apply in_app_or in Iv as [Iv|[->|Iv]]; [|lia|now destruct (Last o Iv)].
    apply in_split in Iv as (a1 & a2 & ->). apply (Ord a1 d (a2 ++ d :: l2 ++ y)); [|apply in_or_app; right; now left|exact Ad]. rewrite Ey, El. repeat (rewrite <- ?app_assoc; cbn [app]). reflexivity.
  - destruct (run_known R) as (r & I & Rr & Br). exists r. split; [exact I|]. split; [exact Rr|lia].
Qed.
End Served.
