(** Served sessions in which a task has a history condition (C75). *)
From Coq Require Import Bool Arith Lia ZifyBool.
From Verif Require Import Model.Base Model.Anchored Model.Period Model.Condition Model.History Spec.HistorySpec Spec.SchedulerSpec Model.World Model.Run Model.Scheduler.
From Verif Require Import Spec.OnceSpec Proofs.HistoryProofs Proofs.HistoryRunProofs Proofs.WindowProofs Proofs.OnceProofs.
Open Scope Z_scope.

Lemma new_run_more me l l' (P Q : log -> record -> Prop) : (forall pre r, P pre r -> run_record me r -> Q pre r) ->
  every_new_run me l l' P -> every_new_run me l l' Q.
Proof. intros H (new & E & N). exists new. split; [exact E|]. intros pre r post Ep R. exact (H _ _ (N pre r post Ep R) R). Qed.

(** Looking for runs in a span that ends now *)
Lemma looked_back me force st l fuel p d : noted me st l d ->
  status_observe force [(OpEq, BInt 0)] st l me w_started fuel p d = Returns true ->
  exists s e, get_period_span fuel (Some p) d = Returns (s, e) /\
    (e = d -> forall x, In x l -> run_record me x -> r_created x < s).
Proof.
  intros N H. unfold status_observe in H. destruct (get_period_span fuel (Some p) d) as [[s e]|x|]; [|discriminate|discriminate].
  exists s, e. split; [reflexivity|]. intros -> x Hx Rx. destruct (N x Hx Rx) as (c & Ec & B). cbn [obind fst snd] in H. injection H as H.
  unfold get_measurement, w_started in H. destruct force.
  - destruct (Z.lt_ge_cases (r_created x) s) as [|G]; [assumption|exfalso].
    assert (I : In (r_created x) (map r_created (filter_by l me (fun r => (s <=? r_created r) && (r_created r <=? d) && action_in (watched_list (WOne ARun)) r)))).
    { apply in_map. unfold filter_by. apply filter_In. split; [exact Hx|]. destruct Rx as [R1 R2]. unfold action_in. cbn [watched_list existsb].
      rewrite R2. cbn [action_eqb]. lia. }
    unfold measure_log in H. destruct (map r_created _) as [|y ys] eqn:E; [destruct I|]. cbn in H. discriminate H.
  - rewrite Ec in H. cbn [occurred_single cannot_single] in H. destruct (c <? s) eqn:E1; [lia|].
    destruct ((s <=? c) && (c <=? d)) eqn:E2; [|lia]. vm_compute in H. discriminate H.
Qed.

Section Served.
Context (orc : oracle) (cf : config) (me : Z) (time : nat -> Z) (fuel : nat) (w : world)
  (TG : time_goes_on orc time) (CK : w_clock w <= time (w_tick w)) (BC : by_condition orc me w) (UD : undisturbed orc cf me w) (KH : known_history me w).

Lemma once_served force n p s e : requires orc me (gate_runnable me force n p) -> window p s e ->
  every_new_run me (w_log w) (w_log (fst (serve orc cf fuel w)))
    (fun old r => s <= r_created r < e -> forall x, In x old -> run_record me x -> r_created x < s).
Proof using All.
  intros RQ WI. eapply new_run_more; [|exact (served_justified orc cf me _ time fuel w TG CK BC UD KH RQ)].
  intros pre r (d & (st & seen & un & -> & U & N & _ & G) & D) _ Hr x Hx Rx. apply (in_more _ _ _ _ U) in Hx; [|exact Rx].
  apply runnable_started in G. cbn [fst snd] in G. destruct (looked_back _ _ _ _ _ _ _ N G) as (s' & e' & Es & L).
  destruct (Z.lt_ge_cases d s) as [B|B].
  - destruct (N x Hx Rx) as (c & _ & Bc). lia.
  - destruct (WI n d s' e' ltac:(lia) Es) as [W1 W2]. specialize (L W2 x Hx Rx). lia.
Qed.
Lemma every_served force n past : requires orc me (gate_every me force w_started n past) ->
  every_new_run me (w_log w) (w_log (fst (serve orc cf fuel w)))
    (fun old r => forall x, In x old -> run_record me x -> r_created x + Z.abs past < r_created r).
Proof using All.
  intros RQ. eapply new_run_more; [|exact (served_justified orc cf me _ time fuel w TG CK BC UD KH RQ)].
  intros pre r (d & (st & seen & un & -> & U & N & _ & G) & D) _ x Hx Rx. apply (in_more _ _ _ _ U) in Hx; [|exact Rx].
  apply holds_true in G. unfold every_based in G. cbn [fst snd] in G. destruct (looked_back _ _ _ _ _ _ _ N G) as (s' & e' & Es & L).
  rewrite span_delta in Es. injection Es as <- <-. specialize (L eq_refl x Hx Rx). lia.
Qed.
Lemma depend_served dep acts : requires orc me (gate_depend me dep acts) ->
  every_new_run me (w_log w) (w_log (fst (serve orc cf fuel w)))
    (fun old r => exists o, In o old /\ about dep acts o /\ forall x, In x old -> run_record me x -> r_created x < r_created o).
Proof using All.
  intros RQ. eapply new_run_more; [|exact (served_justified orc cf me _ time fuel w TG CK BC UD KH RQ)].
  intros pre r (d & (st & seen & un & -> & U & N & O & G) & D) _. unfold gate_depend, depend_state in G. cbn [snd] in G.
  destruct (get_latest seen dep acts) as [o|] eqn:E; [|discriminate].
  assert (Ho : In o seen /\ about dep acts o).
  { unfold get_latest, last_of in E. destruct (rev (filter_by seen dep (action_in acts))) as [|o' rs] eqn:Er; [discriminate|]. injection E as ->.
    assert (I : In o (filter_by seen dep (action_in acts))) by (apply in_rev; rewrite Er; now left).
    unfold filter_by in I. apply filter_In in I as [I1 I2]. split; [exact I1|]. apply andb_prop in I2 as [I2 I3]. split; [lia|].
    unfold action_in in I3. apply existsb_exists in I3 as (a & Ha & Ea). destruct (r_action o), a; try discriminate Ea; exact Ha. }
  exists o. split; [apply in_or_app; left; exact (proj1 Ho)|]. split; [exact (proj2 Ho)|]. intros x Hx Rx.
  apply (in_more _ _ _ _ U) in Hx; [|exact Rx].
  destruct (last_noted me seen d O (fun r H R => match N r H R with ex_intro _ c (conj _ B) => ltac:(lia) end)) as [LN _].
  destruct (LN x Hx Rx) as (c & Ec & B). unfold last_from_log in Ec. destruct (get_latest seen me [ARun]) as [y|]; [|discriminate].
  injection Ec as <-. lia.
Qed.
End Served.
