From Verif Require Import Model.Base Model.Interval Model.Calendar Model.Anchored
  Spec.PeriodSpec Proofs.CalendarProofs Proofs.AnchoredProofs Proofs.FixedCycleProofs Proofs.ClockProofs.
From Coq Require Import Lia ZifyBool.
Ltac Zify.zify_post_hook ::= Z.div_mod_to_equations.
Open Scope Z_scope.

Lemma mk_datetime_midnight y m d : mk_datetime y m d 0 0 0 0 = (ymd2ord y m d - 1) * us_day.
Proof. unfold mk_datetime, to_microseconds. lia. Qed.

Lemma ymd2ord_day y m d : ymd2ord y m d = ymd2ord y m 1 + (d - 1).
Proof. unfold ymd2ord. lia. Qed.

(** length of the month starting at [month_begin k] *)
Lemma month_begin_succ k :
  month_begin (k + 1) = month_begin k + days_in_month (k / 12) (k mod 12 + 1) * us_day.
Proof.
  unfold month_begin. rewrite !mk_datetime_midnight. unfold ymd2ord.
  destruct (Z.eq_dec (k mod 12) 11) as [E|E].
  - replace ((k + 1) / 12) with (k / 12 + 1) by lia. replace ((k + 1) mod 12) with 0 by lia.
    rewrite E. change (11 + 1) with 12. change (0 + 1) with 1.
    pose proof (days_before_month_12 (k / 12)). rewrite days_before_year_succ.
    change (days_before_month (k / 12 + 1) 1) with 0. lia.
  - replace ((k + 1) / 12) with (k / 12) by lia. replace ((k + 1) mod 12) with (k mod 12 + 1) by lia.
    rewrite (days_before_month_succ (k / 12) (k mod 12 + 1)) by lia. lia.
Qed.

Lemma month_len_bounds k : 28 * us_day <= month_begin (k + 1) - month_begin k <= 31 * us_day.
Proof.
  rewrite month_begin_succ. pose proof (days_in_month_bounds (k / 12) (k mod 12 + 1)). unfold us_day. lia.
Qed.

Lemma month_begin_mono k : month_begin k < month_begin (k + 1).
Proof. pose proof (month_len_bounds k). unfold us_day in *. lia. Qed.

(** Index of the month of a moment *)
Definition month_index (t : Z) : Z := 12 * dt_year t + (dt_month t - 1).

Lemma dt_ymd_valid t : valid_ymd (dt_year t) (dt_month t) (dt_day t) /\
  ymd2ord (dt_year t) (dt_month t) (dt_day t) = dt_ordinal t.
Proof.
  unfold dt_year, dt_month, dt_day, dt_ymd. destruct (ord2ymd (dt_ordinal t)) as [[y m] d] eqn:E.
  cbn [fst snd]. apply ord2ymd_correct. exact E.
Qed.

Lemma month_index_div t : month_index t / 12 = dt_year t /\ month_index t mod 12 + 1 = dt_month t.
Proof. destruct (dt_ymd_valid t) as [[Hm _] _]. unfold month_index. lia. Qed.

Lemma month_offset t : t = month_begin (month_index t) + (dt_day t - 1) * us_day + t mod us_day.
Proof.
  destruct (month_index_div t) as [E1 E2]. unfold month_begin. rewrite E1, E2, mk_datetime_midnight.
  destruct (dt_ymd_valid t) as [_ E]. rewrite ymd2ord_day in E. unfold dt_ordinal in E.
  unfold us_day in *. lia.
Qed.

Lemma month_index_bounds t : month_begin (month_index t) <= t < month_begin (month_index t + 1).
Proof.
  rewrite month_begin_succ. destruct (month_index_div t) as [E1 E2]. rewrite E1, E2.
  pose proof (month_offset t). destruct (dt_ymd_valid t) as [[_ Hd] _].
  assert (0 <= t mod us_day < us_day) by (apply Z.mod_pos_bound; reflexivity).
  unfold us_day in *. lia.
Qed.

Lemma month_anchor_dt t : anchor_dt TMonth t = t - month_begin (month_index t).
Proof.
  pose proof (month_offset t). unfold anchor_dt, to_microseconds, dt_hour, dt_minute, dt_second, dt_microsecond,
    us_day, us_hour, us_minute, us_second, us_millisecond in *. lia.
Qed.

Lemma month_index_unique t k : month_begin k <= t < month_begin (k + 1) -> k = month_index t.
Proof.
  intros H. pose proof (month_index_bounds t) as H'.
  destruct (Z.lt_trichotomy k (month_index t)) as [L|[L|L]]; [|exact L|].
  - pose proof (B_succ_le month_begin month_begin_mono k (month_index t) L). lia.
  - pose proof (B_succ_le month_begin month_begin_mono (month_index t) k L). lia.
Qed.

Lemma month_cycle_at s e t : cycle_at (Anchored TMonth s e) month_begin t (month_index t).
Proof.
  unfold cycle_at. cbn [a_cls].
  split; [apply month_index_bounds|]. split; [apply month_anchor_dt|].
  destruct (month_index_div t) as [E1 E2].
  split.
  - rewrite month_begin_succ, E1, E2. cbn [get_scope_forward]. unfold monthrange_days. lia.
  - pose proof (month_begin_succ (month_index t - 1)) as E. replace (month_index t - 1 + 1) with (month_index t) in E by lia.
    rewrite E. cbn [get_scope_back]. unfold monthrange_days.
    destruct (dt_ymd_valid t) as [[Hm _] _].
    destruct (Z.eqb_spec (dt_month t) 1) as [M|M].
    + replace ((month_index t - 1) / 12) with (dt_year t - 1) by (unfold month_index; lia).
      replace ((month_index t - 1) mod 12 + 1) with 12 by (unfold month_index; lia). lia.
    + replace ((month_index t - 1) / 12) with (dt_year t) by (unfold month_index; lia).
      replace ((month_index t - 1) mod 12 + 1) with (dt_month t - 1) by (unfold month_index; lia). lia.
Qed.

Section Month.
  Variables s e : Z.
  Hypothesis Hs : 0 <= s <= 28 * us_day.
  Hypothesis He : 0 <= e <= 28 * us_day.
  Let p := Anchored TMonth s e.

  Lemma mo_cyc t : exists k, cycle_at p month_begin t k.
  Proof using All. exists (month_index t). apply month_cycle_at. Qed.
  Lemma mo_s k : 0 <= a_start p <= month_begin (k + 1) - month_begin k.
  Proof using All. pose proof (month_len_bounds k). cbn [p a_start]. lia. Qed.
  Lemma mo_e k : 0 <= a_end p <= month_begin (k + 1) - month_begin k.
  Proof using All. pose proof (month_len_bounds k). cbn [p a_end]. lia. Qed.
  Lemma mo_full : a_start p = 0 -> a_end p = scope_max (a_cls p) -> forall k, a_end p = month_begin (k + 1) - month_begin k.
  Proof using All. cbn [p a_start a_end a_cls scope_max]. unfold us_day in *. lia. Qed.
  Lemma mo_nd : ~ (s = 28 * us_day /\ e = 0) -> forall k, a_start p < month_begin (k + 1) - month_begin k + a_end p.
  Proof using All. intros H k. pose proof (month_len_bounds k). cbn [p a_start a_end]. lia. Qed.

  Lemma month_contains_iff t : acontains p t = true <-> in_period month_begin s e t.
  Proof using All. exact (acontains_iff p month_begin month_begin_mono mo_cyc mo_s mo_e mo_full t). Qed.
  Lemma month_next_start t : first_after (fun k => month_begin k + s) t (next_start p t).
  Proof using All. exact (next_start_first_after p month_begin month_begin_mono mo_cyc mo_s mo_e t). Qed.
  Lemma month_next_end t : first_after (fun k => month_begin k + e) t (next_end p t).
  Proof using All. exact (next_end_first_after p month_begin month_begin_mono mo_cyc mo_s mo_e t). Qed.
  Lemma month_prev_start t : last_until (fun k => month_begin k + s) t (prev_start p t).
  Proof using All. exact (prev_start_last_until p month_begin month_begin_mono mo_cyc mo_s mo_e t). Qed.
  Lemma month_prev_end t : last_until (fun k => month_begin k + e) t (prev_end p t).
  Proof using All. exact (prev_end_last_until p month_begin month_begin_mono mo_cyc mo_s mo_e t). Qed.
  Lemma month_rollforward : ~ (s = 28 * us_day /\ e = 0) -> forall fuel t,
    exists i, arollforward (S fuel) p t = Returns i /\ rollforward_spec month_begin s e t i.
  Proof using All. intros H. exact (arollforward_ok p month_begin month_begin_mono mo_cyc mo_s mo_e mo_full (mo_nd H)). Qed.
  Lemma month_rollback : ~ (s = 28 * us_day /\ e = 0) -> forall t, is_full p = false ->
    exists i, arollback p t = Ok i /\ rollback_spec month_begin s e t i.
  Proof using All. intros H. exact (arollback_ok p month_begin month_begin_mono mo_cyc mo_s mo_e mo_full (mo_nd H)). Qed.
  Lemma month_rollback_full t : is_full p = true ->
    exists i, arollback p t = Ok i /\ rollback_full_spec month_begin s e t i.
  Proof using All. exact (arollback_full_ok p month_begin month_begin_mono mo_cyc mo_s mo_e mo_full t). Qed.
End Month.

(** Starts only need the start to exist in every month. *)
Lemma month_starts_any_end s e t : 0 <= s <= 28 * us_day ->
  first_after (fun k => month_begin k + s) t (next_start (Anchored TMonth s e) t) /\
  last_until (fun k => month_begin k + s) t (prev_start (Anchored TMonth s e) t).
Proof.
  intros Hs. change (next_start (Anchored TMonth s e) t) with (next_start (Anchored TMonth s 0) t).
  change (prev_start (Anchored TMonth s e) t) with (prev_start (Anchored TMonth s 0) t).
  assert (0 <= 0 <= 28 * us_day) by (unfold us_day; lia).
  split; [apply month_next_start|apply month_prev_start]; assumption.
Qed.

(** rollforward starts at the right moment whatever the end anchor is. *)
Lemma month_rollforward_start s e fuel t i : 0 <= s <= 28 * us_day ->
  arollforward (S fuel) (Anchored TMonth s e) t = Returns i ->
  is_full (Anchored TMonth s e) = false -> rollstart (Anchored TMonth s e) t <> next_end (Anchored TMonth s e) t ->
  (acontains (Anchored TMonth s e) t = true /\ left i = t) \/
  (acontains (Anchored TMonth s e) t = false /\ first_after (fun k => month_begin k + s) t (left i)).
Proof.
  intros Hs H F Hne. cbn [arollforward] in H. rewrite F in H.
  destruct (Z.eqb_spec (rollstart (Anchored TMonth s e) t) (next_end (Anchored TMonth s e) t)) as [E|_]; [contradiction|].
  unfold mk_interval in H. destruct (op_lt _ _ _); [discriminate|]. injection H as <-. cbn [left].
  unfold rollstart. destruct (acontains (Anchored TMonth s e) t); [left; auto|right].
  split; [reflexivity|]. apply month_starts_any_end. exact Hs.
Qed.

(** The period covering whole months, TimeOfMonth(): rollback is the elapsed
    part of the month (the whole previous month at midnight of the first day). *)
Lemma whole_month_rollback t :
  exists i, arollback (Anchored TMonth 0 (31 * us_day)) t = Ok i /\
  closed i = CLeft /\ right i = t /\
  exists k, left i = month_begin k /\ month_begin k < t <= month_begin (k + 1).
Proof.
  set (p := Anchored TMonth 0 (31 * us_day)).
  assert (H0 : 0 <= 0 <= 28 * us_day) by (unfold us_day; lia).
  assert (P : forall u, last_until (fun k => month_begin k + 0) u (prev_start p u)).
  { intros u. apply month_starts_any_end. exact H0. }
  unfold arollback. change (is_full p) with true. cbn match.
  assert (Q : forall u, month_begin (month_index u) = prev_start p u).
  { intros u. destruct (P u) as [[k Hk] [H1 H2]]. rewrite Hk, Z.add_0_r in *.
    pose proof (month_index_bounds u) as B.
    specialize (H2 (month_index u)).
    destruct (Z_le_gt_dec k (month_index u)) as [D|D].
    - pose proof (B_le month_begin month_begin_mono k (month_index u) D). lia.
    - pose proof (B_succ_le month_begin month_begin_mono (month_index u) k ltac:(lia)). lia. }
  unfold resolution.
  destruct (Z.eqb_spec t (prev_start p t)) as [E|E].
  - rewrite <- Q. pose proof (month_index_bounds (t - 1)) as B.
    rewrite mk_interval_ok by lia. eexists; split; [reflexivity|]. cbn.
    repeat split; auto. exists (month_index (t - 1)). lia.
  - rewrite <- Q in *. pose proof (month_index_bounds t) as B.
    rewrite mk_interval_ok by lia. eexists; split; [reflexivity|]. cbn.
    repeat split; auto. exists (month_index t). lia.
Qed.

Lemma period_month_names n m p t : 
  period TMonth (Some (VUnit n None)) (Some (VUnit m None)) = Ok p ->
  (acontains p t = true <-> cyc_between n m (dt_day t)).
Proof.
  intros Hp. pose proof (mk_anchored_bounds _ _ _ _ _ _ _ Hp) as [Hcl _].
  rewrite acontains_clock by (rewrite Hcl; apply (anchor_dt_scope TMonth); discriminate).
  destruct (mk_anchored_both _ _ _ _ Hp) as [Hs He].
  cbn [anchor anchor_str] in *. unfold month_anchor_str in *. cbn [is_end] in *.
  apply Ok_inj in Hs. apply Ok_inj in He. rewrite <- Hs, <- He, Hcl.
  destruct (anchor_dt_unit TMonth t ltac:(discriminate)) as [b [r [E [Hr [Hu Hb]]]]]. rewrite E.
  cbn [unit_number unit_resolution unit_range] in *. subst b.
  replace (us_day * (n - 1) + 0) with ((n - 1) * us_day) by lia.
  replace (us_day * (m - 1) + us_day) with ((m - 1 + 1) * us_day) by lia.
  rewrite (clock_range_unit us_day (n - 1) (m - 1) (dt_day t - 1) r ltac:(reflexivity) Hr).
  unfold cyc_between. lia.
Qed.

Lemma period_month_times n m a b p t : 0 <= a < us_day -> 0 <= b < us_day ->
  period TMonth (Some (VUnit n (Some a))) (Some (VUnit m (Some b))) = Ok p ->
  (acontains p t = true <->
   clock_range ((n - 1) * us_day + a) ((m - 1) * us_day + b) ((dt_day t - 1) * us_day + t mod us_day)).
Proof.
  intros Ha Hb Hp. pose proof (mk_anchored_bounds _ _ _ _ _ _ _ Hp) as [Hcl _].
  rewrite acontains_clock by (rewrite Hcl; apply (anchor_dt_scope TMonth); discriminate).
  destruct (mk_anchored_both _ _ _ _ Hp) as [Hs He].
  cbn [anchor anchor_str] in *. unfold month_anchor_str in *. cbn [is_end] in *.
  apply Ok_inj in Hs. apply Ok_inj in He. rewrite <- Hs, <- He, Hcl.
  rewrite (Z.mul_comm (n - 1)), (Z.mul_comm (m - 1)).
  replace ((dt_day t - 1) * us_day + t mod us_day) with (anchor_dt TMonth t); [reflexivity|].
  rewrite month_anchor_dt. pose proof (month_offset t). lia.
Qed.
