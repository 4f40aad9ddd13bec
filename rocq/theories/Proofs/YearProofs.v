From Verif Require Import Model.Base Model.Interval Model.Calendar Model.Anchored
  Spec.CalendarSpec Spec.PeriodSpec Proofs.CalendarProofs Proofs.AnchoredProofs Proofs.FixedCycleProofs Proofs.ClockProofs Proofs.MonthProofs.
From Coq Require Import Lia ZifyBool.
Ltac Zify.zify_post_hook ::= Z.div_mod_to_equations.
Open Scope Z_scope.

(** Start of month [m] on the axis of TimeOfYear, in days (leap-year calendar). *)
Definition ystart (m : Z) : Z :=
  match m with
  | 1 => 0 | 2 => 31 | 3 => 60 | 4 => 91 | 5 => 121 | 6 => 152 | 7 => 182 | 8 => 213
  | 9 => 244 | 10 => 274 | 11 => 305 | 12 => 335 | 13 => 366 | _ => 0
  end.

Lemma month_start_ystart m : 1 <= m <= 13 -> month_start_mapping (m - 1) = Ok (ystart m * us_day).
Proof.
  intros H. assert (C : m = 13 \/ 1 <= m <= 12) by lia. destruct C as [->|C]; [reflexivity|].
  mcases C; reflexivity.
Qed.

Lemma year_start_ystart m : 1 <= m <= 12 -> year_start_mapping (ystart m * us_day) = Ok (m - 1).
Proof. intros C. mcases C; reflexivity. Qed.

(** one day, in months March..December of common years *)
Definition adj (y m : Z) : Z := if is_leap y then 0 else if 3 <=? m then 1 else 0.

Lemma ystart_real y m : 1 <= m <= 12 -> ystart m = days_before_month y m + adj y m.
Proof. intros C. unfold days_before_month, adj. mcases C; destruct (is_leap y); reflexivity. Qed.

Lemma ystart_step m m' : 1 <= m -> m < m' -> m' <= 13 -> ystart m + 29 <= ystart m'.
Proof.
  intros A B C. assert (D : 1 <= m <= 12) by lia. assert (E : m' = 13 \/ 1 <= m' <= 12) by lia.
  destruct E as [->|E]; [mcases D; cbn; lia|]. mcases D; mcases E; cbn; lia.
Qed.

Lemma ystart_len y m : 1 <= m <= 12 -> ystart m + days_in_month y m <= ystart (m + 1) /\
  (ystart m + days_in_month y m < ystart (m + 1) -> m = 2 /\ is_leap y = false /\ ystart (m + 1) = ystart m + days_in_month y m + 1).
Proof. intros C. unfold days_in_month. mcases C; destruct (is_leap y) eqn:E; cbn; rewrite ?E; lia. Qed.

Lemma year_anchor_dt t : anchor_dt TYear t = ystart (dt_month t) * us_day + (dt_day t - 1) * us_day + t mod us_day.
Proof.
  destruct (dt_ymd_valid t) as [[Hm _] _].
  unfold anchor_dt. rewrite month_start_ystart by lia. 
  unfold to_microseconds, dt_hour, dt_minute, dt_second, dt_microsecond,
    us_day, us_hour, us_minute, us_second, us_millisecond. lia.
Qed.

Lemma year_anchor_scope t : 0 <= anchor_dt TYear t < 366 * us_day.
Proof.
  rewrite year_anchor_dt. destruct (dt_ymd_valid t) as [[Hm Hd] _].
  destruct (ystart_len (dt_year t) (dt_month t) Hm) as [H _].
  assert (ystart (dt_month t + 1) <= 366).
  { destruct (Z.eq_dec (dt_month t) 12) as [->|]; [cbn; lia|].
    pose proof (ystart_step (dt_month t + 1) 13). change (ystart 13) with 366 in *. lia. }
  assert (0 <= ystart (dt_month t)).
  { destruct (Z.eq_dec (dt_month t) 1) as [->|]; [cbn; lia|].
    pose proof (ystart_step 1 (dt_month t)). change (ystart 1) with 0 in *. lia. }
  assert (0 <= t mod us_day < us_day) by (apply Z.mod_pos_bound; reflexivity).
  unfold us_day in *. lia.
Qed.

(** position of a moment relative to the start of month i on the axis *)
Lemma year_anchor_month t i : 1 <= i <= 12 ->
  (ystart i * us_day <= anchor_dt TYear t <-> i <= dt_month t) /\
  (anchor_dt TYear t < ystart (i + 1) * us_day <-> dt_month t <= i).
Proof.
  intros Hi. rewrite year_anchor_dt. destruct (dt_ymd_valid t) as [[Hm Hd] _].
  assert (0 <= t mod us_day < us_day) by (apply Z.mod_pos_bound; reflexivity).
  destruct (ystart_len (dt_year t) (dt_month t) Hm) as [H1 _].
  split.
  - destruct (Z.lt_trichotomy i (dt_month t)) as [L|[L|L]].
    + pose proof (ystart_step i (dt_month t)). unfold us_day in *; lia.
    + subst i. unfold us_day in *; lia.
    + assert (ystart (dt_month t + 1) <= ystart i).
      { destruct (Z.eq_dec (dt_month t + 1) i) as [->|]; [lia|]. pose proof (ystart_step (dt_month t + 1) i). lia. }
      unfold us_day in *; lia.
  - destruct (Z_le_gt_dec (dt_month t) i) as [L|L].
    + assert (ystart (dt_month t + 1) <= ystart (i + 1)).
      { destruct (Z.eq_dec (dt_month t) i) as [->|]; [lia|]. pose proof (ystart_step (dt_month t + 1) (i + 1)). lia. }
      unfold us_day in *; lia.
    + assert (ystart (i + 1) <= ystart (dt_month t)).
      { destruct (Z.eq_dec (i + 1) (dt_month t)) as [->|]; [lia|]. pose proof (ystart_step (i + 1) (dt_month t)). lia. }
      unfold us_day in *; lia.
Qed.

(** the microsecond the end anchors leave out *)
Lemma dt_month_next t :
  dt_month (t + 1) <> dt_month t <-> dt_day t = days_in_month (dt_year t) (dt_month t) /\ t mod us_day = us_day - 1.
Proof.
  destruct (dt_ymd_valid t) as [[Hm Hd] Ho].
  pose proof (month_index_bounds t) as Bt. pose proof (month_offset t) as Ot.
  assert (Hr : 0 <= t mod us_day < us_day) by (apply Z.mod_pos_bound; reflexivity).
  pose proof (month_begin_succ (month_index t)) as Es. destruct (month_index_div t) as [E1 E2]. rewrite E1, E2 in Es.
  destruct (month_index_div (t + 1)) as [E1' E2'].
  destruct (Z_lt_dec (t + 1) (month_begin (month_index t + 1))) as [L|L].
  - assert (E : month_index t = month_index (t + 1)) by (apply month_index_unique; lia).
    rewrite <- E in E2'. split; [lia|]. intros [A B]. exfalso. rewrite A, B in Ot. unfold us_day in *; lia.
  - assert (E : month_index t + 1 = month_index (t + 1)).
    { apply month_index_unique. pose proof (month_begin_mono (month_index t + 1)). lia. }
    rewrite <- E in E2'. split; [intros _|intros _; lia]. unfold us_day in *; lia.
Qed.

Lemma year_last_us t j : 1 <= j <= 12 ->
  (anchor_dt TYear t = ystart (j + 1) * us_day - 1 <->
   last_microsecond_of_month j t /\ ~ (dt_month t = 2 /\ dt_day t = 28 /\ is_leap (dt_year t) = false)).
Proof.
  intros Hj. unfold last_microsecond_of_month.
  destruct (dt_ymd_valid t) as [[Hm Hd] _].
  assert (Hr : 0 <= t mod us_day < us_day) by (apply Z.mod_pos_bound; reflexivity).
  destruct (ystart_len (dt_year t) (dt_month t) Hm) as [H1 H2].
  split.
  - intros E.
    assert (Em : dt_month t = j).
    { destruct (year_anchor_month t j Hj) as [A B]. pose proof (ystart_step j (j + 1)). unfold us_day in *; lia. }
    subst j. rewrite year_anchor_dt in E.
    assert (Ed : dt_day t = days_in_month (dt_year t) (dt_month t) /\ t mod us_day = us_day - 1 /\ ystart (dt_month t) + days_in_month (dt_year t) (dt_month t) = ystart (dt_month t + 1)).
    { unfold us_day in *; lia. }
    destruct Ed as [Ed [Er Ey]].
    repeat split; auto.
    + apply dt_month_next. auto.
    + intros [M [D Lp]]. rewrite M in Ey. unfold days_in_month in Ey. rewrite Lp in Ey. cbn in Ey. lia.
  - intros [[<- Hn] Hnot]. apply dt_month_next in Hn. destruct Hn as [Ed Er].
    rewrite year_anchor_dt.
    destruct (Z_lt_dec (ystart (dt_month t) + days_in_month (dt_year t) (dt_month t)) (ystart (dt_month t + 1))) as [L|L].
    + destruct (H2 L) as [M [Lp _]]. exfalso. apply Hnot. split; [exact M|]. split; [|exact Lp].
      rewrite Ed, M. unfold days_in_month. rewrite Lp. reflexivity.
    + unfold us_day in *; lia.
Qed.

Lemma year_anchor_int i s : anchor_int TYear i s =
  if (1 <=? i) && (i <=? 12) then Ok (if is_end s then ystart (i + 1) * us_day - 1 else ystart i * us_day) else Err ValueError.
Proof.
  unfold anchor_int. destruct ((1 <=? i) && (i <=? 12)) eqn:E; [|reflexivity].
  cbn zeta. destruct s; cbn [is_end].
  - apply month_start_ystart. lia.
  - replace (i - 1 + 1) with (i + 1 - 1) by lia. rewrite month_start_ystart by lia. reflexivity.
Qed.

Lemma year_range_core i j t : 1 <= i <= 12 -> 1 <= j <= 12 ->
  (acontains (Anchored TYear (ystart i * us_day) (ystart (j + 1) * us_day - 1)) t = true <->
   cyc_between i j (dt_month t) /\ ~ left_out j t).
Proof.
  intros Hi Hj. rewrite acontains_clock by apply year_anchor_scope. cbn [a_cls a_start a_end].
  unfold left_out. rewrite <- year_last_us by exact Hj.
  destruct (year_anchor_month t i Hi) as [A _]. destruct (year_anchor_month t j Hj) as [_ B].
  unfold clock_range, cyc_between.
  set (x := anchor_dt TYear t) in *.
  assert (C : i <= j -> ystart i * us_day < ystart (j + 1) * us_day - 1).
  { intros L. pose proof (ystart_step i (j + 1)). unfold us_day in *; lia. }
  assert (D : j < i -> ystart (j + 1) * us_day - 1 < ystart i * us_day).
  { intros L. assert (ystart (j + 1) <= ystart i).
    { destruct (Z.eq_dec (j + 1) i) as [->|]; [lia|]. pose proof (ystart_step (j + 1) i). lia. }
    unfold us_day in *; lia. }
  assert (Eq : x = ystart (j + 1) * us_day - 1 -> dt_month t = j).
  { intros E. apply year_last_us in E; [|exact Hj]. apply E. }
  destruct (Z_le_gt_dec i j) as [L|L]; [specialize (C L)|specialize (D ltac:(lia))]; lia.
Qed.

Lemma period_year_int i j p t :
  period TYear (Some (VInt i)) (Some (VInt j)) = Ok p ->
  (acontains p t = true <-> cyc_between i j (dt_month t) /\ ~ left_out j t).
Proof.
  intros Hp. pose proof (mk_anchored_bounds _ _ _ _ _ _ _ Hp) as [Hcl _].
  destruct (mk_anchored_both _ _ _ _ Hp) as [Hs He]. cbn [anchor] in *.
  rewrite year_anchor_int in Hs, He.
  destruct ((1 <=? i) && (i <=? 12)) eqn:Ei; [|discriminate].
  destruct ((1 <=? j) && (j <=? 12)) eqn:Ej; [|discriminate].
  cbn [is_end] in *. apply Ok_inj in Hs. apply Ok_inj in He.
  destruct p as [c s e]. cbn [a_cls a_start a_end] in *. subst c s e.
  apply year_range_core; lia.
Qed.

Lemma period_year_names i j p t : 1 <= i <= 12 -> 1 <= j <= 12 ->
  period TYear (Some (VUnit (i - 1) None)) (Some (VUnit (j - 1) None)) = Ok p ->
  (acontains p t = true <-> cyc_between i j (dt_month t) /\ ~ left_out j t).
Proof.
  intros Hi Hj Hp. pose proof (mk_anchored_bounds _ _ _ _ _ _ _ Hp) as [Hcl _].
  destruct (mk_anchored_both _ _ _ _ Hp) as [Hs He]. cbn [anchor anchor_str is_end] in *.
  rewrite month_start_ystart in Hs by lia. replace (j - 1 + 1) with (j + 1 - 1) in He by lia.
  rewrite month_start_ystart in He by lia. cbn [bind] in He.
  apply Ok_inj in Hs. apply Ok_inj in He.
  destruct p as [c s e]. cbn [a_cls a_start a_end] in *. subst c s e.
  apply year_range_core; lia.
Qed.

Lemma period_at_year i p t : 
  period_at TYear (VInt i) = Ok p ->
  (acontains p t = true <-> dt_month t = i /\ ~ left_out i t).
Proof.
  intros Hp. unfold period_at, mk_anchored in Hp.
  apply bind_ok in Hp. destruct Hp as [s [Hs Hp]]. apply bind_ok in Hp. destruct Hp as [e [He Hp]].
  apply Ok_inj in Hp. subst p.
  unfold set_start in Hs. apply bind_ok in Hs. destruct Hs as [ms [Hs1 Hs]]. apply validate_ok in Hs.
  unfold set_end in He. apply bind_ok in He. destruct He as [me [He1 He]]. apply validate_ok in He.
  cbn [anchor] in *. rewrite year_anchor_int in Hs1.
  destruct ((1 <=? i) && (i <=? 12)) eqn:Ei; [|discriminate]. cbn [is_end] in Hs1. apply Ok_inj in Hs1.
  destruct Hs as [-> _]. destruct He as [-> _]. subst ms.
  unfold to_timepoint in He1. rewrite year_start_ystart in He1 by lia. cbn [bind] in He1.
  replace (i - 1 + 1) with (i + 1 - 1) in He1 by lia. rewrite month_start_ystart in He1 by lia. cbn [bind] in He1.
  apply Ok_inj in He1. subst me.
  rewrite year_range_core by lia.
  assert (X : cyc_between i i (dt_month t) <-> dt_month t = i) by (unfold cyc_between; lia). tauto.
Qed.

Lemma period_at_year_accepted i : 1 <= i <= 12 -> exists p, period_at TYear (VInt i) = Ok p.
Proof. intros C. mcases C; eexists; vm_compute; reflexivity. Qed.

Lemma period_year_int_accepted i j : 1 <= i <= 12 -> 1 <= j <= 12 ->
  exists p, period TYear (Some (VInt i)) (Some (VInt j)) = Ok p.
Proof. intros C D. mcases C; mcases D; eexists; vm_compute; reflexivity. Qed.

(** * Boundaries and their drift *)

Lemma ymd2ord_eq y m d : ymd2ord y m d = days_before_year y + days_before_month y m + d.
Proof. reflexivity. Qed.
Lemma dt_ordinal_eq t : dt_ordinal t = t / us_day + 1.
Proof. reflexivity. Qed.

Lemma year_month_begin i y : month_of_year_begin i y = (days_before_year y + days_before_month y i) * us_day.
Proof. unfold month_of_year_begin. rewrite mk_datetime_midnight. unfold ymd2ord. lia. Qed.

(** the moment in terms of year, axis offset and adjustment *)
Lemma year_moment t :
  t = days_before_year (dt_year t) * us_day + anchor_dt TYear t - adj (dt_year t) (dt_month t) * us_day.
Proof.
  rewrite year_anchor_dt. destruct (dt_ymd_valid t) as [[Hm _] Ho]. rewrite ymd2ord_eq, dt_ordinal_eq in Ho.
  pose proof (ystart_real (dt_year t) (dt_month t) Hm) as R.
  assert (G : forall y m d q r, q = t / us_day -> r = t mod us_day ->
     days_before_year y + days_before_month y m + d = q + 1 -> ystart m = days_before_month y m + adj y m ->
     t = days_before_year y * us_day + (ystart m * us_day + (d - 1) * us_day + r) - adj y m * us_day).
  { clear. intros y m d q r Hq Hr E1 E2. rewrite E2.
    generalize dependent (days_before_year y). generalize dependent (days_before_month y m). intros a E2 b E1.
    pose proof (Z.div_mod t us_day ltac:(discriminate)) as E. rewrite <- Hq, <- Hr in E. unfold us_day in *. lia. }
  apply (G _ _ _ _ _ eq_refl eq_refl Ho R).
Qed.

Lemma month_of_year_mono i y : 1 <= i <= 12 -> month_of_year_begin i y < month_of_year_begin i (y + 1).
Proof.
  intros Hi. rewrite !year_month_begin, days_before_year_succ. unfold days_before_month.
  destruct (is_leap y), (is_leap (y + 1)), (2 <? i); cbn [andb]; unfold us_day; lia.
Qed.

Lemma month_of_year_between i t : 1 <= i <= 12 ->
  (i <= dt_month t -> month_of_year_begin i (dt_year t) <= t < month_of_year_begin i (dt_year t + 1)) /\
  (dt_month t < i -> month_of_year_begin i (dt_year t - 1) <= t < month_of_year_begin i (dt_year t)).
Proof.
  intros Hi. destruct (dt_ymd_valid t) as [[Hm Hd] Ho].
  assert (Hr : 0 <= t mod us_day < us_day) by (apply Z.mod_pos_bound; reflexivity).
  assert (Et : t = (ymd2ord (dt_year t) (dt_month t) (dt_day t) - 1) * us_day + t mod us_day).
  { rewrite dt_ordinal_eq in Ho. rewrite Ho. pose proof (Z.div_mod t us_day ltac:(discriminate)). lia. }
  pose proof (days_before_month_bounds (dt_year t) (dt_month t) Hm) as [N1 N2].
  rewrite !year_month_begin, days_before_year_succ. rewrite ymd2ord_eq in Et.
  pose proof (days_before_month_bounds (dt_year t + 1) i Hi) as [N3 _].
  pose proof (days_before_month_bounds (dt_year t - 1) i Hi) as [N4 N5].
  pose proof (days_before_year_succ (dt_year t - 1)) as Ep. replace (dt_year t - 1 + 1) with (dt_year t) in Ep by lia.
  pose proof (days_in_month_bounds (dt_year t - 1) i Hi).
  clear Ho. generalize dependent (dt_year t). generalize dependent (dt_month t). generalize dependent (dt_day t).
  generalize dependent (t mod us_day). intros r Hr d m Hm y Hd Et N1 N2 N3 N4 N5 Ep Hl.
  split; intros L.
  - assert (days_before_month y i <= days_before_month y m).
    { destruct (Z.eq_dec i m) as [->|]; [lia|].
      pose proof (days_before_month_mono y i m).
      pose proof (days_in_month_bounds y i Hi). lia. }
    unfold us_day in *. lia.
  - pose proof (days_before_month_mono y m i). unfold us_day in *. lia.
Qed.

Lemma year_first_after i t : 1 <= i <= 12 ->
  first_after (month_of_year_begin i) t
    (if dt_month t <? i then month_of_year_begin i (dt_year t) else month_of_year_begin i (dt_year t + 1)).
Proof.
  intros Hi. destruct (month_of_year_between i t Hi) as [A B].
  assert (M := fun y => month_of_year_mono i y Hi).
  unfold first_after. destruct (Z.ltb_spec (dt_month t) i) as [L|L]; [specialize (B L)|specialize (A L)].
  - split; [eauto|]. split; [lia|]. intros k Hk. destruct (Z_lt_dec k (dt_year t)) as [D|D].
    + pose proof (AnchoredProofs.B_le (month_of_year_begin i) M k (dt_year t - 1)). lia.
    + apply (AnchoredProofs.B_le (month_of_year_begin i) M). lia.
  - split; [eauto|]. split; [lia|]. intros k Hk. destruct (Z_le_gt_dec k (dt_year t)) as [D|D].
    + pose proof (AnchoredProofs.B_le (month_of_year_begin i) M k (dt_year t)). lia.
    + apply (AnchoredProofs.B_le (month_of_year_begin i) M). lia.
Qed.

Lemma year_last_until i t : 1 <= i <= 12 ->
  last_until (month_of_year_begin i) t
    (if dt_month t <? i then month_of_year_begin i (dt_year t - 1) else month_of_year_begin i (dt_year t)).
Proof.
  intros Hi. destruct (month_of_year_between i t Hi) as [A B].
  assert (M := fun y => month_of_year_mono i y Hi).
  unfold last_until. destruct (Z.ltb_spec (dt_month t) i) as [L|L]; [specialize (B L)|specialize (A L)].
  - split; [eauto|]. split; [lia|]. intros k Hk. destruct (Z_lt_dec k (dt_year t)) as [D|D].
    + apply (AnchoredProofs.B_le (month_of_year_begin i) M). lia.
    + pose proof (AnchoredProofs.B_le (month_of_year_begin i) M (dt_year t) k). lia.
  - split; [eauto|]. split; [lia|]. intros k Hk. destruct (Z_le_gt_dec k (dt_year t)) as [D|D].
    + apply (AnchoredProofs.B_le (month_of_year_begin i) M). lia.
    + pose proof (AnchoredProofs.B_le (month_of_year_begin i) M (dt_year t + 1) k). lia.
Qed.

Lemma year_next_start i e t : 1 <= i <= 12 ->
  first_after (month_of_year_begin i) t
    (next_start (Anchored TYear (ystart i * us_day) e) t - forward_drift i t * us_day).
Proof.
  intros Hi.
  replace (next_start (Anchored TYear (ystart i * us_day) e) t - forward_drift i t * us_day)
    with (if dt_month t <? i then month_of_year_begin i (dt_year t) else month_of_year_begin i (dt_year t + 1));
    [apply year_first_after; exact Hi|].
  destruct (year_anchor_month t i Hi) as [A _]. pose proof (year_moment t) as E.
  unfold next_start, forward_drift. cbn [a_cls a_start get_scope_forward scope_max].
  rewrite !year_month_begin, days_before_year_succ.
  pose proof (ystart_real (dt_year t) i Hi) as R1. pose proof (ystart_real (dt_year t + 1) i Hi) as R2.
  unfold adj, common, b2z in *.
  destruct (Z.ltb_spec (dt_month t) i) as [L|L];
    destruct (Z.ltb_spec (anchor_dt TYear t) (ystart i * us_day)) as [K|K]; try (exfalso; lia);
    destruct (is_leap (dt_year t)); destruct (is_leap (dt_year t + 1)); cbn [negb andb] in *;
    destruct (Z.leb_spec 3 (dt_month t)); destruct (Z.ltb_spec (dt_month t) 3); destruct (Z.leb_spec 3 i);
    try (exfalso; lia); cbn [andb]; unfold us_day in *; lia.
Qed.

Lemma year_prev_start i e t : 1 <= i <= 12 ->
  last_until (month_of_year_begin i) t
    (prev_start (Anchored TYear (ystart i * us_day) e) t + backward_drift i t * us_day).
Proof.
  intros Hi.
  replace (prev_start (Anchored TYear (ystart i * us_day) e) t + backward_drift i t * us_day)
    with (if dt_month t <? i then month_of_year_begin i (dt_year t - 1) else month_of_year_begin i (dt_year t));
    [apply year_last_until; exact Hi|].
  destruct (year_anchor_month t i Hi) as [A _]. pose proof (year_moment t) as E.
  unfold prev_start, backward_drift. cbn [a_cls a_start get_scope_back scope_max].
  rewrite !year_month_begin.
  pose proof (days_before_year_succ (dt_year t - 1)) as Ep. replace (dt_year t - 1 + 1) with (dt_year t) in Ep by lia.
  pose proof (ystart_real (dt_year t) i Hi) as R1. pose proof (ystart_real (dt_year t - 1) i Hi) as R2.
  unfold adj, common, b2z in *.
  destruct (Z.ltb_spec (dt_month t) i) as [L|L];
    destruct (Z.ltb_spec (anchor_dt TYear t) (ystart i * us_day)) as [K|K]; try (exfalso; lia);
    destruct (is_leap (dt_year t)); destruct (is_leap (dt_year t - 1)); cbn [negb andb] in *;
    destruct (Z.leb_spec 3 (dt_month t)); destruct (Z.ltb_spec i 3); destruct (Z.leb_spec 3 i);
    try (exfalso; lia); cbn [andb]; unfold us_day in *; lia.
Qed.

Lemma year_start_anchor i en tp sg rc p :
  mk_anchored TYear (Some (VInt i)) en tp sg rc = Ok p ->
  1 <= i <= 12 /\ exists e, p = Anchored TYear (ystart i * us_day) e.
Proof.
  intros Hp. unfold mk_anchored in Hp.
  apply bind_ok in Hp. destruct Hp as [s [Hs Hp]]. apply bind_ok in Hp. destruct Hp as [e [He Hp]].
  apply Ok_inj in Hp. subst p.
  unfold set_start in Hs. apply bind_ok in Hs. destruct Hs as [ms [Hs1 Hs]]. apply validate_ok in Hs.
  cbn [anchor] in Hs1. rewrite year_anchor_int in Hs1.
  destruct ((1 <=? i) && (i <=? 12)) eqn:Ei; [|discriminate]. cbn [is_end] in Hs1. apply Ok_inj in Hs1.
  destruct Hs as [-> _]. subst ms. split; [lia|]. exists e. reflexivity.
Qed.

Lemma year_next_start_period i en tp sg rc p t :
  mk_anchored TYear (Some (VInt i)) en tp sg rc = Ok p ->
  first_after (month_of_year_begin i) t (next_start p t - forward_drift i t * us_day).
Proof. intros H. destruct (year_start_anchor _ _ _ _ _ _ H) as [Hi [e ->]]. apply year_next_start. exact Hi. Qed.

Lemma year_prev_start_period i en tp sg rc p t :
  mk_anchored TYear (Some (VInt i)) en tp sg rc = Ok p ->
  last_until (month_of_year_begin i) t (prev_start p t + backward_drift i t * us_day).
Proof. intros H. destruct (year_start_anchor _ _ _ _ _ _ H) as [Hi [e ->]]. apply year_prev_start. exact Hi. Qed.
