From Coq Require Import Bool Arith ZArith List Lia ZifyBool.
From Verif Require Import Model.Base Model.Interval Model.Calendar Model.Anchored Model.Period Model.Condition Model.History
  Model.Zone Spec.PeriodSpec Spec.ConditionSpec Spec.HistorySpec Spec.ZoneSpec
  Proofs.ClockProofs Proofs.ConditionProofs Proofs.HistoryProofs Proofs.FixedCycleProofs Proofs.WindowProofs Proofs.ZoneProofs.
Import ListNotations.
Open Scope Z_scope.

(** * every(past) *)
Section Every.
  Variables (z : zone) (T a b lo hi : Z).
  Hypothesis Hz : changes_once z T a b lo hi.

  Lemma every_wall : forall st l me k u past t fuel, cache_latest st l me -> latest_at l me k u ->
    0 <= past -> lo <= u -> u <= t -> lo + 5 * us_day + past <= t <= hi - 5 * us_day ->
    zevery z false st l me (WOne k) fuel past t = Returns (past <? (t + z t) - (u + z u)).
  Proof using Hz.
    intros st l me k u past t fuel C L Hp Hu Hut Ht.
    assert (Dp := day_pos). assert (Hz' := Hz). destruct Hz' as (Ha & Hb & Hab & _).
    unfold zevery, zstatus. cbn [zspan obind fst snd]. f_equal.
    rewrite (none_cases z st l me k _ _ u C L) by (rewrite (round_trip z T a b lo hi Hz) by lia; exact Hut).
    rewrite Z.abs_eq by exact Hp. unfold shifted.
    change (d_wall (stamp z t)) with (wall z t). cbn [d_wall].
    change (t + z t - (u + z u)) with (wall z t - wall z u).
    rewrite (wall_at z T a b lo hi Hz u) by lia. rewrite (wall_at z T a b lo hi Hz t) by lia.
    rewrite (absolute_first z T a b lo hi Hz) by (destruct (t <? T); lia).
    split_ifs; lia.
  Qed.

  (** Reading the log *)
  Lemma log_window : forall c st l me w past t fuel,
    0 <= past -> lo + 5 * us_day + past <= t <= hi - 5 * us_day ->
    zstatus z true c st l me w fuel (ZDelta past) t =
      Returns (comp_state c (times l me (watched_list w)
        (if (T <=? t) && (t + z t - past <? T + Z.max a b) then t - past + (b - a) else t - past) t)).
  Proof using Hz.
    intros c st l me w past t fuel Hp Ht.
    assert (Dp := day_pos). assert (Hz' := Hz). destruct Hz' as (Ha & Hb & Hab & _).
    unfold zstatus. cbn [zspan obind fst snd]. f_equal. unfold zmeasurement. cbv zeta.
    rewrite observe_log. f_equal. rewrite (round_trip z T a b lo hi Hz) by lia.
    rewrite Z.abs_eq by exact Hp. unfold shifted. change (d_wall (stamp z t)) with (wall z t).
    change (t + z t) with (wall z t).
    rewrite (wall_at z T a b lo hi Hz t) by lia.
    rewrite (absolute_first z T a b lo hi Hz) by (destruct (t <? T); lia).
    f_equal. split_ifs; lia.
  Qed.
End Every.

(** Comparisons the cache is not used for read the log. *)
Lemma le_reads_log : forall z force n st l me w fuel p t,
  zstatus z force [(OpLe, BInt n)] st l me w fuel p t = zstatus z true [(OpLe, BInt n)] st l me w fuel p t.
Proof.
  intros z force n st l me w fuel p t. unfold zstatus, zmeasurement. destruct (zspan fuel p (stamp z t)) as [[s e]|x|]; [|reflexivity|reflexivity].
  cbn [obind fst snd]. f_equal. destruct force; [reflexivity|]. cbv zeta.
  destruct w as [k|ks]; [reflexivity|].
  destruct (scan_actions _ _ _ ks true). reflexivity.
Qed.

Lemma never_did : forall z st l me k fuel past t, cache_latest st l me -> none_of l me k ->
  zstatus z false [(OpEq, BInt 0)] st l me (WOne k) fuel (ZDelta past) t = Returns true.
Proof.
  intros z st l me k fuel past t C N. unfold zstatus. cbn [zspan obind fst snd]. f_equal.
  unfold zmeasurement. cbv zeta. cbn [ts_last shown]. rewrite (none_cached _ _ _ _ C N). reflexivity.
Qed.

Lemma times_none : forall l me acts s e t, all_before l t -> t <= s -> times l me acts s e = 0.
Proof.
  intros l me acts s e t B H. apply times_zero_iff. intros (r & Hr & _ & Hi). specialize (B r Hr). lia.
Qed.

(** Failures just logged are not seen after clocks were put forward. *)
Lemma failures_forgotten : forall z T a b lo hi st l me n past t fuel, changes_once z T a b lo hi ->
  cache_latest st l me -> all_before l t ->
  none_of l me ASuccess -> none_of l me AInaction -> none_of l me ATerminate ->
  0 <= n -> 0 < past <= b - a -> T <= t < T + past -> lo + 5 * us_day + past <= t <= hi - 5 * us_day ->
  zexecutable z false st l me (Some n) fuel (ZDelta past) t = Returns true.
Proof.
  intros z T a b lo hi st l me n past t fuel Hz C B N1 N2 N3 Hn Hp HT Ht.
  unfold zexecutable. cbv zeta. cbn [zin_period oand obind].
  unfold w_inacted, w_succeeded, w_failed, w_terminated. rewrite !never_did by assumption. cbn [oand obind].
  rewrite le_reads_log, (log_window z T a b lo hi Hz) by lia.
  assert (Dp := day_pos). destruct Hz as (Ha & Hb & Hab & Hz). rewrite (Hz t) by lia.
  replace (t <? T) with false by lia. replace (T <=? t) with true by lia.
  replace (t + b - past <? T + Z.max a b) with true by lia. cbn [andb].
  rewrite (times_none l me _ _ t t B) by lia. cbn [oand obind].
  unfold comp_state. cbn. replace (0 <=? n) with true by lia. reflexivity.
Qed.

(** The cache and the log tell different things. *)
Lemma cache_and_log : forall z T a b lo hi st l me k u past t fuel, changes_once z T a b lo hi ->
  cache_latest st l me -> latest_at l me k u -> all_before l t ->
  0 < past <= b - a -> T <= u -> u < t < T + past -> lo + 5 * us_day + past <= t <= hi - 5 * us_day -> lo <= u ->
  zevery z false st l me (WOne k) fuel past t = Returns false /\
  zevery z true st l me (WOne k) fuel past t = Returns true.
Proof.
  intros z T a b lo hi st l me k u past t fuel Hz C L B Hp HT Hu Ht Hlo.
  assert (Dp := day_pos). split.
  - rewrite (every_wall z T a b lo hi Hz st l me k u past t fuel C L) by lia.
    destruct Hz as (Ha & Hb & Hab & Hz). rewrite (Hz t), (Hz u) by lia. f_equal. split_ifs; lia.
  - unfold zevery. rewrite (log_window z T a b lo hi Hz) by lia.
    destruct Hz as (Ha & Hb & Hab & Hz). rewrite (Hz t) by lia.
    replace (t <? T) with false by lia. replace (T <=? t) with true by lia.
    replace (t + b - past <? T + Z.max a b) with true by lia. cbn [andb].
    rewrite (times_none l me _ _ t t B) by lia. reflexivity.
Qed.

(** No moment shows a time that is skipped. *)
Lemma skipped : forall z T a b lo hi t w, changes_once z T a b lo hi -> lo <= t <= hi -> T + a <= w < T + b -> ~ shows z t w.
Proof.
  intros z T a b lo hi t w (_ & _ & _ & Hz) Ht Hw H. unfold shows in H. rewrite (Hz t Ht) in H. destruct (t <? T) eqn:E; lia.
Qed.

(** * Periods of days, hours, ... *)
Section Cycle.
  Variables (z : zone) (T a b lo hi : Z).
  Hypothesis Hz : changes_once z T a b lo hi.
  Variables (c : acls) (L : Z) (vs ve : option aval) (tp sg rc : bool) (p : anchored).
  Hypothesis HL : fixed_cycle c L.
  Hypothesis Hp : mk_anchored c vs ve tp sg rc = Ok p.

  Lemma cycle_span : forall fuel k t, settled L p k (wall z t) ->
    zspan fuel (ZAnch p) (stamp z t) = Returns (shifted (occ_start (every_L L) (a_start p) k), stamp z t).
  Proof using HL Hp.
    intros fuel k t Hs. cbn [zspan]. change (d_wall (stamp z t)) with (wall z t).
    rewrite (settled_span c L vs ve tp sg rc p HL Hp fuel k (wall z t) Hs). cbn [obind fst snd].
    assert (Hi := fixed_in c L vs ve tp sg rc p HL Hp fuel k (wall z t) (proj1 Hs)).
    cbn [is_in_period pcontains] in Hi. injection Hi as Hi. rewrite Hi. reflexivity.
  Qed.

  Lemma cycle_wall : forall st l me k u n t fuel, cache_latest st l me -> latest_at l me k u ->
    settled L p n (t + z t) -> lo + 5 * us_day <= occ_start (every_L L) (a_start p) n ->
    lo <= u -> u <= t -> lo + 5 * us_day <= t <= hi - 5 * us_day ->
    zstatus z false [(OpEq, BInt 0)] st l me (WOne k) fuel (ZAnch p) t =
      Returns (u + z u <? occ_start (every_L L) (a_start p) n).
  Proof using Hz HL Hp.
    intros st l me k u n t fuel C Hl Hs Hlo Hu Hut Ht.
    assert (Dp := day_pos). assert (Hz' := Hz). destruct Hz' as (Ha & Hb & Hab & _).
    change (t + z t) with (wall z t) in Hs.
    unfold zstatus. rewrite (cycle_span fuel n t Hs). cbn [obind fst snd]. f_equal.
    rewrite (none_cases z st l me k _ _ u C Hl) by (rewrite (round_trip z T a b lo hi Hz) by lia; exact Hut).
    change (u + z u) with (wall z u). unfold shifted. change (d_wall (stamp z t)) with (wall z t). cbn [d_wall].
    destruct Hs as [[Hs1 Hs2] _].
    set (S := occ_start (every_L L) (a_start p) n) in *. clearbody S.
    rewrite (wall_at z T a b lo hi Hz u) by lia. rewrite (wall_at z T a b lo hi Hz t) in * by lia.
    rewrite (absolute_first z T a b lo hi Hz) by (destruct (t <? T); lia).
    split_ifs; lia.
  Qed.

  (** Reading the log *)
  Lemma cycle_log : forall cs st l me w n t fuel,
    settled L p n (t + z t) -> lo + 5 * us_day <= occ_start (every_L L) (a_start p) n ->
    lo + 5 * us_day <= t <= hi - 5 * us_day ->
    zstatus z true cs st l me w fuel (ZAnch p) t =
      Returns (comp_state cs (times l me (watched_list w)
        (if occ_start (every_L L) (a_start p) n <? T + Z.max a b
         then occ_start (every_L L) (a_start p) n - a else occ_start (every_L L) (a_start p) n - b) t)).
  Proof using Hz HL Hp.
    intros cs st l me w n t fuel Hs Hlo Ht.
    assert (Dp := day_pos). assert (Hz' := Hz). destruct Hz' as (Ha & Hb & Hab & _).
    change (t + z t) with (wall z t) in Hs.
    unfold zstatus. rewrite (cycle_span fuel n t Hs). cbn [obind fst snd]. f_equal.
    unfold zmeasurement. cbv zeta. rewrite observe_log. f_equal. rewrite (round_trip z T a b lo hi Hz) by lia.
    destruct Hs as [[Hs1 Hs2] _]. unfold shifted.
    set (S := occ_start (every_L L) (a_start p) n) in *. clearbody S.
    rewrite (wall_at z T a b lo hi Hz t) in * by lia.
    rewrite (absolute_first z T a b lo hi Hz) by (destruct (t <? T); lia). reflexivity.
  Qed.
End Cycle.

(** * Zones without changes *)
Section Fixed.
  Variables (z : zone) (k : Z).
  Hypothesis Hz : forall u, z u = k.

  Lemma fixed_stamp : forall t, stamp z t = At (t + k) false.
  Proof using Hz. intros t. unfold stamp, wall. rewrite !Hz. replace (k - k <? 0) with false by lia. reflexivity. Qed.
  Lemma fixed_absolute : forall w f, absolute z (At w f) = w - k.
  Proof using Hz.
    intros w f. unfold absolute, wall. cbn [d_wall d_fold]. rewrite !Hz.
    replace (w - k + k =? w) with true by lia. rewrite Z.eqb_refl. reflexivity.
  Qed.
  Lemma moved_measure : forall l me w s e,
    map (fun t => t + k) (map r_created (filter_by l me (fun r => (s - k <=? r_created r) && (r_created r <=? e - k) && action_in (watched_list w) r)))
    = map r_created (filter_by (moved_log k l) me (fun r => (s <=? r_created r) && (r_created r <=? e) && action_in (watched_list w) r)).
  Proof using Hz.
    intros l me w s e. unfold filter_by. induction l as [|r l IH]; [reflexivity|].
    cbn [moved_log map filter r_task r_created]. unfold action_in at 2. cbn [r_action].
    fold (action_in (watched_list w) r).
    replace (s <=? r_created r + k) with (s - k <=? r_created r) by lia.
    replace (r_created r + k <=? e) with (r_created r <=? e - k) by lia.
    destruct ((r_task r =? me) && _); cbn [map]; [f_equal|]; exact IH.
  Qed.
  Lemma moved_observe : forall c l me w s e,
    comparable_observe c (measure_log l me w (s - k) (e - k)) = comparable_observe c (measure_log (moved_log k l) me w s e).
  Proof using Hz.
    intros c l me w s e. unfold measure_log. rewrite <- moved_measure. cbn [comparable_observe]. rewrite !map_length. reflexivity.
  Qed.
  Lemma shown_moved : forall st a, ts_last (shown z st) a = ts_last (moved_state k st) a.
  Proof using Hz. intros st a. cbn. unfold wall. destruct (ts_last st a); cbn; [rewrite Hz|]; reflexivity. Qed.
  Lemma scan_ext : forall f g s e acts c, (forall a, f a = g a) -> scan_actions f s e acts c = scan_actions g s e acts c.
  Proof using.
    intros f g s e acts. induction acts as [|x acts IH]; intros c E; [reflexivity|]. cbn [scan_actions]. rewrite E.
    destruct (g x) as [t|]; [|apply IH, E]. destruct (_ && _); [reflexivity|]. destruct (s <=? t); apply IH, E.
  Qed.

  Lemma fixed_measurement : forall force c st l me w s e f g,
    comparable_observe c (zmeasurement z force c st l me w (At s f) (At e g)) =
    comparable_observe c (get_measurement force c (moved_state k st) (moved_log k l) me w s e).
  Proof using Hz.
    intros force c st l me w s e f g. unfold zmeasurement, get_measurement. cbv zeta. rewrite !fixed_absolute. cbn [d_wall].
    destruct force; [apply moved_observe|].
    destruct w as [x|acts].
    - rewrite shown_moved. split_ifs; try reflexivity. apply moved_observe.
    - rewrite (scan_ext (ts_last (shown z st)) (ts_last (moved_state k st))) by (intro; apply shown_moved).
      destruct (scan_actions _ s e acts true) as [o n].
      destruct (is_equal_zero c && n); [reflexivity|]. destruct (is_equal_zero c && o); [reflexivity|].
      destruct (is_any_over_zero c && n); [reflexivity|]. destruct (is_any_over_zero c && o); [reflexivity|].
      apply moved_observe.
  Qed.

  Lemma fixed_status_anch : forall force c st l me w fuel p t,
    zstatus z force c st l me w fuel (ZAnch p) t =
    status_observe force c (moved_state k st) (moved_log k l) me w fuel (PAnch p) (t + k).
  Proof using Hz.
    intros force c st l me w fuel p t. unfold zstatus, status_observe. cbn [zspan]. rewrite fixed_stamp. cbn [d_wall].
    destruct (get_period_span fuel (Some (PAnch p)) (t + k)) as [[s e]|x|] eqn:E; [|reflexivity|reflexivity].
    cbn [obind fst snd]. f_equal. unfold shifted.
    destruct (acontains p (t + k)) eqn:A; [|apply fixed_measurement].
    assert (He : e = t + k); [|rewrite <- He; apply fixed_measurement].
    revert E. unfold get_period_span. cbn [use_reference rollback]. unfold arollback.
    destruct (is_full p) eqn:F.
    - unfold mk_interval. split_ifs; cbn; intro Q; try discriminate; injection Q; intros; subst; try reflexivity.
    - unfold rollend. rewrite A. unfold mk_interval. split_ifs; cbn; intro Q; try discriminate; injection Q; intros; subst; reflexivity.
  Qed.
  Lemma fixed_status_delta : forall force c st l me w fuel past t,
    zstatus z force c st l me w fuel (ZDelta past) t =
    status_observe force c (moved_state k st) (moved_log k l) me w fuel (mk_delta (Some past) None None) (t + k).
  Proof using Hz.
    intros force c st l me w fuel past t. unfold zstatus, status_observe. cbn [zspan]. rewrite fixed_stamp. cbn [d_wall obind fst snd].
    assert (E : get_period_span fuel (Some (mk_delta (Some past) None None)) (t + k) = Returns (t + k - Z.abs past, t + k)).
    { unfold get_period_span, mk_delta at 1. unfold use_reference, mk_delta. cbn [rollback].
      unfold delta_rollback, ivl, mk_interval, Z_ops. cbn [op_lt]. rewrite !Z.abs_involutive.
      replace (t + k <? t + k - Z.abs past) with false by lia. reflexivity. }
    rewrite E. cbn [obind fst snd]. f_equal. apply fixed_measurement.
  Qed.
End Fixed.

Lemma fixed_executable : forall z k, (forall u, z u = k) ->
  (forall force st l me retries fuel p t,
     zexecutable z force st l me retries fuel (ZAnch p) t =
     executable force (moved_state k st) (moved_log k l) me retries fuel (PAnch p) (t + k)) /\
  (forall force st l me retries fuel past t,
     zexecutable z force st l me retries fuel (ZDelta past) t =
     executable force (moved_state k st) (moved_log k l) me retries fuel (mk_delta (Some past) None None) (t + k)) /\
  (forall force st l me w fuel past t,
     zevery z force st l me w fuel past t =
     every_based force (moved_state k st) (moved_log k l) me w fuel past (t + k)).
Proof.
  intros z k Hz. split; [|split].
  - intros. unfold zexecutable, executable. cbv zeta. rewrite !(fixed_status_anch z k Hz).
    cbn [zin_period is_in_period pcontains]. rewrite (fixed_stamp z k Hz). reflexivity.
  - intros. unfold zexecutable, executable. cbv zeta. rewrite !(fixed_status_delta z k Hz). reflexivity.
  - intros. unfold zevery, every_based. apply (fixed_status_delta z k Hz).
Qed.

(** * Consequences *)
Lemma every_steady : forall z T a b lo hi st l me k u past t fuel, changes_once z T a b lo hi ->
  cache_latest st l me -> latest_at l me k u ->
  0 <= past -> lo <= u -> u <= t -> lo + 5 * us_day + past <= t <= hi - 5 * us_day ->
  t < T \/ T <= u ->
  zevery z false st l me (WOne k) fuel past t = Returns (past <? t - u).
Proof.
  intros z T a b lo hi st l me k u past t fuel Hz C L Hp Hu Hut Ht HT.
  assert (Dp := day_pos). rewrite (every_wall z T a b lo hi Hz st l me k u past t fuel C L) by lia.
  f_equal. destruct Hz as (_ & _ & _ & Hz). rewrite (Hz t), (Hz u) by lia. split_ifs; lia.
Qed.

Lemma every_early : forall z T a b lo hi st l me k u past t fuel, changes_once z T a b lo hi ->
  cache_latest st l me -> latest_at l me k u ->
  0 <= past -> lo <= u -> u < T -> T <= t -> lo + 5 * us_day + past <= t <= hi - 5 * us_day ->
  t - u <= past -> past < t - u + (b - a) ->
  zevery z false st l me (WOne k) fuel past t = Returns true.
Proof.
  intros z T a b lo hi st l me k u past t fuel Hz C L Hp Hu H1 H2 Ht H3 H4.
  assert (Dp := day_pos). rewrite (every_wall z T a b lo hi Hz st l me k u past t fuel C L) by lia.
  f_equal. destruct Hz as (_ & _ & _ & Hz). rewrite (Hz t), (Hz u) by lia. split_ifs; lia.
Qed.
Lemma every_late : forall z T a b lo hi st l me k u past t fuel, changes_once z T a b lo hi ->
  cache_latest st l me -> latest_at l me k u ->
  0 <= past -> lo <= u -> u < T -> T <= t -> lo + 5 * us_day + past <= t <= hi - 5 * us_day ->
  past < t - u -> t - u <= past + (a - b) ->
  zevery z false st l me (WOne k) fuel past t = Returns false.
Proof.
  intros z T a b lo hi st l me k u past t fuel Hz C L Hp Hu H1 H2 Ht H3 H4.
  assert (Dp := day_pos). rewrite (every_wall z T a b lo hi Hz st l me k u past t fuel C L) by lia.
  f_equal. destruct Hz as (_ & _ & _ & Hz). rewrite (Hz t), (Hz u) by lia. split_ifs; lia.
Qed.

Lemma log_steady : forall z T a b lo hi c st l me w past t fuel, changes_once z T a b lo hi ->
  0 <= past -> lo + 5 * us_day + past <= t <= hi - 5 * us_day ->
  t < T \/ T + Z.abs (b - a) <= t - past ->
  zstatus z true c st l me w fuel (ZDelta past) t = Returns (comp_state c (times l me (watched_list w) (t - past) t)).
Proof.
  intros z T a b lo hi c st l me w past t fuel Hz Hp Ht HT.
  assert (Dp := day_pos). rewrite (log_window z T a b lo hi Hz) by lia.
  destruct Hz as (_ & _ & _ & Hz). rewrite (Hz t) by lia. f_equal. f_equal. f_equal. split_ifs; lia.
Qed.

(** While clocks go through the repeated time no period lets the task succeed again. *)
Lemma cycle_pause : forall z T a b lo hi, changes_once z T a b lo hi ->
  forall c L vs ve tp sg rc p, fixed_cycle c L -> mk_anchored c vs ve tp sg rc = Ok p ->
  forall st l me k u n t fuel, cache_latest st l me -> latest_at l me k u ->
  settled L p n (t + z t) -> lo + 5 * us_day <= occ_start (every_L L) (a_start p) n ->
  lo <= u -> lo + 5 * us_day <= t <= hi - 5 * us_day ->
  u < T -> T <= t -> t <= u + (a - b) ->
  zstatus z false [(OpEq, BInt 0)] st l me (WOne k) fuel (ZAnch p) t = Returns false.
Proof.
  intros z T a b lo hi Hz c L vs ve tp sg rc p HL Hp st l me k u n t fuel C Hl Hs Hlo Hu Ht H1 H2 H3.
  assert (Dp := day_pos).
  rewrite (cycle_wall z T a b lo hi Hz c L vs ve tp sg rc p HL Hp st l me k u n t fuel C Hl Hs Hlo Hu) by lia.
  destruct Hs as [[Hs _] _]. destruct Hz as (_ & _ & _ & Hz). rewrite (Hz t) in Hs by lia. rewrite (Hz u) by lia.
  f_equal. split_ifs; lia.
Qed.

Lemma none_cycle : forall z c L vs ve tp sg rc p, fixed_cycle c L -> mk_anchored c vs ve tp sg rc = Ok p ->
  forall st l me k n t fuel, cache_latest st l me -> none_of l me k -> settled L p n (t + z t) ->
  zstatus z false [(OpEq, BInt 0)] st l me (WOne k) fuel (ZAnch p) t = Returns true.
Proof.
  intros z c L vs ve tp sg rc p HL Hp st l me k n t fuel C N Hs.
  unfold zstatus. rewrite (cycle_span z c L vs ve tp sg rc p HL Hp fuel n t Hs). cbn [obind fst snd]. f_equal.
  unfold zmeasurement. cbv zeta. cbn [ts_last shown]. rewrite (none_cached _ _ _ _ C N). reflexivity.
Qed.

(** An occurrence whose start is skipped by the clocks *)
Lemma cycle_forgotten : forall z T a b lo hi, changes_once z T a b lo hi ->
  forall c L vs ve tp sg rc p, fixed_cycle c L -> mk_anchored c vs ve tp sg rc = Ok p ->
  forall st l me m n t fuel, cache_latest st l me -> all_before l t ->
  none_of l me ASuccess -> none_of l me AInaction -> none_of l me ATerminate -> 0 <= m ->
  settled L p n (t + z t) -> lo + 5 * us_day <= occ_start (every_L L) (a_start p) n ->
  lo + 5 * us_day <= t <= hi - 5 * us_day ->
  T + a <= occ_start (every_L L) (a_start p) n -> occ_start (every_L L) (a_start p) n < T + b ->
  T <= t -> t + a <= occ_start (every_L L) (a_start p) n ->
  zexecutable z false st l me (Some m) fuel (ZAnch p) t = Returns true.
Proof.
  intros z T a b lo hi Hz c L vs ve tp sg rc p HL Hp st l me m n t fuel C B N1 N2 N3 Hm Hs Hlo Ht H1 H2 H3 H4.
  assert (Dp := day_pos).
  unfold zexecutable. cbv zeta.
  assert (Hi := fixed_in c L vs ve tp sg rc p HL Hp fuel n (t + z t) (proj1 Hs)).
  cbn [is_in_period pcontains] in Hi. injection Hi as Hi.
  cbn [zin_period]. change (d_wall (stamp z t)) with (t + z t). rewrite Hi. cbn [oand obind].
  unfold w_inacted, w_succeeded, w_failed, w_terminated.
  rewrite !(none_cycle z c L vs ve tp sg rc p HL Hp st l me _ n t fuel C) by assumption. cbn [oand obind].
  rewrite le_reads_log, (cycle_log z T a b lo hi Hz c L vs ve tp sg rc p HL Hp _ _ _ _ _ n t fuel Hs Hlo) by lia.
  replace (occ_start (every_L L) (a_start p) n <? T + Z.max a b) with true by lia.
  rewrite (times_none l me _ _ t t B) by lia. cbn [oand obind].
  unfold comp_state. cbn. replace (0 <=? m) with true by lia. reflexivity.
Qed.

Lemma time_of_day : forall z c L vs ve tp sg rc p, fixed_cycle c L -> mk_anchored c vs ve tp sg rc = Ok p ->
  forall t, zin_period z (ZAnch p) t = true <->
    exists w k, shows z t w /\ occ_start (every_L L) (a_start p) k <= w < occ_end (every_L L) (a_start p) (a_end p) k.
Proof.
  intros z c L vs ve tp sg rc p HL Hp t. cbn [zin_period]. change (d_wall (stamp z t)) with (t + z t). unfold shows.
  split.
  - intro A. apply (fixed_contains_iff _ _ _ _ _ _ _ _ HL Hp) in A. destruct A as [k A]. exists (t + z t), k. split; [reflexivity|exact A].
  - intros (w & k & -> & A). apply (fixed_contains_iff _ _ _ _ _ _ _ _ HL Hp). exists k. exact A.
Qed.

(** A window inside the skipped time does not come that day. *)
Lemma window_skipped : forall z T a b lo hi, changes_once z T a b lo hi ->
  forall c L vs ve tp sg rc p, fixed_cycle c L -> mk_anchored c vs ve tp sg rc = Ok p ->
  forall k, T + a <= occ_start (every_L L) (a_start p) k -> occ_end (every_L L) (a_start p) (a_end p) k <= T + b ->
  forall t w, lo <= t <= hi -> shows z t w ->
  ~ occ_start (every_L L) (a_start p) k <= w < occ_end (every_L L) (a_start p) (a_end p) k.
Proof.
  intros z T a b lo hi Hz c L vs ve tp sg rc p HL Hp k H1 H2 t w Ht Hw H.
  apply (skipped z T a b lo hi t w Hz Ht); [lia|exact Hw].
Qed.
