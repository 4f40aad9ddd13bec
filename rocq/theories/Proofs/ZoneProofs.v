From Coq Require Import Bool Arith ZArith List Lia ZifyBool.
From Verif Require Import Model.Base Model.Interval Model.Calendar Model.Anchored Model.Period Model.Condition Model.History
  Model.Zone Spec.PeriodSpec Spec.ConditionSpec Spec.HistorySpec Spec.ZoneSpec
  Proofs.ClockProofs Proofs.ConditionProofs Proofs.HistoryProofs Proofs.FixedCycleProofs Proofs.WindowProofs.
Import ListNotations.
Open Scope Z_scope.

Ltac split_ifs :=
  repeat match goal with
  | |- context [if ?b then _ else _] => lazymatch b with context [if _ then _ else _] => fail | _ => destruct b eqn:? end
  | H : context [if ?b then _ else _] |- _ => lazymatch b with context [if _ then _ else _] => fail | _ => destruct b eqn:? end
  end.

Section Once.
  Variables (z : zone) (T a b lo hi : Z).
  Hypothesis Hz : changes_once z T a b lo hi.

  Lemma z_at : forall u, lo <= u <= hi -> z u = if u <? T then a else b.
  Proof using Hz. exact (proj2 (proj2 (proj2 Hz))). Qed.

  Lemma day_pos : us_day = 86400000000.
  Proof. reflexivity. Qed.

  Ltac bounds := destruct Hz as (Ha & Hb & Hab & _); assert (Dp := day_pos).

  (** A datetime with fold = 0 *)
  Lemma absolute_first : forall w, lo + 3 * us_day <= w <= hi - 3 * us_day ->
    absolute z (At w false) = if w <? T + Z.max a b then w - a else w - b.
  Proof using Hz.
    intros w Hw. bounds. unfold absolute, wall, look. cbn [d_wall d_fold].
    rewrite (z_at w) by lia. destruct (w <? T) eqn:E1.
    - rewrite (z_at (w - a)) by lia. rewrite (z_at (w - a + - us_day)) by lia.
      destruct (w - a <? T) eqn:E2.
      + replace (w - a + a =? w) with true by lia.
        destruct (w - a + - us_day <? T) eqn:E3; [|lia].
        rewrite Z.eqb_refl. split_ifs; lia.
      + destruct (w - a + b =? w) eqn:E3.
        * split_ifs; try lia.
        * replace (w - (w - a + b - (w - a))) with (w - b) by lia.
          rewrite (z_at (w - b)) by lia. split_ifs; lia.
    - rewrite (z_at (w - b)) by lia. rewrite (z_at (w - b + - us_day)) by lia.
      destruct (w - b <? T) eqn:E2.
      + destruct (w - b + a =? w) eqn:E3.
        * split_ifs; try lia.
        * replace (w - (w - b + a - (w - b))) with (w - a) by lia.
          rewrite (z_at (w - a)) by lia. split_ifs; lia.
      + replace (w - b + b =? w) with true by lia.
        destruct (w - b + - us_day <? T) eqn:E3.
        * destruct (b =? a) eqn:E4; [split_ifs; lia|].
          rewrite (z_at (w - a)) by lia. split_ifs; lia.
        * rewrite Z.eqb_refl. split_ifs; lia.
  Qed.

  Lemma absolute_second : forall w, lo + 3 * us_day <= w <= hi - 3 * us_day ->
    absolute z (At w true) = if w <? T + Z.min a b then w - a else w - b.
  Proof using Hz.
    intros w Hw. bounds. unfold absolute, wall, look. cbn [d_wall d_fold].
    rewrite (z_at w) by lia. destruct (w <? T) eqn:E1.
    - rewrite (z_at (w - a)) by lia. rewrite (z_at (w - a + us_day)) by lia.
      destruct (w - a <? T) eqn:E2.
      + replace (w - a + a =? w) with true by lia.
        destruct (w - a + us_day <? T) eqn:E3.
        * rewrite Z.eqb_refl. split_ifs; lia.
        * destruct (a =? b) eqn:E4; [split_ifs; lia|].
          rewrite (z_at (w - b)) by lia. split_ifs; lia.
      + destruct (w - a + b =? w) eqn:E3.
        * split_ifs; try lia.
        * replace (w - (w - a + b - (w - a))) with (w - b) by lia.
          rewrite (z_at (w - b)) by lia. split_ifs; lia.
    - rewrite (z_at (w - b)) by lia. rewrite (z_at (w - b + us_day)) by lia.
      destruct (w - b <? T) eqn:E2.
      + destruct (w - b + a =? w) eqn:E3.
        * split_ifs; try lia.
        * replace (w - (w - b + a - (w - b))) with (w - a) by lia.
          rewrite (z_at (w - a)) by lia. split_ifs; lia.
      + replace (w - b + b =? w) with true by lia.
        destruct (w - b + us_day <? T) eqn:E3; [lia|].
        rewrite Z.eqb_refl. split_ifs; lia.
  Qed.

  Lemma stamp_at : forall t, lo + 3 * us_day <= t <= hi - 3 * us_day ->
    stamp z t = At (if t <? T then t + a else t + b) ((T <=? t) && (t <? T + (a - b))).
  Proof using Hz.
    intros t Ht. bounds. unfold stamp, wall, look. rewrite (z_at t) by lia. rewrite (z_at (t - us_day)) by lia.
    f_equal; [split_ifs; lia|].
    destruct (t <? T) eqn:E1.
    - replace (t - us_day <? T) with true by lia. replace (a - a <? 0) with false by lia. lia.
    - destruct (t - us_day <? T) eqn:E2.
      + destruct (b - a <? 0) eqn:E3; [|lia]. rewrite (z_at (t + (b - a))) by lia. split_ifs; lia.
      + replace (b - b <? 0) with false by lia. lia.
  Qed.

  Lemma round_trip : forall t, lo + 4 * us_day <= t <= hi - 4 * us_day -> absolute z (stamp z t) = t.
  Proof using Hz.
    intros t Ht. bounds. rewrite stamp_at by lia.
    destruct ((T <=? t) && (t <? T + (a - b))) eqn:E.
    - rewrite absolute_second by (split_ifs; lia). split_ifs; lia.
    - rewrite absolute_first by (split_ifs; lia). split_ifs; lia.
  Qed.

  Lemma wall_at : forall u, lo <= u <= hi -> wall z u = if u <? T then u + a else u + b.
  Proof using Hz. intros u Hu. unfold wall. rewrite z_at by lia. split_ifs; lia. Qed.
End Once.

(** * Conditions *)

Lemma latest_cached : forall st l me k u, cache_latest st l me -> latest_at l me k u -> ts_last st k = Some u.
Proof.
  intros st l me k u C [(r & Hr & Hk & <-) H]. specialize (C k). destruct (ts_last st k) as [t|].
  - destruct C as [(r' & Hr' & Hk' & <-) C']. f_equal. specialize (C' r Hr Hk). specialize (H r' Hr' Hk'). lia.
  - exfalso. exact (C r Hr Hk).
Qed.
Lemma none_cached : forall st l me k, cache_latest st l me -> none_of l me k -> ts_last st k = None.
Proof.
  intros st l me k C H. specialize (C k). destruct (ts_last st k) as [t|]; [|reflexivity].
  destruct C as [(r & Hr & Hk & _) _]. exfalso. exact (H r Hr Hk).
Qed.

Lemma latest_none_did : forall l me k u s e, latest_at l me k u -> u <= e ->
  (0 <? times l me [k] s e) = (s <=? u).
Proof.
  intros l me k u s e [(r & Hr & Hk & <-) H] He.
  assert (N := times_nonneg l me [k] s e).
  destruct (Z.eq_dec (times l me [k] s e) 0) as [E|E].
  - rewrite E. apply times_zero_iff in E. destruct (s <=? r_created r) eqn:G; [|reflexivity].
    exfalso. apply E. exists r. split; [exact Hr|]. split; [exact Hk|lia].
  - assert (D : did l me [k] s e).
    { destruct (s <=? r_created r) eqn:G.
      - exists r. split; [exact Hr|]. split; [exact Hk|lia].
      - exfalso. apply E. apply times_zero_iff. intros (r' & Hr' & Hk' & Hi). specialize (H r' Hr' Hk'). lia. }
    destruct D as (r' & Hr' & Hk' & Hi). specialize (H r' Hr' Hk'). lia.
Qed.

(** The condition "none" from the cache, with the log where that does not tell. *)
Lemma none_cases : forall z st l me k s e u, cache_latest st l me -> latest_at l me k u -> u <= absolute z e ->
  comparable_observe [(OpEq, BInt 0)] (zmeasurement z false [(OpEq, BInt 0)] st l me (WOne k) s e) =
  if wall z u <? d_wall s then true
  else if wall z u <=? d_wall e then false
  else negb (absolute z s <=? u).
Proof.
  intros z st l me k s e u C L He. unfold zmeasurement. cbv zeta.
  cbn [ts_last shown]. rewrite (latest_cached _ _ _ _ _ C L). cbn [option_map occurred_single cannot_single].
  change (is_equal_zero [(OpEq, BInt 0)]) with true. change (is_any_over_zero [(OpEq, BInt 0)]) with false. cbn [andb].
  destruct (wall z u <? d_wall s) eqn:E1; [reflexivity|].
  replace (d_wall s <=? wall z u) with true by lia. cbn [andb].
  destruct (wall z u <=? d_wall e) eqn:E2; [reflexivity|].
  rewrite observe_log. rewrite <- (latest_none_did l me k u (absolute z s) (absolute z e) L He).
  cbn [watched_list]. assert (N := times_nonneg l me [k] (absolute z s) (absolute z e)). cbn. lia.
Qed.
