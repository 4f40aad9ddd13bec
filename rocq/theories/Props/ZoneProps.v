(** C69: clocks that are put forward and back. *)
From Coq Require Import Bool Arith ZArith List Lia ZifyBool.
From Verif Require Import Model.Base Model.Interval Model.Calendar Model.Anchored Model.Period Model.Condition Model.History
  Model.Zone Spec.PeriodSpec Spec.ConditionSpec Spec.HistorySpec Spec.ZoneSpec
  Proofs.HistoryProofs Proofs.ZoneProofs Proofs.ZoneResults Proofs.ZoneExamples.
Import ListNotations.
Open Scope Z_scope.

(** The present, made a datetime and then a log time again, is the same moment,
    also in the hour that comes twice. *)
Theorem c69_present : forall z T a b lo hi, changes_once z T a b lo hi ->
  forall t, lo + 4 * us_day <= t <= hi - 4 * us_day -> absolute z (stamp z t) = t.
Proof. exact round_trip. Qed.
Print Assumptions c69_present.

Example c69_present_met : (* 3:30, the first and the second time *)
  changes_once helsinki autumn (3 * hour) (2 * hour) (autumn - 100 * us_day) (autumn + 100 * us_day) /\
  stamp helsinki (autumn - 30 * minute) = At (autumn + 2 * hour + 30 * minute) false /\
  stamp helsinki (autumn + 30 * minute) = At (autumn + 2 * hour + 30 * minute) true.
Proof. split; [exact helsinki_autumn|]. split; vm_compute; reflexivity. Qed.

(** Where clocks are never changed, all is as with one clock (C17 to C25): the
    decisions are those for the history as that zone's clocks show it. *)
Theorem c69_fixed : forall z k, (forall u, z u = k) ->
  (forall force st l me retries fuel p t,
     zexecutable z force st l me retries fuel (ZAnch p) t =
     executable force (moved_state k st) (moved_log k l) me retries fuel (PAnch p) (t + k)) /\
  (forall force st l me retries fuel past t,
     zexecutable z force st l me retries fuel (ZDelta past) t =
     executable force (moved_state k st) (moved_log k l) me retries fuel (mk_delta (Some past) None None) (t + k)) /\
  (forall force st l me w fuel past t,
     zevery z force st l me w fuel past t =
     every_based force (moved_state k st) (moved_log k l) me w fuel past (t + k)).
Proof. exact fixed_executable. Qed.
Print Assumptions c69_fixed.

Example c69_fixed_met : (* UTC+5:30, daily: not again on the day of a success, but on the next *)
  let z : zone := fun _ => 5 * hour + 30 * minute in
  let t := 19 * hour in
  zexecutable z false (one_state ASuccess t) (one_log ASuccess t) 1 None 1 (ZAnch (Anchored TDay 0 us_day)) (t + 20 * hour) = Returns false /\
  zexecutable z false (one_state ASuccess t) (one_log ASuccess t) 1 None 1 (ZAnch (Anchored TDay 0 us_day)) (t + 24 * hour) = Returns true.
Proof. split; vm_compute; reflexivity. Qed.

(** Being between two times of day, days of the week and so on is decided by
    what the clocks show. *)
Theorem c69_time_of_day : forall z c L vs ve tp sg rc p, fixed_cycle c L -> mk_anchored c vs ve tp sg rc = Ok p ->
  forall t, zin_period z (ZAnch p) t = true <->
    exists w k, shows z t w /\ occ_start (every_L L) (a_start p) k <= w < occ_end (every_L L) (a_start p) (a_end p) k.
Proof. exact time_of_day. Qed.
Print Assumptions c69_time_of_day.

Example c69_time_of_day_met : (* between 3:00 and 3:45, at 3:30 the second time *)
  fixed_cycle TDay (24 * 60 * 60 * 10 ^ 6) /\
  mk_anchored TDay (Some (VClock (3 * hour))) (Some (VClock (3 * hour + 45 * minute))) false false false
    = Ok (Anchored TDay (3 * hour) (3 * hour + 45 * minute)) /\
  zin_period helsinki (ZAnch (Anchored TDay (3 * hour) (3 * hour + 45 * minute))) (autumn + 30 * minute) = true /\
  zin_period helsinki (ZAnch (Anchored TDay (3 * hour) (3 * hour + 45 * minute))) (autumn + 50 * minute) = false.
Proof. split; [constructor|]. split; [|split]; vm_compute; reflexivity. Qed.

(** every(past) goes by what the clocks show: it is true when they are more than
    [past] on from what they showed at the latest start (success, ...).  Missing
    for the property: that is the time gone by only if they were not changed in
    between, as the next says. *)
Theorem c69_every_partial : forall z T a b lo hi, changes_once z T a b lo hi ->
  forall st l me k u past t fuel, cache_latest st l me -> latest_at l me k u ->
  0 <= past -> lo <= u -> u <= t -> lo + 5 * us_day + past <= t <= hi - 5 * us_day ->
  zevery z false st l me (WOne k) fuel past t = Returns (past <? (t + z t) - (u + z u)).
Proof. exact every_wall. Qed.
Print Assumptions c69_every_partial.

Theorem c69_every_steady_partial : forall z T a b lo hi st l me k u past t fuel, changes_once z T a b lo hi ->
  cache_latest st l me -> latest_at l me k u ->
  0 <= past -> lo <= u -> u <= t -> lo + 5 * us_day + past <= t <= hi - 5 * us_day ->
  t < T \/ T <= u ->
  zevery z false st l me (WOne k) fuel past t = Returns (past <? t - u).
Proof. exact every_steady. Qed.
Print Assumptions c69_every_steady_partial.

Example c69_every_met :
  changes_once helsinki autumn (3 * hour) (2 * hour) (autumn - 100 * us_day) (autumn + 100 * us_day) /\
  let u := autumn + minute in let t := autumn + 12 * minute in
  cache_latest (one_state ARun u) (one_log ARun u) 1 /\ latest_at (one_log ARun u) 1 ARun u /\
  0 <= 10 * minute /\ autumn - 100 * us_day <= u /\ u <= t /\
  autumn - 100 * us_day + 5 * us_day + 10 * minute <= t <= autumn + 100 * us_day - 5 * us_day /\ autumn <= u /\
  zevery helsinki false (one_state ARun u) (one_log ARun u) 1 (WOne ARun) 1 (10 * minute) t = Returns true.
Proof.
  split; [exact helsinki_autumn|]. cbv zeta. split; [apply one_cache|]. split; [apply one_latest|].
  split; [vm_compute; congruence|]. split; [vm_compute; congruence|]. split; [vm_compute; congruence|].
  split; [split; vm_compute; congruence|]. split; [vm_compute; congruence|]. vm_compute. reflexivity.
Qed.

(** Where the log is read (counting failures, or with force_status_from_logs)
    the last [past] of time are looked at.  Missing: when clocks were changed
    less than that (and the change) ago. *)
Theorem c69_log_partial : forall z T a b lo hi c st l me w past t fuel, changes_once z T a b lo hi ->
  0 <= past -> lo + 5 * us_day + past <= t <= hi - 5 * us_day ->
  t < T \/ T + Z.abs (b - a) <= t - past ->
  zstatus z true c st l me w fuel (ZDelta past) t = Returns (comp_state c (times l me (watched_list w) (t - past) t)).
Proof. exact log_steady. Qed.
Print Assumptions c69_log_partial.

Example c69_log_met :
  changes_once helsinki autumn (3 * hour) (2 * hour) (autumn - 100 * us_day) (autumn + 100 * us_day) /\
  let t := autumn + 2 * hour in
  0 <= hour /\ autumn - 100 * us_day + 5 * us_day + hour <= t <= autumn + 100 * us_day - 5 * us_day /\
  autumn + Z.abs (2 * hour - 3 * hour) <= t - hour /\
  zstatus helsinki true [(OpGe, BInt 1)] fresh_state (one_log AFail (t - hour)) 1 w_failed 1 (ZDelta hour) t = Returns true.
Proof.
  split; [exact helsinki_autumn|]. cbv zeta. split; [vm_compute; congruence|]. split; [split; vm_compute; congruence|].
  split; [vm_compute; congruence|]. vm_compute. reflexivity.
Qed.

(** Daily, hourly, weekly and the like, and between two times: a success (start,
    ...) counts for the occurrence the clocks showed, so the task is let go again
    exactly when they show a later one; also when they were changed meanwhile. *)
Theorem c69_once : forall z T a b lo hi, changes_once z T a b lo hi ->
  forall c L vs ve tp sg rc p, fixed_cycle c L -> mk_anchored c vs ve tp sg rc = Ok p ->
  forall st l me k u n t fuel, cache_latest st l me -> latest_at l me k u ->
  settled L p n (t + z t) -> lo + 5 * us_day <= occ_start (every_L L) (a_start p) n ->
  lo <= u -> u <= t -> lo + 5 * us_day <= t <= hi - 5 * us_day ->
  zstatus z false [(OpEq, BInt 0)] st l me (WOne k) fuel (ZAnch p) t =
    Returns (u + z u <? occ_start (every_L L) (a_start p) n).
Proof. exact cycle_wall. Qed.
Print Assumptions c69_once.

Example c69_once_met : (* daily.between("03:00", "04:00"): done at 3:50 the first time, not again at 3:10 the second time *)
  changes_once helsinki autumn (3 * hour) (2 * hour) (autumn - 100 * us_day) (autumn + 100 * us_day) /\
  fixed_cycle TDay (24 * 60 * 60 * 10 ^ 6) /\
  let p := Anchored TDay (3 * hour) (4 * hour) in
  let u := autumn - 10 * minute in let t := autumn + 10 * minute in
  mk_anchored TDay (Some (VClock (3 * hour))) (Some (VClock (4 * hour))) false false false = Ok p /\
  cache_latest (one_state ASuccess u) (one_log ASuccess u) 1 /\ latest_at (one_log ASuccess u) 1 ASuccess u /\
  settled (24 * 60 * 60 * 10 ^ 6) p 738821 (t + helsinki t) /\
  autumn - 100 * us_day + 5 * us_day <= occ_start (every_L (24 * 60 * 60 * 10 ^ 6)) (a_start p) 738821 /\
  autumn - 100 * us_day <= u /\ u <= t /\
  autumn - 100 * us_day + 5 * us_day <= t <= autumn + 100 * us_day - 5 * us_day /\
  zexecutable helsinki false (one_state ASuccess u) (one_log ASuccess u) 1 None 1 (ZAnch p) t = Returns false /\
  zexecutable helsinki false (one_state ASuccess u) (one_log ASuccess u) 1 None 1 (ZAnch p) (t + us_day) = Returns true.
Proof.
  split; [exact helsinki_autumn|]. split; [constructor|]. cbv zeta. split; [vm_compute; reflexivity|].
  split; [apply one_cache|]. split; [apply one_latest|].
  split; [split; [split; vm_compute; congruence|vm_compute; congruence]|]. split; [vm_compute; congruence|].
  split; [vm_compute; congruence|]. split; [vm_compute; congruence|]. split; [split; vm_compute; congruence|].
  split; vm_compute; reflexivity.
Qed.

(** * What fails *)

(** After clocks were put forward every(past) is true too early, by as much. *)
Theorem c69_early_refuted : forall z T a b lo hi st l me k u past t fuel, changes_once z T a b lo hi ->
  cache_latest st l me -> latest_at l me k u ->
  0 <= past -> lo <= u -> u < T -> T <= t -> lo + 5 * us_day + past <= t <= hi - 5 * us_day ->
  t - u <= past -> past < t - u + (b - a) ->
  zevery z false st l me (WOne k) fuel past t = Returns true.
Proof. exact every_early. Qed.
Print Assumptions c69_early_refuted.

Example c69_early_met : (* every hour, again after two minutes *)
  changes_once helsinki spring (2 * hour) (3 * hour) (spring - 100 * us_day) (spring + 100 * us_day) /\
  let u := spring - minute in let t := spring + minute in
  cache_latest (one_state ARun u) (one_log ARun u) 1 /\ latest_at (one_log ARun u) 1 ARun u /\
  u < spring /\ spring <= t /\ t - u <= hour /\ hour < t - u + (3 * hour - 2 * hour) /\
  zevery helsinki false (one_state ARun u) (one_log ARun u) 1 (WOne ARun) 1 hour t = Returns true.
Proof.
  split; [exact helsinki_spring|]. cbv zeta. split; [apply one_cache|]. split; [apply one_latest|].
  repeat (split; [vm_compute; congruence|]). vm_compute. reflexivity.
Qed.

(** After they were put back it is true too late, by as much. *)
Theorem c69_late_refuted : forall z T a b lo hi st l me k u past t fuel, changes_once z T a b lo hi ->
  cache_latest st l me -> latest_at l me k u ->
  0 <= past -> lo <= u -> u < T -> T <= t -> lo + 5 * us_day + past <= t <= hi - 5 * us_day ->
  past < t - u -> t - u <= past + (a - b) ->
  zevery z false st l me (WOne k) fuel past t = Returns false.
Proof. exact every_late. Qed.
Print Assumptions c69_late_refuted.

Example c69_late_met : (* every minute, not for an hour *)
  changes_once helsinki autumn (3 * hour) (2 * hour) (autumn - 100 * us_day) (autumn + 100 * us_day) /\
  let u := autumn - minute in let t := autumn + hour in
  cache_latest (one_state ARun u) (one_log ARun u) 1 /\ latest_at (one_log ARun u) 1 ARun u /\
  u < autumn /\ autumn <= t /\ minute < t - u /\ t - u <= minute + (3 * hour - 2 * hour) /\
  zevery helsinki false (one_state ARun u) (one_log ARun u) 1 (WOne ARun) 1 minute t = Returns false.
Proof.
  split; [exact helsinki_autumn|]. cbv zeta. split; [apply one_cache|]. split; [apply one_latest|].
  repeat (split; [vm_compute; congruence|]). vm_compute. reflexivity.
Qed.

(** And in the time that comes twice no hourly, minutely or other such period
    lets a task go that succeeded at or after that time of day the first time. *)
Theorem c69_pause_refuted : forall z T a b lo hi, changes_once z T a b lo hi ->
  forall c L vs ve tp sg rc p, fixed_cycle c L -> mk_anchored c vs ve tp sg rc = Ok p ->
  forall st l me k u n t fuel, cache_latest st l me -> latest_at l me k u ->
  settled L p n (t + z t) -> lo + 5 * us_day <= occ_start (every_L L) (a_start p) n ->
  lo <= u -> lo + 5 * us_day <= t <= hi - 5 * us_day ->
  u < T -> T <= t -> t <= u + (a - b) ->
  zstatus z false [(OpEq, BInt 0)] st l me (WOne k) fuel (ZAnch p) t = Returns false.
Proof. exact cycle_pause. Qed.
Print Assumptions c69_pause_refuted.

Example c69_pause_met : (* minutely, 58 and a half minutes after the last success *)
  changes_once helsinki autumn (3 * hour) (2 * hour) (autumn - 100 * us_day) (autumn + 100 * us_day) /\
  fixed_cycle TMinute (60 * 10 ^ 6) /\
  let p := Anchored TMinute 0 minute in
  let u := autumn - minute in let t := autumn + 57 * minute + 30000000 in
  mk_anchored TMinute None None false false false = Ok p /\
  cache_latest (one_state ASuccess u) (one_log ASuccess u) 1 /\ latest_at (one_log ASuccess u) 1 ASuccess u /\
  settled (60 * 10 ^ 6) p 1063902477 (t + helsinki t) /\
  u < autumn /\ autumn <= t /\ t <= u + (3 * hour - 2 * hour) /\
  zexecutable helsinki false (one_state ASuccess u) (one_log ASuccess u) 1 None 1 (ZAnch p) t = Returns false /\
  zexecutable helsinki false (one_state ASuccess u) (one_log ASuccess u) 1 None 1 (ZAnch p) (u + 2 * hour) = Returns true.
Proof.
  split; [exact helsinki_autumn|]. split; [constructor|]. cbv zeta. split; [vm_compute; reflexivity|].
  split; [apply one_cache|]. split; [apply one_latest|].
  split; [split; [split; vm_compute; congruence|intros _; vm_compute; reflexivity]|].
  split; [vm_compute; congruence|]. split; [vm_compute; congruence|]. split; [vm_compute; congruence|].
  split; vm_compute; reflexivity.
Qed.

(** For [past] after clocks were put forward (by [past] or more) failures are
    not seen, so a task that keeps failing is started again in every cycle,
    however few retries it has. *)
Theorem c69_failures_refuted : forall z T a b lo hi st l me n past t fuel, changes_once z T a b lo hi ->
  cache_latest st l me -> all_before l t ->
  none_of l me ASuccess -> none_of l me AInaction -> none_of l me ATerminate ->
  0 <= n -> 0 < past <= b - a -> T <= t < T + past -> lo + 5 * us_day + past <= t <= hi - 5 * us_day ->
  zexecutable z false st l me (Some n) fuel (ZDelta past) t = Returns true.
Proof. exact failures_forgotten. Qed.
Print Assumptions c69_failures_refuted.

Example c69_failures_met : (* every hour, failed a second ago; a day later that holds it back *)
  changes_once helsinki spring (2 * hour) (3 * hour) (spring - 100 * us_day) (spring + 100 * us_day) /\
  let t := spring + 30 * minute in let u := t - 1000000 in
  cache_latest (one_state AFail u) (one_log AFail u) 1 /\ all_before (one_log AFail u) t /\
  none_of (one_log AFail u) 1 ASuccess /\ none_of (one_log AFail u) 1 AInaction /\ none_of (one_log AFail u) 1 ATerminate /\
  0 < hour <= 3 * hour - 2 * hour /\ spring <= t < spring + hour /\
  zexecutable helsinki false (one_state AFail u) (one_log AFail u) 1 None 1 (ZDelta hour) t = Returns true /\
  zexecutable helsinki false (one_state AFail (u + us_day)) (one_log AFail (u + us_day)) 1 None 1 (ZDelta hour) (t + us_day)
    = Returns false.
Proof.
  split; [exact helsinki_spring|]. cbv zeta. split; [apply one_cache|]. split; [apply one_before; vm_compute; congruence|].
  split; [apply one_none; discriminate|]. split; [apply one_none; discriminate|]. split; [apply one_none; discriminate|].
  split; [split; vm_compute; congruence|]. split; [split; vm_compute; congruence|]. split; vm_compute; reflexivity.
Qed.

(** The same for an occurrence of a period whose start clocks skip (daily, where
    they are put forward at midnight). *)
Theorem c69_midnight_refuted : forall z T a b lo hi, changes_once z T a b lo hi ->
  forall c L vs ve tp sg rc p, fixed_cycle c L -> mk_anchored c vs ve tp sg rc = Ok p ->
  forall st l me m n t fuel, cache_latest st l me -> all_before l t ->
  none_of l me ASuccess -> none_of l me AInaction -> none_of l me ATerminate -> 0 <= m ->
  settled L p n (t + z t) -> lo + 5 * us_day <= occ_start (every_L L) (a_start p) n ->
  lo + 5 * us_day <= t <= hi - 5 * us_day ->
  T + a <= occ_start (every_L L) (a_start p) n -> occ_start (every_L L) (a_start p) n < T + b ->
  T <= t -> t + a <= occ_start (every_L L) (a_start p) n ->
  zexecutable z false st l me (Some m) fuel (ZAnch p) t = Returns true.
Proof. exact cycle_forgotten. Qed.
Print Assumptions c69_midnight_refuted.

Example c69_midnight_met : (* daily from 0:30, in Havana, where on that day 0:30 to 1:00 is skipped *)
  changes_once havana midnight (-5 * hour) (-4 * hour) (midnight - 100 * us_day) (midnight + 100 * us_day) /\
  fixed_cycle TDay (24 * 60 * 60 * 10 ^ 6) /\
  let p := Anchored TDay (30 * minute) (24 * hour) in
  let t := midnight + 10 * minute in let u := t - minute in
  mk_anchored TDay (Some (VClock (30 * minute))) None false false false = Ok p /\
  cache_latest (one_state AFail u) (one_log AFail u) 1 /\ all_before (one_log AFail u) t /\
  none_of (one_log AFail u) 1 ASuccess /\ none_of (one_log AFail u) 1 AInaction /\ none_of (one_log AFail u) 1 ATerminate /\
  settled (24 * 60 * 60 * 10 ^ 6) p 738590 (t + havana t) /\
  midnight + -5 * hour <= occ_start (every_L (24 * 60 * 60 * 10 ^ 6)) (a_start p) 738590 /\
  occ_start (every_L (24 * 60 * 60 * 10 ^ 6)) (a_start p) 738590 < midnight + -4 * hour /\
  midnight <= t /\ t + -5 * hour <= occ_start (every_L (24 * 60 * 60 * 10 ^ 6)) (a_start p) 738590 /\
  zexecutable havana false (one_state AFail u) (one_log AFail u) 1 None 1 (ZAnch p) t = Returns true /\
  zexecutable havana false (one_state AFail (u + us_day)) (one_log AFail (u + us_day)) 1 None 1 (ZAnch p) (t + us_day + 30 * minute)
    = Returns false.
Proof.
  split; [exact havana_spring|]. split; [constructor|]. cbv zeta. split; [vm_compute; reflexivity|].
  split; [apply one_cache|]. split; [apply one_before; vm_compute; congruence|].
  split; [apply one_none; discriminate|]. split; [apply one_none; discriminate|]. split; [apply one_none; discriminate|].
  split; [split; [split; vm_compute; congruence|vm_compute; congruence]|].
  repeat (split; [vm_compute; congruence|]). split; vm_compute; reflexivity.
Qed.

(** Whether the answer comes from the cache or the log (force_status_from_logs)
    makes a difference then. *)
Theorem c69_cache_refuted : forall z T a b lo hi st l me k u past t fuel, changes_once z T a b lo hi ->
  cache_latest st l me -> latest_at l me k u -> all_before l t ->
  0 < past <= b - a -> T <= u -> u < t < T + past -> lo + 5 * us_day + past <= t <= hi - 5 * us_day -> lo <= u ->
  zevery z false st l me (WOne k) fuel past t = Returns false /\
  zevery z true st l me (WOne k) fuel past t = Returns true.
Proof. exact cache_and_log. Qed.
Print Assumptions c69_cache_refuted.

Example c69_cache_met :
  changes_once helsinki spring (2 * hour) (3 * hour) (spring - 100 * us_day) (spring + 100 * us_day) /\
  let u := spring + minute in let t := spring + 2 * minute in
  cache_latest (one_state ARun u) (one_log ARun u) 1 /\ latest_at (one_log ARun u) 1 ARun u /\ all_before (one_log ARun u) t /\
  0 < 10 * minute <= 3 * hour - 2 * hour /\ spring <= u /\ u < t < spring + 10 * minute.
Proof.
  split; [exact helsinki_spring|]. cbv zeta. split; [apply one_cache|]. split; [apply one_latest|].
  split; [apply one_before; vm_compute; congruence|]. split; [split; vm_compute; congruence|].
  split; [vm_compute; congruence|]. split; vm_compute; congruence.
Qed.

(** A window within the time that is skipped does not come on that day. *)
Theorem c69_skipped_refuted : forall z T a b lo hi, changes_once z T a b lo hi ->
  forall c L vs ve tp sg rc p, fixed_cycle c L -> mk_anchored c vs ve tp sg rc = Ok p ->
  forall k, T + a <= occ_start (every_L L) (a_start p) k -> occ_end (every_L L) (a_start p) (a_end p) k <= T + b ->
  forall t w, lo <= t <= hi -> shows z t w ->
  ~ occ_start (every_L L) (a_start p) k <= w < occ_end (every_L L) (a_start p) (a_end p) k.
Proof. exact window_skipped. Qed.
Print Assumptions c69_skipped_refuted.

Example c69_skipped_met : (* daily.between("03:15", "03:45"), 26 March *)
  changes_once helsinki spring (2 * hour) (3 * hour) (spring - 100 * us_day) (spring + 100 * us_day) /\
  fixed_cycle TDay (24 * 60 * 60 * 10 ^ 6) /\
  let p := Anchored TDay (3 * hour + 15 * minute) (3 * hour + 45 * minute) in
  mk_anchored TDay (Some (VClock (3 * hour + 15 * minute))) (Some (VClock (3 * hour + 45 * minute))) false false false = Ok p /\
  spring + 2 * hour <= occ_start (every_L (24 * 60 * 60 * 10 ^ 6)) (a_start p) 738604 /\
  occ_end (every_L (24 * 60 * 60 * 10 ^ 6)) (a_start p) (a_end p) 738604 <= spring + 3 * hour.
Proof.
  split; [exact helsinki_spring|]. split; [constructor|]. cbv zeta. split; [vm_compute; reflexivity|].
  split; vm_compute; congruence.
Qed.
