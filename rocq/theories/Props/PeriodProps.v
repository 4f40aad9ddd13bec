(** C09-C13: fixed intervals, relative windows, and the algebra of periods. *)
From Verif Require Import Model.Base Model.Interval Model.Calendar Model.Anchored Model.Period
  Spec.IntervalSpec Spec.PeriodSpec Spec.AlgebraSpec
  Proofs.AlgebraProofs Proofs.BackProofs Proofs.PeriodProofs Proofs.PeriodExamples.
Open Scope Z_scope.

(** * C09 *)
Theorem c09_contains : forall s e fuel t b,
  pcontains fuel (PStatic s e) t = Returns b -> (b = true <-> s <= t < e).
Proof. exact static_contains_any. Qed.
Print Assumptions c09_contains.

(** Nothing fails as long as the interval is not reversed. *)
Theorem c09_total : forall s e fuel t, s <= e ->
  (exists b, pcontains fuel (PStatic s e) t = Returns b) /\
  (exists i, rollforward fuel (PStatic s e) t = Returns i) /\
  (exists i, rollback fuel (PStatic s e) t = Returns i).
Proof. exact static_total. Qed.
Print Assumptions c09_total.

Theorem c09_rollforward : forall s e fuel t, s <= e -> t <= e ->
  rollforward fuel (PStatic s e) t = Returns (Interval (Z.max s t) e CLeft).
Proof. exact static_forward. Qed.
Print Assumptions c09_rollforward.
Example c09_rollforward_met : rollforward 0 (PStatic 5 9) 7 = Returns (Interval 7 9 CLeft) /\ rollforward 0 (PStatic 5 9) 9 = Returns (Interval 9 9 CLeft).
Proof. split; reflexivity. Qed.

Theorem c09_rollforward_gone : forall s e fuel t, e < t ->
  rollforward fuel (PStatic s e) t = Returns (Interval p_max p_max CLeft).
Proof. exact static_forward_gone. Qed.
Print Assumptions c09_rollforward_gone.
Example c09_rollforward_gone_met : 9 < 10 /\ rollforward 0 (PStatic 5 9) 10 = Returns (Interval p_max p_max CLeft).
Proof. split; vm_compute; reflexivity. Qed.

Theorem c09_rollback : forall s e fuel t, s <= e -> s <= t ->
  rollback fuel (PStatic s e) t = Returns (Interval s (Z.min e t) CLeft).
Proof. exact static_back. Qed.
Print Assumptions c09_rollback.

Theorem c09_rollback_future : forall s e fuel t, t < s ->
  rollback fuel (PStatic s e) t = Returns (Interval p_min p_min CLeft).
Proof. exact static_back_future. Qed.
Print Assumptions c09_rollback_future.
Example c09_rollback_future_met : 4 < 5 /\ rollback 0 (PStatic 5 9) 4 = Returns (Interval p_min p_min CLeft).
Proof. split; vm_compute; reflexivity. Qed.

(** The supported range is [1970-01-03 02:00, 2260-01-01 00:00). *)
Theorem c09_always : forall fuel t b, pcontains fuel PAlways t = Returns b -> (b = true <-> p_min <= t < p_max).
Proof. exact always_contains. Qed.
Print Assumptions c09_always.

Theorem c09_never : forall fuel t b, pcontains fuel never t = Returns b -> b = false.
Proof. exact never_contains. Qed.
Print Assumptions c09_never.

(** A reversed interval is accepted by the constructor; asking it fails. *)
Theorem c09_reversed_raises : forall s e fuel t, e < s -> t <= e ->
  rollforward fuel (PStatic s e) t = Raises ValueError.
Proof. exact static_reversed. Qed.
Print Assumptions c09_reversed_raises.
Example c09_reversed_met : mk_static (Some 9) (Some 5) = PStatic 9 5.
Proof. reflexivity. Qed.

Example c09_nonvacuous :
  let s := mk_datetime 2022 1 1 0 0 0 0 in let e := mk_datetime 2022 2 1 0 0 0 0 in
  mk_static (Some s) (Some e) = PStatic s e /\
  pcontains 0 (PStatic s e) s = Returns true /\ pcontains 0 (PStatic s e) e = Returns false /\
  pcontains 0 PAlways s = Returns true /\ pcontains 0 never s = Returns false /\
  rollback 0 (PStatic s e) (mk_datetime 2022 1 5 0 0 0 0) = Returns (Interval s (mk_datetime 2022 1 5 0 0 0 0) CLeft).
Proof. vm_compute. repeat split. Qed.

(** * C10 *)
Theorem c10_delta_contains : forall past future r fuel t,
  exists b, pcontains fuel (mk_delta (Some past) (Some future) (Some r)) t = Returns b /\
  (b = true <-> r - Z.abs past <= t <= r + Z.abs future).
Proof. exact delta_contains_iff. Qed.
Print Assumptions c10_delta_contains.

Theorem c10_span_contains : forall near far r fuel t,
  exists b, pcontains fuel (mk_span (Some near) (Some far) (Some r)) t = Returns b /\
  (b = true <-> Z.abs near <= Z.abs (t - r) <= Z.abs far).
Proof. exact span_contains_iff. Qed.
Print Assumptions c10_span_contains.

Theorem c10_span_contains_open : forall near r fuel t, p_min <= t <= p_max ->
  exists b, pcontains fuel (mk_span (Some near) None (Some r)) t = Returns b /\
  (b = true <-> Z.abs near <= Z.abs (t - r)).
Proof. exact span_contains_open. Qed.
Print Assumptions c10_span_contains_open.
Example c10_span_contains_open_met : p_min <= mk_datetime 2022 1 1 0 0 0 0 <= p_max /\
  pcontains 0 (mk_span (Some us_hour) None (Some (mk_datetime 2022 1 1 0 0 0 0))) (mk_datetime 2021 1 1 0 0 0 0) = Returns true.
Proof. vm_compute. intuition congruence. Qed.

Theorem c10_delta_rolls : forall past future ref fuel t,
  rollback fuel (mk_delta (Some past) (Some future) ref) t = Returns (Interval (t - Z.abs past) t CLeft) /\
  rollforward fuel (mk_delta (Some past) (Some future) ref) t = Returns (Interval t (t + Z.abs future) CLeft).
Proof. exact delta_rolls. Qed.
Print Assumptions c10_delta_rolls.

Theorem c10_span_rolls : forall near far ref fuel t, Z.abs near <= Z.abs far ->
  rollback fuel (mk_span (Some near) (Some far) ref) t = Returns (Interval (t - Z.abs far) (t - Z.abs near) CLeft) /\
  rollforward fuel (mk_span (Some near) (Some far) ref) t = Returns (Interval (t + Z.abs near) (t + Z.abs far) CLeft).
Proof. exact span_rolls. Qed.
Print Assumptions c10_span_rolls.
Example c10_span_rolls_met : rollback 0 (mk_span (Some (-2)) (Some 5) None) 10 = Returns (Interval 5 8 CLeft).
Proof. reflexivity. Qed.

Theorem c10_span_reversed_raises : forall near far ref fuel t, Z.abs far < Z.abs near ->
  rollback fuel (mk_span (Some near) (Some far) ref) t = Raises ValueError /\
  rollforward fuel (mk_span (Some near) (Some far) ref) t = Raises ValueError.
Proof. exact span_rolls_reversed. Qed.
Print Assumptions c10_span_reversed_raises.
Example c10_span_reversed_met : Z.abs 2 < Z.abs (-5).
Proof. reflexivity. Qed.

(** The window the task conditions look at. *)
Theorem c10_window_now : forall past future ref fuel now,
  get_period_span fuel (Some (mk_delta (Some past) (Some future) ref)) now = Returns (now - Z.abs past, now).
Proof. exact period_span_delta. Qed.
Print Assumptions c10_window_now.

Theorem c10_span_window_now : forall near far ref fuel now, Z.abs near <= Z.abs far ->
  get_period_span fuel (Some (mk_span (Some near) (Some far) ref)) now = Returns (now - Z.abs far, now - Z.abs near).
Proof. exact period_span_span. Qed.
Print Assumptions c10_span_window_now.

Theorem c10_no_reference_raises : forall past future near far fuel t,
  pcontains fuel (mk_delta past future None) t = Raises TypeError /\
  pcontains fuel (mk_span near far None) t = Raises TypeError.
Proof. exact window_no_reference. Qed.
Print Assumptions c10_no_reference_raises.

Theorem c10_signs_irrelevant : forall a b a' b' ref, Z.abs a = Z.abs a' -> Z.abs b = Z.abs b' ->
  mk_delta (Some a) (Some b) ref = mk_delta (Some a') (Some b') ref /\
  mk_span (Some a) (Some b) ref = mk_span (Some a') (Some b') ref.
Proof. exact delta_signs. Qed.
Print Assumptions c10_signs_irrelevant.

Example c10_nonvacuous :
  let r := mk_datetime 2022 1 1 0 0 0 0 in
  pcontains 0 (mk_delta (Some (- us_hour)) None (Some r)) (r - us_hour) = Returns true /\
  pcontains 0 (mk_delta (Some us_hour) None (Some r)) (r + 1) = Returns false /\
  pcontains 0 (mk_span (Some us_hour) (Some us_day) (Some r)) (r - 2 * us_hour) = Returns true /\
  pcontains 0 (mk_span (Some us_hour) (Some us_day) (Some r)) r = Returns false /\
  Z.abs us_hour <= Z.abs us_day.
Proof. vm_compute. repeat split; discriminate. Qed.

(** * C11 *)

(** Any sub-periods that themselves obey the forward contract. *)
Theorem c11_rollforward : forall ps, ps <> [] -> (forall q, In q ps -> forward_ok q) ->
  forall dt, (exists u, dt <= u /\ forall q, In q ps -> moments q u) ->
  exists i, eventually (fun fuel => rollforward fuel (PAll ps) dt) i /\
    closed i = CLeft /\ dt <= left i < right i /\
    (forall u, dt <= u < left i -> ~ (forall q, In q ps -> moments q u)) /\
    (forall u, left i <= u < right i -> forall q, In q ps -> moments q u).
Proof. exact all_rollforward_plain. Qed.
Print Assumptions c11_rollforward.

(** The sub-periods of the library do: clock, week and month periods, fixed
    intervals, and [&], [|] of such. *)
Theorem c11_rollforward_library : forall p, fwd_tree p -> forward_ok p.
Proof. exact fwd_tree_ok. Qed.
Print Assumptions c11_rollforward_library.

(** Whatever is returned, with any amount of fuel, consists of common moments ... *)
Theorem c11_rollforward_sound : forall p, fwd_tree p -> forward_sound p.
Proof. exact fwd_tree_sound. Qed.
Print Assumptions c11_rollforward_sound.
Example c11_rollforward_met : fwd_tree ex_all /\ exists i, rollforward 10 ex_all (mk_datetime 2022 1 1 12 0 0 0) = Returns i.
Proof. split; [apply ex_all_ok|]. eexists. apply ex_all_ok. Qed.

(** ... and starts at the earliest one. *)
Theorem c11_rollforward_returned : forall p fuel dt i, fwd_tree p -> rollforward fuel p dt = Returns i ->
  (exists u, dt <= u /\ moments p u) -> forward_at (moments p) dt i.
Proof. exact fwd_tree_returns. Qed.
Print Assumptions c11_rollforward_returned.

Theorem c11_contains : forall p fuel dt b, fwd_tree p -> pcontains fuel p dt = Returns b ->
  (b = true <-> moments p dt).
Proof. exact fwd_tree_contains. Qed.
Print Assumptions c11_contains.

(** Without a common moment it never returns (in Python: RecursionError). *)
Theorem c11_no_common_moment_diverges : forall ps, ps <> [] ->
  (forall q, In q ps -> forward_ok q /\ recurrent q) ->
  (forall t, ~ moments (PAll ps) t) -> forall fuel dt, rollforward fuel (PAll ps) dt = OutOfFuel.
Proof. exact all_no_common. Qed.
Print Assumptions c11_no_common_moment_diverges.

(** Backwards: any sub-periods obeying the backward contract ... *)
Theorem c11_rollback : forall ps, ps <> [] -> (forall q, In q ps -> back_ok q) -> back_ok (PAll ps).
Proof. exact back_all. Qed.
Print Assumptions c11_rollback.

Theorem c11_rollback_library : forall p, back_tree p -> back_ok p.
Proof. exact back_tree_ok. Qed.
Print Assumptions c11_rollback_library.

(** ... and only common moments are returned. *)
Theorem c11_rollback_sound : forall p, back_tree p -> back_sound p.
Proof. exact back_tree_sound. Qed.
Print Assumptions c11_rollback_sound.

(** 10:00-14:00 each day, on Mondays to Fridays, within January 2022. *)
Example c11_nonvacuous : fwd_tree ex_all /\ back_tree ex_all /\
  (exists u, mk_datetime 2022 1 1 0 0 0 0 <= u /\ moments ex_all u) /\
  rollforward 10 ex_all (mk_datetime 2022 1 1 12 0 0 0) =
    Returns (Interval (mk_datetime 2022 1 3 10 0 0 0) (mk_datetime 2022 1 3 14 0 0 0) CLeft) /\
  rollback 10 ex_all (mk_datetime 2022 1 9 12 0 0 0) =
    Returns (Interval (mk_datetime 2022 1 7 10 0 0 0) (mk_datetime 2022 1 7 14 0 0 0) CLeft).
Proof. exact ex_all_ok. Qed.

(** "08:00-09:00" & "10:00-11:00" *)
Example c11_diverges_nonvacuous : (forall q, In q ex_disjoint -> forward_ok q /\ recurrent q) /\
  (forall t, ~ moments (PAll ex_disjoint) t).
Proof. exact ex_disjoint_ok. Qed.

(** * C12 *)

(** Sub-periods with a future moment, obeying the forward contract, or fixed
    intervals that are over.  Partial: an instant that is exactly the end of a
    fixed interval is left out (refuted below). *)
Theorem c12_rollforward_partial : forall ps dt, ps <> [] ->
  (forall q, In q ps -> (forward_ok q /\ exists u, dt <= u /\ moments q u) \/ over_at q dt) ->
  (exists u, dt <= u < p_max /\ moments (PAny ps) u) ->
  exists i, eventually (fun fuel => rollforward fuel (PAny ps) dt) i /\ forward_at (moments (PAny ps)) dt i.
Proof. exact any_forward_live. Qed.
Print Assumptions c12_rollforward_partial.

(** Nested unions and intersections of recurring periods: always. *)
Theorem c12_rollforward_recurring : forall ps, ps <> [] -> (forall q, In q ps -> forward_ok q) ->
  (forall q, In q ps -> recurrent q) -> forward_ok (PAny ps).
Proof. exact forward_any. Qed.
Print Assumptions c12_rollforward_recurring.

Theorem c12_contains_recurring : forall ps fuel t b, ps <> [] ->
  (forall q, In q ps -> fwd_tree q /\ recurrent q) ->
  pcontains fuel (PAny ps) t = Returns b -> (b = true <-> exists q, In q ps /\ moments q t).
Proof. exact any_contains_plain. Qed.
Print Assumptions c12_contains_recurring.

(** Two sub-periods with overlapping occurrences: merged. *)
Theorem c12_two_overlapping_merged : forall fuel a b dt ia ib,
  rollforward fuel a dt = Returns ia -> rollforward fuel b dt = Returns ib ->
  proper ia -> proper ib -> overlaps Z_ops ia ib = true ->
  rollforward fuel (PAny [a; b]) dt =
    Returns (Interval (Z.min (left ia) (left ib)) (Z.max (right ia) (right ib)) CLeft).
Proof. exact any_two_merge. Qed.
Print Assumptions c12_two_overlapping_merged.
Example c12_two_overlapping_met :
  let ia := Interval (mk_datetime 2022 1 1 9 0 0 0) (mk_datetime 2022 1 1 12 0 0 0) CLeft in
  let ib := Interval (mk_datetime 2022 1 1 10 0 0 0) (mk_datetime 2022 1 1 14 0 0 0) CLeft in
  rollforward 5 (PAnch (Anchored TDay (8 * us_hour) (12 * us_hour))) (mk_datetime 2022 1 1 9 0 0 0) = Returns ia /\
  rollforward 5 (PAnch (Anchored TDay (10 * us_hour) (14 * us_hour))) (mk_datetime 2022 1 1 9 0 0 0) = Returns ib /\
  overlaps Z_ops ia ib = true.
Proof. cbn zeta. split; [|split]; vm_compute; reflexivity. Qed.

(** Backwards.  Partial: instants at which no sub-period begins, each
    sub-period having a past moment. *)
Theorem c12_rollback_partial : forall ps t, ps <> [] -> (forall q, In q ps -> back_ok q) ->
  (forall q, In q ps -> exists u, u < t /\ moments q u) ->
  (forall q, In q ps -> moments q t -> moments q (t - 1)) ->
  exists i, eventually (fun fuel => rollback fuel (PAny ps) t) i /\ back_at (moments (PAny ps)) t i /\
    (moments (PAny ps) t -> right i = t).
Proof. exact back_any. Qed.
Print Assumptions c12_rollback_partial.

(** Three overlapping occurrences are not merged into one when the second ends
    before the first: 08-18, 09-10 and 12-20 give 08-18. *)
Theorem c12_merge_refuted : exists ps dt i j,
  (forall q, In q ps -> fwd_tree q /\ recurrent q) /\
  eventually (fun fuel => rollforward fuel (PAny ps) dt) i /\
  (exists q, In q ps /\ eventually (fun fuel => rollforward fuel q dt) j) /\
  overlaps Z_ops i j = true /\ right i < right j.
Proof. exact ex_merge. Qed.
Print Assumptions c12_merge_refuted.

(** At the very end of one fixed interval the union loses a moment of another. *)
Theorem c12_contains_refuted : exists ps t,
  (forall q, In q ps -> fwd_tree q) /\ (exists q, In q ps /\ moments q t) /\
  eventually (fun fuel => pcontains fuel (PAny ps) t) false.
Proof. exact ex_lost_moment. Qed.
Print Assumptions c12_contains_refuted.

(** When a sub-period begins exactly at [t], the union's rollback may be empty
    although a sub-period was on just before [t]. *)
Theorem c12_rollback_refuted : exists ps t i,
  (forall q, In q ps -> back_tree q) /\ moments (PAny ps) (t - 1) /\
  eventually (fun fuel => rollback fuel (PAny ps) t) i /\ forall u, ~ zmem u i.
Proof. exact ex_rollback_empty. Qed.
Print Assumptions c12_rollback_refuted.

Example c12_nonvacuous :
  rollforward 5 (PAny [PAnch (Anchored TDay (8 * us_hour) (12 * us_hour)); PAnch (Anchored TDay (10 * us_hour) (14 * us_hour))])
     (mk_datetime 2022 1 1 9 0 0 0) = Returns (Interval (mk_datetime 2022 1 1 9 0 0 0) (mk_datetime 2022 1 1 14 0 0 0) CLeft) /\
  rollback 5 (PAny [PAnch (Anchored TDay (8 * us_hour) (12 * us_hour)); PAnch (Anchored TDay (10 * us_hour) (14 * us_hour))])
     (mk_datetime 2022 1 1 11 0 0 0) = Returns (Interval (mk_datetime 2022 1 1 8 0 0 0) (mk_datetime 2022 1 1 11 0 0 0) CLeft) /\
  (forall q, In q [PAnch (Anchored TDay (8 * us_hour) (12 * us_hour)); PAnch (Anchored TDay (10 * us_hour) (14 * us_hour))] ->
     fwd_tree q /\ recurrent q /\ back_tree q).
Proof. exact ex_union_ok. Qed.

(** * C13 *)

(** The built period has the members the expression says (supported range). *)
Theorem c13_build : forall e t, p_min <= t < p_max -> (moments (build e) t <-> denote e t).
Proof. exact build_moments. Qed.
Print Assumptions c13_build.

(** The constructors All(...) and Any(...) flatten without changing members. *)
Theorem c13_all : forall args t, p_min <= t < p_max ->
  (moments (PAll (all_members args)) t <-> forall q, In q args -> moments q t).
Proof. exact all_members_plain. Qed.
Print Assumptions c13_all.

Theorem c13_any : forall args t, p_min <= t < p_max ->
  (moments (PAny (any_members [] args)) t <-> exists q, In q args /\ moments q t).
Proof. exact any_members_plain. Qed.
Print Assumptions c13_any.
Example c13_members_met : let args := [PAlways; PAll [PStatic 1 5; PDelta 3 0 None]; PStatic 2 4] in
  all_members args = [PStatic 1 5; PDelta 3 0 None; PStatic 2 4] /\ any_members [] args = [PAlways] /\ p_min <= p_min < p_max.
Proof. split; [reflexivity|]. split; [reflexivity|]. vm_compute. intuition congruence. Qed.

(** As computed by [in]: expressions over recurring periods and always. *)
Theorem c13_contains : forall e fuel t b, recurring_expr e -> p_min <= t < p_max ->
  pcontains fuel (build e) t = Returns b -> (b = true <-> denote e t).
Proof. exact recurring_contains. Qed.
Print Assumptions c13_contains.

Theorem c13_contains_terminates : forall e t, recurring_expr e -> p_min <= t < p_max -> denote e t ->
  eventually (fun fuel => pcontains fuel (build e) t) true.
Proof. exact recurring_contains_true. Qed.
Print Assumptions c13_contains_terminates.

(** The constructor All(always) is accepted but has no members left: every use fails. *)
Theorem c13_all_of_always_refuted : exists args p, mk_all args = Ok p /\
  (forall q t, In q args -> p_min <= t < p_max -> moments q t) /\
  forall fuel t, pcontains (S fuel) p t = Raises TypeError.
Proof. exact ex_all_of_always. Qed.
Print Assumptions c13_all_of_always_refuted.

Example c13_nonvacuous : recurring_expr ex_expr /\
  pcontains 5 (build ex_expr) (mk_datetime 2022 1 3 10 0 0 0) = Returns true /\
  pcontains 5 (build ex_expr) (mk_datetime 2022 1 3 14 0 0 0) = Returns false /\
  p_min <= mk_datetime 2022 1 3 10 0 0 0 < p_max.
Proof. exact ex_expr_ok. Qed.
