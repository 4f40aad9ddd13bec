(** Concrete periods used in the property files, and plain restatements. *)
From Coq Require Import Lia ZifyBool Arith.
From Verif Require Import Model.Base Model.Interval Model.Calendar Model.Anchored Model.Period
  Spec.IntervalSpec Spec.PeriodSpec Spec.AlgebraSpec
  Proofs.IntervalProofs Proofs.ClockProofs Proofs.AlgebraProofs Proofs.BackProofs Proofs.PeriodProofs.
Open Scope Z_scope.

Lemma all_rollforward_plain ps : ps <> [] -> (forall q, In q ps -> forward_ok q) ->
  forall dt, (exists u, dt <= u /\ forall q, In q ps -> moments q u) ->
  exists i, eventually (fun fuel => rollforward fuel (PAll ps) dt) i /\
    closed i = CLeft /\ dt <= left i < right i /\
    (forall u, dt <= u < left i -> ~ (forall q, In q ps -> moments q u)) /\
    (forall u, left i <= u < right i -> forall q, In q ps -> moments q u).
Proof.
  intros Hne Hok dt [u [Hu HM]]. destruct (forward_all ps Hne Hok dt) as [i [Hi [C [B [No In_]]]]].
  { exists u. split; [exact Hu|]. apply moments_all, HM. }
  exists i. split; [exact Hi|]. split; [exact C|]. split; [exact B|]. split.
  - intros v Hv H. apply (No v Hv). apply moments_all, H.
  - intros v Hv. apply moments_all. apply In_, Hv.
Qed.

Lemma any_contains_plain ps fuel t b : ps <> [] -> (forall q, In q ps -> fwd_tree q /\ recurrent q) ->
  pcontains fuel (PAny ps) t = Returns b -> (b = true <-> exists q, In q ps /\ moments q t).
Proof.
  intros Hne H E. rewrite (fwd_tree_contains (PAny ps) fuel t b); [apply moments_any| |exact E].
  apply ft_any; [exact Hne| |]; intros q Hq; apply H, Hq.
Qed.

Lemma all_members_plain args t : p_min <= t < p_max ->
  (moments (PAll (all_members args)) t <-> forall q, In q args -> moments q t).
Proof. intros Ht. rewrite all_members_moments by exact Ht. apply moments_all. Qed.
Lemma any_members_plain args t : p_min <= t < p_max ->
  (moments (PAny (any_members [] args)) t <-> exists q, In q args /\ moments q t).
Proof. intros Ht. rewrite any_members_moments by exact Ht. rewrite !moments_any. split; [intros [[q [[] _]]|H]; exact H|auto]. Qed.

Lemma recurring_contains_true e t : recurring_expr e -> p_min <= t < p_max -> denote e t ->
  eventually (fun fuel => pcontains fuel (build e) t) true.
Proof.
  intros He Ht Hd. apply fwd_tree_contains_true; [apply recurring_build, He|]. apply build_moments; assumption.
Qed.

(** a TimeOfDay from whole hours, given as datetime.time values would be *)
Definition hours (a b : Z) : tperiod := PAnch (Anchored TDay (a * us_hour) (b * us_hour)).
Lemma mk_static_both s e : mk_static (Some s) (Some e) = PStatic s e.
Proof. reflexivity. Qed.

Ltac hours_mk a b :=
  constr:(eq_refl : mk_anchored TDay (Some (VClock (a * us_hour))) (Some (VClock (b * us_hour))) false false false
                    = Ok (Anchored TDay (a * us_hour) (b * us_hour))).

Lemma hours_fwd a b :
  mk_anchored TDay (Some (VClock (a * us_hour))) (Some (VClock (b * us_hour))) false false false
    = Ok (Anchored TDay (a * us_hour) (b * us_hour)) ->
  acontains (Anchored TDay (a * us_hour) (b * us_hour)) (a * us_hour) = true ->
  fwd_tree (hours a b) /\ recurrent (hours a b) /\ back_tree (hours a b).
Proof.
  intros H1 H2. split; [|split].
  - exact (ft_fixed _ _ _ _ _ _ _ _ _ fc_day H1 H2).
  - exact (fixed_recurrent _ _ _ _ _ _ _ _ _ fc_day H1 H2).
  - exact (bt_fixed _ _ _ _ _ _ _ _ _ fc_day H1 H2).
Qed.
Ltac hours := apply hours_fwd; vm_compute; reflexivity.

Definition workdays : tperiod := PAnch (Anchored TWeek 0 (5 * us_day)).
Lemma workdays_ok : fwd_tree workdays /\ recurrent workdays /\ back_tree workdays.
Proof.
  assert (H1 : mk_anchored TWeek (Some (VUnit 0 None)) (Some (VUnit 4 None)) false false false = Ok (Anchored TWeek 0 (5 * us_day)))
    by (vm_compute; reflexivity).
  assert (H2 : acontains (Anchored TWeek 0 (5 * us_day)) 0 = true) by (vm_compute; reflexivity).
  split; [|split].
  - exact (ft_fixed _ _ _ _ _ _ _ _ _ fc_week H1 H2).
  - exact (fixed_recurrent _ _ _ _ _ _ _ _ _ fc_week H1 H2).
  - exact (bt_fixed _ _ _ _ _ _ _ _ _ fc_week H1 H2).
Qed.

Definition january : tperiod := PStatic (mk_datetime 2022 1 1 0 0 0 0) (mk_datetime 2022 2 1 0 0 0 0).
Definition ex_all : tperiod := PAll [hours 10 14; workdays; january].

Lemma ex_all_ok : fwd_tree ex_all /\ back_tree ex_all /\
  (exists u, mk_datetime 2022 1 1 0 0 0 0 <= u /\ moments ex_all u) /\
  rollforward 10 ex_all (mk_datetime 2022 1 1 12 0 0 0) =
    Returns (Interval (mk_datetime 2022 1 3 10 0 0 0) (mk_datetime 2022 1 3 14 0 0 0) CLeft) /\
  rollback 10 ex_all (mk_datetime 2022 1 9 12 0 0 0) =
    Returns (Interval (mk_datetime 2022 1 7 10 0 0 0) (mk_datetime 2022 1 7 14 0 0 0) CLeft).
Proof.
  assert (H : fwd_tree (hours 10 14) /\ recurrent (hours 10 14) /\ back_tree (hours 10 14)) by hours.
  pose proof workdays_ok as W.
  assert (J : mk_datetime 2022 1 1 0 0 0 0 <= mk_datetime 2022 2 1 0 0 0 0) by (vm_compute; discriminate).
  split; [|split; [|split; [|split]]].
  - apply ft_all; [discriminate|]. intros q [<-|[<-|[<-|[]]]]; [apply H|apply W|apply ft_static, J].
  - apply bt_all; [discriminate|]. intros q [<-|[<-|[<-|[]]]]; [apply H|apply W|apply bt_static, J].
  - exists (mk_datetime 2022 1 3 10 0 0 0). vm_compute. repeat split; discriminate.
  - vm_compute. reflexivity.
  - vm_compute. reflexivity.
Qed.

Definition ex_disjoint : list tperiod := [hours 8 9; hours 10 11].
Lemma ex_disjoint_ok : (forall q, In q ex_disjoint -> forward_ok q /\ recurrent q) /\
  (forall t, ~ moments (PAll ex_disjoint) t).
Proof.
  split.
  - intros q [<-|[<-|[]]].
    + assert (H : fwd_tree (hours 8 9) /\ recurrent (hours 8 9) /\ back_tree (hours 8 9)) by hours.
      split; [apply fwd_tree_ok|]; apply H.
    + assert (H : fwd_tree (hours 10 11) /\ recurrent (hours 10 11) /\ back_tree (hours 10 11)) by hours.
      split; [apply fwd_tree_ok|]; apply H.
  - intros t H. rewrite moments_all in H.
    pose proof (H (hours 8 9) ltac:(cbn; auto)) as H1. pose proof (H (hours 10 11) ltac:(cbn; auto)) as H2.
    unfold hours in H1, H2. cbn [moments] in H1, H2.
    change (8 * us_hour) with 28800000000 in H1. change (9 * us_hour) with 32400000000 in H1.
    change (10 * us_hour) with 36000000000 in H2. change (11 * us_hour) with 39600000000 in H2.
    unfold acontains in H1, H2.
    change (is_full (Anchored TDay 28800000000 32400000000)) with false in H1.
    change (is_full (Anchored TDay 36000000000 39600000000)) with false in H2.
    cbn [a_cls a_start a_end] in H1, H2. revert H1 H2. generalize (anchor_dt TDay t). intros m H1 H2.
    change (32400000000 <? 28800000000) with false in H1. change (39600000000 <? 36000000000) with false in H2.
    cbn [negb] in H1, H2. lia.
Qed.

Lemma forward_eventually p dt i n : rollforward n p dt = Returns i -> eventually (fun fuel => rollforward fuel p dt) i.
Proof. intros H. exists n. intros fuel Hf. rewrite (rollforward_mono p n) by (first [exact Hf|unfold done; congruence]). exact H. Qed.
Lemma back_eventually p dt i n : rollback n p dt = Returns i -> eventually (fun fuel => rollback fuel p dt) i.
Proof. intros H. exists n. intros fuel Hf. rewrite (rollback_mono p n) by (first [exact Hf|unfold done; congruence]). exact H. Qed.

Lemma ex_merge : exists ps dt i j,
  (forall q, In q ps -> fwd_tree q /\ recurrent q) /\
  eventually (fun fuel => rollforward fuel (PAny ps) dt) i /\
  (exists q, In q ps /\ eventually (fun fuel => rollforward fuel q dt) j) /\
  overlaps Z_ops i j = true /\ right i < right j.
Proof.
  exists [hours 8 18; hours 9 10; hours 12 20], (mk_datetime 2022 1 1 8 0 0 0),
    (Interval (mk_datetime 2022 1 1 8 0 0 0) (mk_datetime 2022 1 1 18 0 0 0) CLeft),
    (Interval (mk_datetime 2022 1 1 12 0 0 0) (mk_datetime 2022 1 1 20 0 0 0) CLeft).
  split; [|split; [|split; [|split]]].
  - intros q [<-|[<-|[<-|[]]]].
    + enough (H : fwd_tree (hours 8 18) /\ recurrent (hours 8 18) /\ back_tree (hours 8 18)) by (split; apply H). hours.
    + enough (H : fwd_tree (hours 9 10) /\ recurrent (hours 9 10) /\ back_tree (hours 9 10)) by (split; apply H). hours.
    + enough (H : fwd_tree (hours 12 20) /\ recurrent (hours 12 20) /\ back_tree (hours 12 20)) by (split; apply H). hours.
  - apply forward_eventually with (n := 1%nat). vm_compute. reflexivity.
  - exists (hours 12 20). split; [cbn; auto|]. apply forward_eventually with (n := 1%nat). vm_compute. reflexivity.
  - vm_compute. reflexivity.
  - vm_compute. reflexivity.
Qed.

Lemma ex_lost_moment : exists ps t,
  (forall q, In q ps -> fwd_tree q) /\ (exists q, In q ps /\ moments q t) /\
  eventually (fun fuel => pcontains fuel (PAny ps) t) false.
Proof.
  exists [january; PStatic (mk_datetime 2022 1 15 0 0 0 0) (mk_datetime 2022 3 1 0 0 0 0)], (mk_datetime 2022 2 1 0 0 0 0).
  split; [|split].
  - intros q [<-|[<-|[]]]; apply ft_static; vm_compute; discriminate.
  - eexists. split; [right; left; reflexivity|]. vm_compute. split; [discriminate|reflexivity].
  - exists O. intros fuel _. vm_compute. reflexivity.
Qed.

Lemma ex_rollback_empty : exists ps t i,
  (forall q, In q ps -> back_tree q) /\ moments (PAny ps) (t - 1) /\
  eventually (fun fuel => rollback fuel (PAny ps) t) i /\ forall u, ~ zmem u i.
Proof.
  exists [hours 10 12; hours 8 18], (mk_datetime 2022 1 1 10 0 0 0),
    (Interval (mk_datetime 2022 1 1 10 0 0 0) (mk_datetime 2022 1 1 10 0 0 0) CLeft).
  split; [|split; [|split]].
  - intros q [<-|[<-|[]]].
    + enough (H : fwd_tree (hours 10 12) /\ recurrent (hours 10 12) /\ back_tree (hours 10 12)) by apply H. hours.
    + enough (H : fwd_tree (hours 8 18) /\ recurrent (hours 8 18) /\ back_tree (hours 8 18)) by apply H. hours.
  - vm_compute. right. left. reflexivity.
  - exists O. intros fuel _. vm_compute. reflexivity.
  - intros u H. apply zmem_left in H. lia.
Qed.

Lemma ex_union_ok :
  rollforward 5 (PAny [PAnch (Anchored TDay (8 * us_hour) (12 * us_hour)); PAnch (Anchored TDay (10 * us_hour) (14 * us_hour))])
     (mk_datetime 2022 1 1 9 0 0 0) = Returns (Interval (mk_datetime 2022 1 1 9 0 0 0) (mk_datetime 2022 1 1 14 0 0 0) CLeft) /\
  rollback 5 (PAny [PAnch (Anchored TDay (8 * us_hour) (12 * us_hour)); PAnch (Anchored TDay (10 * us_hour) (14 * us_hour))])
     (mk_datetime 2022 1 1 11 0 0 0) = Returns (Interval (mk_datetime 2022 1 1 8 0 0 0) (mk_datetime 2022 1 1 11 0 0 0) CLeft) /\
  (forall q, In q [PAnch (Anchored TDay (8 * us_hour) (12 * us_hour)); PAnch (Anchored TDay (10 * us_hour) (14 * us_hour))] ->
     fwd_tree q /\ recurrent q /\ back_tree q).
Proof.
  split; [vm_compute; reflexivity|]. split; [vm_compute; reflexivity|].
  intros q [<-|[<-|[]]].
  - apply (hours_fwd 8 12); vm_compute; reflexivity.
  - apply (hours_fwd 10 14); vm_compute; reflexivity.
Qed.

Lemma ex_all_of_always : exists args p, mk_all args = Ok p /\
  (forall q t, In q args -> p_min <= t < p_max -> moments q t) /\
  forall fuel t, pcontains (S fuel) p t = Raises TypeError.
Proof.
  exists [PAlways], (PAll []). split; [reflexivity|]. split.
  - intros q t [<-|[]] Ht. exact Ht.
  - intros fuel t. reflexivity.
Qed.

Definition ex_expr : pexpr := EAnd (EAtom PAlways) (EOr (EAnd (EAtom (hours 10 14)) (EAtom workdays)) (EAtom (hours 20 21))).
Lemma ex_expr_ok : recurring_expr ex_expr /\
  pcontains 5 (build ex_expr) (mk_datetime 2022 1 3 10 0 0 0) = Returns true /\
  pcontains 5 (build ex_expr) (mk_datetime 2022 1 3 14 0 0 0) = Returns false /\
  p_min <= mk_datetime 2022 1 3 10 0 0 0 < p_max.
Proof.
  assert (H : fwd_tree (hours 10 14) /\ recurrent (hours 10 14) /\ back_tree (hours 10 14)) by hours.
  assert (H' : fwd_tree (hours 20 21) /\ recurrent (hours 20 21) /\ back_tree (hours 20 21)) by hours.
  pose proof workdays_ok as W.
  split; [|vm_compute; repeat split; discriminate].
  apply re_and; [apply re_always|]. apply re_or.
  - apply re_and; apply re_atom; (apply H || apply W).
  - apply re_atom; apply H'.
  - right. cbn [build]. intros dt.
    exists (((dt / (7 * us_day)) + 1) * (7 * us_day) + 10 * us_hour). split.
    { pose proof (Z.div_mod dt (7 * us_day) ltac:(vm_compute; discriminate)) as D.
      pose proof (Z.mod_pos_bound dt (7 * us_day) ltac:(vm_compute; reflexivity)) as B.
      assert (0 <= 10 * us_hour) by (vm_compute; discriminate). lia. }
    change (p_and (hours 10 14) workdays) with (PAll [hours 10 14; workdays]).
    set (k := dt / (7 * us_day) + 1). clearbody k.
    apply moments_all. intros q [<-|[<-|[]]]; cbn [moments hours workdays].
    + pose proof (fixed_clock_range TDay us_day (Some (VClock (10 * us_hour))) (Some (VClock (14 * us_hour))) false false false
        (Anchored TDay (10 * us_hour) (14 * us_hour)) (k * (7 * us_day) + 10 * us_hour) fc_day eq_refl) as E.
      apply E. cbn [a_start a_end]. replace (k * (7 * us_day) + 10 * us_hour) with (10 * us_hour + (k * 7) * us_day) by lia.
      rewrite Z.mod_add by (vm_compute; discriminate).
      right; left. vm_compute. repeat split; try discriminate; try reflexivity.
    + pose proof (fixed_clock_range TWeek (7 * us_day) (Some (VUnit 0 None)) (Some (VUnit 4 None)) false false false
        (Anchored TWeek 0 (5 * us_day)) (k * (7 * us_day) + 10 * us_hour) fc_week eq_refl) as E.
      apply E. cbn [a_start a_end]. replace (k * (7 * us_day) + 10 * us_hour) with (10 * us_hour + k * (7 * us_day)) by lia.
      rewrite Z.mod_add by (vm_compute; discriminate).
      right; left. vm_compute. repeat split; try discriminate; try reflexivity.
  - right. cbn [build]. apply H'.
Qed.
