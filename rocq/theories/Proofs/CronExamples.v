From Coq Require Import Bool Arith Lia ZifyBool.
From Verif Require Import Model.Base Model.Interval Model.Calendar Model.Anchored Model.Period Model.Cron
  Spec.IntervalSpec Spec.CalendarSpec Spec.PeriodSpec Spec.AlgebraSpec Spec.CronSpec
  Proofs.IntervalProofs Proofs.CalendarProofs Proofs.AnchoredProofs Proofs.FixedCycleProofs Proofs.ClockProofs
  Proofs.AlgebraProofs Proofs.PeriodProofs Proofs.CronProofs Proofs.CronForwardProofs.
Open Scope Z_scope.


Ltac crack := 
  repeat match goal with
  | H : In _ (_ :: _) |- _ => destruct H as [<-|H]
  | H : In _ [] |- _ => destruct H
  | H : In _ star |- _ => unfold star in H
  end.
Ltac fields := unfold field_ok; split; [discriminate|]; split;
  [intros it Hit; crack; cbn [item_ok value_ok number first_number last_number]; unfold value_ok; cbn; repeat split; try lia; auto
  |try (left; intros it Hit; crack; reflexivity); right; intros it Hit; crack; discriminate].

Lemma ex_line_ok : cron_ok ex_line /\ every_month ex_line.
Proof.
  split.
  - unfold cron_ok, ex_line, star; cbn [c_minute c_hour c_dom c_month c_dow].
    split; [|split; [|split; [|split]]].
    + unfold field_ok. split; [discriminate|]. split; [|right; intros it [<-|[]]; discriminate].
      intros it [<-|[]]. cbn. split; [lia|left; discriminate].
    + unfold field_ok. split; [discriminate|]. split; [|right; intros it [<-|[]]; discriminate].
      intros it [<-|[]]. cbn. unfold value_ok. cbn. split; [lia|]. split; [lia|]. intros [X _]; discriminate.
    + unfold field_ok. split; [discriminate|]. split; [|right; intros it [<-|[<-|[]]]; discriminate].
      intros it [<-|[<-|[]]]; cbn; unfold value_ok; cbn; lia.
    + unfold field_ok. split; [discriminate|]. split; [|left; intros it [<-|[]]; reflexivity].
      intros it [<-|[]]. exact I.
    + unfold field_ok. split; [discriminate|]. split; [|right; intros it [<-|[]]; discriminate].
      intros it [<-|[]]. cbn. unfold value_ok. cbn. split; [split; [lia|split; [auto|lia]]|].
      split; [split; [lia|split; [auto|lia]]|]. intros [_ [X _]]; discriminate.
  - split.
    + intros [it [[<-|[]] H]]. apply H. reflexivity.
    + intros it x [<-|[<-|[]]] _ H; cbn in H; lia.
Qed.

Lemma star_field c t : cron_cls c -> field_match c star t.
Proof. intros Hc. apply field_match_items. exists CStar. split; [left; reflexivity|apply star_match, Hc]. Qed.
Lemma star_free : ~ restricted star.
Proof. intros [it [[<-|[]] H]]. apply H. reflexivity. Qed.

(** a line with one restricted field *)
Lemma line_minute f t : cron_match (Cron f star star star star) t <-> field_match THour f t.
Proof.
  unfold cron_match. cbn [c_minute c_hour c_dom c_month c_dow].
  pose proof (star_field TDay t ltac:(unfold cron_cls; tauto)). pose proof (star_field TMonth t ltac:(unfold cron_cls; tauto)).
  pose proof (star_field TYear t ltac:(unfold cron_cls; tauto)). pose proof (star_field TWeek t ltac:(unfold cron_cls; tauto)).
  pose proof star_free. tauto.
Qed.
Lemma line_dow f t : cron_match (Cron star star star star f) t <-> field_match TWeek f t.
Proof.
  unfold cron_match. cbn [c_minute c_hour c_dom c_month c_dow].
  pose proof (star_field TDay t ltac:(unfold cron_cls; tauto)). pose proof (star_field TMonth t ltac:(unfold cron_cls; tauto)).
  pose proof (star_field TYear t ltac:(unfold cron_cls; tauto)). pose proof (star_field THour t ltac:(unfold cron_cls; tauto)).
  pose proof star_free. tauto.
Qed.
Lemma line_month f t : cron_match (Cron star star star f star) t <-> field_match TYear f t.
Proof.
  unfold cron_match. cbn [c_minute c_hour c_dom c_month c_dow].
  pose proof (star_field TDay t ltac:(unfold cron_cls; tauto)). pose proof (star_field TMonth t ltac:(unfold cron_cls; tauto)).
  pose proof (star_field TWeek t ltac:(unfold cron_cls; tauto)). pose proof (star_field THour t ltac:(unfold cron_cls; tauto)).
  pose proof star_free. tauto.
Qed.


Lemma step_range_wrong :
  cron_match step_range monday /\ cron_contains 5 step_range monday = Returns false /\
  ~ cron_match step_range (monday + us_day) /\ cron_contains 5 step_range (monday + us_day) = Returns true.
Proof.
  unfold step_range. rewrite !line_dow.
  split; [|split; [vm_compute; reflexivity|split; [|vm_compute; reflexivity]]].
  - exists (CRange (CNum 1) (CNum 5) (Some 2)), 1. split; [left; reflexivity|]. cbn [first_number last_number selects number].
    split; [lia|]. split; [split; [lia|reflexivity]|]. left. vm_compute. reflexivity.
  - intros [it [x [[<-|[]] [Hx [[H1 H2] H3]]]]]. unfold shows in H3.
    replace (unit_number TWeek (monday + us_day)) with 2 in H3 by (vm_compute; reflexivity).
    cbn [number] in *. destruct H3 as [->|[_ [-> H3]]]; [discriminate|lia].
Qed.

Lemma value_step_wrong : cron_match value_step (mk_datetime 2024 6 3 12 20 0 0) /\
  forall fuel t, cron_contains fuel value_step t = OutOfFuel.
Proof.
  split.
  - unfold value_step. rewrite line_minute. exists (CAt (CNum 5) (Some 15)), 20. split; [left; reflexivity|].
    cbn [first_number last_number selects number]. split; [lia|]. split; [split; [lia|reflexivity]|]. left. vm_compute. reflexivity.
  - intros fuel t. unfold cron_contains, cron_rollforward.
    assert (E0 : exists p5, period_at THour (VInt 5) = Ok p5) by (eexists; reflexivity). destruct E0 as [p5 E5].
    destruct (create_range_ok THour 0 60 15) as [q [Eq [Pq Mq]]]; [unfold cron_cls; tauto|lia|exists 0; cbn; lia|].
    assert (Gq : good q) by (apply (good_create_range THour 0 60 15); [unfold cron_cls; tauto|discriminate|lia|discriminate|exact Eq]).
    assert (G5 : good (PAnch p5)) by (apply (good_at THour 5); [unfold cron_cls; tauto|discriminate|cbn; lia|discriminate|exact E5]).
    assert (Es : exists ps, q = PAny ps).
    { revert Eq. unfold create_range. destruct (15 =? 0); [discriminate|]. intros H. apply bind_ok in H. destruct H as [bs [_ H]].
      unfold mk_any in H. destruct bs; [discriminate|]. apply Ok_inj in H. subst q. eexists; reflexivity. }
    destruct Es as [ps ->].
    assert (Esub : get_subperiod value_step = Ok (PAll [PAnch p5; PAny ps; PAnch minutely])).
    { unfold get_subperiod, value_step. cbn [c_minute c_hour c_dom c_month c_dow].
      unfold get_field, star. cbn [field_period item_period bind units cval_arg conv]. rewrite Eq. cbn [bind]. rewrite E5. reflexivity. }
    rewrite Esub. cbn [of_result obind].
    rewrite all_no_common; [reflexivity|discriminate| |].
    + assert (Gm : good (PAnch minutely)).
      { apply (good_fixed TMinute _ None None false false false minutely fc_minute eq_refl). vm_compute. reflexivity. }
      intros x [<-|[<-|[<-|[]]]]; (split; [apply fwd_tree_ok|]); first [apply G5|apply Gq|apply Gm].
    + intros u H. rewrite moments_all in H.
      pose proof (H (PAnch p5) (or_introl eq_refl)) as H5. pose proof (H (PAny ps) (or_intror (or_introl eq_refl))) as Hq.
      cbn [moments] in H5. rewrite (period_at_int THour 5 p5 u ltac:(discriminate) ltac:(cbn; lia) E5) in H5.
      apply Mq in Hq; [|apply settled_any; discriminate]. rewrite H5 in Hq. destruct Hq as [_ Hq]. discriminate.
Qed.

Lemma star_in_list_wrong : cron_match star_in_list monday /\ cron_contains 5 star_in_list monday = Returns false.
Proof.
  split; [|vm_compute; reflexivity]. unfold star_in_list. rewrite line_minute. apply field_match_items.
  exists CStar. split; [left; reflexivity|]. apply star_match. unfold cron_cls; tauto.
Qed.

Lemma dow_step_wrong : ~ cron_match dow_step monday /\ cron_contains 5 dow_step monday = Returns true.
Proof.
  split; [|vm_compute; reflexivity]. unfold dow_step. rewrite line_dow.
  intros [it [x [[<-|[]] [Hx [H2 H3]]]]]. unfold shows in H3.
  replace (unit_number TWeek monday) with 1 in H3 by (vm_compute; reflexivity).
  cbn [selects first_number] in *. destruct H3 as [->|[_ [-> H3]]]; [discriminate|lia].
Qed.

Lemma dow_0_7_wrong : cron_match dow_0_7 monday /\ cron_contains 5 dow_0_7 monday = Returns false.
Proof.
  split; [|vm_compute; reflexivity]. unfold dow_0_7. rewrite line_dow. exists (CRange (CNum 0) (CNum 7) None), 1.
  split; [left; reflexivity|]. cbn [first_number last_number selects number]. split; [lia|].
  split; [left; lia|]. left. vm_compute. reflexivity.
Qed.

Lemma may_wrong : cron_match may (mk_datetime 2024 5 31 23 59 59 999999) /\
  cron_contains 5 may (mk_datetime 2024 5 31 23 59 59 999999) = Returns false.
Proof.
  split; [|vm_compute; reflexivity]. unfold may. rewrite line_month. exists (CAt (CNum 5) None), 5.
  split; [left; reflexivity|]. cbn [first_number last_number selects number]. split; [lia|].
  split; [reflexivity|]. left. vm_compute. reflexivity.
Qed.

Lemma day31_wrong : cron_ok day31 /\ forall fuel, cron_contains (S fuel) day31 (mk_datetime 2023 2 10 0 0 0 0) = Raises ValueError.
Proof.
  split; [|intros fuel; vm_compute; reflexivity].
  unfold cron_ok, day31, star; cbn [c_minute c_hour c_dom c_month c_dow].
  assert (S1 : forall c, field_ok c [CStar]).
  { intros c. split; [discriminate|]. split; [intros it [<-|[]]; exact I|left; intros it [<-|[]]; reflexivity]. }
  split; [apply S1|]. split; [apply S1|]. split; [|split; apply S1].
  split; [discriminate|]. split; [|right; intros it [<-|[]]; discriminate].
  intros it [<-|[]]; cbn; unfold value_ok; cbn; lia.
Qed.

Lemma june_first_wrong :
  cron_match june_first (mk_datetime 2023 6 1 0 0 0 0) /\
  cron_contains 5 june_first (mk_datetime 2023 6 1 0 0 0 0) = Returns true /\
  exists i, cron_rollforward 20 june_first (mk_datetime 2023 1 15 0 0 0 0) = Returns i /\
    left i = mk_datetime 2024 6 1 0 0 0 0.
Proof.
  split; [|split; [vm_compute; reflexivity|]].
  - assert (G : forall c n t, first_number c <= n <= last_number c -> unit_number c t = n -> field_match c [CAt (CNum n) None] t).
    { intros c n t H E. exists (CAt (CNum n) None), n. split; [left; reflexivity|]. split; [exact H|].
      split; [reflexivity|left; symmetry; exact E]. }
    unfold cron_match, june_first. cbn [c_minute c_hour c_dom c_month c_dow].
    split; [apply G; [cbn; lia|vm_compute; reflexivity]|].
    split; [apply G; [cbn; lia|vm_compute; reflexivity]|].
    split; [apply G; [cbn; lia|vm_compute; reflexivity]|].
    right. split; [intros [_ X]; apply (star_free X)|]. split; [apply G; [cbn; lia|vm_compute; reflexivity]|].
    apply star_field. unfold cron_cls; tauto.
  - eexists. split; vm_compute; reflexivity.
Qed.

Lemma june_first_ok : cron_ok june_first /\ month_settled june_first (mk_datetime 2023 6 1 0 0 0 0) /\
  no_31_missing june_first (mk_datetime 2023 6 1 0 0 0 0).
Proof.
  assert (S1 : field_ok TWeek star) by (split; [discriminate|]; split; [intros it [<-|[]]; exact I|left; intros it [<-|[]]; reflexivity]).
  assert (G : forall c n, first_number c <= n <= last_number c -> field_ok c [CAt (CNum n) None]).
  { intros c n H. split; [discriminate|]. split; [|right; intros it [<-|[]]; discriminate].
    intros it [<-|[]]. cbn [item_ok]. split; [exact H|exact I]. }
  split.
  - unfold cron_ok, june_first; cbn [c_minute c_hour c_dom c_month c_dow].
    split; [apply G; cbn; lia|]. split; [apply G; cbn; lia|]. split; [apply G; cbn; lia|]. split; [apply G; cbn; lia|exact S1].
  - split.
    + intros _. unfold last_microsecond_of_month. vm_compute. intros H. intuition discriminate.
    + intros it [<-|[]] _. cbn [selects number]. discriminate.
Qed.
