From Coq Require Import Bool Arith Lia ZifyBool.
From Verif Require Import Model.Base Model.Interval Model.Calendar Model.Anchored Model.Period Model.Cron
  Spec.IntervalSpec Spec.CalendarSpec Spec.PeriodSpec Spec.AlgebraSpec Spec.CronSpec
  Proofs.IntervalProofs Proofs.CalendarProofs Proofs.AnchoredProofs Proofs.FixedCycleProofs Proofs.ClockProofs
  Proofs.MonthProofs Proofs.YearProofs Proofs.AlgebraProofs Proofs.PeriodProofs Proofs.CronProofs.
Open Scope Z_scope.

Definition good (p : tperiod) : Prop := fwd_tree p /\ recurrent p.

Lemma good_fixed c L st en tp sg rc p : fixed_cycle c L -> mk_anchored c st en tp sg rc = Ok p -> a_start p < L ->
  good (PAnch p).
Proof.
  intros HL Hp Hs. destruct (mk_anchored_bounds _ _ _ _ _ _ _ Hp) as [_ [Hb _]].
  assert (Hu : acontains p (a_start p) = true).
  { rewrite (fixed_clock_range _ _ _ _ _ _ _ _ _ HL Hp). rewrite Z.mod_small by lia. unfold clock_range. lia. }
  split.
  - eapply ft_fixed; eassumption.
  - exact (fixed_recurrent _ _ _ _ _ _ _ _ _ HL Hp Hu).
Qed.

Lemma good_month s e : 0 <= s < e -> e <= 28 * us_day -> good (PAnch (Anchored TMonth s e)).
Proof.
  intros Hs He. split.
  - apply ft_month; lia.
  - intros dt. exists (month_begin (month_index dt + 1) + s). split.
    + pose proof (month_index_bounds dt). lia.
    + cbn [moments]. rewrite month_contains_iff by lia. exists (month_index dt + 1). unfold occ_start, occ_end.
      destruct (Z_lt_dec s e); lia.
Qed.

Lemma good_at c n p : cron_cls c -> c <> TYear -> unit_range c n -> (c = TMonth -> n <= 28) ->
  period_at c (VInt n) = Ok p -> good (PAnch p).
Proof.
  intros Hc Hy Hn Hm Hp. pose proof Hp as Hp'. unfold period_at, mk_anchored in Hp'.
  apply bind_ok in Hp'. destruct Hp' as [s [Hs Hp']]. apply bind_ok in Hp'. destruct Hp' as [e [He Hp']].
  apply Ok_inj in Hp'. subst p.
  unfold set_start in Hs. apply bind_ok in Hs. destruct Hs as [ms [Hs1 Hs]]. apply validate_ok in Hs. destruct Hs as [-> _].
  unfold set_end in He. apply bind_ok in He. destruct He as [me [He1 He]]. apply validate_ok in He. destruct He as [-> _].
  destruct Hc as [-> | [-> | [-> | [-> | ->]]]]; cbn [unit_range anchor anchor_int] in *; try contradiction;
  match type of Hs1 with context [(?a <=? ?b) && (?c <=? ?d)] => replace ((a <=? b) && (c <=? d)) with true in Hs1 by lia end;
  apply Ok_inj in Hs1; unfold anchor_int_base in Hs1; cbn [is_end unit_resolution] in Hs1.
  - apply (good_fixed THour _ _ _ _ _ _ _ fc_hour Hp). cbn [a_start]. change (60 * 60 * 10 ^ 6) with us_hour. unfold us_hour, us_minute in *. lia.
  - apply (good_fixed TDay _ _ _ _ _ _ _ fc_day Hp). cbn [a_start]. change (24 * 60 * 60 * 10 ^ 6) with us_day. unfold us_hour, us_day in *. lia.
  - cbn [to_timepoint scope_max unit_resolution] in He1. apply Ok_inj in He1. specialize (Hm eq_refl).
    assert (E : me = ms + us_day) by (destruct (Z.leb_spec (31 * us_day) (ms + us_day)); unfold us_day in *; lia).
    apply good_month; unfold us_day in *; lia.
  - apply (good_fixed TWeek _ _ _ _ _ _ _ fc_week Hp). cbn [a_start]. change (7 * 24 * 60 * 60 * 10 ^ 6) with (7 * us_day). unfold us_day in *. lia.
Qed.

Lemma good_range c a b p : cron_cls c -> c <> TYear -> unit_range c a -> unit_range c b -> (c = TMonth -> a <= b <= 28) ->
  period c (Some (VInt a)) (Some (VInt b)) = Ok p -> good (PAnch p).
Proof.
  intros Hc Hy Ha Hb Hm Hp. destruct (mk_anchored_both _ _ _ _ Hp) as [Hs He].
  destruct (mk_anchored_bounds _ _ _ _ _ _ _ Hp) as [Hcl _].
  destruct Hc as [-> | [-> | [-> | [-> | ->]]]]; cbn [unit_range anchor anchor_int] in *; try contradiction;
  match type of Hs with context [(?a <=? ?b) && (?c <=? ?d)] => replace ((a <=? b) && (c <=? d)) with true in Hs by lia end;
  match type of He with context [(?a <=? ?b) && (?c <=? ?d)] => replace ((a <=? b) && (c <=? d)) with true in He by lia end;
  apply Ok_inj in Hs; apply Ok_inj in He; unfold anchor_int_base in Hs, He; cbn [is_end unit_resolution] in Hs, He.
  - apply (good_fixed THour _ _ _ _ _ _ _ fc_hour Hp). change (60 * 60 * 10 ^ 6) with us_hour. unfold us_hour, us_minute in *. lia.
  - apply (good_fixed TDay _ _ _ _ _ _ _ fc_day Hp). change (24 * 60 * 60 * 10 ^ 6) with us_day. unfold us_hour, us_day in *. lia.
  - destruct p as [c s e]. cbn [a_cls a_start a_end] in *. subst c. specialize (Hm eq_refl).
    apply good_month; unfold us_day in *; lia.
  - apply (good_fixed TWeek _ _ _ _ _ _ _ fc_week Hp). change (7 * 24 * 60 * 60 * 10 ^ 6) with (7 * us_day). unfold us_day in *. lia.
Qed.

Lemma map_result_in {A B} (f : A -> result B) l : forall bs, map_result f l = Ok bs -> Forall2 (fun a b => f a = Ok b) l bs.
Proof.
  induction l as [|a l IH]; intros bs; cbn [map_result].
  - intros H. apply Ok_inj in H. subst. constructor.
  - intros H. apply bind_ok in H. destruct H as [b [E H]]. apply bind_ok in H. destruct H as [bs' [E2 H]].
    apply Ok_inj in H. subst bs. constructor; [exact E|apply IH, E2].
Qed.

Lemma good_create_range c a b s p : cron_cls c -> c <> TYear -> 0 < s ->
  (c = TMonth -> forall i, 0 <= i < 31 -> a <= i < b -> (i - a) mod s = 0 -> i + 1 <= 28) ->
  create_range c a b s = Ok p -> good p.
Proof.
  intros Hc Hy Hs Hm. unfold create_range. destruct (Z.eqb_spec s 0); [lia|].
  intros H. apply bind_ok in H. destruct H as [bs [E H]]. apply map_result_in in E.
  assert (Hat : forall q, In q bs -> good q /\ exists p, q = PAnch p).
  { intros q Hq. destruct (Forall2_in_r _ _ _ _ E Hq) as [i [Hi Ei]]. apply slice_in in Hi. destruct Hi as [Hr [Hab Hmd]].
    rewrite (name_at c i Hc Hr) in Ei. apply bind_ok in Ei. destruct Ei as [r [Er Ei]]. apply Ok_inj in Ei. subst q.
    split; [|exists r; reflexivity].
    apply (good_at c (i + base c) r Hc Hy); [rewrite unit_range_base by exact Hc; lia| |exact Er].
    intros ->. cbn [base units] in *. apply (Hm eq_refl); assumption. }
  assert (Hflat : forall l acc, (forall q, In q l -> exists p, q = PAnch p) -> any_members acc l = acc ++ l).
  { induction l as [|q l IH]; intros acc Hl; cbn [any_members]; [rewrite app_nil_r; reflexivity|].
    destruct (Hl q (or_introl eq_refl)) as [r ->]. rewrite IH by (intros; apply Hl; right; assumption).
    rewrite <- app_assoc. reflexivity. }
  unfold mk_any in H. destruct bs as [|q0 bs'] eqn:Eb; [discriminate|]. rewrite <- Eb in *.
  rewrite Hflat in H by (intros q Hq; apply Hat, Hq). apply Ok_inj in H. cbn [app] in H. subst p.
  split.
  - apply ft_any; [rewrite Eb; discriminate| |]; intros q Hq; apply Hat, Hq.
  - intros dt. destruct (Hat q0) as [[_ R] _]; [rewrite Eb; left; reflexivity|].
    destruct (R dt) as [u [Hu M]]. exists u. split; [exact Hu|]. apply moments_any. exists q0. split; [rewrite Eb; left; reflexivity|exact M].
Qed.

Lemma good_item c it p : cron_cls c -> c <> TYear -> item_ok c it -> it <> CStar ->
  (c = TMonth -> forall x, selects c it x -> 1 <= x <= 31 -> x <= 28) ->
  item_period c it = Ok (Some p) -> good p.
Proof.
  intros Hc Hy Hok Hns Hm. destruct it as [|step|v step|a b step]; [contradiction| | |]; cbn [item_period item_ok selects] in *.
  - intros H. apply bind_ok in H. destruct H as [q [E H]]. apply Ok_inj in H. injection H as <-.
    cbn [p_and is_always]. apply (good_create_range _ _ _ _ _ Hc Hy (proj1 Hok)) in E; [exact E|].
    intros -> i Hi _ Hmd. apply (Hm eq_refl); [|lia]. cbn [first_number]. replace (i + 1 - 1) with (i - 0) by lia. exact Hmd.
  - destruct step as [step|]; [destruct Hok|]. cbn [bind]. rewrite (value_at c v Hc Hok).
    intros H. apply bind_ok in H. destruct H as [q [E H]]. apply Ok_inj in H. injection H as <-. cbn [p_and is_always].
    apply (good_at c (num c v) q Hc Hy (value_range c v Hc Hok)); [|exact E].
    intros ->. destruct v as [n|k]; [|destruct Hok as [_ [[X|X] _]]; discriminate].
    destruct Hok as [Hv _]. cbn [num conv number first_number last_number] in *. apply (Hm eq_refl); [reflexivity|lia].
  - destruct step as [step|].
    + destruct Hok as [Ha [Hb [Hab [Hs Hty]]]].
      assert (Hnm : c <> TMonth).
      { intros ->. destruct a, b; try contradiction; [destruct Hty; discriminate|]. destruct Ha as [_ [[X|X] _]]; discriminate. }
      intros H. apply bind_ok in H. destruct H as [q [E H]]. apply bind_ok in H. destruct H as [ie [E2 H]].
      apply bind_ok in H. destruct H as [ia [E3 H]]. apply bind_ok in H. destruct H as [r [E4 H]]. apply Ok_inj in H. injection H as <-.
      apply (good_create_range _ _ _ _ _ Hc Hy Hs) in E4; [exact E4|]. intros X. contradiction.
    + destruct Hok as [Ha [Hb _]]. rewrite (value_period c a b Hc Ha Hb).
      intros H. apply bind_ok in H. destruct H as [q [E H]]. apply Ok_inj in H. injection H as <-.
      apply (good_range c (num c a) (num c b) q Hc Hy (value_range c a Hc Ha) (value_range c b Hc Hb)); [|exact E].
      intros ->. destruct a as [na|ka]; [|destruct Ha as [_ [[X|X] _]]; discriminate].
      destruct b as [nb|kb]; [|destruct Hb as [_ [[X|X] _]]; discriminate].
      destruct Ha as [Ha _], Hb as [Hb _]. cbn [num conv number first_number last_number] in *.
      specialize (Hm eq_refl). pose proof (Hm nb ltac:(unfold cyc_between; lia) ltac:(lia)).
      destruct (Z_le_gt_dec na nb); [lia|]. specialize (Hm 31 ltac:(unfold cyc_between; lia) ltac:(lia)). lia.
Qed.

Lemma good_or a b : good a -> good b -> good (p_or a b).
Proof.
  intros [Fa Ra] [Fb Rb].
  assert (F : fwd_tree (p_or a b)) by (apply fwd_tree_or; auto).
  split; [exact F|].
  unfold p_or in *. destruct (is_always a) eqn:Ea.
  { apply is_always_eq in Ea. subst a. exact Ra. }
  destruct (is_always b) eqn:Eb; cbn [orb] in *.
  { apply is_always_eq in Eb. subst b. exact Rb. }
  intros dt. destruct (Ra dt) as [u [Hu M]]. exists u. split; [exact Hu|].
  assert (G : exists l, (forall args, any_members [] (a :: args) = any_members l args) /\ exists q, In q l /\ moments q u).
  { destruct a; try discriminate; try (eexists [_]; split; [reflexivity|]; eexists; split; [left; reflexivity|exact M]).
    exists ps. split; [reflexivity|]. apply moments_any, M. }
  destruct G as [l [E [q [Hq Mq]]]]. rewrite E. apply moments_any. exists q. split; [|exact Mq].
  destruct b; try discriminate; cbn [any_members]; apply in_or_app; left; exact Hq.
Qed.

Lemma good_fields c items : cron_cls c -> c <> TYear ->
  (forall it, In it items -> item_ok c it /\ it <> CStar /\
     (c = TMonth -> forall x, selects c it x -> 1 <= x <= 31 -> x <= 28)) ->
  forall full p, good full -> field_period c (Some full) items = Ok (Some p) -> good p.
Proof.
  intros Hc Hy. induction items as [|it items IH]; intros Hit full p Gf; cbn [field_period].
  - intros H. apply Ok_inj in H. injection H as <-. exact Gf.
  - destruct (Hit it (or_introl eq_refl)) as [Hok [Hns Hm]].
    destruct (item_moments c it Hc Hok Hns) as [q [E _]]. rewrite E. cbn [bind].
    apply IH; [intros; apply Hit; right; assumption|]. apply good_or; [exact Gf|].
    apply (good_item c it q Hc Hy Hok Hns Hm E).
Qed.

Lemma good_field c items p : cron_cls c -> c <> TYear -> field_ok c items ->
  (c = TMonth -> forall it x, In it items -> it <> CStar -> selects c it x -> 1 <= x <= 31 -> x <= 28) ->
  get_field c items = Ok p -> p = PAlways \/ good p.
Proof.
  intros Hc Hy Hf Hm H. destruct (field_moments c items Hc Hf) as [p' [E' [_ A]]].
  rewrite H in E'. apply Ok_inj in E'. subst p'. destruct Hf as [Hne [Hok Hst]].
  destruct Hst as [Hst|Hst].
  - left. apply is_always_eq, A. intros [it [Hi Hn]]. apply Hn, Hst, Hi.
  - right. destruct items as [|it items]; [contradiction|]. unfold get_field in H. cbn [field_period] in H.
    destruct (item_moments c it Hc (Hok it (or_introl eq_refl)) (Hst it (or_introl eq_refl))) as [q [E _]].
    rewrite E in H. cbn [bind] in H. apply bind_ok in H. destruct H as [o [E2 H]]. apply Ok_inj in H.
    destruct o as [r|]; subst p.
    + apply (good_fields c items Hc Hy) with (3 := E2).
      * intros it' Hi. split; [apply Hok; right; exact Hi|]. split; [apply Hst; right; exact Hi|].
        intros X x. apply Hm; [exact X|right; exact Hi|apply Hst; right; exact Hi].
      * apply (good_item c it q Hc Hy); [apply Hok; left; reflexivity|apply Hst; left; reflexivity| |exact E].
        intros X x. apply Hm; [exact X|left; reflexivity|apply Hst; left; reflexivity].
    + exfalso. revert E2. clear. generalize q. induction items as [|i l IH]; intros q'; cbn [field_period]; [discriminate|].
      destruct (item_period c i) as [[r|]|]; cbn [bind]; [apply IH|apply IH|discriminate].
Qed.

Lemma field_val_forward ok p M c items : field_val ok p M -> (forall t, ok t) -> p = PAlways \/ good p -> M = field_match c items ->
  forall dt, exists u, dt <= u /\ M u.
Proof.
  intros V Hok G _ dt. destruct V as [[_ H]|[P H]].
  - exists dt. split; [lia|apply H].
  - destruct G as [->|[_ R]]; [inversion P|]. destruct (R dt) as [u [Hu Mu]]. exists u. split; [exact Hu|]. apply H; auto.
Qed.

Lemma match_same c items t u : unit_number c t = unit_number c u -> field_match c items t -> field_match c items u.
Proof. intros E [it [x H]]. exists it, x. rewrite <- E. exact H. Qed.

Definition day_match (e : cron) (t : Z) : Prop :=
  (restricted (c_dom e) /\ restricted (c_dow e) /\ (field_match TMonth (c_dom e) t \/ field_match TWeek (c_dow e) t)) \/
  (~ (restricted (c_dom e) /\ restricted (c_dow e)) /\ field_match TMonth (c_dom e) t /\ field_match TWeek (c_dow e) t).

(** the minute of [u1], the hour of [u2], the day of [u3] *)
Definition combine (u1 u2 u3 : Z) : Z :=
  u3 / us_day * us_day + dt_hour u2 * us_hour + dt_minute u1 * us_minute.
Lemma combine_units u1 u2 u3 : dt_minute (combine u1 u2 u3) = dt_minute u1 /\ dt_hour (combine u1 u2 u3) = dt_hour u2 /\
  dt_ordinal (combine u1 u2 u3) = dt_ordinal u3 /\ u3 - us_day <= combine u1 u2 u3.
Proof.
  unfold combine, dt_minute, dt_hour, dt_ordinal, us_day, us_hour, us_minute.
  Ltac Zify.zify_post_hook ::= Z.div_mod_to_equations.
  repeat split; lia.
Qed.
Ltac Zify.zify_post_hook ::= idtac.

Lemma same_day c t u : c = TMonth \/ c = TWeek -> dt_ordinal t = dt_ordinal u -> unit_number c t = unit_number c u.
Proof.
  intros [-> | ->] E; cbn [unit_number].
  - unfold dt_day, dt_ymd. rewrite E. reflexivity.
  - unfold dt_weekday. rewrite E. reflexivity.
Qed.

Theorem cron_tree e p : cron_ok e -> every_month e -> get_subperiod e = Ok p ->
  fwd_tree p /\ forall dt, exists u, dt <= u /\ cron_match e u.
Proof.
  intros [Hmi [Hh [Hd [Hmo Hw]]]] [Hnm Hdom] Hp.
  destruct (field_moments TMonth (c_dom e)) as [pd [Ed [Vd Ad]]]; [unfold cron_cls; tauto|exact Hd|].
  destruct (field_moments TWeek (c_dow e)) as [pw [Ew [Vw Aw]]]; [unfold cron_cls; tauto|exact Hw|].
  destruct (field_moments THour (c_minute e)) as [pmi [Emi [Vmi _]]]; [unfold cron_cls; tauto|exact Hmi|].
  destruct (field_moments TDay (c_hour e)) as [ph [Eh [Vh _]]]; [unfold cron_cls; tauto|exact Hh|].
  destruct (field_moments TYear (c_month e)) as [pmo [Emo [Vmo Amo]]]; [unfold cron_cls; tauto|exact Hmo|].
  assert (Gd : pd = PAlways \/ good pd).
  { apply (good_field TMonth (c_dom e)); [unfold cron_cls; tauto|discriminate|exact Hd| |exact Ed]. intros _. exact Hdom. }
  assert (Gw : pw = PAlways \/ good pw).
  { apply (good_field TWeek (c_dow e)); [unfold cron_cls; tauto|discriminate|exact Hw|discriminate|exact Ew]. }
  assert (Gmi : pmi = PAlways \/ good pmi).
  { apply (good_field THour (c_minute e)); [unfold cron_cls; tauto|discriminate|exact Hmi|discriminate|exact Emi]. }
  assert (Gh : ph = PAlways \/ good ph).
  { apply (good_field TDay (c_hour e)); [unfold cron_cls; tauto|discriminate|exact Hh|discriminate|exact Eh]. }
  assert (Fmo : pmo = PAlways) by (apply is_always_eq, Amo, Hnm).
  assert (T : forall q, q = PAlways \/ good q -> fwd_tree q) by (intros q [->|[H _]]; [apply ft_always|exact H]).
  unfold get_subperiod in Hp. rewrite Ed, Ew, Emi, Eh, Emo in Hp. cbn [bind] in Hp. apply Ok_inj in Hp. subst p. subst pmo.
  split.
  - repeat apply fwd_tree_and; try (apply T; assumption); [|apply ft_always|].
    + apply (ft_fixed TMinute (60 * 10 ^ 6) None None false false false minutely 0); [constructor|reflexivity|reflexivity].
    + destruct (is_always pd) eqn:Xd; [|destruct (is_always pw) eqn:Xw]; cbn [negb andb];
        try (apply fwd_tree_and; apply T; assumption).
      destruct Gd as [->|Gd]; [discriminate|]. destruct Gw as [->|Gw]; [discriminate|]. apply good_or; assumption.
  - intros dt.
    assert (S : forall c, c <> TYear -> forall t, settled_at c t) by (intros; apply settled_any; assumption).
    destruct (field_val_forward _ _ _ _ _ Vmi (S THour ltac:(discriminate)) Gmi eq_refl 0) as [u1 [_ M1]].
    destruct (field_val_forward _ _ _ _ _ Vh (S TDay ltac:(discriminate)) Gh eq_refl 0) as [u2 [_ M2]].
    pose proof (field_val_forward _ _ _ _ _ Vd (S TMonth ltac:(discriminate)) Gd eq_refl (dt + us_day)) as [ud [Hud Md]].
    pose proof (field_val_forward _ _ _ _ _ Vw (S TWeek ltac:(discriminate)) Gw eq_refl (dt + us_day)) as [uw [Huw Mw]].
    assert (D : exists u3, dt + us_day <= u3 /\ day_match e u3).
    { destruct (restricted_dec (c_dom e)) as [Rd|Rd].
      - exists ud. split; [exact Hud|]. destruct (restricted_dec (c_dow e)) as [Rw|Rw].
        + left. auto.
        + right. split; [intros [_ X]; exact (Rw X)|]. split; [exact Md|].
          destruct Vw as [[_ H]|[Pw _]]; [apply H|]. apply Aw in Rw. rewrite (plain_not_always pw Pw) in Rw. discriminate.
      - exists uw. split; [exact Huw|]. right. split; [intros [X _]; exact (Rd X)|]. split; [|exact Mw].
        destruct Vd as [[_ H]|[Pd _]]; [apply H|]. apply Ad in Rd. rewrite (plain_not_always pd Pd) in Rd. discriminate. }
    destruct D as [u3 [Hu3 D]]. destruct (combine_units u1 u2 u3) as [C1 [C2 [C3 C4]]].
    exists (combine u1 u2 u3). split; [lia|].
    split; [apply (match_same THour _ u1); [symmetry; exact C1|exact M1]|].
    split; [apply (match_same TDay _ u2); [symmetry; exact C2|exact M2]|].
    split.
    { destruct Vmo as [[_ H]|[P _]]; [apply H|inversion P]. }
    assert (S1 : unit_number TMonth u3 = unit_number TMonth (combine u1 u2 u3)) by (apply same_day; [tauto|symmetry; exact C3]).
    assert (S2 : unit_number TWeek u3 = unit_number TWeek (combine u1 u2 u3)) by (apply same_day; [tauto|symmetry; exact C3]).
    destruct D as [[R1 [R2 [H|H]]]|[R [H1 H2]]].
    + left. split; [exact R1|]. split; [exact R2|]. left. apply (match_same _ _ _ _ S1 H).
    + left. split; [exact R1|]. split; [exact R2|]. right. apply (match_same _ _ _ _ S2 H).
    + right. split; [exact R|]. split; [apply (match_same _ _ _ _ S1 H1)|apply (match_same _ _ _ _ S2 H2)].
Qed.

Theorem cron_forward e t : cron_ok e -> every_month e ->
  exists i, eventually (fun fuel => cron_rollforward fuel e t) i /\ forward_at (cron_match e) t i.
Proof.
  intros He Hm. destruct (cron_moments e He) as [p [E [Pp Mp]]].
  destruct (cron_tree e p He Hm E) as [T R]. destruct Hm as [Hnm _].
  assert (Mp' : forall t, moments p t <-> cron_match e t) by (intros u; apply Mp; intros X; contradiction).
  destruct (fwd_tree_ok p T t) as [i [[n Ev] [C [B [No In_]]]]].
  { destruct (R t) as [u [Hu M]]. exists u. split; [exact Hu|]. apply Mp', M. }
  exists i. split.
  - exists n. intros fuel Hf. unfold cron_rollforward. rewrite E. cbn [of_result obind]. apply Ev, Hf.
  - split; [exact C|]. split; [exact B|]. split; intros u Hu; [rewrite <- Mp'; apply No, Hu|apply Mp', In_, Hu].
Qed.

Theorem cron_answers e t : cron_ok e -> every_month e ->
  exists b, eventually (fun fuel => cron_contains fuel e t) b /\ (b = true <-> cron_match e t).
Proof.
  intros He Hm. destruct (cron_forward e t He Hm) as [i [[n Ev] F]].
  exists (contains Z_ops i t). split.
  - exists n. intros fuel Hf. unfold cron_contains. rewrite (Ev fuel Hf). reflexivity.
  - apply (cron_membership e n t); [exact He|intros X; destruct Hm as [Hm _]; contradiction|].
    unfold cron_contains. rewrite (Ev n (le_n n)). reflexivity.
Qed.
