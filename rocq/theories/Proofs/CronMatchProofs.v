From Coq Require Import Bool Arith Lia ZifyBool.
From Verif Require Import Model.Base Model.Interval Model.Calendar Model.Anchored Model.Period Model.Cron
  Spec.IntervalSpec Spec.CalendarSpec Spec.PeriodSpec Spec.AlgebraSpec Spec.CronSpec
  Proofs.IntervalProofs Proofs.CalendarProofs Proofs.AnchoredProofs Proofs.FixedCycleProofs Proofs.ClockProofs
  Proofs.MonthProofs Proofs.YearProofs Proofs.AlgebraProofs Proofs.PeriodProofs Proofs.CronProofs Proofs.CronForwardProofs.
Open Scope Z_scope.

(** Periods whose rolling forward from [t] returns at once. *)
Definition near_enough (a : anchored) (t : Z) : Prop := a_end a < a_start a -> a_start a - a_end a < get_scope_forward (a_cls a) t.

Inductive ready (t : Z) : tperiod -> Prop :=
| ready_anch a : 0 <= a_start a -> 0 <= a_end a -> near_enough a t -> ready t (PAnch a)
| ready_any ps : ps <> [] -> (forall q, In q ps -> ready t q) -> ready t (PAny ps)
| ready_all ps : ps <> [] -> (forall q, In q ps -> ready t q) -> (forall q, In q ps -> moments q t) -> ready t (PAll ps).

Lemma ready_plain t p : ready t p -> plain p.
Proof.
  induction 1 as [a Hs He _|ps Hne _ IH|ps Hne _ IH _].
  - constructor; assumption.
  - apply plain_any; assumption.
  - apply plain_all; assumption.
Qed.

Lemma anch_returns a t fuel : 0 <= a_start a -> 0 <= a_end a -> near_enough a t ->
  exists i, arollforward (S fuel) a t = Returns i.
Proof.
  intros Hs He Hn. cbn [arollforward]. pose proof (next_end_after a t He) as Hne.
  assert (M : forall l r, l < r -> exists i, of_result (mk_interval Z_ops l r CLeft) = Returns i).
  { intros l r Hlr. eexists. unfold mk_interval. cbn [op_lt Z_ops]. replace (r <? l) with false by lia. reflexivity. }
  destruct (is_full a) eqn:F; cbn zeta.
  - destruct (Z.eqb_spec (next_end a t) t); [lia|]. apply M. lia.
  - assert (L : rollstart a t < next_end a t).
    { unfold rollstart. destruct (acontains a t) eqn:A; [exact Hne|].
      unfold acontains in A. rewrite F in A. cbn zeta in A.
      unfold is_full in F. apply orb_false_iff in F. destruct F as [F _].
      unfold next_start, next_end, near_enough in *.
      pose proof (anchor_dt_forward (a_cls a) t).
      destruct (Z.ltb_spec (a_end a) (a_start a)) as [W|W]; cbn [negb] in A;
      destruct (Z.ltb_spec (anchor_dt (a_cls a) t) (a_start a)); destruct (Z.ltb_spec (anchor_dt (a_cls a) t) (a_end a)); lia. }
    destruct (Z.eqb_spec (rollstart a t) (next_end a t)); [lia|]. apply M. exact L.
Qed.

Lemma ready_returns t p fuel : ready t p -> exists i, rollforward (S fuel) p t = Returns i.
Proof.
  intros R. induction R as [a Hs He Hn|ps Hne Hq IH|ps Hne Hq IH Hmq].
  - cbn [rollforward]. apply anch_returns; assumption.
  - assert (T : exists is, Forall2 (fun q i => rollforward (S fuel) q t = Returns i) ps is).
    { clear Hne Hq. induction ps as [|q ps IHps]; [exists []; constructor|].
      destruct (IH q (or_introl eq_refl)) as [i Hi]. destruct IHps as [is His]; [intros; apply IH; right; assumption|].
      exists (i :: is). constructor; assumption. }
    destruct T as [is T]. cbn [rollforward]. rewrite (proj2 (traverse_returns _ _ _) T). cbn [obind].
    assert (Hp : forall j, In j is -> closed j = CLeft /\ left j < right j).
    { intros j Hj. destruct (Forall2_in_r _ _ _ _ T Hj) as [q [Hqi Hr]].
      destruct (plain_starts q (ready_plain t q (Hq q Hqi)) _ _ _ Hr) as [C [B _]]. split; [exact C|lia]. }
    assert (Hne' : is <> []) by (intros ->; inversion T; subst; contradiction).
    unfold any_forward. destruct (sort_by_left is) as [|f rest] eqn:Es.
    { exfalso. destruct is as [|j is]; [contradiction|]. assert (X : In j (sort_by_left (j :: is))) by (apply sort_by_left_in; left; reflexivity).
      rewrite Es in X. destruct X. }
    assert (Hf : In f is) by (apply sort_by_left_in; rewrite Es; left; reflexivity).
    destruct (Hp f Hf) as [Cf Lf]. pose proof (extend_right_right rest f).
    eexists. apply ivl_ok. lia.
  - assert (T : exists is, Forall2 (fun q i => rollforward (S fuel) q t = Returns i) ps is).
    { clear Hne Hq Hmq. induction ps as [|q ps IHps]; [exists []; constructor|].
      destruct (IH q (or_introl eq_refl)) as [i Hi]. destruct IHps as [is His]; [intros; apply IH; right; assumption|].
      exists (i :: is). constructor; assumption. }
    destruct T as [is T]. cbn [rollforward all_rollforward]. rewrite (proj2 (traverse_returns _ _ _) T).
    assert (Hp : forall j, In j is -> closed j = CLeft /\ left j = t /\ t < right j).
    { intros j Hj. destruct (Forall2_in_r _ _ _ _ T Hj) as [q [Hqi Hr]]. pose proof (Hq q Hqi) as Rq. pose proof (Hmq q Hqi) as Mq.
      destruct (plain_starts q (ready_plain t q Rq) _ _ _ Hr) as [C [B M]]. apply M in Mq. split; [exact C|]. lia. }
    assert (Hpr : forall j, In j is -> proper j).
    { intros j Hj. destruct (Hp j Hj) as [C B]. split; [exact C|lia]. }
    assert (Hne' : is <> []) by (intros ->; inversion T; subst; contradiction).
    replace (all_overlap is) with true.
    2:{ symmetry. apply all_overlap_half; [exact Hpr|]. intros i j Hi Hj. destruct (Hp i Hi), (Hp j Hj). lia. }
    destruct is as [|a is]; [contradiction|]. unfold reduce_inter.
    destruct (reduce_half is a) as [r [Er _]].
    { apply proper_halfopen, Hpr. left; reflexivity. }
    { intros j Hj. apply proper_halfopen, Hpr. right; exact Hj. }
    { intros x y Hx Hy. destruct (Hp x Hx), (Hp y Hy). lia. }
    rewrite Er. exists r. reflexivity.
Qed.

(** [&] and [|] *)
Lemma ready_or_op t a b : ready t a -> ready t b -> ready t (p_or a b).
Proof.
  intros Ha Hb. unfold p_or. rewrite (plain_not_always a (ready_plain t a Ha)), (plain_not_always b (ready_plain t b Hb)). cbn [orb].
  assert (G : forall p, ready t p -> exists l, (forall acc args, any_members acc (p :: args) = any_members (acc ++ l) args) /\ l <> [] /\
      (forall q, In q l -> ready t q)).
  { intros p Hp. inversion Hp as [x H1 H2 H3|ps H1 H2|ps H1 H2 H3']; subst.
    - exists [PAnch x]. split; [reflexivity|]. split; [discriminate|]. intros q [<-|[]]; assumption.
    - exists ps. split; [reflexivity|]. split; [exact H1|exact H2].
    - exists [PAll ps]. split; [reflexivity|]. split; [discriminate|]. intros q [<-|[]]; assumption. }
  destruct (G a Ha) as [la [Ea [Na Pa]]]. destruct (G b Hb) as [lb [Eb [Nb Pb]]].
  rewrite Ea, Eb. cbn [any_members app].
  apply ready_any; [destruct la; [contradiction|discriminate]|].
  intros q Hq. apply in_app_or in Hq. destruct Hq; auto.
Qed.

Definition holds_ready (t : Z) (p : tperiod) : Prop := p = PAlways \/ (ready t p /\ moments p t).

Lemma ready_and_op t a b : holds_ready t a -> holds_ready t b -> holds_ready t (p_and a b).
Proof.
  intros [->|[Ha Ma]] [->|[Hb Mb]].
  - left. reflexivity.
  - right. cbn [p_and is_always]. auto.
  - right. unfold p_and. rewrite (plain_not_always a (ready_plain t a Ha)). cbn [is_always]. auto.
  - right. destruct (plain_and a b (ready_plain t a Ha) (ready_plain t b Hb)) as [_ M]. split; [|apply M; auto].
    unfold p_and. rewrite (plain_not_always a (ready_plain t a Ha)), (plain_not_always b (ready_plain t b Hb)).
    assert (G : forall p, ready t p -> moments p t -> exists l, (forall args, all_members (p :: args) = l ++ all_members args) /\ l <> [] /\
        (forall q, In q l -> ready t q /\ moments q t)).
    { intros p Hp Hm. inversion Hp as [x H1 H2 H3|ps H1 H2|ps H1 H2 H3']; subst.
      - exists [PAnch x]. split; [reflexivity|]. split; [discriminate|]. intros q [<-|[]]; auto.
      - exists [PAny ps]. split; [reflexivity|]. split; [discriminate|]. intros q [<-|[]]; auto.
      - exists ps. split; [reflexivity|]. split; [exact H1|auto]. }
    destruct (G a Ha Ma) as [la [Ea [Na Pa]]]. destruct (G b Hb Mb) as [lb [Eb [Nb Pb]]].
    rewrite Ea, Eb. cbn [all_members]. rewrite app_nil_r.
    apply ready_all; [destruct la; [contradiction|discriminate]| |];
    intros q Hq; apply in_app_or in Hq; destruct Hq as [Hq|Hq]; (apply Pa in Hq || apply Pb in Hq); tauto.
Qed.

(** * Items *)
Lemma start_below c n s : cron_cls c -> unit_range c n -> set_start c (Some (VInt n)) = Ok s -> 0 <= s < scope_max c.
Proof.
  intros Hc Hn Hs. unfold set_start in Hs. apply bind_ok in Hs. destruct Hs as [ms [Hs1 Hs]]. apply validate_ok in Hs. destruct Hs as [-> V].
  destruct Hc as [-> | [-> | [-> | [-> | ->]]]]; cbn [unit_range anchor anchor_int] in *;
  try (match type of Hs1 with context [(?a <=? ?b) && (?c <=? ?d)] => replace ((a <=? b) && (c <=? d)) with true in Hs1 by lia end;
    apply Ok_inj in Hs1; unfold anchor_int_base in Hs1; cbn [is_end unit_resolution scope_max] in *;
    unfold us_day, us_hour, us_minute in *; lia).
  assert (X : forall k, 1 <= k <= 12 -> k = 1 \/ k = 2 \/ k = 3 \/ k = 4 \/ k = 5 \/ k = 6 \/ k = 7 \/ k = 8 \/ k = 9 \/ k = 10 \/ k = 11 \/ k = 12) by lia.
  destruct (X n ltac:(lia)) as [->|[->|[->|[->|[->|[->|[->|[->|[->|[->|[->| ->]]]]]]]]]]]; vm_compute in Hs1; injection Hs1 as <-;
    vm_compute; split; congruence.
Qed.

Lemma month_scope t : get_scope_forward TMonth t = us_day * monthrange_days (dt_year t) (dt_month t).
Proof. reflexivity. Qed.

Lemma ready_at c n p t : cron_cls c -> unit_range c n -> (c = TMonth -> n = 31 -> monthrange_days (dt_year t) (dt_month t) = 31) ->
  period_at c (VInt n) = Ok p -> ready t (PAnch p).
Proof.
  intros Hc Hn Hm Hp. pose proof Hp as Hp'. unfold period_at, mk_anchored in Hp'.
  apply bind_ok in Hp'. destruct Hp' as [s [Hs Hp']]. apply bind_ok in Hp'. destruct Hp' as [e [He Hp']].
  apply Ok_inj in Hp'. subst p. pose proof (start_below c n s Hc Hn Hs) as B.
  unfold set_end in He. apply bind_ok in He. destruct He as [me [He1 He]]. apply validate_ok in He. destruct He as [-> V].
  assert (V0 : 0 <= me) by lia.
  constructor; cbn [a_start a_end]; [lia|lia|]. unfold near_enough. cbn [a_start a_end a_cls]. intros W.
  assert (D : c = TMonth \/ c <> TMonth) by (destruct c; (left; reflexivity) || (right; discriminate)).
  destruct D as [-> |D].
  2:{ replace (get_scope_forward c t) with (scope_max c) by (destruct c; reflexivity || contradiction). lia. }
  rewrite month_scope.
  cbn [to_timepoint scope_max unit_resolution] in *. apply Ok_inj in He1.
  unfold set_start in Hs. apply bind_ok in Hs. destruct Hs as [ms [Hs1 Hs]]. apply validate_ok in Hs. destruct Hs as [-> _].
  cbn [unit_range anchor anchor_int] in *.
  match type of Hs1 with context [(?a <=? ?b) && (?c <=? ?d)] => replace ((a <=? b) && (c <=? d)) with true in Hs1 by lia end;
  apply Ok_inj in Hs1; unfold anchor_int_base in Hs1; cbn [is_end unit_resolution] in Hs1.
  destruct (Z.eq_dec n 31) as [->|N].
  - rewrite (Hm eq_refl eq_refl). unfold us_day in *. lia.
  - exfalso. destruct (Z.leb_spec (31 * us_day) (ms + us_day)); unfold us_day in *; lia.
Qed.

Lemma ready_range c a b p t : cron_cls c -> unit_range c a -> unit_range c b ->
  (c = TMonth -> b < a -> monthrange_days (dt_year t) (dt_month t) = 31) ->
  period c (Some (VInt a)) (Some (VInt b)) = Ok p -> ready t (PAnch p).
Proof.
  intros Hc Ha Hb Hm Hp. pose proof Hp as Hp'. unfold period, mk_anchored in Hp'.
  apply bind_ok in Hp'. destruct Hp' as [s [Hs Hp']]. apply bind_ok in Hp'. destruct Hp' as [e [He Hp']].
  apply Ok_inj in Hp'. subst p. pose proof (start_below c a s Hc Ha Hs) as B.
  unfold set_end in He. apply bind_ok in He. destruct He as [me [He1 He]]. apply validate_ok in He. destruct He as [-> V].
  constructor; cbn [a_start a_end]; [lia|lia|]. unfold near_enough. cbn [a_start a_end a_cls]. intros W.
  assert (D : c = TMonth \/ c <> TMonth) by (destruct c; (left; reflexivity) || (right; discriminate)).
  destruct D as [-> |D].
  2:{ replace (get_scope_forward c t) with (scope_max c) by (destruct c; reflexivity || contradiction). lia. }
  rewrite month_scope.
  unfold set_start in Hs. apply bind_ok in Hs. destruct Hs as [ms [Hs1 Hs]]. apply validate_ok in Hs. destruct Hs as [-> _].
  cbn [unit_range anchor anchor_int] in *.
  match type of Hs1 with context [(?a <=? ?b) && (?c <=? ?d)] => replace ((a <=? b) && (c <=? d)) with true in Hs1 by lia end.
  match type of He1 with context [(?a <=? ?b) && (?c <=? ?d)] => replace ((a <=? b) && (c <=? d)) with true in He1 by lia end.
  apply Ok_inj in Hs1; apply Ok_inj in He1; unfold anchor_int_base in Hs1, He1; cbn [is_end unit_resolution scope_max] in *.
  destruct (Z_lt_le_dec b a) as [L|L].
  - rewrite (Hm eq_refl L). unfold us_day in *. lia.
  - exfalso. unfold us_day in *. lia.
Qed.

Lemma ready_create_range c a b s p t : cron_cls c -> 0 < s ->
  (c = TMonth -> a <= 30 < b -> (30 - a) mod s = 0 -> monthrange_days (dt_year t) (dt_month t) = 31) ->
  create_range c a b s = Ok p -> ready t p.
Proof.
  intros Hc Hs Hm. unfold create_range. destruct (Z.eqb_spec s 0); [lia|].
  intros H. apply bind_ok in H. destruct H as [bs [E H]]. apply map_result_in in E.
  assert (Hat : forall q, In q bs -> ready t q /\ exists p, q = PAnch p).
  { intros q Hq. destruct (Forall2_in_r _ _ _ _ E Hq) as [i [Hi Ei]]. apply slice_in in Hi. destruct Hi as [Hr [Hab Hmd]].
    rewrite (name_at c i Hc Hr) in Ei. apply bind_ok in Ei. destruct Ei as [r [Er Ei]]. apply Ok_inj in Ei. subst q.
    split; [|exists r; reflexivity].
    apply (ready_at c (i + base c) r t Hc); [rewrite unit_range_base by exact Hc; lia| |exact Er].
    intros -> Hi31. cbn [base units] in *. assert (i = 30) by lia. subst i. apply (Hm eq_refl); assumption. }
  assert (Hflat : forall l acc, (forall q, In q l -> exists p, q = PAnch p) -> any_members acc l = acc ++ l).
  { induction l as [|q l IH]; intros acc Hl; cbn [any_members]; [rewrite app_nil_r; reflexivity|].
    destruct (Hl q (or_introl eq_refl)) as [r ->]. rewrite IH by (intros; apply Hl; right; assumption).
    rewrite <- app_assoc. reflexivity. }
  unfold mk_any in H. destruct bs as [|q0 bs'] eqn:Eb; [discriminate|]. rewrite <- Eb in *.
  rewrite Hflat in H by (intros q Hq; apply Hat, Hq). apply Ok_inj in H. cbn [app] in H. subst p.
  apply ready_any; [rewrite Eb; discriminate|]. intros q Hq. apply Hat, Hq.
Qed.

Definition has_31 (c : acls) (it : citem) (t : Z) : Prop :=
  c = TMonth -> selects c it 31 -> monthrange_days (dt_year t) (dt_month t) = 31.

Lemma ready_item c it p t : cron_cls c -> item_ok c it -> it <> CStar -> has_31 c it t ->
  item_period c it = Ok (Some p) -> ready t p.
Proof.
  intros Hc Hok Hns Hm. unfold has_31 in Hm.
  destruct it as [|step|v step|a b step]; [contradiction| | |]; cbn [item_period item_ok selects] in *.
  - intros H. apply bind_ok in H. destruct H as [q [E H]]. apply Ok_inj in H. injection H as <-.
    cbn [p_and is_always]. apply (ready_create_range _ _ _ _ _ t Hc (proj1 Hok)) in E; [exact E|].
    intros -> _ Hmd. apply (Hm eq_refl). exact Hmd.
  - destruct step as [step|]; [destruct Hok|]. cbn [bind]. rewrite (value_at c v Hc Hok).
    intros H. apply bind_ok in H. destruct H as [q [E H]]. apply Ok_inj in H. injection H as <-. cbn [p_and is_always].
    apply (ready_at c (num c v) q t Hc (value_range c v Hc Hok)); [|exact E].
    intros -> Hv31. destruct v as [n|k]; [|destruct Hok as [_ [[X|X] _]]; discriminate].
    cbn [num conv number] in *. apply (Hm eq_refl). congruence.
  - destruct step as [step|].
    + destruct Hok as [Ha [Hb [Hab [Hs Hty]]]].
      assert (Hnm : c <> TMonth).
      { intros ->. destruct a, b; try contradiction; [destruct Hty; discriminate|]. destruct Ha as [_ [[X|X] _]]; discriminate. }
      intros H. apply bind_ok in H. destruct H as [q [E H]]. apply bind_ok in H. destruct H as [ie [E2 H]].
      apply bind_ok in H. destruct H as [ia [E3 H]]. apply bind_ok in H. destruct H as [r [E4 H]]. apply Ok_inj in H. injection H as <-.
      apply (ready_create_range _ _ _ _ _ t Hc Hs) in E4; [exact E4|]. intros X. contradiction.
    + destruct Hok as [Ha [Hb _]]. rewrite (value_period c a b Hc Ha Hb).
      intros H. apply bind_ok in H. destruct H as [q [E H]]. apply Ok_inj in H. injection H as <-.
      apply (ready_range c (num c a) (num c b) q t Hc (value_range c a Hc Ha) (value_range c b Hc Hb)); [|exact E].
      intros -> L. destruct a as [na|ka]; [|destruct Ha as [_ [[X|X] _]]; discriminate].
      destruct b as [nb|kb]; [|destruct Hb as [_ [[X|X] _]]; discriminate].
      destruct Ha as [Ha _], Hb as [Hb _]. cbn [num conv number first_number last_number] in *.
      apply (Hm eq_refl). unfold cyc_between. lia.
Qed.

Lemma ready_fields c items t : cron_cls c ->
  (forall it, In it items -> item_ok c it /\ it <> CStar /\ has_31 c it t) ->
  forall full p, ready t full -> field_period c (Some full) items = Ok (Some p) -> ready t p.
Proof.
  intros Hc. induction items as [|it items IH]; intros Hit full p Gf; cbn [field_period].
  - intros H. apply Ok_inj in H. injection H as <-. exact Gf.
  - destruct (Hit it (or_introl eq_refl)) as [Hok [Hns Hm]].
    destruct (item_moments c it Hc Hok Hns) as [q [E _]]. rewrite E. cbn [bind].
    apply IH; [intros; apply Hit; right; assumption|]. apply ready_or_op; [exact Gf|].
    apply (ready_item c it q t Hc Hok Hns Hm E).
Qed.

Lemma ready_field c items p t : cron_cls c -> field_ok c items ->
  (forall it, In it items -> it <> CStar -> has_31 c it t) ->
  get_field c items = Ok p -> p = PAlways \/ ready t p.
Proof.
  intros Hc Hf Hm H. destruct (field_moments c items Hc Hf) as [p' [E' [_ A]]].
  rewrite H in E'. apply Ok_inj in E'. subst p'. destruct Hf as [Hne [Hok Hst]].
  destruct Hst as [Hst|Hst].
  - left. apply is_always_eq, A. intros [it [Hi Hn]]. apply Hn, Hst, Hi.
  - right. destruct items as [|it items]; [contradiction|]. unfold get_field in H. cbn [field_period] in H.
    destruct (item_moments c it Hc (Hok it (or_introl eq_refl)) (Hst it (or_introl eq_refl))) as [q [E _]].
    rewrite E in H. cbn [bind] in H. apply bind_ok in H. destruct H as [o [E2 H]]. apply Ok_inj in H.
    destruct o as [r|]; subst p.
    + apply (ready_fields c items t Hc) with (3 := E2).
      * intros it' Hi. split; [apply Hok; right; exact Hi|]. split; [apply Hst; right; exact Hi|].
        apply Hm; [right; exact Hi|apply Hst; right; exact Hi].
      * apply (ready_item c it q t Hc); [apply Hok; left; reflexivity|apply Hst; left; reflexivity| |exact E].
        apply Hm; [left; reflexivity|apply Hst; left; reflexivity].
    + exfalso. revert E2. clear. generalize q. induction items as [|i l IH]; intros q'; cbn [field_period]; [discriminate|].
      destruct (item_period c i) as [[r|]|]; cbn [bind]; [apply IH|apply IH|discriminate].
Qed.

Theorem cron_recognised e t fuel : cron_ok e -> month_settled e t -> no_31_missing e t -> cron_match e t ->
  cron_contains (S fuel) e t = Returns true.
Proof.
  intros He Ht H31 Hm. destruct (cron_moments e He) as [p [Ep [Pp Mp]]].
  assert (R : exists i, rollforward (S fuel) p t = Returns i).
  { pose proof (proj2 (Mp t Ht) Hm) as Mt. revert Ep Mt.
    destruct He as [Hmi [Hh [Hd [Hmo Hw]]]]. destruct Hm as [Fmi [Fh [Fmo Fday]]].
    destruct (field_moments TMonth (c_dom e)) as [pd [Ed [Vd Ad]]]; [unfold cron_cls; tauto|exact Hd|].
    destruct (field_moments TWeek (c_dow e)) as [pw [Ew [Vw Aw]]]; [unfold cron_cls; tauto|exact Hw|].
    destruct (field_moments THour (c_minute e)) as [pmi [Emi [Vmi _]]]; [unfold cron_cls; tauto|exact Hmi|].
    destruct (field_moments TDay (c_hour e)) as [ph [Eh [Vh _]]]; [unfold cron_cls; tauto|exact Hh|].
    destruct (field_moments TYear (c_month e)) as [pmo [Emo [Vmo Amo]]]; [unfold cron_cls; tauto|exact Hmo|].
    assert (SW : settled_at TWeek t) by (apply settled_any; discriminate).
    assert (SM : settled_at TMonth t) by (apply settled_any; discriminate).
    assert (SH : settled_at THour t) by (apply settled_any; discriminate).
    assert (SD : settled_at TDay t) by (apply settled_any; discriminate).
    assert (N : forall c, c <> TMonth -> forall it, has_31 c it t) by (intros c X it Y; contradiction).
    pose proof (ready_field TMonth _ _ t ltac:(unfold cron_cls; tauto) Hd (fun it Hi Hn _ Hs => H31 it Hi Hn Hs) Ed) as Rd.
    pose proof (ready_field TWeek _ _ t ltac:(unfold cron_cls; tauto) Hw (fun it _ _ => N TWeek ltac:(discriminate) it) Ew) as Rw.
    pose proof (ready_field THour _ _ t ltac:(unfold cron_cls; tauto) Hmi (fun it _ _ => N THour ltac:(discriminate) it) Emi) as Rmi.
    pose proof (ready_field TDay _ _ t ltac:(unfold cron_cls; tauto) Hh (fun it _ _ => N TDay ltac:(discriminate) it) Eh) as Rh.
    pose proof (ready_field TYear _ _ t ltac:(unfold cron_cls; tauto) Hmo (fun it _ _ => N TYear ltac:(discriminate) it) Emo) as Rmo.
    assert (Up : forall c q M, q = PAlways \/ ready t q -> field_val (settled_at c) q M -> settled_at c t \/ q = PAlways -> M t -> holds_ready t q).
    { intros c q M [->|R] V S Mt; [left; reflexivity|]. right. split; [exact R|].
      destruct V as [[-> _]|[_ V]]; [inversion R|]. destruct S as [S| ->]; [apply V; assumption|inversion R]. }
    pose proof (Up THour pmi _ Rmi Vmi (or_introl SH) Fmi) as Umi.
    pose proof (Up TDay ph _ Rh Vh (or_introl SD) Fh) as Uh.
    assert (Umo : holds_ready t pmo).
    { apply (Up TYear pmo _ Rmo Vmo); [|exact Fmo]. destruct (restricted_dec (c_month e)) as [Rs|Rs].
      - left. intros _. apply Ht, Rs.
      - right. apply is_always_eq, Amo, Rs. }
    assert (Us : holds_ready t (PAnch minutely)).
    { right. split; [constructor; [vm_compute; discriminate|vm_compute; discriminate|]|].
      - unfold near_enough. vm_compute. discriminate.
      - cbn [moments]. unfold acontains. replace (is_full minutely) with true by reflexivity. reflexivity. }
    unfold get_subperiod. rewrite Ed, Ew, Emi, Eh, Emo. cbn [bind]. intros Ep Mt. apply Ok_inj in Ep. subst p.
    set (day := if _ && _ then _ else _) in *.
    assert (Uday : holds_ready t day).
    { subst day. destruct (is_always pd) eqn:Xd; [|destruct (is_always pw) eqn:Xw]; cbn [negb andb].
      - assert (Nr : ~ (restricted (c_dom e) /\ restricted (c_dow e))) by (intros [H _]; apply (proj1 Ad eq_refl H)).
        destruct Fday as [[F1 [F2 _]]|[_ [Fd Fw]]]; [exfalso; apply Nr; auto|].
        apply ready_and_op; [apply (Up TMonth pd _ Rd Vd (or_introl SM) Fd)|
                             apply (Up TWeek pw _ Rw Vw (or_introl SW) Fw)].
      - assert (Nr : ~ (restricted (c_dom e) /\ restricted (c_dow e))) by (intros [_ H]; apply (proj1 Aw eq_refl H)).
        destruct Fday as [[F1 [F2 _]]|[_ [Fd Fw]]]; [exfalso; apply Nr; auto|].
        apply ready_and_op; [apply (Up TMonth pd _ Rd Vd (or_introl SM) Fd)|
                             apply (Up TWeek pw _ Rw Vw (or_introl SW) Fw)].
      - destruct Rd as [->|Rd]; [discriminate|]. destruct Rw as [->|Rw]; [discriminate|].
        right. split; [apply ready_or_op; assumption|].
        destruct (plain_or pd pw (ready_plain t pd Rd) (ready_plain t pw Rw)) as [_ Mo]. apply Mo.
        destruct Vd as [[-> _]|[_ Md]]; [discriminate|]. destruct Vw as [[-> _]|[_ Mw]]; [discriminate|].
        rewrite (Md t SM), (Mw t SW).
        destruct Fday as [[_ [_ F]]|[_ [F _]]]; tauto. }
    pose proof (ready_and_op t _ _ (ready_and_op t _ _ (ready_and_op t _ _ (ready_and_op t _ _ Umi Us) Uh) Umo) Uday) as [A|[A _]].
    - rewrite A in Pp. inversion Pp.
    - apply ready_returns, A. }
  destruct R as [i R]. unfold cron_contains, cron_rollforward. rewrite Ep. cbn [of_result obind]. rewrite R. cbn [obind].
  f_equal. apply (plain_contains p (S fuel) t i Pp R), Mp, Hm. exact Ht.
Qed.
