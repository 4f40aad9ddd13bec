From Verif Require Import Model.Base Model.Interval Model.Calendar Model.Anchored
  Spec.PeriodSpec Proofs.CalendarProofs Proofs.AnchoredProofs Proofs.FixedCycleProofs.
From Coq Require Import Lia ZifyBool.
Ltac Zify.zify_post_hook ::= Z.div_mod_to_equations.
Open Scope Z_scope.

Lemma acontains_clock p t :
  0 <= anchor_dt (a_cls p) t < scope_max (a_cls p) ->
  (acontains p t = true <-> clock_range (a_start p) (a_end p) (anchor_dt (a_cls p) t)).
Proof.
  intros H. unfold acontains, clock_range, is_full.
  set (x := anchor_dt _ t) in *. set (s := a_start p). set (e := a_end p). set (m := scope_max _) in *.
  destruct (Z.eqb_spec s e); cbn [orb]; [tauto|].
  destruct (Z.eqb_spec s 0); cbn [andb].
  - destruct (Z.eqb_spec e m); [lia|].
    destruct (Z.ltb_spec e s); cbn [negb]; lia.
  - destruct (Z.ltb_spec e s); cbn [negb]; lia.
Qed.

Lemma dt_day_bounds t : 1 <= dt_day t <= 31.
Proof.
  unfold dt_day, dt_ymd. destruct (ord2ymd (dt_ordinal t)) as [[y m] d] eqn:E.
  destruct (ord2ymd_correct _ _ _ _ E) as [V _]. unfold valid_ymd in V.
  pose proof (days_in_month_bounds y m). cbn. lia.
Qed.

(** offset in the cycle = unit * length of a unit + rest *)
Lemma anchor_dt_unit c t : c <> TYear ->
  exists base rest, 
    anchor_dt c t = (unit_number c t - base) * unit_resolution c + rest /\
    0 <= rest < unit_resolution c /\ unit_range c (unit_number c t) /\
    base = (match c with TWeek | TMonth => 1 | _ => 0 end).
Proof.
  intros Hc. pose proof (dt_day_bounds t).
  destruct c; try contradiction; unfold anchor_dt, unit_number, unit_range, unit_resolution, to_microseconds,
    dt_microsecond, dt_second, dt_minute, dt_hour, dt_weekday, dt_ordinal, us_day, us_hour, us_minute, us_second, us_millisecond in *.
  - exists 0, (t mod 1000). repeat split; lia.
  - exists 0, (t mod 1000000). repeat split; lia.
  - exists 0, (t mod 60000000). repeat split; lia.
  - exists 0, (t mod 3600000000). repeat split; lia.
  - exists 1, (t mod 86400000000). repeat split; lia.
  - exists 1, (t mod 86400000000). repeat split; lia.
Qed.

Lemma anchor_dt_scope c t : c <> TYear -> 0 <= anchor_dt c t < scope_max c.
Proof.
  intros Hc. destruct (anchor_dt_unit c t Hc) as [b [r [E [Hr [Hu Hb]]]]]. rewrite E.
  destruct c; try contradiction; cbn [unit_range unit_resolution scope_max] in *;
    unfold us_day, us_hour, us_minute, us_second, us_millisecond in *; lia.
Qed.

Lemma clock_range_unit u i j n r : 0 < u -> 0 <= r < u -> 
  (clock_range (i * u) ((j + 1) * u) (n * u + r) <-> cyc_between i j n).
Proof.
  intros Hu Hr. unfold clock_range, cyc_between.
  assert (A : i * u <= n * u + r <-> i <= n) by nia.
  assert (B : n * u + r < (j + 1) * u <-> n <= j) by nia.
  assert (C : i * u < (j + 1) * u <-> i <= j) by nia.
  assert (D : (j + 1) * u < i * u <-> j + 1 < i) by nia.
  assert (E : i * u = (j + 1) * u <-> i = j + 1) by nia.
  rewrite A, B, C, D, E. lia.
Qed.

Lemma unit_resolution_pos c : c <> TYear -> 0 < unit_resolution c.
Proof. destruct c; try contradiction; reflexivity. Qed.

Definition ubase (c : acls) : Z := match c with TWeek | TMonth => 1 | _ => 0 end.

Lemma anchor_int_ok c i s v : c <> TYear -> anchor_int c i s = Ok v ->
  (unit_range c i \/ c = TSecond /\ i = 1000) /\
  v = (i - ubase c + (if is_end s then 1 else 0)) * unit_resolution c.
Proof.
  intros Hc H.
  destruct c; try contradiction; unfold anchor_int, anchor_int_base in H;
    match type of H with (if ?b then _ else _) = _ => destruct b eqn:E; [|discriminate] end;
    injection H as <-; cbn [ubase unit_range unit_resolution]; destruct s; cbn [is_end];
    unfold us_day, us_hour, us_minute, us_second, us_millisecond;
    (split; [|lia]); first [left; lia | destruct (Z.eqb_spec i 1000); [right; auto|left; lia]].
Qed.

Lemma period_int_range c i j p t : c <> TYear ->
  period c (Some (VInt i)) (Some (VInt j)) = Ok p ->
  (acontains p t = true <-> cyc_between i j (unit_number c t)).
Proof.
  intros Hc Hp. pose proof (mk_anchored_bounds _ _ _ _ _ _ _ Hp) as [Hcl _].
  rewrite acontains_clock by (rewrite Hcl; apply anchor_dt_scope; exact Hc).
  unfold period, mk_anchored in Hp.
  apply bind_ok in Hp. destruct Hp as [s [Hs Hp]]. apply bind_ok in Hp. destruct Hp as [e [He Hp]].
  injection Hp as <-. cbn [a_cls a_start a_end] in *.
  unfold set_start in Hs. apply bind_ok in Hs. destruct Hs as [ms [Hs1 Hs]]. apply validate_ok in Hs.
  unfold set_end in He. apply bind_ok in He. destruct He as [me [He1 He]]. apply validate_ok in He.
  cbn [anchor] in *.
  apply anchor_int_ok in Hs1; [|exact Hc]. apply anchor_int_ok in He1; [|exact Hc].
  cbn [is_end] in *.
  destruct (anchor_dt_unit c t Hc) as [b [r [E [Hr [_ Hb]]]]]. rewrite E.
  replace s with ((i - b) * unit_resolution c) by (unfold ubase in Hs1; subst b; lia).
  replace e with ((j - b + 1) * unit_resolution c) by (unfold ubase in He1; subst b; lia).
  rewrite clock_range_unit; [|apply unit_resolution_pos; exact Hc|exact Hr].
  unfold cyc_between. lia.
Qed.

Lemma period_int_accepted c i j : c <> TYear -> unit_range c i -> unit_range c j ->
  exists p, period c (Some (VInt i)) (Some (VInt j)) = Ok p.
Proof.
  intros Hc Hi Hj.
  unfold period, mk_anchored, set_start, set_end, anchor, anchor_int, validate.
  destruct c; try contradiction; cbn [unit_range] in *;
  repeat match goal with
  | |- context [if ?b then _ else _] =>
      match b with
      | context [(_ <=? _) && (_ <=? _)] => replace b with true by lia
      end
  end; cbn [bind]; unfold anchor_int_base; cbn [is_end unit_resolution scope_max];
  unfold us_day, us_hour, us_minute, us_second, us_millisecond;
  repeat (match goal with
  | |- context [(?a <? ?b) || (?c <? ?d)] => replace ((a <? b) || (c <? d)) with false by lia
  end; cbn [bind]); eexists; reflexivity.
Qed.

Lemma period_int_rejected c i j : ~ (unit_range c i \/ c = TSecond /\ i = 1000) ->
  period c (Some (VInt i)) (Some (VInt j)) = Err ValueError.
Proof.
  intros H. unfold period, mk_anchored, set_start, anchor, anchor_int.
  destruct c; cbn [unit_range] in H;
  match goal with
  | |- context [(?a <=? ?b) && (?c <=? ?d)] => replace ((a <=? b) && (c <=? d)) with false
      by (first [lia | destruct (Z.eqb_spec i 1000); [exfalso; apply H; right; auto|lia]])
  end; reflexivity.
Qed.

Lemma period_from_int c i p t : c <> TYear ->
  period c (Some (VInt i)) None = Ok p ->
  (acontains p t = true <-> i <= unit_number c t) \/ (c = TSecond /\ i = 1000).
Proof.
  intros Hc Hp. pose proof (mk_anchored_bounds _ _ _ _ _ _ _ Hp) as [Hcl _].
  rewrite acontains_clock by (rewrite Hcl; apply anchor_dt_scope; exact Hc).
  pose proof (anchor_dt_scope c t Hc) as Hsc.
  unfold period, mk_anchored in Hp.
  apply bind_ok in Hp. destruct Hp as [s [Hs Hp]]. apply bind_ok in Hp. destruct Hp as [e [He Hp]].
  injection Hp as <-. cbn [a_cls a_start a_end] in *.
  unfold set_start in Hs. apply bind_ok in Hs. destruct Hs as [ms [Hs1 Hs]]. apply validate_ok in Hs.
  unfold set_end in He. apply bind_ok in He. destruct He as [me [He1 He]]. apply validate_ok in He.
  cbn [anchor] in *. injection He1 as <-.
  apply anchor_int_ok in Hs1; [|exact Hc].
  destruct (anchor_dt_unit c t Hc) as [b [r [E [Hr [_ Hb]]]]]. rewrite E in Hsc |- *.
  cbn [is_end] in Hs1. destruct Hs1 as [[Hi|Hi] Hs1]; [left|right; exact Hi].
  replace s with ((i - b) * unit_resolution c) by (unfold ubase in Hs1; subst b; lia).
  assert (A : (i - b) * unit_resolution c <= (unit_number c t - b) * unit_resolution c + r <-> i <= unit_number c t).
  { pose proof (unit_resolution_pos c Hc). nia. }
  rewrite <- A.
  assert (Hlt : (i - b) * unit_resolution c < scope_max c).
  { destruct c; try contradiction; cbn [unit_range unit_resolution scope_max] in *;
    unfold us_day, us_hour, us_minute, us_second, us_millisecond in *; lia. }
  unfold clock_range. destruct He as [-> _]. lia.
Qed.

Lemma period_until_int c j p t : c <> TYear ->
  period c None (Some (VInt j)) = Ok p ->
  (acontains p t = true <-> unit_number c t <= j).
Proof.
  intros Hc Hp. pose proof (mk_anchored_bounds _ _ _ _ _ _ _ Hp) as [Hcl _].
  rewrite acontains_clock by (rewrite Hcl; apply anchor_dt_scope; exact Hc).
  pose proof (anchor_dt_scope c t Hc) as Hsc.
  unfold period, mk_anchored in Hp.
  apply bind_ok in Hp. destruct Hp as [s [Hs Hp]]. apply bind_ok in Hp. destruct Hp as [e [He Hp]].
  injection Hp as <-. cbn [a_cls a_start a_end] in *.
  unfold set_start in Hs. apply bind_ok in Hs. destruct Hs as [ms [Hs1 Hs]]. apply validate_ok in Hs.
  unfold set_end in He. apply bind_ok in He. destruct He as [me [He1 He]]. apply validate_ok in He.
  cbn [anchor] in *. injection Hs1 as <-.
  apply anchor_int_ok in He1; [|exact Hc].
  destruct (anchor_dt_unit c t Hc) as [b [r [E [Hr [Hu Hb]]]]]. rewrite E in Hsc |- *.
  cbn [is_end] in He1. destruct He1 as [Hj He1].
  replace e with ((j - b + 1) * unit_resolution c) by (unfold ubase in He1; subst b; lia).
  assert (A : (unit_number c t - b) * unit_resolution c + r < (j - b + 1) * unit_resolution c <-> unit_number c t <= j).
  { pose proof (unit_resolution_pos c Hc). nia. }
  rewrite <- A.
  assert (Hlt : 0 < (j - b + 1) * unit_resolution c).
  { destruct c; try contradiction; cbn [unit_range unit_resolution scope_max] in *;
    unfold us_day, us_hour, us_minute, us_second, us_millisecond in *; lia. }
  unfold clock_range. destruct Hs as [-> _]. lia.
Qed.

Lemma period_at_int c i p t : c <> TYear -> unit_range c i ->
  period_at c (VInt i) = Ok p ->
  (acontains p t = true <-> unit_number c t = i).
Proof.
  intros Hc Hi Hp. pose proof (mk_anchored_bounds _ _ _ _ _ _ _ Hp) as [Hcl _].
  rewrite acontains_clock by (rewrite Hcl; apply anchor_dt_scope; exact Hc).
  unfold period_at, mk_anchored in Hp.
  apply bind_ok in Hp. destruct Hp as [s [Hs Hp]]. apply bind_ok in Hp. destruct Hp as [e [He Hp]].
  injection Hp as <-. cbn [a_cls a_start a_end] in *.
  unfold set_start in Hs. apply bind_ok in Hs. destruct Hs as [ms [Hs1 Hs]]. apply validate_ok in Hs.
  unfold set_end in He. apply bind_ok in He. destruct He as [me [He1 He]]. apply validate_ok in He.
  cbn [anchor] in *. apply anchor_int_ok in Hs1; [|exact Hc]. destruct Hs1 as [_ Hs1]. cbn [is_end] in Hs1.
  destruct Hs as [-> _]. destruct He as [-> _].
  assert (Hm : me = if scope_max c <=? ms + unit_resolution c then ms + unit_resolution c - scope_max c
                    else ms + unit_resolution c).
  { unfold to_timepoint in He1. destruct c; try contradiction; injection He1 as <-; reflexivity. }
  destruct (anchor_dt_unit c t Hc) as [b [r [E [Hr [Hu Hb]]]]].
  pose proof (anchor_dt_scope c t Hc) as Hsc. rewrite E in Hsc |- *. rewrite Hs1 in *.
  unfold clock_range. rewrite Hm. clear Hm He1 Hs1 E ms me. subst b.
  destruct c; try contradiction; cbn [unit_range ubase unit_resolution scope_max] in *;
    unfold us_day, us_hour, us_minute, us_second, us_millisecond in *;
    match goal with |- context [?a <=? ?b] => destruct (Z.leb_spec a b) end; lia.
Qed.

Lemma period_at_int_accepted c i : c <> TYear -> unit_range c i -> exists p, period_at c (VInt i) = Ok p.
Proof.
  intros Hc Hi. unfold period_at, mk_anchored, set_start, set_end, anchor, anchor_int, validate.
  destruct c; try contradiction; cbn [unit_range] in *;
  match goal with
  | |- context [(?a <=? ?b) && (?c <=? ?d)] => replace ((a <=? b) && (c <=? d)) with true by lia
  end; cbn [bind]; unfold anchor_int_base; cbn [is_end unit_resolution scope_max to_timepoint];
  unfold us_day, us_hour, us_minute, us_second, us_millisecond;
  match goal with
  | |- context [(?a <? ?b) || (?c <? ?d)] => replace ((a <? b) || (c <? d)) with false by lia
  end; cbn [bind];
  match goal with
  | |- context [?a <=? ?b] => destruct (Z.leb_spec a b)
  end;
  match goal with
  | |- context [(?a <? ?b) || (?c <? ?d)] => replace ((a <? b) || (c <? d)) with false by lia
  end; cbn [bind]; eexists; reflexivity.
Qed.

Lemma period_starting_all c v p t : period_starting c v = Ok p -> acontains p t = true.
Proof.
  intros Hp. unfold period_starting, mk_anchored in Hp.
  apply bind_ok in Hp. destruct Hp as [s [Hs Hp]]. apply bind_ok in Hp. destruct Hp as [e [He Hp]].
  injection Hp as <-.
  unfold set_end in He. apply bind_ok in He. destruct He as [me [He1 He]]. apply validate_ok in He.
  injection He1 as <-. destruct He as [-> _].
  unfold acontains, is_full. cbn [a_start a_end]. now rewrite Z.eqb_refl.
Qed.

Lemma fixed_not_year c L : fixed_cycle c L -> c <> TYear.
Proof. intros H; destruct H; discriminate. Qed.

Lemma fixed_clock_range c L st en tp sg rc p t :
  fixed_cycle c L -> mk_anchored c st en tp sg rc = Ok p ->
  (acontains p t = true <-> clock_range (a_start p) (a_end p) (t mod L)).
Proof.
  intros HL Hp. destruct (mk_anchored_bounds _ _ _ _ _ _ _ Hp) as [Hc _].
  rewrite <- (anchor_dt_fixed _ _ t HL), <- Hc.
  apply acontains_clock. rewrite Hc. apply anchor_dt_scope. apply (fixed_not_year _ _ HL).
Qed.

(** Non-empty periods are not in the corner start = end of the cycle, end = 0. *)
Lemma nonempty_not_corner c L st en tp sg rc p u :
  fixed_cycle c L -> mk_anchored c st en tp sg rc = Ok p ->
  acontains p u = true -> ~ (a_start p = L /\ a_end p = 0).
Proof.
  intros HL Hp Hu [Hs He]. rewrite (fixed_clock_range _ _ _ _ _ _ _ _ _ HL Hp), Hs, He in Hu.
  destruct (fixed_cycle_scope _ _ HL) as [_ Hpos]. pose proof (Z.mod_pos_bound u L Hpos).
  unfold clock_range in Hu. lia.
Qed.

Definition corner : anchored := Anchored THour us_hour 0.
Lemma corner_rollforward fuel : forall t, arollforward fuel corner t = OutOfFuel.
Proof.
  induction fuel as [|fuel IH]; intros t; [reflexivity|].
  cbn [arollforward]. change (is_full corner) with false. cbn match.
  assert (Hb : 0 <= anchor_dt THour t < us_hour) by (apply (anchor_dt_scope THour); discriminate).
  assert (E1 : next_end corner t = t + (us_hour - anchor_dt THour t)).
  { unfold next_end, corner. cbn [a_cls a_end]. destruct (Z.ltb_spec (anchor_dt THour t) 0); cbn [get_scope_forward scope_max]; lia. }
  assert (E2 : rollstart corner t = t + (us_hour - anchor_dt THour t)).
  { unfold rollstart.
    assert (Ec : acontains corner t = false).
    { destruct (acontains corner t) eqn:E; [|reflexivity]. apply acontains_clock in E; [|exact Hb].
      unfold corner, clock_range in E. cbn [a_cls a_start a_end] in E. unfold us_hour in *; lia. }
    rewrite Ec. unfold next_start, corner. cbn [a_cls a_start].
    destruct (Z.ltb_spec (anchor_dt THour t) us_hour); lia. }
  rewrite E1, E2, Z.eqb_refl. apply IH.
Qed.

Lemma Ok_inj {A} (a b : A) : Ok a = Ok b -> a = b.
Proof. congruence. Qed.

(** What the constructor stores for the string forms. *)
Lemma mk_anchored_both c v w p : period c (Some v) (Some w) = Ok p ->
  anchor c v SStart = Ok (a_start p) /\ anchor c w SEnd = Ok (a_end p).
Proof.
  intros Hp. unfold period, mk_anchored in Hp.
  apply bind_ok in Hp. destruct Hp as [s [Hs Hp]]. apply bind_ok in Hp. destruct Hp as [e [He Hp]].
  injection Hp as <-. cbn [a_start a_end].
  unfold set_start in Hs. apply bind_ok in Hs. destruct Hs as [ms [Hs1 Hs]]. apply validate_ok in Hs.
  unfold set_end in He. apply bind_ok in He. destruct He as [me [He1 He]]. apply validate_ok in He.
  destruct Hs as [-> _], He as [-> _]. auto.
Qed.

Lemma period_clock c L a b p t : fixed_cycle c L -> c <> TWeek ->
  period c (Some (VClock a)) (Some (VClock b)) = Ok p ->
  (acontains p t = true <-> clock_range a b (t mod L)).
Proof.
  intros HL Hw Hp. rewrite (fixed_clock_range _ _ _ _ _ _ _ _ t HL Hp).
  destruct (mk_anchored_both _ _ _ _ Hp) as [Hs He].
  destruct HL; try contradiction; injection Hs as ->; injection He as ->; reflexivity.
Qed.

Lemma period_clock_accepted c L a b : fixed_cycle c L -> c <> TWeek -> 
  0 <= a <= L -> 0 <= b <= L -> exists p, period c (Some (VClock a)) (Some (VClock b)) = Ok p.
Proof.
  intros HL Hw Ha Hb. unfold period, mk_anchored, set_start, set_end, anchor, validate.
  destruct (fixed_cycle_scope _ _ HL) as [E _].
  assert (Ea : anchor_str c (VClock a) SStart = Ok a) by (destruct HL; try contradiction; reflexivity).
  assert (Eb : anchor_str c (VClock b) SEnd = Ok b) by (destruct HL; try contradiction; reflexivity).
  rewrite Ea. cbn [bind]. replace ((a <? 0) || (scope_max c <? a)) with false by lia. cbn [bind].
  rewrite Eb. cbn [bind]. replace ((b <? 0) || (scope_max c <? b)) with false by lia. cbn [bind].
  eexists. reflexivity.
Qed.

(** right_closed includes the end. *)
Lemma period_right_closed c L a b tp sg p t : fixed_cycle c L -> c <> TWeek ->
  mk_anchored c (Some (VClock a)) (Some (VClock b)) tp sg true = Ok p ->
  (acontains p t = true <-> closed_clock_range a b (t mod L)).
Proof.
  intros HL Hw Hp. rewrite (fixed_clock_range _ _ _ _ _ _ _ _ t HL Hp).
  assert (B : a_start p = a /\ a_end p = b + 1 /\ b + 1 <= L).
  { unfold mk_anchored in Hp.
    apply bind_ok in Hp. destruct Hp as [s [Hs Hp]]. apply bind_ok in Hp. destruct Hp as [e [He Hp]].
    injection Hp as <-. cbn [a_start a_end].
    unfold set_start in Hs. apply bind_ok in Hs. destruct Hs as [ms [Hs1 Hs]]. apply validate_ok in Hs.
    unfold set_end in He. apply bind_ok in He. destruct He as [me [He1 He]]. apply validate_ok in He.
    destruct (fixed_cycle_scope _ _ HL) as [E _].
    assert (ms = a) by (destruct HL; try contradiction; injection Hs1; auto).
    assert (me = b) by (destruct HL; try contradiction; injection He1; auto). subst. lia. }
  destruct B as (-> & -> & B). unfold clock_range, closed_clock_range.
  assert (HL0 : 0 < L) by (destruct HL; reflexivity). pose proof (Z.mod_pos_bound t L HL0). lia.
Qed.

Lemma period_week_names n m p t :
  period TWeek (Some (VUnit n None)) (Some (VUnit m None)) = Ok p ->
  (acontains p t = true <-> cyc_between n m (dt_weekday t)).
Proof.
  intros Hp. pose proof (mk_anchored_bounds _ _ _ _ _ _ _ Hp) as [Hcl _].
  rewrite acontains_clock by (rewrite Hcl; apply (anchor_dt_scope TWeek); discriminate).
  destruct (mk_anchored_both _ _ _ _ Hp) as [Hs He].
  cbn [anchor anchor_str] in *.
  destruct ((0 <=? n) && (n <=? 6)) eqn:En; [|discriminate]. destruct ((0 <=? m) && (m <=? 6)) eqn:Em; [|discriminate].
  cbn [is_end] in *. apply Ok_inj in Hs. apply Ok_inj in He. rewrite <- Hs, <- He, Hcl.
  destruct (anchor_dt_unit TWeek t ltac:(discriminate)) as [b [r [E [Hr [Hu Hb]]]]]. rewrite E.
  cbn [unit_number unit_resolution unit_range] in *. subst b.
  rewrite <- (clock_range_unit us_day n m (dt_weekday t) r ltac:(reflexivity) Hr).
  replace (us_day * n + 0) with (n * us_day) by lia.
  replace (us_day * m + us_day) with ((m + 1) * us_day) by lia.
  replace (dt_weekday t + 1 - 1) with (dt_weekday t) by lia. reflexivity.
Qed.

Lemma period_week_times n m a b p t : 
  period TWeek (Some (VUnit n (Some a))) (Some (VUnit m (Some b))) = Ok p ->
  (acontains p t = true <-> clock_range (n * us_day + a) (m * us_day + b) (t mod (7 * us_day))).
Proof.
  intros Hp. rewrite (fixed_clock_range _ _ _ _ _ _ _ _ t fc_week Hp).
  destruct (mk_anchored_both _ _ _ _ Hp) as [Hs He].
  cbn [anchor anchor_str] in *.
  destruct ((0 <=? n) && (n <=? 6)) eqn:En; [|discriminate]. destruct ((0 <=? m) && (m <=? 6)) eqn:Em; [|discriminate].
  cbn [is_end] in *. apply Ok_inj in Hs. apply Ok_inj in He. rewrite <- Hs, <- He.
  rewrite (Z.mul_comm n), (Z.mul_comm m). reflexivity.
Qed.

Lemma rollforward_membership c L st en tp sg rc p u fuel t i :
  fixed_cycle c L -> mk_anchored c st en tp sg rc = Ok p -> acontains p u = true ->
  arollforward (S fuel) p t = Returns i -> (acontains p t = true <-> left i <= t < right i).
Proof.
  intros HL Hp Hu Hi.
  destruct (fixed_rollforward _ _ _ _ _ _ _ _ HL Hp (nonempty_not_corner _ _ _ _ _ _ _ _ _ HL Hp Hu) fuel t) as [j [Hj S]].
  rewrite Hi in Hj. injection Hj as <-. destruct S as [_ [Hb [Hno [Hin _]]]].
  rewrite (fixed_contains_iff _ _ _ _ _ _ _ _ HL Hp). split.
  - intros H. destruct (Z.eq_dec (left i) t); [lia|]. exfalso. apply (Hno t); [lia|exact H].
  - intros H. apply Hin. exact H.
Qed.
