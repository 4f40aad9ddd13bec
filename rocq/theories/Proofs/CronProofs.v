From Coq Require Import Bool Arith Lia ZifyBool.
From Verif Require Import Model.Base Model.Interval Model.Calendar Model.Anchored Model.Period Model.Cron
  Spec.IntervalSpec Spec.CalendarSpec Spec.PeriodSpec Spec.AlgebraSpec Spec.CronSpec
  Proofs.IntervalProofs Proofs.CalendarProofs Proofs.AnchoredProofs Proofs.FixedCycleProofs Proofs.ClockProofs
  Proofs.MonthProofs Proofs.YearProofs Proofs.AlgebraProofs Proofs.PeriodProofs.
Open Scope Z_scope.

(** * Membership for every expression over anchored periods *)
Inductive plain : tperiod -> Prop :=
| plain_anch a : 0 <= a_start a -> 0 <= a_end a -> plain (PAnch a)
| plain_all ps : ps <> [] -> (forall q, In q ps -> plain q) -> plain (PAll ps)
| plain_any ps : ps <> [] -> (forall q, In q ps -> plain q) -> plain (PAny ps).

(** What rolling forward from [t] says about [t] itself. *)
Definition starts_at (M : Z -> Prop) (t : Z) (i : interval Z) : Prop :=
  closed i = CLeft /\ t <= left i < right i /\ (M t <-> left i = t).

Lemma anchor_dt_forward c t : 0 <= anchor_dt c t < get_scope_forward c t.
Proof.
  destruct c; try (cbn [get_scope_forward]; apply anchor_dt_scope; discriminate).
  - destruct (month_cycle_at 0 0 t) as [B [E [F _]]]. cbn [a_cls] in *. rewrite E. lia.
  - apply year_anchor_scope.
Qed.

Lemma next_end_after a t : 0 <= a_end a -> t < next_end a t.
Proof.
  intros H. unfold next_end. pose proof (anchor_dt_forward (a_cls a) t).
  destruct (Z.ltb_spec (anchor_dt (a_cls a) t) (a_end a)); lia.
Qed.
Lemma next_start_after a t : 0 <= a_start a -> t < next_start a t.
Proof.
  intros H. unfold next_start. pose proof (anchor_dt_forward (a_cls a) t).
  destruct (Z.ltb_spec (anchor_dt (a_cls a) t) (a_start a)); lia.
Qed.

Lemma mk_interval_returns l r i : of_result (mk_interval Z_ops l r CLeft) = Returns i -> i = Interval l r CLeft /\ l <= r.
Proof. apply ivl_returns. Qed.

Lemma starts_anch a : 0 <= a_start a -> 0 <= a_end a -> forall fuel t i,
  arollforward fuel a t = Returns i -> starts_at (moments (PAnch a)) t i.
Proof.
  intros Hs He. induction fuel as [|fuel IH]; intros t i H; [discriminate|]. cbn [arollforward] in H.
  pose proof (next_end_after a t He) as Hne.
  destruct (is_full a) eqn:F.
  - cbn zeta in H. destruct (Z.eqb_spec (next_end a t) t); [lia|].
    apply mk_interval_returns in H. destruct H as [-> H].
    split; [reflexivity|]. cbn [left right moments]. split; [lia|]. unfold acontains. rewrite F. tauto.
  - cbn zeta in H. destruct (Z.eqb_spec (rollstart a t) (next_end a t)) as [E|E].
    + destruct (IH _ _ H) as [C [B M]]. unfold resolution in *.
      split; [exact C|]. split; [lia|]. cbn [moments]. split; [|intros; lia].
      intros A. unfold rollstart in E. rewrite A in E. lia.
    + apply mk_interval_returns in H. destruct H as [-> H]. unfold rollstart in *.
      cbn [moments]. unfold starts_at. cbn [closed left right].
      pose proof (next_start_after a t Hs).
      destruct (acontains a t); (split; [reflexivity|]; split; [lia|]; split; [congruence || lia|intros; lia || reflexivity]).
Qed.

Lemma starts_all ps : ps <> [] ->
  (forall q, In q ps -> forall fuel t i, rollforward fuel q t = Returns i -> starts_at (moments q) t i) ->
  forall fuel t i, rollforward fuel (PAll ps) t = Returns i -> starts_at (moments (PAll ps)) t i.
Proof.
  intros Hne Hq fuel. cbn [rollforward].
  enough (G : forall k t i, all_rollforward (fun t => traverse (fun q => rollforward fuel q t) ps) k t = Returns i ->
            starts_at (moments (PAll ps)) t i) by (intros t i; apply G).
  induction k as [|k IH]; intros t i H; [discriminate|]. cbn [all_rollforward] in H.
  destruct (traverse (fun q => rollforward fuel q t) ps) as [is|e|] eqn:E; try discriminate.
  apply traverse_returns in E.
  assert (Hst : forall j, In j is -> exists q, In q ps /\ starts_at (moments q) t j).
  { intros j Hj. destruct (Forall2_in_r _ _ _ _ E Hj) as [q [H1 H2]]. exists q. split; [exact H1|]. apply (Hq q H1 fuel t j H2). }
  assert (Hst2 : forall q, In q ps -> exists j, In j is /\ starts_at (moments q) t j).
  { intros q Hj. destruct (Forall2_in_l _ _ _ _ E Hj) as [j [H1 H2]]. exists j. split; [exact H1|]. apply (Hq q Hj fuel t j H2). }
  assert (Hisne : is <> []). { intros ->. inversion E; subst. contradiction. }
  assert (Hpr : forall j, In j is -> proper j).
  { intros j Hj. destruct (Hst j Hj) as [q [_ [C [B _]]]]. split; [exact C|lia]. }
  assert (HM : moments (PAll ps) t <-> forall j, In j is -> left j = t).
  { rewrite moments_all. split.
    - intros H1 j Hj. destruct (Hst j Hj) as [q [Hqi [_ [_ M]]]]. apply M, H1, Hqi.
    - intros H1 q Hqi. destruct (Hst2 q Hqi) as [j [Hj [_ [_ M]]]]. apply M, H1, Hj. }
  destruct (all_overlap is) eqn:O.
  - destruct is as [|a is]; [contradiction|]. unfold reduce_inter in H.
    rewrite all_overlap_half in O by exact Hpr.
    destruct (reduce_half is a) as [r [Er [[Cr Lr] [Hu [[il [Hil El]] [ir [Hir Eir]]]]]]].
    { apply proper_halfopen, Hpr. left; reflexivity. }
    { intros j Hj. apply proper_halfopen, Hpr. right; exact Hj. }
    { intros x y Hx Hy. specialize (O x y Hx Hy). lia. }
    rewrite Er in H. cbn [of_result] in H. injection H as <-.
    specialize (O il ir Hil Hir).
    destruct (Hst il Hil) as [q [_ [_ [B _]]]].
    split; [exact Cr|]. split; [lia|]. rewrite HM. split.
    + intros H1. rewrite El. apply H1, Hil.
    + intros H1 j Hj. destruct (Hst j Hj) as [q' [_ [_ [B' _]]]].
      destruct (proj1 (Hu t) ltac:(lia) j Hj). lia.
  - cbn zeta in H.
    replace (existsb _ is) with false in H.
    2:{ symmetry. apply not_true_iff_false. intros X. apply existsb_exists in X. destruct X as [j [Hj X]].
        destruct (Hpr j Hj) as [C _]. rewrite C in X. cbn [in_left_both negb] in X. rewrite andb_false_r in X. discriminate. }
    destruct (max_left_spec is Hisne) as [[m [Hm Em]] Hmax].
    destruct (IH _ _ H) as [C [B _]].
    destruct (Hst m Hm) as [q [_ [_ [Bm _]]]].
    split; [exact C|]. split; [lia|]. rewrite HM. split.
    + intros H1. exfalso. apply not_true_iff_false in O. apply O. apply all_overlap_half; [exact Hpr|].
      intros x y Hx Hy. rewrite (H1 x Hx), <- (H1 y Hy). destruct (Hpr y Hy). assumption.
    + intros H1 j Hj. destruct (Hst j Hj) as [q' [_ [_ [B' _]]]]. specialize (Hmax j Hj). lia.
Qed.

Lemma extend_right_right l : forall curr, right curr <= right (extend_right curr l).
Proof.
  induction l as [|i l IH]; intros curr; cbn [extend_right]; [lia|].
  destruct (right curr <? right i) eqn:E; cbn [andb]; [|lia].
  destruct (overlaps Z_ops i curr); [|lia]. specialize (IH i). lia.
Qed.

Lemma starts_any ps : ps <> [] ->
  (forall q, In q ps -> forall fuel t i, rollforward fuel q t = Returns i -> starts_at (moments q) t i) ->
  forall fuel t i, rollforward fuel (PAny ps) t = Returns i -> starts_at (moments (PAny ps)) t i.
Proof.
  intros Hne Hq fuel t i. cbn [rollforward].
  destruct (traverse (fun q => rollforward fuel q t) ps) as [is|e|] eqn:E; cbn [obind]; try discriminate.
  apply traverse_returns in E. unfold any_forward. intros H.
  destruct (sort_by_left is) as [|f rest] eqn:S; [discriminate|].
  apply ivl_returns in H. destruct H as [-> L].
  pose proof (sort_by_left_asc is) as A. rewrite S in A. inversion A as [|? ? Hmin _]; subst.
  assert (Hin : forall j, In j is -> left f <= left j).
  { intros j Hj. apply sort_by_left_in in Hj. rewrite S in Hj. destruct Hj as [<-|Hj]; [lia|auto]. }
  assert (Hf : In f is) by (apply sort_by_left_in; rewrite S; left; reflexivity).
  destruct (Forall2_in_r _ _ _ _ E Hf) as [qf [Hqf Rf]]. apply (Hq qf Hqf) in Rf. destruct Rf as [Cf [Bf Mf]].
  pose proof (extend_right_right rest f).
  split; [reflexivity|]. cbn [left right]. split; [lia|]. rewrite moments_any. split.
  - intros [q [Hqi M]]. destruct (Forall2_in_l _ _ _ _ E Hqi) as [j [Hj Rj]]. apply (Hq q Hqi) in Rj.
    destruct Rj as [_ [_ Mj]]. apply Mj in M. specialize (Hin j Hj). lia.
  - intros H1. exists qf. split; [exact Hqf|]. apply Mf, H1.
Qed.

Theorem plain_starts p : plain p -> forall fuel t i, rollforward fuel p t = Returns i -> starts_at (moments p) t i.
Proof.
  induction 1 as [a Hs He|ps Hne _ IH|ps Hne _ IH].
  - intros fuel t i. apply starts_anch; assumption.
  - apply starts_all; assumption.
  - apply starts_any; assumption.
Qed.

Theorem plain_contains p fuel t i : plain p -> rollforward fuel p t = Returns i ->
  (contains Z_ops i t = true <-> moments p t).
Proof.
  intros Hp H. destruct (plain_starts p Hp fuel t i H) as [C [B M]].
  rewrite zcontains_zmem, zmem_cleft by exact C. rewrite M. lia.
Qed.

(** [&] and [|] keep this form and mean intersection and union *)
Lemma plain_not_always p : plain p -> is_always p = false.
Proof. destruct 1; reflexivity. Qed.

Lemma plain_and a b : plain a -> plain b ->
  plain (p_and a b) /\ forall t, moments (p_and a b) t <-> moments a t /\ moments b t.
Proof.
  intros Ha Hb. unfold p_and. rewrite (plain_not_always a Ha), (plain_not_always b Hb).
  assert (G : forall p, plain p -> exists l, (forall args, all_members (p :: args) = l ++ all_members args) /\ l <> [] /\
      (forall q, In q l -> plain q) /\ forall t, moments p t <-> forall q, In q l -> moments q t).
  { intros p Hp. inversion Hp as [x H1 H2|ps H1 H2|ps H1 H2]; subst.
    - exists [PAnch x]. split; [reflexivity|]. split; [discriminate|]. split; [intros q [<-|[]]; assumption|].
      intros t. split; [intros H q [<-|[]]; exact H|intros H; apply H; left; reflexivity].
    - exists ps. split; [reflexivity|]. split; [exact H1|]. split; [exact H2|]. intros t. apply moments_all.
    - exists [PAny ps]. split; [reflexivity|]. split; [discriminate|]. split; [intros q [<-|[]]; assumption|].
      intros t. split; [intros H q [<-|[]]; exact H|intros H; apply H; left; reflexivity]. }
  destruct (G a Ha) as [la [Ea [Na [Pa Ma]]]]. destruct (G b Hb) as [lb [Eb [Nb [Pb Mb]]]].
  rewrite Ea, Eb. cbn [all_members]. rewrite app_nil_r. split.
  - apply plain_all; [destruct la; [contradiction|discriminate]|].
    intros q Hq. apply in_app_or in Hq. destruct Hq; auto.
  - intros t. rewrite moments_all, Ma, Mb. split.
    + intros H. split; intros q Hq; apply H; apply in_or_app; auto.
    + intros [H1 H2] q Hq. apply in_app_or in Hq. destruct Hq; auto.
Qed.

Lemma plain_or a b : plain a -> plain b ->
  plain (p_or a b) /\ forall t, moments (p_or a b) t <-> moments a t \/ moments b t.
Proof.
  intros Ha Hb. unfold p_or. rewrite (plain_not_always a Ha), (plain_not_always b Hb). cbn [orb].
  assert (G : forall p, plain p -> exists l, (forall acc args, any_members acc (p :: args) = any_members (acc ++ l) args) /\ l <> [] /\
      (forall q, In q l -> plain q) /\ forall t, moments p t <-> exists q, In q l /\ moments q t).
  { intros p Hp. inversion Hp as [x H1 H2|ps H1 H2|ps H1 H2]; subst.
    - exists [PAnch x]. split; [reflexivity|]. split; [discriminate|]. split; [intros q [<-|[]]; assumption|].
      intros t. split; [intros H; exists (PAnch x); cbn; auto|intros [q [[<-|[]] H]]; exact H].
    - exists [PAll ps]. split; [reflexivity|]. split; [discriminate|]. split; [intros q [<-|[]]; assumption|].
      intros t. split; [intros H; exists (PAll ps); cbn [In]; auto|intros [q [[<-|[]] H]]; exact H].
    - exists ps. split; [reflexivity|]. split; [exact H1|]. split; [exact H2|]. intros t. apply moments_any. }
  destruct (G a Ha) as [la [Ea [Na [Pa Ma]]]]. destruct (G b Hb) as [lb [Eb [Nb [Pb Mb]]]].
  rewrite Ea, Eb. cbn [any_members app]. split.
  - apply plain_any; [destruct la; [contradiction|discriminate]|].
    intros q Hq. apply in_app_or in Hq. destruct Hq; auto.
  - intros t. rewrite moments_any, Ma, Mb. split.
    + intros [q [Hq H]]. apply in_app_or in Hq. destruct Hq; [left|right]; exists q; auto.
    + intros [[q [Hq H]]|[q [Hq H]]]; exists q; (split; [apply in_or_app; auto|exact H]).
Qed.

(** * Items *)
Definition cron_cls (c : acls) : Prop := c = THour \/ c = TDay \/ c = TMonth \/ c = TYear \/ c = TWeek.
(** first unit number of the class *)
Definition base (c : acls) : Z := match c with TWeek | TMonth | TYear => 1 | _ => 0 end.

Definition settled_at (c : acls) (t : Z) : Prop := c = TYear -> ~ last_microsecond_of_month (dt_month t) t.

Lemma slice_in len a b s i : In i (slice len a b s) <-> 0 <= i < len /\ a <= i < b /\ (i - a) mod s = 0.
Proof.
  unfold slice. rewrite filter_In, in_map_iff. split.
  - intros [[n [<- Hn]] H]. apply in_seq in Hn. lia.
  - intros H. split; [|lia]. exists (Z.to_nat i). split; [lia|]. apply in_seq. lia.
Qed.

Lemma map_result_ok {A B} (f : A -> result B) l : (forall a, In a l -> exists b, f a = Ok b) ->
  exists bs, map_result f l = Ok bs /\ Forall2 (fun a b => f a = Ok b) l bs.
Proof.
  induction l as [|a l IH]; intros H; cbn [map_result].
  - exists []. split; [reflexivity|constructor].
  - destruct (H a (or_introl eq_refl)) as [b E]. destruct IH as [bs [E2 F]]; [intros; apply H; right; assumption|].
    rewrite E, E2. cbn [bind]. exists (b :: bs). split; [reflexivity|constructor; assumption].
Qed.

Lemma unit_range_base c n : cron_cls c -> (unit_range c n <-> 0 <= n - base c < units c).
Proof. intros [-> | [-> | [-> | [-> | ->]]]]; cbn [unit_range base units]; lia. Qed.

Lemma unit_number_range c t : unit_range c (unit_number c t).
Proof.
  destruct c; try (destruct (anchor_dt_unit TSecond t) as [? [? [? [? [H _]]]]]; [discriminate|exact H]);
  try (destruct (anchor_dt_unit TMinute t) as [? [? [? [? [H _]]]]]; [discriminate|exact H]);
  try (destruct (anchor_dt_unit THour t) as [? [? [? [? [H _]]]]]; [discriminate|exact H]);
  try (destruct (anchor_dt_unit TDay t) as [? [? [? [? [H _]]]]]; [discriminate|exact H]);
  try (destruct (anchor_dt_unit TWeek t) as [? [? [? [? [H _]]]]]; [discriminate|exact H]);
  try (destruct (anchor_dt_unit TMonth t) as [? [? [? [? [H _]]]]]; [discriminate|exact H]).
  destruct (dt_ymd_valid t) as [[H _] _]. exact H.
Qed.

(** a unit's name and its number are the same argument *)
Lemma name_start c i : cron_cls c -> 0 <= i < units c ->
  anchor c (unit_name c i) SStart = anchor c (VInt (i + base c)) SStart.
Proof.
  intros [-> | [-> | [-> | [-> | ->]]]]; cbn [unit_name anchor base units anchor_str anchor_int]; intros H;
    unfold anchor_int_base, month_anchor_str; cbn [is_end unit_resolution];
    repeat match goal with |- context [(?a <=? ?b) && (?c <=? ?d)] => replace ((a <=? b) && (c <=? d)) with true by lia end.
  - f_equal; lia.
  - f_equal; lia.
  - f_equal; lia.
  - f_equal. lia.
  - f_equal; lia.
Qed.
Lemma name_end c i : c = TWeek \/ c = TYear -> 0 <= i < units c ->
  anchor c (unit_name c i) SEnd = anchor c (VInt (i + base c)) SEnd.
Proof.
  intros [-> | ->]; cbn [unit_name anchor base units anchor_str anchor_int]; intros H;
    unfold anchor_int_base, month_anchor_str; cbn [is_end unit_resolution];
    repeat match goal with |- context [(?a <=? ?b) && (?c <=? ?d)] => replace ((a <=? b) && (c <=? d)) with true by lia end.
  - f_equal; lia.
  - replace (i + 1 - 1 + 1) with (i + 1) by lia. reflexivity.
Qed.

Lemma name_at c i : cron_cls c -> 0 <= i < units c -> period_at c (unit_name c i) = period_at c (VInt (i + base c)).
Proof.
  intros Hc Hi. unfold period_at, mk_anchored, set_start. rewrite (name_start c i Hc Hi). reflexivity.
Qed.

Lemma year_at_accepted n : 1 <= n <= 12 -> exists p, period_at TYear (VInt n) = Ok p.
Proof.
  intros H. assert (C : n = 1 \/ n = 2 \/ n = 3 \/ n = 4 \/ n = 5 \/ n = 6 \/ n = 7 \/ n = 8 \/ n = 9 \/ n = 10 \/ n = 11 \/ n = 12) by lia.
  repeat (destruct C as [-> | C]; [eexists; reflexivity|]). subst n. eexists; reflexivity.
Qed.
Lemma year_range_accepted i j : 1 <= i <= 12 -> 1 <= j <= 12 -> exists p, period TYear (Some (VInt i)) (Some (VInt j)) = Ok p.
Proof. exact (period_year_int_accepted i j). Qed.

Lemma left_out_last j t : left_out j t -> last_microsecond_of_month (dt_month t) t.
Proof. intros [[H1 H2] _]. rewrite H1. split; assumption. Qed.

(** cls.at(n) *)
Lemma at_number c n : cron_cls c -> unit_range c n -> exists p, period_at c (VInt n) = Ok p /\
  plain (PAnch p) /\ forall t, settled_at c t -> (acontains p t = true <-> unit_number c t = n).
Proof.
  intros Hc Hn.
  assert (E : exists p, period_at c (VInt n) = Ok p).
  { destruct Hc as [-> | [-> | [-> | [-> | ->]]]]; try (apply period_at_int_accepted; [discriminate|exact Hn]).
    apply year_at_accepted. exact Hn. }
  destruct E as [p E]. exists p. split; [exact E|].
  destruct (mk_anchored_bounds _ _ _ _ _ _ _ E) as [_ [Hs He]]. split; [constructor; lia|].
  intros t St.
  destruct Hc as [-> | [-> | [-> | [-> | ->]]]]; try (apply period_at_int; [discriminate|exact Hn|exact E]).
  rewrite (period_at_year n p t E). cbn [unit_number]. split; [intros [H _]; exact H|].
  intros H. split; [exact H|]. intros L. apply (St eq_refl). apply (left_out_last n t L).
Qed.

(** cls(a, b) *)
Lemma range_number c a b : cron_cls c -> unit_range c a -> unit_range c b ->
  exists p, period c (Some (VInt a)) (Some (VInt b)) = Ok p /\
  plain (PAnch p) /\ forall t, settled_at c t -> (acontains p t = true <-> cyc_between a b (unit_number c t)).
Proof.
  intros Hc Ha Hb.
  assert (E : exists p, period c (Some (VInt a)) (Some (VInt b)) = Ok p).
  { destruct Hc as [-> | [-> | [-> | [-> | ->]]]]; try (apply period_int_accepted; [discriminate|exact Ha|exact Hb]).
    apply year_range_accepted; assumption. }
  destruct E as [p E]. exists p. split; [exact E|].
  destruct (mk_anchored_bounds _ _ _ _ _ _ _ E) as [_ [Hs He]]. split; [constructor; lia|].
  intros t St.
  destruct Hc as [-> | [-> | [-> | [-> | ->]]]]; try (apply period_int_range; [discriminate|exact E]).
  rewrite (period_year_int a b p t E). cbn [unit_number]. split; [intros [H _]; exact H|].
  intros H. split; [exact H|]. intros L. apply (St eq_refl). apply (left_out_last b t L).
Qed.

(** cls.create_range *)
Lemma create_range_ok c a b s : cron_cls c -> 0 < s -> (exists i, 0 <= i < units c /\ a <= i < b /\ (i - a) mod s = 0) ->
  exists p, create_range c a b s = Ok p /\ plain p /\
  forall t, settled_at c t -> (moments p t <->
    a <= unit_number c t - base c < b /\ (unit_number c t - base c - a) mod s = 0).
Proof.
  intros Hc Hs [i0 Hi0]. unfold create_range. destruct (Z.eqb_spec s 0); [lia|].
  destruct (map_result_ok (fun i => let* p := period_at c (unit_name c i) in Ok (PAnch p)) (slice (units c) a b s)) as [bs [E F]].
  { intros i Hi. apply slice_in in Hi. destruct Hi as [Hi _]. rewrite (name_at c i Hc Hi).
    destruct (at_number c (i + base c) Hc) as [p [-> _]]; [|cbn [bind]; eexists; reflexivity].
    rewrite unit_range_base by exact Hc. lia. }
  rewrite E. cbn [bind].
  assert (Hat : forall q, In q bs -> exists i p, In i (slice (units c) a b s) /\ q = PAnch p /\ plain q /\
    forall t, settled_at c t -> (moments q t <-> unit_number c t = i + base c)).
  { intros q Hq. destruct (Forall2_in_r _ _ _ _ F Hq) as [i [Hi Ei]]. pose proof Hi as Hi'. apply slice_in in Hi'. destruct Hi' as [Hr _].
    rewrite (name_at c i Hc Hr) in Ei. destruct (at_number c (i + base c) Hc) as [p [Ep [Pp Mp]]].
    { rewrite unit_range_base by exact Hc. lia. }
    rewrite Ep in Ei. cbn [bind] in Ei. injection Ei as <-. exists i, p. split; [exact Hi|]. split; [reflexivity|].
    split; [exact Pp|]. exact Mp. }
  assert (Hne : bs <> []).
  { apply (proj2 (slice_in (units c) a b s i0)) in Hi0. intros ->. inversion F as [X|]. rewrite <- X in Hi0. destruct Hi0. }
  assert (Hflat : forall l acc, (forall q, In q l -> exists p, q = PAnch p) -> any_members acc l = acc ++ l).
  { induction l as [|q l IH]; intros acc Hl; cbn [any_members]; [rewrite app_nil_r; reflexivity|].
    destruct (Hl q (or_introl eq_refl)) as [p ->]. rewrite IH by (intros; apply Hl; right; assumption).
    rewrite <- app_assoc. reflexivity. }
  exists (PAny bs). split.
  - unfold mk_any. destruct bs as [|q bs]; [contradiction|]. rewrite Hflat; [reflexivity|].
    intros q' Hq'. destruct (Hat q' Hq') as [_ [p [_ [-> _]]]]. exists p; reflexivity.
  - split.
    + apply plain_any; [exact Hne|]. intros q Hq. destruct (Hat q Hq) as [_ [_ [_ [_ [H _]]]]]. exact H.
    + intros t St. rewrite moments_any. split.
      * intros [q [Hq M]]. destruct (Hat q Hq) as [i [_ [Hi [_ [_ Mi]]]]]. apply (Mi t St) in M. apply slice_in in Hi.
        rewrite M. replace (i + base c - base c) with i by lia. tauto.
      * intros [H1 H2].
        assert (Hi : In (unit_number c t - base c) (slice (units c) a b s)).
        { apply slice_in. split; [|split; assumption]. apply unit_range_base; [exact Hc|]. apply unit_number_range. }
        destruct (Forall2_in_l _ _ _ _ F Hi) as [q [Hq Eq]]. exists q. split; [exact Hq|].
        destruct (Hat q Hq) as [i [p [Hi2 [-> [_ Mi]]]]]. apply Mi; [exact St|].
        assert (Hr : 0 <= unit_number c t - base c < units c) by (apply unit_range_base; [exact Hc|apply unit_number_range]).
        rewrite (name_at c _ Hc Hr) in Eq. replace (unit_number c t - base c + base c) with (unit_number c t) in Eq by lia.
        destruct (at_number c (unit_number c t) Hc (unit_number_range c t)) as [p' [Ep' [_ Mp']]].
        rewrite Ep' in Eq. cbn [bind] in Eq. injection Eq as ->.
        apply (Mi t St). cbn [moments]. apply (Mp' t St). reflexivity.
Qed.

Definition num (c : acls) (v : cval) : Z := match v with CNum n => conv c n | CName k => k + 1 end.

Lemma value_range c v : cron_cls c -> value_ok c v -> unit_range c (num c v).
Proof.
  intros Hc [H1 H2]. destruct v as [n|k]; cbn [num number] in *.
  - destruct Hc as [-> | [-> | [-> | [-> | ->]]]]; cbn [conv first_number last_number unit_range] in *; try lia.
    destruct (Z.eqb_spec n 0); lia.
  - destruct H2 as [[-> | ->] H2]; cbn [first_number last_number unit_range] in *; lia.
Qed.

Lemma value_at c v : cron_cls c -> value_ok c v -> period_at c (cval_arg c v) = period_at c (VInt (num c v)).
Proof.
  intros Hc Hv. pose proof (value_range c v Hc Hv) as Hr. destruct v as [n|k]; [reflexivity|].
  cbn [cval_arg num] in *. destruct Hv as [_ [H _]].
  assert (B : base c = 1) by (destruct H as [-> | ->]; reflexivity).
  rewrite unit_range_base in Hr by exact Hc. rewrite name_at by (assumption || lia). rewrite B. reflexivity.
Qed.

Lemma value_period c a b : cron_cls c -> value_ok c a -> value_ok c b ->
  period c (Some (cval_arg c a)) (Some (cval_arg c b)) = period c (Some (VInt (num c a))) (Some (VInt (num c b))).
Proof.
  intros Hc Ha Hb. unfold period, mk_anchored, set_start, set_end.
  assert (G : forall v s, value_ok c v -> anchor c (cval_arg c v) s = anchor c (VInt (num c v)) s).
  { intros v s Hv. pose proof (value_range c v Hc Hv) as Hr. destruct v as [n|k]; [reflexivity|].
    cbn [cval_arg num] in *. destruct Hv as [_ [H _]].
    assert (B : base c = 1) by (destruct H as [-> | ->]; reflexivity).
    rewrite unit_range_base in Hr by exact Hc.
    destruct s; [rewrite name_start by (assumption || lia)|rewrite name_end by (assumption || lia)]; rewrite B; reflexivity. }
  rewrite (G a SStart Ha), (G b SEnd Hb). reflexivity.
Qed.

Definition item_match (c : acls) (it : citem) (t : Z) : Prop :=
  exists x, first_number c <= x <= last_number c /\ selects c it x /\ shows c x (unit_number c t).

Lemma mod_0_0 s : 0 mod s = 0.
Proof. apply Zmod_0_l. Qed.

Lemma item_moments c it : cron_cls c -> item_ok c it -> it <> CStar ->
  exists p, item_period c it = Ok (Some p) /\ plain p /\
  forall t, settled_at c t -> (moments p t <-> item_match c it t).
Proof.
  intros Hc Hok Hns. destruct it as [|step|v step|a b step]; [contradiction| | |].
  - (* "*/step" *)
    cbn [item_ok] in Hok. destruct Hok as [Hs Hw]. cbn [item_period].
    destruct (create_range_ok c 0 (units c) step Hc Hs) as [p [E [Pp Mp]]].
    { exists 0. rewrite mod_0_0. destruct Hc as [-> | [-> | [-> | [-> | ->]]]]; cbn [units]; lia. }
    rewrite E. cbn [bind]. exists p. split; [reflexivity|]. split; [exact Pp|].
    intros t St. rewrite (Mp t St). unfold item_match. cbn [selects].
    pose proof (unit_number_range c t) as Hn. set (n := unit_number c t) in *.
    rewrite unit_range_base in Hn by exact Hc.
    destruct Hw as [Hw | ->].
    + assert (Fb : first_number c = base c) by (destruct Hc as [-> | [-> | [-> | [-> | ->]]]]; try reflexivity; contradiction).
      assert (Lb : last_number c = base c + units c - 1)
        by (destruct Hc as [-> | [-> | [-> | [-> | ->]]]]; try reflexivity; contradiction).
      rewrite Fb, Lb. rewrite Z.sub_0_r. split.
      * intros [_ H]. exists n. split; [lia|]. split; [exact H|left; reflexivity].
      * intros [x [_ [H [-> | [X _]]]]]; [split; [lia|exact H]|contradiction].
    + split.
      * intros _. exists n. split; [|split; [apply Z.mod_1_r|left; reflexivity]].
        destruct Hc as [-> | [-> | [-> | [-> | ->]]]]; cbn [first_number last_number base units] in *; lia.
      * intros _. split; [lia|apply Z.mod_1_r].
  - (* "5" *)
    cbn [item_ok] in Hok. destruct step as [step|]; [destruct Hok|]. cbn [item_period bind].
    rewrite (value_at c v Hc Hok).
    destruct (at_number c (num c v) Hc (value_range c v Hc Hok)) as [p [E [Pp Mp]]].
    rewrite E. cbn [bind]. exists (PAnch p). split; [reflexivity|]. split; [exact Pp|].
    intros t St. cbn [moments]. rewrite (Mp t St). unfold item_match. cbn [selects]. destruct Hok as [Hv Hv2].
    pose proof (unit_number_range c t) as Hn.
    destruct v as [n|k]; cbn [num number] in *; unfold shows;
    destruct Hc as [-> | [-> | [-> | [-> | ->]]]]; cbn [conv first_number last_number unit_range unit_number] in *.
    5:{ split.
        - intros E1. exists n. split; [lia|]. split; [reflexivity|].
          destruct (Z.eqb_spec n 0); [right; split; [reflexivity|]|left]; lia.
        - intros [x [? [-> [? | [_ [-> ?]]]]]]; [destruct (Z.eqb_spec n 0); lia|]. rewrite Z.eqb_refl. assumption. }
    all: match goal with |- _ <-> exists x, _ /\ x = ?v /\ _ => split; [intros E1; exists v; lia|intros [x [? [-> [? | [X ?]]]]]; [lia|discriminate X || lia]] end.
  - destruct step as [step|].
    + (* "1-5/2" *)
      cbn [item_ok] in Hok. destruct Hok as [Ha [Hb [Hab [Hs Hty]]]].
      assert (G : exists ia, cval_index c a = Ok ia /\ cval_index c b = Ok (ia + (number b - number a)) /\
                  ia = number a - base c /\ first_number c <= base c).
      { destruct a as [na|ka], b as [nb|kb]; try contradiction; cbn [cval_index number] in *.
        - destruct Hty as [-> | ->]; cbn [conv base first_number]; exists na; repeat split; try (f_equal; lia); lia.
        - destruct Ha as [_ [[-> | ->] _]]; cbn [unit_mapping base first_number]; exists ka; repeat split; try (f_equal; lia); lia. }
      destruct G as [ia [Eia [Eib [Hia Hfb]]]].
      cbn [item_period].
      destruct (create_range_ok c 0 (units c) step Hc Hs) as [p0 [E0 _]].
      { exists 0. rewrite mod_0_0. destruct Hc as [-> | [-> | [-> | [-> | ->]]]]; cbn [units]; lia. }
      rewrite E0, Eia, Eib. cbn [bind].
      destruct (create_range_ok c ia (ia + (number b - number a) + 1) step Hc Hs) as [p [E [Pp Mp]]].
      { exists ia. rewrite Z.sub_diag, mod_0_0.
        assert (0 <= ia < units c); [|lia].
        destruct Ha as [Ha Ha']. destruct a as [na|ka]; cbn [number] in *;
          destruct b as [nb|kb]; try contradiction.
        - destruct Hty as [-> | ->]; cbn [first_number last_number base units] in *; lia.
        - destruct Ha' as [[-> | ->] Ha']; cbn [first_number last_number base units] in *; lia. }
      rewrite E. cbn [bind]. exists p. split; [reflexivity|]. split; [exact Pp|].
      intros t St. rewrite (Mp t St). unfold item_match. cbn [selects].
      pose proof (unit_number_range c t) as Hn. set (n := unit_number c t) in *. subst ia.
      replace (n - base c - (number a - base c)) with (n - number a) by lia.
      assert (Hsh : forall x, number a <= x -> shows c x n -> x = n).
      { intros x Hx [? | [-> [-> ?]]]; [assumption|]. exfalso.
        destruct a as [na|ka], b as [nb|kb]; try contradiction; [destruct Hty; discriminate|].
        destruct Ha as [_ [_ Ha]]. cbn [number] in *. lia. }
      split.
      * intros [H1 H2]. exists n. split; [|split; [split; [lia|exact H2]|left; reflexivity]].
        destruct Hc as [-> | [-> | [-> | [-> | ->]]]]; cbn [unit_range first_number last_number] in *; lia.
      * intros [x [_ [[H1 H2] H3]]]. rewrite <- (Hsh x ltac:(lia) H3). split; [lia|exact H2].
    + (* "1-5" *)
      cbn [item_ok] in Hok. destruct Hok as [Ha [Hb Hno]]. cbn [item_period].
      rewrite (value_period c a b Hc Ha Hb).
      destruct (range_number c (num c a) (num c b) Hc (value_range c a Hc Ha) (value_range c b Hc Hb)) as [p [E [Pp Mp]]].
      rewrite E. cbn [bind]. exists (PAnch p). split; [reflexivity|]. split; [exact Pp|].
      intros t St. cbn [moments]. rewrite (Mp t St). unfold item_match. cbn [selects].
      pose proof (unit_number_range c t) as Hn. set (n := unit_number c t) in *.
      destruct Ha as [Ha Ha']. destruct Hb as [Hb Hb'].
      assert (Hw : c <> TWeek \/ c = TWeek) by (destruct Hc as [-> | [-> | [-> | [-> | ->]]]]; (left; discriminate) || (right; reflexivity)).
      destruct Hw as [Hw| ->].
      * assert (Na : num c a = number a) by (destruct a; [destruct c; try reflexivity; contradiction|reflexivity]).
        assert (Nb : num c b = number b) by (destruct b; [destruct c; try reflexivity; contradiction|reflexivity]).
        rewrite Na, Nb. split.
        -- intros H. exists n. split; [|split; [exact H|left; reflexivity]].
           destruct Hc as [-> | [-> | [-> | [-> | ->]]]]; cbn [unit_range first_number last_number] in *; lia.
        -- intros [x [_ [H [-> | [X _]]]]]; [exact H|contradiction].
      * cbn [first_number last_number unit_range] in *.
        assert (Na : num TWeek a = if number a =? 0 then 7 else number a).
        { destruct a as [na|ka]; cbn [num number conv] in *; [reflexivity|]. destruct Ha' as [_ Ha']. destruct (Z.eqb_spec (ka + 1) 0); lia. }
        assert (Nb : num TWeek b = if number b =? 0 then 7 else number b).
        { destruct b as [nb|kb]; cbn [num number conv] in *; [reflexivity|]. destruct Hb' as [_ Hb']. destruct (Z.eqb_spec (kb + 1) 0); lia. }
        assert (Hno' : ~ (number a = 0 /\ number b = 7)).
        { intros [X Y]. apply Hno. split; [reflexivity|]. split; [|exact Y].
          destruct a as [na|ka]; cbn [number] in X; [congruence|]. cbn [number] in Ha'. lia. }
        rewrite Na, Nb. clear Na Nb Mp E Ha' Hb' Hno. unfold cyc_between, shows.
        set (x := number a) in *. set (y := number b) in *. split.
        -- intros H. destruct (Z.eqb_spec x 0), (Z.eqb_spec y 0);
             destruct (Z.eq_dec n 7); (exists 0; split; [lia|]; split; [lia|right; split; [reflexivity|lia]]) || (exists n; lia) || idtac.
           all: destruct (Z_le_gt_dec x y); (exists 0; split; [lia|]; split; [lia|right; split; [reflexivity|lia]]) || (exists n; lia) || idtac.
        -- intros [z [Hz [H1 H2]]]. destruct (Z.eqb_spec x 0), (Z.eqb_spec y 0); lia.
Qed.

(** * Fields and lines *)
Definition field_val (ok : Z -> Prop) (p : tperiod) (M : Z -> Prop) : Prop :=
  (p = PAlways /\ forall t, M t) \/ (plain p /\ forall t, ok t -> (moments p t <-> M t)).

Lemma field_val_and ok a b A B : field_val ok a A -> field_val ok b B ->
  field_val ok (p_and a b) (fun t => A t /\ B t).
Proof.
  intros [[-> HA]|[Pa HA]] [[-> HB]|[Pb HB]].
  - left. split; [reflexivity|auto].
  - right. cbn [p_and is_always]. split; [exact Pb|]. intros t Ht. rewrite (HB t Ht). split; [auto|tauto].
  - right. unfold p_and. rewrite (plain_not_always a Pa). cbn [is_always].
    split; [exact Pa|]. intros t Ht. rewrite (HA t Ht). split; [auto|tauto].
  - right. destruct (plain_and a b Pa Pb) as [P M]. split; [exact P|]. intros t Ht. rewrite M, (HA t Ht), (HB t Ht). tauto.
Qed.

Lemma field_fold c items : cron_cls c -> (forall it, In it items -> item_ok c it /\ it <> CStar) ->
  forall full A, plain full -> (forall t, settled_at c t -> (moments full t <-> A t)) ->
  exists p, field_period c (Some full) items = Ok (Some p) /\ plain p /\
  forall t, settled_at c t -> (moments p t <-> A t \/ exists it, In it items /\ item_match c it t).
Proof.
  intros Hc. induction items as [|it items IH]; intros Hit full A Pf Mf; cbn [field_period].
  - exists full. split; [reflexivity|]. split; [exact Pf|]. intros t Ht. rewrite (Mf t Ht).
    split; [auto|]. intros [H|[it [[] _]]]; exact H.
  - destruct (Hit it (or_introl eq_refl)) as [Hok Hns].
    destruct (item_moments c it Hc Hok Hns) as [p [E [Pp Mp]]]. rewrite E. cbn [bind].
    destruct (plain_or full p Pf Pp) as [Po Mo].
    destruct (IH (fun it' H => Hit it' (or_intror H)) (p_or full p) (fun t => A t \/ item_match c it t) Po) as [q [Eq [Pq Mq]]].
    { intros t Ht. rewrite Mo, (Mf t Ht), (Mp t Ht). reflexivity. }
    exists q. split; [exact Eq|]. split; [exact Pq|]. intros t Ht. rewrite (Mq t Ht). split.
    + intros [[H|H]|[it' [H1 H2]]]; [left; exact H|right; exists it; cbn; auto|right; exists it'; cbn; auto].
    + intros [H|[it' [[<-|H1] H2]]]; [auto|auto|right; exists it'; auto].
Qed.

Lemma field_match_items c items t : field_match c items t <-> exists it, In it items /\ item_match c it t.
Proof.
  unfold field_match, item_match. split.
  - intros [it [x [H1 H2]]]. exists it. split; [exact H1|]. exists x. exact H2.
  - intros [it [H1 [x H2]]]. exists it, x. auto.
Qed.

Lemma star_match c t : cron_cls c -> item_match c CStar t.
Proof.
  intros Hc. exists (unit_number c t). split; [|split; [exact I|left; reflexivity]].
  pose proof (unit_number_range c t).
  destruct Hc as [-> | [-> | [-> | [-> | ->]]]]; cbn [unit_range first_number last_number] in *; lia.
Qed.

Lemma field_moments c items : cron_cls c -> field_ok c items ->
  exists p, get_field c items = Ok p /\ field_val (settled_at c) p (field_match c items) /\
  (is_always p = true <-> ~ restricted items).
Proof.
  intros Hc [Hne [Hok Hst]]. unfold get_field. destruct Hst as [Hst|Hst].
  - assert (E : field_period c None items = Ok None).
    { clear Hne Hok. induction items as [|it items IH]; cbn [field_period]; [reflexivity|].
      rewrite (Hst it (or_introl eq_refl)). cbn [item_period bind]. apply IH. intros; apply Hst; right; assumption. }
    rewrite E. cbn [bind]. exists PAlways. split; [reflexivity|]. split.
    + left. split; [reflexivity|]. intros t. apply field_match_items. destruct items as [|it items]; [contradiction|].
      exists it. split; [left; reflexivity|]. rewrite (Hst it (or_introl eq_refl)). apply star_match, Hc.
    + split; [|reflexivity]. intros _ [it [Hi Hn]]. apply Hn, Hst, Hi.
  - destruct items as [|it items]; [contradiction|]. cbn [field_period].
    destruct (item_moments c it Hc (Hok it (or_introl eq_refl)) (Hst it (or_introl eq_refl))) as [p [E [Pp Mp]]].
    rewrite E. cbn [bind].
    destruct (field_fold c items Hc (fun it' H => conj (Hok it' (or_intror H)) (Hst it' (or_intror H))) p (item_match c it) Pp Mp)
      as [q [Eq [Pq Mq]]].
    rewrite Eq. cbn [bind]. exists q. split; [reflexivity|]. split.
    + right. split; [exact Pq|]. intros t Ht. rewrite (Mq t Ht), field_match_items. split.
      * intros [H|[it' [H1 H2]]]; [exists it; cbn; auto|exists it'; cbn; auto].
      * intros [it' [[<-|H1] H2]]; [auto|right; exists it'; auto].
    + rewrite (plain_not_always q Pq). split; [discriminate|]. intros H. exfalso. apply H.
      exists it. split; [left; reflexivity|]. apply Hst; left; reflexivity.
Qed.

Lemma field_val_weaken (ok ok' : Z -> Prop) p M : (forall t, ok' t -> ok t) -> field_val ok p M -> field_val ok' p M.
Proof. intros H [H1|[P HM]]; [left; exact H1|right; split; [exact P|]; intros t Ht; apply HM, H, Ht]. Qed.

Lemma settled_any c t : c <> TYear -> settled_at c t.
Proof. intros H E. contradiction. Qed.

Lemma restricted_dec items : restricted items \/ ~ restricted items.
Proof.
  induction items as [|it items [H|H]].
  - right. intros [it [[] _]].
  - left. destruct H as [i [H1 H2]]. exists i. cbn; auto.
  - destruct it; try (left; eexists; split; [left; reflexivity|discriminate]).
    right. intros [i [[<-|Hi] H2]]; [apply H2; reflexivity|]. apply H. exists i. auto.
Qed.

Theorem cron_moments e : cron_ok e -> exists p, get_subperiod e = Ok p /\ plain p /\
  forall t, month_settled e t -> (moments p t <-> cron_match e t).
Proof.
  intros [Hmi [Hh [Hd [Hmo Hw]]]].
  destruct (field_moments TMonth (c_dom e)) as [pd [Ed [Vd Ad]]]; [unfold cron_cls; tauto|exact Hd|].
  destruct (field_moments TWeek (c_dow e)) as [pw [Ew [Vw Aw]]]; [unfold cron_cls; tauto|exact Hw|].
  destruct (field_moments THour (c_minute e)) as [pmi [Emi [Vmi _]]]; [unfold cron_cls; tauto|exact Hmi|].
  destruct (field_moments TDay (c_hour e)) as [ph [Eh [Vh _]]]; [unfold cron_cls; tauto|exact Hh|].
  destruct (field_moments TYear (c_month e)) as [pmo [Emo [Vmo Amo]]]; [unfold cron_cls; tauto|exact Hmo|].
  unfold get_subperiod. rewrite Ed, Ew, Emi, Eh, Emo. cbn [bind].
  set (day := if _ && _ then _ else _). eexists. split; [reflexivity|].
  set (ok := month_settled e).
  apply (field_val_weaken _ ok) in Vd; [|intros; apply settled_any; discriminate].
  apply (field_val_weaken _ ok) in Vw; [|intros; apply settled_any; discriminate].
  apply (field_val_weaken _ ok) in Vmi; [|intros; apply settled_any; discriminate].
  apply (field_val_weaken _ ok) in Vh; [|intros; apply settled_any; discriminate].
  assert (Vmo' : field_val ok pmo (field_match TYear (c_month e))).
  { destruct (restricted_dec (c_month e)) as [R|R].
    - apply (field_val_weaken (settled_at TYear)); [|exact Vmo]. intros t Ht _. apply Ht, R.
    - apply Amo in R. apply is_always_eq in R. left. split; [exact R|]. subst pmo.
      destruct Vmo as [[_ H]|[H _]]; [exact H|inversion H]. }
  assert (Vs : field_val ok (PAnch minutely) (fun _ => True)).
  { right. split; [constructor; vm_compute; discriminate|]. intros t _. cbn [moments].
    unfold acontains. replace (is_full minutely) with true by reflexivity. tauto. }
  assert (Vday : field_val ok day (fun t =>
     (restricted (c_dom e) /\ restricted (c_dow e) /\ (field_match TMonth (c_dom e) t \/ field_match TWeek (c_dow e) t)) \/
     (~ (restricted (c_dom e) /\ restricted (c_dow e)) /\ field_match TMonth (c_dom e) t /\ field_match TWeek (c_dow e) t))).
  { subst day. destruct (is_always pd) eqn:Xd; [|destruct (is_always pw) eqn:Xw]; cbn [negb andb].
    - assert (N : ~ (restricted (c_dom e) /\ restricted (c_dow e))) by (intros [H _]; apply (proj1 Ad eq_refl H)).
      destruct (field_val_and _ _ _ _ _ Vd Vw) as [[H1 H2]|[H1 H2]]; [left|right]; (split; [exact H1|]); intros t; intros;
        [right; split; [exact N|apply H2]|rewrite (H2 t) by assumption; tauto].
    - assert (N : ~ (restricted (c_dom e) /\ restricted (c_dow e))) by (intros [_ H]; apply (proj1 Aw eq_refl H)).
      destruct (field_val_and _ _ _ _ _ Vd Vw) as [[H1 H2]|[H1 H2]]; [left|right]; (split; [exact H1|]); intros t; intros;
        [right; split; [exact N|apply H2]|rewrite (H2 t) by assumption; tauto].
    - assert (Rd : restricted (c_dom e)) by (destruct (restricted_dec (c_dom e)) as [H|H]; [exact H|apply Ad in H; discriminate]).
      assert (Rw : restricted (c_dow e)) by (destruct (restricted_dec (c_dow e)) as [H|H]; [exact H|apply Aw in H; discriminate]).
      destruct Vd as [[-> _]|[Pd Md]]; [discriminate|]. destruct Vw as [[-> _]|[Pw Mw]]; [discriminate|].
      right. destruct (plain_or pd pw Pd Pw) as [Po Mo]. split; [exact Po|]. intros t Ht. rewrite Mo, (Md t Ht), (Mw t Ht). tauto. }
  pose proof (field_val_and _ _ _ _ _ (field_val_and _ _ _ _ _ (field_val_and _ _ _ _ _ (field_val_and _ _ _ _ _ Vmi Vs) Vh) Vmo') Vday) as V.
  destruct V as [[H _]|[P M]].
  - exfalso. clear -H Vmi Vh Vmo' Vday.
    assert (G : forall a b, p_and a b = PAlways -> a = PAlways /\ b = PAlways).
    { intros a b. unfold p_and. destruct (is_always a) eqn:Ea; [apply is_always_eq in Ea; auto|].
      destruct (is_always b); [intros ->; discriminate|discriminate]. }
    apply G in H. destruct H as [H _]. apply G in H. destruct H as [H _]. apply G in H. destruct H as [H _].
    apply G in H. destruct H as [_ H]. discriminate.
  - split; [exact P|]. intros t Ht. rewrite (M t Ht). unfold cron_match. tauto.
Qed.

Theorem cron_membership e fuel t b : cron_ok e -> month_settled e t ->
  cron_contains fuel e t = Returns b -> (b = true <-> cron_match e t).
Proof.
  intros He Ht. destruct (cron_moments e He) as [p [E [Pp Mp]]].
  unfold cron_contains, cron_rollforward. rewrite E. cbn [of_result obind].
  destruct (rollforward fuel p t) as [i|x|] eqn:R; cbn [obind]; try discriminate.
  intros H. injection H as <-. rewrite (plain_contains p fuel t i Pp R). apply Mp, Ht.
Qed.
