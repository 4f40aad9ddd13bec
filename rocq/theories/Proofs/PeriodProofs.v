From Coq Require Import Lia ZifyBool Arith.
From Verif Require Import Model.Base Model.Interval Model.Calendar Model.Anchored Model.Period
  Spec.IntervalSpec Spec.PeriodSpec Spec.AlgebraSpec
  Proofs.IntervalProofs Proofs.ClockProofs Proofs.AlgebraProofs Proofs.BackProofs.
Open Scope Z_scope.

(** * Fixed intervals *)
Lemma static_contains s e fuel t : s <= e -> t <= p_max ->
  exists b, pcontains fuel (PStatic s e) t = Returns b /\ (b = true <-> s <= t < e).
Proof.
  intros Hse Ht. cbn [pcontains rollforward]. unfold static_rollforward.
  destruct (Z.ltb_spec e t).
  - rewrite ivl_ok by apply Z.le_refl. cbn [obind]. eexists. split; [reflexivity|].
    rewrite zcontains_zmem, zmem_left. lia.
  - rewrite ivl_ok by lia. cbn [obind]. eexists. split; [reflexivity|].
    rewrite zcontains_zmem, zmem_left. lia.
Qed.

Lemma static_contains_any s e fuel t b : pcontains fuel (PStatic s e) t = Returns b -> (b = true <-> s <= t < e).
Proof.
  cbn [pcontains rollforward]. unfold static_rollforward.
  destruct (Z.ltb_spec e t).
  - rewrite ivl_ok by apply Z.le_refl. cbn [obind]. intros E; injection E as <-.
    rewrite zcontains_zmem, zmem_left. split; [intros [A B]; exfalso; revert A B; generalize p_max; intros; lia|lia].
  - destruct (ivl (Z.max s t) e) as [i|ex|] eqn:E; try discriminate. apply ivl_returns in E. destruct E as [-> E].
    cbn [obind]. intros E'; injection E' as <-. rewrite zcontains_zmem, zmem_left. lia.
Qed.

Lemma static_forward s e fuel t : s <= e -> t <= e -> rollforward fuel (PStatic s e) t = Returns (Interval (Z.max s t) e CLeft).
Proof. intros. cbn [rollforward]. unfold static_rollforward. destruct (Z.ltb_spec e t); [lia|]. apply ivl_ok. lia. Qed.
Lemma static_forward_gone s e fuel t : e < t -> rollforward fuel (PStatic s e) t = Returns (Interval p_max p_max CLeft).
Proof. intros. cbn [rollforward]. unfold static_rollforward. destruct (Z.ltb_spec e t); [|lia]. apply ivl_ok, Z.le_refl. Qed.
Lemma static_back s e fuel t : s <= e -> s <= t -> rollback fuel (PStatic s e) t = Returns (Interval s (Z.min e t) CLeft).
Proof. intros. cbn [rollback]. unfold static_rollback. destruct (Z.ltb_spec t s); [lia|]. apply ivl_ok. lia. Qed.
Lemma static_back_future s e fuel t : t < s -> rollback fuel (PStatic s e) t = Returns (Interval p_min p_min CLeft).
Proof. intros. cbn [rollback]. unfold static_rollback. destruct (Z.ltb_spec t s); [|lia]. apply ivl_ok, Z.le_refl. Qed.

Lemma always_contains fuel t b : pcontains fuel PAlways t = Returns b -> (b = true <-> p_min <= t < p_max).
Proof. exact (static_contains_any p_min p_max fuel t b). Qed.
Lemma never_contains fuel t b : pcontains fuel never t = Returns b -> b = false.
Proof.
  intros H. apply static_contains_any in H. destruct b; [|reflexivity].
  exfalso. destruct (proj1 H eq_refl) as [A B]. revert A B. generalize p_max. intros; lia.
Qed.

Lemma static_total s e fuel t : s <= e ->
  (exists b, pcontains fuel (PStatic s e) t = Returns b) /\
  (exists i, rollforward fuel (PStatic s e) t = Returns i) /\ (exists i, rollback fuel (PStatic s e) t = Returns i).
Proof.
  intros H. cbn [pcontains]. destruct (Z_lt_dec e t).
  - rewrite static_forward_gone by assumption. split; [eexists; reflexivity|]. split; [eexists; reflexivity|].
    rewrite static_back by lia. eexists; reflexivity.
  - rewrite static_forward by lia. split; [eexists; reflexivity|]. split; [eexists; reflexivity|].
    destruct (Z_lt_dec t s); [rewrite static_back_future by assumption|rewrite static_back by lia]; eexists; reflexivity.
Qed.

Lemma static_reversed s e fuel t : e < s -> t <= e -> rollforward fuel (PStatic s e) t = Raises ValueError.
Proof.
  intros H Ht. cbn [rollforward]. unfold static_rollforward. destruct (Z.ltb_spec e t); [lia|].
  unfold ivl, mk_interval. cbn [op_lt Z_ops]. destruct (Z.ltb_spec e (Z.max s t)); [reflexivity|lia].
Qed.

(** * Relative windows *)
Lemma delta_contains_ok past future r fuel t :
  pcontains fuel (mk_delta past future (Some r)) t =
  Returns ((r - Z.abs (match past with Some x => x | None => 0 end) <=? t) &&
           (t <=? r + Z.abs (match future with Some x => x | None => 0 end))).
Proof. unfold mk_delta. cbn [pcontains delta_contains]. rewrite !Z.abs_involutive. reflexivity. Qed.

Lemma delta_contains_iff past future r fuel t :
  exists b, pcontains fuel (mk_delta (Some past) (Some future) (Some r)) t = Returns b /\
  (b = true <-> r - Z.abs past <= t <= r + Z.abs future).
Proof. rewrite delta_contains_ok. eexists. split; [reflexivity|]. lia. Qed.

Lemma span_contains_iff near far r fuel t :
  exists b, pcontains fuel (mk_span (Some near) (Some far) (Some r)) t = Returns b /\
  (b = true <-> Z.abs near <= Z.abs (t - r) <= Z.abs far).
Proof.
  unfold mk_span. cbn [option_map pcontains span_contains].
  destruct (Z.leb_spec t r); (eexists; split; [reflexivity|]); lia.
Qed.
Lemma span_contains_open near r fuel t : p_min <= t <= p_max ->
  exists b, pcontains fuel (mk_span (Some near) None (Some r)) t = Returns b /\
  (b = true <-> Z.abs near <= Z.abs (t - r)).
Proof.
  unfold mk_span. cbn [option_map pcontains span_contains]. generalize p_min p_max. intros a b Ht.
  destruct (Z.leb_spec t r); (eexists; split; [reflexivity|]); lia.
Qed.
Lemma window_no_reference past future near far fuel t :
  pcontains fuel (mk_delta past future None) t = Raises TypeError /\
  pcontains fuel (mk_span near far None) t = Raises TypeError.
Proof. split; reflexivity. Qed.

Lemma delta_rolls past future ref fuel t :
  rollback fuel (mk_delta (Some past) (Some future) ref) t = Returns (Interval (t - Z.abs past) t CLeft) /\
  rollforward fuel (mk_delta (Some past) (Some future) ref) t = Returns (Interval t (t + Z.abs future) CLeft).
Proof.
  unfold mk_delta. cbn [rollback rollforward]. unfold delta_rollback, delta_rollforward. rewrite !Z.abs_involutive.
  split; apply ivl_ok; lia.
Qed.
Lemma span_rolls near far ref fuel t : Z.abs near <= Z.abs far ->
  rollback fuel (mk_span (Some near) (Some far) ref) t = Returns (Interval (t - Z.abs far) (t - Z.abs near) CLeft) /\
  rollforward fuel (mk_span (Some near) (Some far) ref) t = Returns (Interval (t + Z.abs near) (t + Z.abs far) CLeft).
Proof.
  intros H. unfold mk_span. cbn [option_map rollback rollforward]. unfold span_rollback, span_rollforward.
  split; apply ivl_ok; lia.
Qed.
Lemma ivl_raises l r : r < l -> ivl l r = Raises ValueError.
Proof. intros H. unfold ivl, mk_interval. cbn [op_lt Z_ops]. destruct (Z.ltb_spec r l); [reflexivity|lia]. Qed.
Lemma span_rolls_reversed near far ref fuel t : Z.abs far < Z.abs near ->
  rollback fuel (mk_span (Some near) (Some far) ref) t = Raises ValueError /\
  rollforward fuel (mk_span (Some near) (Some far) ref) t = Raises ValueError.
Proof.
  intros H. unfold mk_span. cbn [option_map rollback rollforward]. unfold span_rollback, span_rollforward.
  split; apply ivl_raises; lia.
Qed.
Lemma period_span_delta past future ref fuel now :
  get_period_span fuel (Some (mk_delta (Some past) (Some future) ref)) now = Returns (now - Z.abs past, now).
Proof.
  unfold get_period_span, mk_delta. cbn [use_reference mk_delta].
  change (PDelta (Z.abs (Z.abs past)) (Z.abs (Z.abs future)) (Some now)) with (mk_delta (Some (Z.abs past)) (Some (Z.abs future)) (Some now)).
  rewrite (proj1 (delta_rolls _ _ _ _ _)), Z.abs_involutive. reflexivity.
Qed.
Lemma period_span_span near far ref fuel now : Z.abs near <= Z.abs far ->
  get_period_span fuel (Some (mk_span (Some near) (Some far) ref)) now = Returns (now - Z.abs far, now - Z.abs near).
Proof.
  intros H. unfold get_period_span, mk_span. cbn [use_reference mk_span option_map].
  change (PSpan (Z.abs (Z.abs near)) (Some (Z.abs (Z.abs far))) (Some now)) with (mk_span (Some (Z.abs near)) (Some (Z.abs far)) (Some now)).
  rewrite (proj1 (span_rolls (Z.abs near) (Z.abs far) (Some now) fuel now ltac:(lia))), !Z.abs_involutive. reflexivity.
Qed.
Lemma delta_signs past future past' future' ref : Z.abs past = Z.abs past' -> Z.abs future = Z.abs future' ->
  mk_delta (Some past) (Some future) ref = mk_delta (Some past') (Some future') ref /\
  mk_span (Some past) (Some future) ref = mk_span (Some past') (Some future') ref.
Proof. intros H1 H2. unfold mk_delta, mk_span. cbn [option_map]. rewrite H1, H2. auto. Qed.

(** * Intersections without a common moment *)
Lemma eventually_or_not p dt i fuel : eventually (fun f => rollforward f p dt) i ->
  rollforward fuel p dt = Returns i \/ rollforward fuel p dt = OutOfFuel.
Proof.
  intros [n Hn]. destruct (rollforward fuel p dt) as [j|e|] eqn:E; [| |right; reflexivity];
    pose proof (Hn (Nat.max n fuel) ltac:(lia)) as E1; cbn beta in E1;
    rewrite (rollforward_mono p fuel) in E1 by (first [lia|unfold done; congruence]).
  - left. congruence.
  - congruence.
Qed.

Lemma all_no_common ps : ps <> [] -> (forall q, In q ps -> forward_ok q /\ recurrent q) ->
  (forall t, ~ moments (PAll ps) t) -> forall fuel dt, rollforward fuel (PAll ps) dt = OutOfFuel.
Proof.
  intros Hne Hq Hno fuel dt. cbn [rollforward].
  enough (G : forall k dt, all_rollforward (fun t => traverse (fun q => rollforward fuel q t) ps) k dt = OutOfFuel) by apply G.
  clear dt. induction k as [|k IH]; intros dt; [reflexivity|]. cbn [all_rollforward].
  assert (T : (exists is, traverse (fun q => rollforward fuel q dt) ps = Returns is /\
                Forall2 (fun q i => forward_at (moments q) dt i) ps is) \/
              traverse (fun q => rollforward fuel q dt) ps = OutOfFuel).
  { clear Hne Hno IH. induction ps as [|q ps IH]; [left; exists []; split; [reflexivity|constructor]|].
    cbn [traverse]. destruct (Hq q (or_introl eq_refl)) as [Hok Hrec].
    destruct (Hok dt (Hrec dt)) as [i [Hi Hf]].
    destruct (eventually_or_not q dt i fuel Hi) as [-> | ->]; [|right; reflexivity].
    destruct (IH (fun x Hx => Hq x (or_intror Hx))) as [[is [-> Hfs]]| ->]; [|right; reflexivity].
    left. exists (i :: is). split; [reflexivity|constructor; assumption]. }
  destruct T as [[is [-> HF]]| ->]; [|reflexivity].
  destruct (all_overlap is) eqn:Eo; [|apply IH].
  exfalso.
  assert (Hprop : forall i, In i is -> proper i).
  { intros i Hi. destruct (Forall2_in_r _ _ _ _ HF Hi) as [q [_ [H1 [H2 _]]]]. split; [exact H1|lia]. }
  assert (Hne' : is <> []). { intros ->. inversion HF; subst; contradiction. }
  pose proof (proj1 (all_overlap_half is Hprop) Eo) as Hall.
  destruct (max_left_spec is Hne') as [[j [Hj Ej]] Hmax].
  apply (Hno (max_left is)). apply moments_all. intros q Hin.
  destruct (Forall2_in_l _ _ _ _ HF Hin) as [x [Hx [_ [_ [_ HM]]]]]. apply HM.
  pose proof (Hmax x Hx). pose proof (Hall j x Hj Hx). lia.
Qed.

(** * Unions with members that are over *)
Definition over_at (p : tperiod) (dt : Z) : Prop := exists s e, p = PStatic s e /\ s <= e < dt.

Lemma any_forward_live ps dt : ps <> [] ->
  (forall q, In q ps -> (forward_ok q /\ exists u, dt <= u /\ moments q u) \/ over_at q dt) ->
  (exists u, dt <= u < p_max /\ moments (PAny ps) u) ->
  exists i, eventually (fun fuel => rollforward fuel (PAny ps) dt) i /\ forward_at (moments (PAny ps)) dt i.
Proof.
  intros Hne Hq [w [Hw HMw]].
  set (P := fun q i => forward_at (moments q) dt i \/ (i = Interval p_max p_max CLeft /\ forall u, dt <= u -> ~ moments q u)).
  destruct (traverse_eventually (fun fuel q => rollforward fuel q dt) P ps) as [is [[m Hm] HF]].
  { intros q Hin. destruct (Hq q Hin) as [[Hok Hu]|[s [e [-> He]]]].
    - destruct (Hok dt Hu) as [i [Hi Hf]]. exists i. split; [exact Hi|left; exact Hf].
    - exists (Interval p_max p_max CLeft). split.
      + exists O. intros fuel _. apply static_forward_gone. lia.
      + right. split; [reflexivity|]. cbn [moments]. intros; lia. }
  assert (Hne' : is <> []). { intros ->. inversion HF; subst; contradiction. }
  destruct (any_forward_core (moments (PAny ps)) is Hne') as [i [E [C [L [HM [f [Hf [Lf [Rf Hmin]]]]]]]]].
  - intros j Hj. destruct (Forall2_in_r _ _ _ _ HF Hj) as [q [_ [[H1 [H2 _]]|[-> _]]]].
    + split; [exact H1|lia].
    + split; [reflexivity|apply Z.le_refl].
  - intros j u Hj Hu. destruct (Forall2_in_r _ _ _ _ HF Hj) as [q [Hin [[_ [_ [_ H]]]|[-> _]]]].
    + apply moments_any. exists q. auto.
    + exfalso. cbn [left right] in Hu. revert Hu. generalize p_max. intros; lia.
  - exists i. split.
    + exists m. intros fuel Hfu. cbn [rollforward]. rewrite (Hm fuel Hfu). exact E.
    + assert (Hlive : forall q j, In q ps -> P q j -> forall u, dt <= u -> moments q u -> left j <= u).
      { intros q j _ [[_ [_ [No _]]]|[_ No]] u Hu HMu.
        - destruct (Z_lt_dec u (left j)); [|lia]. exfalso. apply (No u); [lia|exact HMu].
        - exfalso. apply (No u Hu HMu). }
      assert (Hno : forall u, dt <= u < left i -> ~ moments (PAny ps) u).
      { intros u Hu Hu'. apply moments_any in Hu'. destruct Hu' as [q [Hin Hu']].
        destruct (Forall2_in_l _ _ _ _ HF Hin) as [j [Hj HP]]. specialize (Hmin j Hj).
        pose proof (Hlive q j Hin HP u ltac:(lia) Hu'). lia. }
      destruct (Forall2_in_r _ _ _ _ HF Hf) as [q [Hin [[_ [Hb _]]|[-> _]]]].
      * split; [exact C|]. split; [lia|]. split; [exact Hno|exact HM].
      * exfalso. apply (Hno w); [|exact HMw]. cbn [left] in Lf. rewrite <- Lf. exact Hw.
Qed.

(** two members whose occurrences overlap: one interval *)
Lemma any_two_merge fuel a b dt ia ib :
  rollforward fuel a dt = Returns ia -> rollforward fuel b dt = Returns ib ->
  proper ia -> proper ib -> overlaps Z_ops ia ib = true ->
  rollforward fuel (PAny [a; b]) dt =
    Returns (Interval (Z.min (left ia) (left ib)) (Z.max (right ia) (right ib)) CLeft).
Proof.
  intros Ha Hb [Ca La] [Cb Lb] Ho. cbn [rollforward traverse]. rewrite Ha, Hb. cbn [obind].
  unfold any_forward, sort_by_left. cbn [fold_right insert_by_left].
  apply overlaps_half in Ho; [|assumption|assumption].
  destruct (Z.ltb_spec (left ib) (left ia)); cbn [extend_right].
  - destruct (Z.ltb_spec (right ib) (right ia)); cbn [andb].
    + rewrite (proj2 (overlaps_half ia ib Ca Cb)) by lia. rewrite ivl_ok by lia. f_equal. f_equal; lia.
    + rewrite ivl_ok by lia. f_equal. f_equal; lia.
  - destruct (Z.ltb_spec (right ia) (right ib)); cbn [andb].
    + rewrite (proj2 (overlaps_half ib ia Cb Ca)) by lia. rewrite ivl_ok by lia. f_equal. f_equal; lia.
    + rewrite ivl_ok by lia. f_equal. f_equal; lia.
Qed.

(** * Building with [&] and [|] *)
Lemma all_members_moments args t : p_min <= t < p_max ->
  (moments (PAll (all_members args)) t <-> moments (PAll args) t).
Proof.
  intros Ht. rewrite !moments_all. induction args as [|p args IH]; [reflexivity|].
  assert (Cons : forall q, (forall x, In x (q :: args) -> moments x t) <-> moments q t /\ (forall x, In x (all_members args) -> moments x t)).
  { intros q. rewrite IH. split.
    - intros H. split; [apply H; left; reflexivity|]. intros x Hx. apply H. right; exact Hx.
    - intros [H1 H2] x [<-|Hx]; auto. }
  assert (Plain : forall q, (forall x, In x (q :: all_members args) -> moments x t) <-> forall x, In x (q :: args) -> moments x t).
  { intros q. rewrite Cons. split.
    - intros H. split; [apply H; left; reflexivity|]. intros x Hx. apply H. right; exact Hx.
    - intros [H1 H2] x [<-|Hx]; auto. }
  destruct p; cbn [all_members]; try apply Plain.
  - rewrite Cons. split; [intros H; split; [exact Ht|exact H]|intros [_ H]; exact H].
  - rewrite Cons, moments_all. split.
    + intros H. split; intros x Hx; apply H; apply in_or_app; auto.
    + intros [H1 H2] x Hx. apply in_app_or in Hx. destruct Hx; auto.
Qed.

Lemma any_members_moments args t : p_min <= t < p_max -> forall acc,
  (moments (PAny (any_members acc args)) t <-> moments (PAny acc) t \/ moments (PAny args) t).
Proof.
  intros Ht. induction args as [|p args IH]; intros acc.
  - cbn [any_members]. rewrite !moments_any. split; [auto|]. intros [H|[q [[] _]]]; exact H.
  - assert (Plain : forall q, (moments (PAny (any_members (acc ++ [q]) args)) t <-> moments (PAny acc) t \/ moments (PAny (q :: args)) t)).
    { intros q. rewrite IH, !moments_any. split.
      - intros [[x [Hx H]]|[x [Hx H]]].
        + apply in_app_or in Hx. destruct Hx as [Hx|[<-|[]]]; [left; exists x; auto|right; exists q; cbn; auto].
        + right. exists x. cbn; auto.
      - intros [[x [Hx H]]|[x [[<-|Hx] H]]].
        + left. exists x. split; [apply in_or_app; auto|exact H].
        + left. exists q. split; [apply in_or_app; cbn; auto|exact H].
        + right. exists x. auto. }
    destruct p; cbn [any_members]; try apply Plain.
    + rewrite !moments_any. split.
      * intros _. right. exists PAlways. split; [left; reflexivity|exact Ht].
      * intros _. exists PAlways. split; [left; reflexivity|exact Ht].
    + rewrite IH, !moments_any. split.
      * intros [[x [Hx H]]|[x [Hx H]]].
        -- apply in_app_or in Hx. destruct Hx as [Hx|Hx]; [left; exists x; auto|].
           right. exists (PAny ps). split; [left; reflexivity|]. apply moments_any. exists x. auto.
        -- right. exists x. cbn; auto.
      * intros [[x [Hx H]]|[x [[<-|Hx] H]]].
        -- left. exists x. split; [apply in_or_app; auto|exact H].
        -- apply moments_any in H. destruct H as [y [Hy H]]. left. exists y. split; [apply in_or_app; auto|exact H].
        -- right. exists x. auto.
Qed.

Lemma is_always_eq p : is_always p = true -> p = PAlways.
Proof. destruct p; cbn; congruence. Qed.

Lemma p_and_moments a b t : p_min <= t < p_max -> (moments (p_and a b) t <-> moments a t /\ moments b t).
Proof.
  intros Ht. unfold p_and. destruct (is_always a) eqn:Ea; [|destruct (is_always b) eqn:Eb].
  - apply is_always_eq in Ea. subst. cbn [moments]. tauto.
  - apply is_always_eq in Eb. subst. cbn [moments]. tauto.
  - rewrite all_members_moments by exact Ht. cbn [moments fold_right]. tauto.
Qed.
Lemma p_or_moments a b t : p_min <= t < p_max -> (moments (p_or a b) t <-> moments a t \/ moments b t).
Proof.
  intros Ht. unfold p_or. destruct (is_always a) eqn:Ea; [|destruct (is_always b) eqn:Eb]; cbn [orb].
  - apply is_always_eq in Ea. subst. cbn [moments]. tauto.
  - apply is_always_eq in Eb. subst. cbn [moments]. tauto.
  - rewrite any_members_moments by exact Ht. cbn [moments fold_right]. tauto.
Qed.
Lemma build_moments e t : p_min <= t < p_max -> (moments (build e) t <-> denote e t).
Proof.
  intros Ht. induction e as [p|a IHa b IHb|a IHa b IHb]; cbn [build denote].
  - reflexivity.
  - rewrite p_and_moments by exact Ht. tauto.
  - rewrite p_or_moments by exact Ht. tauto.
Qed.

Lemma fwd_tree_all_members args : (forall q, In q args -> fwd_tree q) -> forall q, In q (all_members args) -> fwd_tree q.
Proof.
  induction args as [|p args IH]; intros H q Hq; [destruct Hq|].
  assert (IH' : forall q, In q (all_members args) -> fwd_tree q) by (apply IH; intros; apply H; right; assumption).
  pose proof (H p (or_introl eq_refl)) as Hp.
  destruct p; cbn [all_members] in Hq; try (destruct Hq as [<-|Hq]; [exact Hp|apply IH', Hq]).
  - apply IH', Hq.
  - apply in_app_or in Hq. destruct Hq as [Hq|Hq]; [|apply IH', Hq].
    inversion Hp; subst. auto.
Qed.
Lemma all_members_ne a args : is_always a = false -> fwd_tree a -> all_members (a :: args) <> [].
Proof.
  intros Ha Hf. destruct a; cbn [all_members]; try discriminate.
  inversion Hf as [| | | |? Hne _|]; subst. destruct ps; [contradiction|discriminate].
Qed.
Lemma fwd_tree_and a b : fwd_tree a -> fwd_tree b -> fwd_tree (p_and a b).
Proof.
  intros Ha Hb. unfold p_and. destruct (is_always a) eqn:Ea; [exact Hb|]. destruct (is_always b) eqn:Eb; [exact Ha|].
  apply ft_all.
  - apply all_members_ne; assumption.
  - apply fwd_tree_all_members. intros q [<-|[<-|[]]]; assumption.
Qed.
Lemma fwd_tree_or a b : fwd_tree a -> fwd_tree b -> is_always a = true \/ recurrent a -> is_always b = true \/ recurrent b ->
  fwd_tree (p_or a b).
Proof.
  intros Ha Hb Ra Rb. unfold p_or. destruct (is_always a) eqn:Ea; [apply ft_always|].
  destruct (is_always b) eqn:Eb; cbn [orb]; [apply ft_always|].
  destruct Ra as [|Ra]; [discriminate|]. destruct Rb as [|Rb]; [discriminate|].
  assert (G : forall p, fwd_tree p -> recurrent p -> is_always p = false ->
    exists l, (forall acc args, any_members acc (p :: args) = any_members (acc ++ l) args) /\ l <> [] /\
      forall q, In q l -> fwd_tree q /\ recurrent q).
  { intros p Hp Hr Hn. destruct p; try discriminate;
      try (eexists [_]; split; [reflexivity|]; split; [discriminate|]; intros q [<-|[]]; auto).
    inversion Hp as [| | | | |? Hne Hall Hrec]; subst. exists ps. split; [reflexivity|]. split; [exact Hne|]. intros q Hq. auto. }
  destruct (G a Ha Ra Ea) as [la [Ga [Na Pa]]]. destruct (G b Hb Rb Eb) as [lb [Gb [Nb Pb]]].
  rewrite Ga, Gb. cbn [any_members app].
  apply ft_any.
  - destruct la; [contradiction|discriminate].
  - intros q Hq. apply in_app_or in Hq. destruct Hq as [Hq|Hq]; [apply Pa, Hq|apply Pb, Hq].
  - intros q Hq. apply in_app_or in Hq. destruct Hq as [Hq|Hq]; [apply Pa, Hq|apply Pb, Hq].
Qed.
Lemma recurring_build e : recurring_expr e -> fwd_tree (build e).
Proof.
  induction 1; cbn [build].
  - apply ft_always.
  - assumption.
  - apply fwd_tree_and; assumption.
  - apply fwd_tree_or; assumption.
Qed.
Lemma recurring_contains e fuel t b : recurring_expr e -> p_min <= t < p_max ->
  pcontains fuel (build e) t = Returns b -> (b = true <-> denote e t).
Proof.
  intros He Ht E. rewrite (fwd_tree_contains (build e) fuel t b (recurring_build e He) E).
  apply build_moments, Ht.
Qed.

(** membership does return when the moment is in the period *)
Lemma fwd_tree_contains_true p t : fwd_tree p -> moments p t -> eventually (fun fuel => pcontains fuel p t) true.
Proof.
  intros Hp Ht. destruct (fwd_tree_ok p Hp t) as [i [[n Hn] Hi]]; [exists t; split; [lia|exact Ht]|].
  assert (Hc : contains Z_ops i t = true).
  { destruct Hi as [C [B [No _]]]. apply zcontains_zmem. apply (zmem_cleft i t C).
    destruct (Z.eq_dec (left i) t); [lia|]. exfalso. apply (No t); [lia|exact Ht]. }
  exists n. intros fuel Hf.
  destruct Hp; cbn [pcontains]; try (rewrite (Hn fuel Hf); cbn [obind]; rewrite Hc; reflexivity).
  - cbn [moments] in Ht. rewrite Ht. reflexivity.
  - cbn [moments] in Ht. rewrite Ht. reflexivity.
Qed.

(** cyclic periods recur *)
Lemma fixed_recurrent c L st en tp sg rc p u :
  fixed_cycle c L -> mk_anchored c st en tp sg rc = Ok p -> acontains p u = true -> recurrent (PAnch p).
Proof.
  intros HL Hp Hu dt.
  pose proof (nonempty_not_corner _ _ _ _ _ _ _ _ _ HL Hp Hu) as Hnd.
  destruct (FixedCycleProofs.fixed_rollforward _ _ _ _ _ _ _ _ HL Hp Hnd 0 dt) as [i [E [_ [B [_ [In_ _]]]]]].
  exists (left i). split; [lia|]. cbn [moments]. apply (FixedCycleProofs.fixed_contains_iff _ _ _ _ _ _ _ _ HL Hp).
  apply In_. lia.
Qed.
