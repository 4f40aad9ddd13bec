From Coq Require Import Bool Arith Lia ZifyBool List ZArith.
From Verif Require Import Model.Base Model.Interval Model.Calendar Model.Anchored Model.Period Model.Condition Model.History Model.Past
  Model.Running Spec.ConditionSpec Spec.PeriodSpec Spec.HistorySpec Spec.RunningSpec Spec.PastSpec
  Proofs.IntervalProofs Proofs.FixedCycleProofs Proofs.ClockProofs Proofs.PeriodProofs Proofs.AnchoredProofs Proofs.MonthProofs
  Proofs.ConditionProofs Proofs.HistoryProofs Proofs.DependProofs Proofs.WindowProofs Proofs.RunningProofs.
Import ListNotations.
Local Open Scope Z_scope.
Local Open Scope list_scope.

Lemma find_meant : forall tasks n t, In t tasks -> pt_name t = n ->
  (forall t', In t' tasks -> pt_name t' = n -> t' = t) -> find_task n tasks = Ok t.
Proof.
  intros tasks n t I N U. induction tasks as [|t0 tasks IH]; [destruct I|]. cbn [find_task].
  destruct (Z.eqb_spec (pt_name t0) n) as [E|E].
  - f_equal. apply U; [now left|exact E].
  - apply IH; [|intros t' I'; apply U; now right]. destruct I as [-> |I]; [contradiction|exact I].
Qed.

Lemma find_none : forall tasks n, (forall t, In t tasks -> pt_name t <> n) -> find_task n tasks = Err KeyError.
Proof.
  intros tasks n H. induction tasks as [|t tasks IH]; [reflexivity|]. cbn [find_task].
  destruct (Z.eqb_spec (pt_name t) n) as [E|E]; [exfalso; exact (H t (or_introl eq_refl) E)|].
  apply IH. intros t' I. apply H. now right.
Qed.

Lemma log_latest : forall l n s, chronological l -> cache_latest (TState (last_from_log l n) s) l n.
Proof.
  intros l n s C a. cbn [ts_last]. unfold last_from_log.
  destruct (get_latest l n [a]) as [r|] eqn:E; cbn [option_map].
  - split.
    + exists r. apply latest_spec in E. destruct E as (l1 & l2 & -> & A & _).
      split; [apply in_or_app; right; now left|]. split; [exact A|reflexivity].
    + intros r' I A. exact (latest_max l n [a] r C E r' I A).
  - apply latest_none. exact E.
Qed.

Lemma trusted_latest : forall own l t, trusted own l t -> cache_latest (remembered own l t) l (pt_name t).
Proof.
  intros [|] l t T; unfold remembered; cbn [trusted] in T; [apply log_latest; exact T|exact T].
Qed.

Lemma plain_period : forall c, plain_start c -> task_period c = Ok (mk_static None None).
Proof.
  intros [c|cs] H; cbn [plain_start task_period] in *; [now subst c|].
  destruct (existsb _ cs) eqn:E; [|reflexivity]. apply existsb_exists in E. destruct E as (x & I & Hx).
  destruct x; try discriminate Hx. contradiction.
Qed.

Lemma span_total : forall fuel now, now <= p_max -> p_min <= now ->
  get_period_span fuel (Some (mk_static None None)) now = Returns (p_min, now).
Proof.
  intros fuel now H1 H2. unfold get_period_span, mk_static. cbn [use_reference].
  rewrite static_back; [|lia|exact H2]. cbn [obind left right]. f_equal. f_equal. lia.
Qed.

Lemma times_ever : forall l n acts now, (forall r, In r l -> r_task r = n -> p_min <= r_created r <= now) ->
  times l n acts p_min now = ever l n acts.
Proof.
  intros l n acts now H. induction l as [|r l IH]; [reflexivity|]. cbn [times ever].
  rewrite IH by (intros r' I; apply H; now right). f_equal.
  destruct (Z.eqb_spec (r_task r) n) as [E|E]; [|reflexivity].
  specialize (H r (or_introl eq_refl) E). destruct (existsb _ acts); [|reflexivity]. cbn [andb].
  destruct (Z.leb_spec p_min (r_created r)); destruct (Z.leb_spec (r_created r) now); try reflexivity; lia.
Qed.

Lemma status_counts : forall force c st l name w fuel p now s e, keys_ok c -> cache_latest st l name ->
  get_period_span fuel (Some p) now = Returns (s, e) ->
  status_observe force c st l name w fuel p now = Returns (comp_state c (times l name (watched_list w) s e)).
Proof.
  intros force c st l name w fuel p now s e K C E.
  assert (X : exists b, status_observe force c st l name w fuel p now = Returns b).
  { unfold status_observe. rewrite E. eexists. reflexivity. }
  destruct X as [b X]. rewrite X. f_equal.
  destruct (status_spec _ _ _ _ _ _ _ _ _ _ K C X) as (s' & e' & E' & ->). rewrite E in E'. injection E' as <- <-. reflexivity.
Qed.

Lemma past_means : forall dforce own l tasks current c w named period fuel now t, meant tasks current named t ->
  past_observe dforce own l tasks current c w named period fuel now =
  obind (match period with Some p => Returns p | None => of_result (task_period (pt_start t)) end)
    (fun p => status_observe dforce c (remembered own l t) l (pt_name t) w fuel p now).
Proof.
  intros dforce own l tasks current c w named period fuel now t M. unfold past_observe.
  destruct named as [n|]; cbn [meant] in M.
  - destruct M as (I & N & U). rewrite (find_meant _ _ _ I N U). cbn [of_result obind].
    destruct period; reflexivity.
  - rewrite M. destruct period; reflexivity.
Qed.

Lemma ever_says : forall dforce own l tasks current cs w named fuel now t,
  NoDup (map fst cs) -> meant tasks current named t -> trusted own l t -> plain_start (pt_start t) -> dated l (pt_name t) now ->
  exists b, past_observe dforce own l tasks current (as_comps cs) w named past_ever fuel now = Returns b /\
    (b = true <-> meets cs (ever l (pt_name t) (watched_list w))).
Proof.
  intros dforce own l tasks current cs w named fuel now t K M T P (D1 & D2 & D3).
  rewrite (past_means _ _ _ _ _ _ _ _ _ _ _ _ M). cbn [past_ever]. rewrite (plain_period _ P). cbn [of_result obind].
  assert (K' : keys_ok (as_comps cs)).
  { unfold keys_ok, as_comps. rewrite map_map. exact K. }
  rewrite (status_counts _ _ _ _ _ _ _ _ _ _ _ K' (trusted_latest _ _ _ T) (span_total fuel now D1 D2)).
  eexists. split; [reflexivity|]. rewrite meets_state, (times_ever _ _ _ _ D3). reflexivity.
Qed.

Lemma unit_span : forall u k now fuel, unit_begin u k < now <= unit_begin u (k + 1) ->
  exists p, past_this (unit_class u) = Some p /\ get_period_span fuel (Some p) now = Returns (unit_begin u k, now).
Proof.
  intros u k now fuel H. unfold past_this. eexists. split; [reflexivity|].
  assert (Fx : forall c L, fixed_cycle c L -> unit_begin u = every_L L -> L = scope_max c -> unit_class u = c ->
    get_period_span fuel (Some (PAnch (Anchored (unit_class u) 0 (scope_max (unit_class u))))) now = Returns (unit_begin u k, now)).
  { intros c L F E EL Ec. rewrite Ec. unfold get_period_span. cbn [use_reference rollback].
    assert (Fu : is_full (Anchored c 0 (scope_max c)) = true).
    { unfold is_full. cbn [a_start a_end a_cls]. rewrite !Z.eqb_refl. apply orb_true_r. }
    destruct (fixed_rollback_full c L None None false false false _ F eq_refl now Fu) as (i & -> & (_ & Hr & k' & Hl & Hk')).
    cbn [of_result obind]. rewrite Hr, Hl. rewrite E in *. cbn [a_start] in *.
    destruct (fixed_cycle_scope _ _ F) as [_ Pos].
    unfold occ_end in Hk'. cbn [a_end] in Hk'. rewrite <- EL in Hk'.
    destruct (Z_lt_dec 0 L) as [_|]; [|lia].
    unfold occ_start, every_L in *. assert (k' = k) by nia. subst k'. f_equal. f_equal. lia. }
  destruct u.
  - apply (Fx TMinute (60 * 10 ^ 6)); try reflexivity; constructor.
  - apply (Fx THour (60 * 60 * 10 ^ 6)); try reflexivity; constructor.
  - apply (Fx TDay (24 * 60 * 60 * 10 ^ 6)); try reflexivity; constructor.
  - apply (Fx TWeek (7 * 24 * 60 * 60 * 10 ^ 6)); try reflexivity; constructor.
  - cbn [unit_class unit_begin scope_max] in *. clear Fx. unfold get_period_span. cbn [use_reference rollback].
    destruct (whole_month_rollback now) as (i & -> & _ & Hr & k' & Hl & Hk'). cbn [of_result obind].
    rewrite Hr, Hl. f_equal. f_equal. f_equal.
    destruct (Z.lt_trichotomy k k') as [C|[C|C]]; [|now symmetry|]; exfalso.
    + assert (X : month_begin (k + 1) <= month_begin k') by (apply (B_succ_le month_begin month_begin_mono); lia). lia.
    + assert (X : month_begin (k' + 1) <= month_begin k) by (apply (B_succ_le month_begin month_begin_mono); lia). lia.
Qed.

Lemma this_says : forall u k dforce own l tasks current cs w named fuel now t,
  NoDup (map fst cs) -> meant tasks current named t -> trusted own l t ->
  unit_begin u k < now < unit_begin u (k + 1) ->
  exists b, past_observe dforce own l tasks current (as_comps cs) w named (past_this (unit_class u)) fuel now = Returns b /\
    (b = true <-> meets cs (times l (pt_name t) (watched_list w) (unit_begin u k) now)).
Proof.
  intros u k dforce own l tasks current cs w named fuel now t K M T H.
  destruct (unit_span u k now fuel) as (p & -> & E); [lia|].
  rewrite (past_means _ _ _ _ _ _ _ _ _ _ _ _ M). cbn [obind].
  assert (K' : keys_ok (as_comps cs)).
  { unfold keys_ok, as_comps. rewrite map_map. exact K. }
  rewrite (status_counts _ _ _ _ _ _ _ _ _ _ _ K' (trusted_latest _ _ _ T) E).
  eexists. split; [reflexivity|]. rewrite meets_state. reflexivity.
Qed.

Lemma unknown_raises : forall dforce own l tasks current c w n period fuel now,
  (forall t, In t tasks -> pt_name t <> n) ->
  past_observe dforce own l tasks current c w (Some n) period fuel now = Raises KeyError.
Proof. intros dforce own l tasks current c w n period fuel now H. unfold past_observe. rewrite (find_none _ _ H). reflexivity. Qed.

Lemma nobody_raises : forall dforce own l tasks c w fuel now,
  past_observe dforce own l tasks None c w None past_ever fuel now = Raises AttributeError.
Proof. reflexivity. Qed.

Lemma awkward_raises : forall dforce own l tasks current c w named fuel now t, meant tasks current named t ->
  ~ plain_start (pt_start t) ->
  past_observe dforce own l tasks current c w named past_ever fuel now = Raises AttributeError.
Proof.
  intros dforce own l tasks current c w named fuel now t M P. rewrite (past_means _ _ _ _ _ _ _ _ _ _ _ _ M).
  cbn [past_ever]. destruct (pt_start t) as [[| |]|cs]; cbn [plain_start task_period] in *; try reflexivity.
  - contradiction P. reflexivity.
  - destruct (existsb _ cs) eqn:E; [reflexivity|]. exfalso. apply P. intros I.
    rewrite <- not_true_iff_false in E. apply E. apply existsb_exists. exists PartFinished. split; [exact I|reflexivity].
Qed.
