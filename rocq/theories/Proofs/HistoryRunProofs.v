From Coq Require Import Bool Arith Lia ZifyBool.
From Verif Require Import Model.Base Model.Interval Model.Period Model.Condition Model.History
  Spec.ConditionSpec Spec.HistorySpec Proofs.ConditionProofs Proofs.HistoryProofs.
Open Scope Z_scope.

(** The event says that the task did [a], noted at [t1], logged at [t2]. *)
Definition says_event (a : action) (t1 t2 : Z) (ev : hevent) : Prop :=
  match ev with
  | HStart _ u1 u2 _ => a = ARun /\ t1 = u1 /\ t2 = u2
  | HOutcome b u1 u2 _ => a = b /\ t1 = u1 /\ t2 = u2
  | HOther _ => False
  end.

Lemma hrun_snoc : forall me evs ev, hrun me (evs ++ [ev]) = happly me (hrun me evs) ev.
Proof. intros me evs ev. unfold hrun. rewrite fold_left_app. reflexivity. Qed.

(** What is known about the world of a legal history. *)
Record world_ok (me : Z) (evs : list hevent) (c : Z) : Prop := {
  w_created : forall r, In r (snd (hrun me evs)) -> r_created r <= c;
  w_cached : forall a t, ts_last (fst (hrun me evs)) a = Some t -> t <= c;
  w_event : forall ev a t1 t2, In ev evs -> says_event a t1 t2 ev ->
     t1 <= t2 <= c /\
     (exists r, In r (snd (hrun me evs)) /\ about me [a] r /\ r_created r = t2) /\
     (exists t, ts_last (fst (hrun me evs)) a = Some t /\ t1 <= t) }.

Lemma world_ok_add : forall me evs c ev a t1 t2 id, world_ok me evs c ->
  happly me (hrun me evs) ev = fst (set_status (fst (hrun me evs)) (snd (hrun me evs)) me a t1 t2 id true) ->
  c <= t1 -> t1 <= t2 -> (forall b u1 u2, says_event b u1 u2 ev -> b = a /\ u1 = t1 /\ u2 = t2) ->
  world_ok me (evs ++ [ev]) t2.
Proof.
  intros me evs c ev a t1 t2 id [W1 W2 W3] Hap Hc Ht Hev.
  constructor; rewrite hrun_snoc, Hap; cbn [set_status fst snd ts_last].
  - intros r Hr. apply in_app_or in Hr. destruct Hr as [Hr|[<- | []]].
    + apply W1 in Hr. lia.
    + cbn. lia.
  - intros b t. unfold set_last. destruct (action_eqb a b); intros H.
    + injection H as <-. lia.
    + apply W2 in H. lia.
  - intros ev' b u1 u2 Hi Hs. apply in_app_or in Hi. destruct Hi as [Hi|[<- | []]].
    + destruct (W3 ev' b u1 u2 Hi Hs) as (A1 & (r & B1 & B2 & B3) & (t & C1 & C2)).
      split; [lia|]. split.
      * exists r. split; [apply in_or_app; left; exact B1|]. split; assumption.
      * unfold set_last. destruct (action_eqb a b) eqn:E; [exists t1; split; [reflexivity|lia]|].
        exists t. split; assumption.
    + destruct (Hev b u1 u2 Hs) as (-> & -> & ->). split; [lia|]. split.
      * exists (Rec me a t2 id). split; [apply in_or_app; right; left; reflexivity|].
        split; [split; [reflexivity|left; reflexivity]|reflexivity].
      * exists t1. unfold set_last. rewrite action_eqb_refl. split; [reflexivity|lia].
Qed.

Lemma legal_world : forall me gate evs c, legal me gate evs c -> world_ok me evs c.
Proof.
  intros me gate evs c H. induction H as [c|evs c d t1 t2 id HL IH H1 H2 H3 HG|evs c a t1 t2 id HL IH H1 H2 Ha|evs c r HL IH H1 Hr].
  - constructor; cbn; try discriminate; intros; contradiction.
  - apply (world_ok_add me evs c _ ARun t1 t2 id IH); [reflexivity|lia|lia|].
    intros b u1 u2 (-> & -> & ->). repeat split; reflexivity.
  - apply (world_ok_add me evs c _ a t1 t2 id IH); [reflexivity|lia|lia|].
    intros b u1 u2 (-> & -> & ->). repeat split; reflexivity.
  - destruct IH as [W1 W2 W3]. constructor; rewrite hrun_snoc; cbn [happly fst snd].
    + intros r' Hi. apply in_app_or in Hi. destruct Hi as [Hi|[<- | []]]; [apply W1 in Hi; lia|lia].
    + intros a t Ht. apply W2 in Ht. lia.
    + intros ev a t1 t2 Hi Hs. apply in_app_or in Hi. destruct Hi as [Hi|[<- | []]]; [|destruct Hs].
      destruct (W3 ev a t1 t2 Hi Hs) as (A1 & (r' & B1 & B2 & B3) & C1).
      split; [lia|]. split; [|exact C1]. exists r'. split; [apply in_or_app; left; exact B1|]. split; assumption.
Qed.

(** "None of these so far" seen at [d] means no such event since [s']. *)
Lemma eq0_seen : forall force me evs c a fuel p d s' ev t1 t2, world_ok me evs c -> c <= d ->
  get_period_span fuel (Some p) d = Returns (s', d) ->
  status_observe force [(OpEq, BInt 0)] (fst (hrun me evs)) (snd (hrun me evs)) me (WOne a) fuel p d = Returns true ->
  In ev evs -> says_event a t1 t2 ev -> t1 < s'.
Proof.
  intros force me evs c a fuel p d s' ev t1 t2 [W1 W2 W3] Hcd Hs H Hi He.
  destruct (W3 ev a t1 t2 Hi He) as (A1 & (r & B1 & B2 & B3) & (t & C1 & C2)).
  assert (Ht := W2 a t C1).
  unfold status_observe in H. rewrite Hs in H. cbn [obind fst snd] in H. injection H as H.
  destruct force.
  - cbn [get_measurement] in H. rewrite observe_log in H. cbn [watched_list] in H.
    assert (Hz : times (snd (hrun me evs)) me [a] s' d = 0) by (cbn in H; lia).
    apply times_zero_iff in Hz. destruct (Z.lt_ge_cases t1 s') as [Hl|Hl]; [exact Hl|exfalso].
    apply Hz. exists r. split; [exact B1|]. split; [exact B2|lia].
  - rewrite measurement_cases in H. cbv zeta in H. change (is_equal_zero [(OpEq, BInt 0)]) with true in H.
    cbn [andb cache_says fst snd] in H. rewrite C1 in H.
    cbn [occurred_single cannot_single] in H.
    destruct (t <? s') eqn:E; [lia|].
    destruct ((s' <=? t) && (t <=? d)) eqn:E2; [cbn in H; discriminate|]. lia.
Qed.

Lemma outcomes_app : forall e1 e2 a s e, outcomes (e1 ++ e2) a s e = outcomes e1 a s e + outcomes e2 a s e.
Proof. intros e1 e2 a s e. induction e1 as [|[d t1 t2 id|b t1 t2 id|r] e1 IH]; cbn [outcomes app]; lia. Qed.
Lemma starts_app : forall e1 e2 s e, starts (e1 ++ e2) s e = starts e1 s e + starts e2 s e.
Proof. intros e1 e2 s e. induction e1 as [|[d t1 t2 id|b t1 t2 id|r] e1 IH]; cbn [starts app]; lia. Qed.
Lemma outcomes_nonneg : forall evs a s e, 0 <= outcomes evs a s e.
Proof.
  intros evs a s e. induction evs as [|[d t1 t2 id|b t1 t2 id|r] evs IH]; cbn [outcomes]; try lia.
  destruct (_ && _ && _); lia.
Qed.
Lemma starts_nonneg : forall evs s e, 0 <= starts evs s e.
Proof.
  intros evs s e. induction evs as [|[d t1 t2 id|b t1 t2 id|r] evs IH]; cbn [starts]; try lia.
  destruct (_ && _); lia.
Qed.

Lemma outcomes_none : forall evs a s e,
  (forall t1 t2 id, In (HOutcome a t1 t2 id) evs -> t1 < s) -> outcomes evs a s e = 0.
Proof.
  intros evs a s e. induction evs as [|ev evs IH]; intros H; [reflexivity|].
  assert (IH' : outcomes evs a s e = 0) by (apply IH; intros t1 t2 id Hi; apply (H t1 t2 id); right; exact Hi).
  destruct ev as [d t1 t2 id|b t1 t2 id|r]; cbn [outcomes]; try exact IH'.
  destruct (action_eqb b a && (s <=? t1) && (t1 <? e)) eqn:E; [exfalso|lia].
  rewrite !andb_true_iff, action_eqb_eq in E. destruct E as [[-> E1] E2].
  specialize (H t1 t2 id (or_introl eq_refl)). lia.
Qed.

(** Every failure noted from [s] on is found in the log. *)
Lemma outcomes_logged : forall me gate evs c a s s' e d, legal me gate evs c -> a <> ARun -> s' <= s -> c <= d ->
  outcomes evs a s e <= times (snd (hrun me evs)) me [a] s' d.
Proof.
  intros me gate evs c a s s' e d H Ha Hs. revert d.
  induction H as [c|evs c d0 t1 t2 id HL IH H1 H2 H3 HG|evs c b t1 t2 id HL IH H1 H2 Hb|evs c r HL IH H1 Hr];
    intros d Hd.
  - cbn. lia.
  - rewrite outcomes_app, hrun_snoc. cbn [happly set_status fst snd outcomes].
    rewrite times_app. specialize (IH d ltac:(lia)).
    assert (N := times_nonneg [Rec me ARun t2 id] me [a] s' d). lia.
  - rewrite outcomes_app, hrun_snoc. cbn [happly set_status fst snd outcomes].
    rewrite times_app. specialize (IH d ltac:(lia)). cbn [times r_task r_action r_created existsb].
    rewrite Z.eqb_refl. rewrite orb_false_r.
    destruct (action_eqb b a && (s <=? t1) && (t1 <? e)) eqn:E.
    + rewrite !andb_true_iff in E. destruct E as [[E1 E2] E3]. rewrite E1. cbn [andb].
      replace (s' <=? t2) with true by lia. replace (t2 <=? d) with true by lia. cbn [andb]. lia.
    + match goal with |- context [if ?x then _ else _] => destruct x end; lia.
  - rewrite outcomes_app, hrun_snoc. cbn [happly fst snd outcomes]. rewrite times_app.
    specialize (IH d ltac:(lia)). assert (N := times_nonneg [r] me [a] s' d). lia.
Qed.

Definition finals (evs : list hevent) (s e : Z) : Z :=
  outcomes evs ASuccess s e + outcomes evs AFail s e + outcomes evs ATerminate s e +
  outcomes evs AInaction s e + outcomes evs ACrash s e.

Lemma busy_snoc : forall evs ev, busy (evs ++ [ev]) =
  match ev with HStart _ _ _ _ => true | HOutcome _ _ _ _ => false | HOther _ => busy evs end.
Proof. intros evs ev. unfold busy. rewrite fold_left_app. destruct ev; reflexivity. Qed.

Lemma one_at_a_time_snoc : forall evs ev, one_at_a_time (evs ++ [ev]) ->
  one_at_a_time evs /\ (forall d t1 t2 id, ev = HStart d t1 t2 id -> busy evs = false).
Proof.
  intros evs ev H. split.
  - intros e1 d t1 t2 id e2 E. apply (H e1 d t1 t2 id (e2 ++ [ev])). rewrite E, <- app_assoc. reflexivity.
  - intros d t1 t2 id ->. exact (H evs d t1 t2 id [] eq_refl).
Qed.

(** Starts are matched by outcomes. *)
Lemma starts_matched : forall me gate evs c s e, legal me gate evs c -> one_at_a_time evs ->
  (0 < starts evs s e -> s <= c) /\
  (c < e -> starts evs s e <= finals evs s e + (if busy evs then 1 else 0)).
Proof.
  intros me gate evs c s e H.
  induction H as [c|evs c d t1 t2 id HL IH H1 H2 H3 HG|evs c a t1 t2 id HL IH H1 H2 Ha|evs c r HL IH H1 Hr]; intros O.
  - split; [cbn; lia|]. intros _. cbn. lia.
  - apply one_at_a_time_snoc in O. destruct O as [O Hb]. specialize (Hb d t1 t2 id eq_refl).
    destruct (IH O) as [I1 I2]. unfold finals. rewrite !outcomes_app, starts_app, busy_snoc. cbn [outcomes starts].
    rewrite Hb in I2. unfold finals in I2.
    destruct ((s <=? d) && (d <? e)) eqn:E; split; intros X; lia.
  - apply one_at_a_time_snoc in O. destruct O as [O _].
    destruct (IH O) as [I1 I2]. unfold finals in *. rewrite !outcomes_app, starts_app, busy_snoc. cbn [outcomes starts].
    assert (N := starts_nonneg evs s e).
    split; [intros X; lia|]. intros X. specialize (I2 ltac:(lia)).
    assert (N1 := outcomes_nonneg evs ASuccess s e). assert (N2 := outcomes_nonneg evs AFail s e).
    assert (N3 := outcomes_nonneg evs ATerminate s e). assert (N4 := outcomes_nonneg evs AInaction s e).
    assert (N5 := outcomes_nonneg evs ACrash s e).
    destruct (Z.lt_ge_cases 0 (starts evs s e)) as [P|P].
    + specialize (I1 P). replace (s <=? t1) with true by lia. replace (t1 <? e) with true by lia.
      destruct a; try contradiction; cbn [action_eqb andb]; destruct (busy evs); lia.
    + destruct a; try contradiction; cbn [action_eqb andb]; destruct ((s <=? t1) && (t1 <? e)); lia.
  - apply one_at_a_time_snoc in O. destruct O as [O _].
    destruct (IH O) as [I1 I2]. unfold finals in *. rewrite !outcomes_app, starts_app, busy_snoc. cbn [outcomes starts].
    split; intros X; [lia|]. specialize (I2 ltac:(lia)). lia.
Qed.

Lemma holds_true : forall o, holds o = true -> o = Returns true.
Proof. intros [[|]|x|]; cbn; intros H; try discriminate. reflexivity. Qed.

(** What an executable decision tells. *)
Lemma executable_seen : forall force me evs c retries fuel p s e d, world_ok me evs c -> c <= d ->
  window p s e -> s <= d < e ->
  executable force (fst (hrun me evs)) (snd (hrun me evs)) me retries fuel p d = Returns true ->
  exists s', s' <= s /\
    (forall a ev t1 t2, In a [ASuccess; AInaction; ATerminate] -> In ev evs -> says_event a t1 t2 ev -> t1 < s') /\
    times (snd (hrun me evs)) me [AFail] s' d <= match retries with None => 0 | Some n => n end.
Proof.
  intros force me evs c retries fuel p s e d W Hc Hw Hd H.
  unfold executable in H. cbv zeta in H. rewrite !oand_true in H. destruct H as (_ & Hi & Hs & Hf & Ht).
  destruct (get_period_span fuel (Some p) d) as [[s' e']|x|] eqn:Esp;
    [|unfold status_observe in Hi; rewrite Esp in Hi; discriminate|unfold status_observe in Hi; rewrite Esp in Hi; discriminate].
  destruct (Hw fuel d s' e' Hd Esp) as [Hss ->]. exists s'. split; [exact Hss|]. split.
  - intros a ev t1 t2 [<- | [<- | [<- | []]]] Hin He.
    + exact (eq0_seen force me evs c _ fuel p d s' ev t1 t2 W Hc Esp Hs Hin He).
    + exact (eq0_seen force me evs c _ fuel p d s' ev t1 t2 W Hc Esp Hi Hin He).
    + exact (eq0_seen force me evs c _ fuel p d s' ev t1 t2 W Hc Esp Ht Hin He).
  - unfold status_observe in Hf. rewrite Esp in Hf. cbn [obind fst snd] in Hf. injection Hf as Hf.
    destruct force; [cbn [get_measurement] in Hf|rewrite measurement_cases in Hf; cbv zeta in Hf].
    + rewrite observe_log in Hf. cbn in Hf. rewrite andb_true_r in Hf. lia.
    + unfold is_equal_zero, is_any_over_zero in Hf. cbn [only comps_get op_eqb forallb absent existsb bound_is orb andb] in Hf.
      rewrite observe_log in Hf. cbn in Hf. rewrite andb_true_r in Hf. lia.
Qed.

(** C18: no start in a window after an outcome in it. *)
Lemma no_restart : forall me force retries fuel p s e pre a t1 t2 id mid d u1 u2 id' post c,
  window p s e ->
  legal me (gate_executable me force retries fuel p)
    (pre ++ HOutcome a t1 t2 id :: mid ++ HStart d u1 u2 id' :: post) c ->
  In a [ASuccess; AInaction; ATerminate] -> s <= t1 -> s <= d < e -> False.
Proof.
  intros me force retries fuel p s e pre a t1 t2 id mid d u1 u2 id' post c Hw HL Ha Ht Hd.
  assert (Hpre : forall l r c, legal me (gate_executable me force retries fuel p) (l ++ r) c ->
            exists c', legal me (gate_executable me force retries fuel p) l c').
  { intros l r. induction r as [|x r IH] using rev_ind; intros c0 H0.
    - rewrite app_nil_r in H0. exists c0. exact H0.
    - rewrite app_assoc in H0. inversion H0 as [c1 E|evs c1 d1 v1 v2 i1 L1 A1 A2 A3 G1 E|evs c1 a1 v1 v2 i1 L1 A1 A2 A3 E|evs c1 r1 L1 A1 A2 E].
      + symmetry in E. apply app_eq_nil in E. destruct E as [_ E]. discriminate.
      + apply app_inj_tail in E. destruct E as [-> _]. exact (IH _ L1).
      + apply app_inj_tail in E. destruct E as [-> _]. exact (IH _ L1).
      + apply app_inj_tail in E. destruct E as [-> _]. exact (IH _ L1). }
  set (evs := pre ++ HOutcome a t1 t2 id :: mid) in *.
  assert (E : pre ++ HOutcome a t1 t2 id :: mid ++ HStart d u1 u2 id' :: post = (evs ++ [HStart d u1 u2 id']) ++ post).
  { unfold evs. rewrite <- !app_assoc. reflexivity. }
  rewrite E in HL. apply Hpre in HL. destruct HL as [c' HL].
  inversion HL as [c1 E1|evs' c1 d1 v1 v2 i1 L1 A1 A2 A3 G1 E1|evs' c1 a1 v1 v2 i1 L1 A1 A2 A3 E1|evs' c1 r1 L1 A1 A2 E1].
  - symmetry in E1. apply app_eq_nil in E1. destruct E1 as [_ E1]. discriminate.
  - apply app_inj_tail in E1. destruct E1 as [-> E1]. injection E1 as -> -> -> ->.
    apply holds_true in G1.
    destruct (executable_seen _ _ _ _ _ _ _ _ _ _ (legal_world _ _ _ _ L1) A1 Hw Hd G1) as (s' & Hs' & Hno & _).
    assert (Hlt : t1 < s'); [|lia].
    apply (Hno a (HOutcome a t1 t2 id) t1 t2 Ha).
    + unfold evs. apply in_or_app. right. left. reflexivity.
    + repeat split; reflexivity.
  - apply app_inj_tail in E1. destruct E1 as [_ E1]. discriminate.
  - apply app_inj_tail in E1. destruct E1 as [_ E1]. discriminate.
Qed.

(** C18: at most 1 + retries starts per window, not counting crashed ones. *)
Lemma starts_bounded : forall me force retries fuel p s e evs c n,
  window p s e -> legal me (gate_executable me force retries fuel p) evs c -> one_at_a_time evs ->
  n = match retries with None => 0 | Some n => n end -> 0 <= n ->
  starts evs s e <= 1 + n + outcomes evs ACrash s e.
Proof.
  intros me force retries fuel p s e evs c n Hw H O Hn Hn0.
  remember (gate_executable me force retries fuel p) as gate eqn:Eg.
  induction H as [c|evs c d t1 t2 id HL IH H1 H2 H3 HG|evs c a t1 t2 id HL IH H1 H2 Ha|evs c r HL IH H1 Hr].
  - cbn [starts outcomes]. lia.
  - apply one_at_a_time_snoc in O. destruct O as [O Hb]. specialize (Hb d t1 t2 id eq_refl).
    specialize (IH O). rewrite starts_app, outcomes_app. cbn [starts outcomes].
    destruct ((s <=? d) && (d <? e)) eqn:E; [|lia].
    destruct (starts_matched me gate evs c s e HL O) as [_ M]. specialize (M ltac:(lia)).
    rewrite Hb in M. unfold finals in M.
    rewrite Eg in HG. apply holds_true in HG.
    destruct (executable_seen _ _ _ _ _ _ _ _ _ _ (legal_world _ _ _ _ HL) H1 Hw ltac:(lia) HG) as (s' & Hs' & Hno & Hf).
    assert (Hz : forall a, In a [ASuccess; AInaction; ATerminate] -> outcomes evs a s e = 0).
    { intros a Ha. apply outcomes_none. intros v1 v2 i Hi.
      assert (v1 < s'); [|lia]. apply (Hno a (HOutcome a v1 v2 i) v1 v2 Ha Hi). repeat split; reflexivity. }
    assert (Hfa := outcomes_logged me gate evs c AFail s s' e d HL ltac:(discriminate) Hs' H1).
    rewrite (Hz ASuccess), (Hz ATerminate), (Hz AInaction) in M by (cbn; tauto). lia.
  - apply one_at_a_time_snoc in O. destruct O as [O _]. specialize (IH O).
    rewrite starts_app, outcomes_app. cbn [starts outcomes]. destruct (_ && _ && _); lia.
  - apply one_at_a_time_snoc in O. destruct O as [O _]. specialize (IH O).
    rewrite starts_app, outcomes_app. cbn [starts outcomes]. lia.
Qed.

(** C19: at most one start per window. *)
Lemma started_late : forall evs s e, 0 < starts evs s e -> exists d t1 t2 id, In (HStart d t1 t2 id) evs /\ s <= d < e.
Proof.
  intros evs s e. induction evs as [|ev evs IH]; intros H; [cbn in H; lia|].
  destruct ev as [d t1 t2 id|a t1 t2 id|r]; cbn [starts] in H.
  - destruct ((s <=? d) && (d <? e)) eqn:E.
    + exists d, t1, t2, id. split; [left; reflexivity|lia].
    + destruct (IH H) as (d' & t1' & t2' & id' & Hi & Hd). exists d', t1', t2', id'. split; [right; exact Hi|exact Hd].
  - destruct (IH H) as (d' & t1' & t2' & id' & Hi & Hd). exists d', t1', t2', id'. split; [right; exact Hi|exact Hd].
  - destruct (IH H) as (d' & t1' & t2' & id' & Hi & Hd). exists d', t1', t2', id'. split; [right; exact Hi|exact Hd].
Qed.

Lemma legal_decision : forall me gate evs c d t1 t2 id, legal me gate evs c -> In (HStart d t1 t2 id) evs -> d <= t1.
Proof.
  intros me gate evs c d t1 t2 id H. induction H as [c|evs c d0 u1 u2 i HL IH H1 H2 H3 HG|evs c a u1 u2 i HL IH H1 H2 Ha|evs c r HL IH H1 Hr]; intros Hi.
  - destruct Hi.
  - apply in_app_or in Hi. destruct Hi as [Hi|[Hi|[]]]; [exact (IH Hi)|]. injection Hi as <- <- <- <-. exact H2.
  - apply in_app_or in Hi. destruct Hi as [Hi|[Hi|[]]]; [exact (IH Hi)|discriminate].
  - apply in_app_or in Hi. destruct Hi as [Hi|[Hi|[]]]; [exact (IH Hi)|discriminate].
Qed.

Lemma once_per_window : forall me (gate : world -> Z -> bool) force fuel p s e evs c,
  window p s e -> legal me gate evs c ->
  (forall w d, gate w d = true ->
     status_observe force [(OpEq, BInt 0)] (fst w) (snd w) me w_started fuel p d = Returns true) ->
  starts evs s e <= 1.
Proof.
  intros me gate force fuel p s e evs c Hw H Hgate.
  induction H as [c|evs c d t1 t2 id HL IH H1 H2 H3 HG|evs c a t1 t2 id HL IH H1 H2 Ha|evs c r HL IH H1 Hr].
  - cbn. lia.
  - rewrite starts_app. cbn [starts]. destruct ((s <=? d) && (d <? e)) eqn:E; [|lia].
    destruct (Z.lt_ge_cases 0 (starts evs s e)) as [P|P]; [exfalso|lia].
    destruct (started_late evs s e P) as (d0 & u1 & u2 & i & Hi & Hd0).
    apply Hgate in HG.
    destruct (get_period_span fuel (Some p) d) as [[s' e']|x|] eqn:Esp;
      [|unfold status_observe in HG; rewrite Esp in HG; discriminate|unfold status_observe in HG; rewrite Esp in HG; discriminate].
    destruct (Hw fuel d s' e' ltac:(lia) Esp) as [Hss ->].
    assert (u1 < s') by exact (eq0_seen force me evs c ARun fuel p d s' _ u1 u2 (legal_world _ _ _ _ HL) H1 Esp HG Hi ltac:(repeat split; reflexivity)).
    assert (d0 <= u1) by exact (legal_decision _ _ _ _ _ _ _ _ HL Hi). lia.
  - rewrite starts_app. cbn [starts]. lia.
  - rewrite starts_app. cbn [starts]. lia.
Qed.

Lemma runnable_started : forall me force fuel p w d, gate_runnable me force fuel p w d = true ->
  status_observe force [(OpEq, BInt 0)] (fst w) (snd w) me w_started fuel p d = Returns true.
Proof.
  intros me force fuel p w d H. apply holds_true in H. unfold runnable in H. apply oand_true in H. tauto.
Qed.
