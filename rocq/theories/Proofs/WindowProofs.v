From Coq Require Import Bool Arith Lia ZifyBool.
From Verif Require Import Model.Base Model.Interval Model.Calendar Model.Anchored Model.Period Model.Condition Model.History
  Spec.IntervalSpec Spec.ConditionSpec Spec.PeriodSpec Spec.HistorySpec Proofs.IntervalProofs Proofs.FixedCycleProofs Proofs.ClockProofs
  Proofs.PeriodProofs Proofs.ConditionProofs Proofs.HistoryProofs Proofs.HistoryRunProofs Proofs.DependProofs.
Open Scope Z_scope.

Lemma occ_order L s e k : 0 < L -> 0 <= s <= L -> 0 <= e <= L -> occ_end (every_L L) s e k <= occ_start (every_L L) s (k + 1).
Proof. intros HL Hs He. unfold occ_end, occ_start, every_L. destruct (Z_lt_dec s e); lia. Qed.

Lemma occ_index L s k k' : 0 < L -> occ_start (every_L L) s k < occ_start (every_L L) s (k' + 1) -> k <= k'.
Proof. intros HL H. unfold occ_start, every_L in H. nia. Qed.

Section Fixed.
  Variables (c : acls) (L : Z) (st en : option aval) (tp sg rc : bool) (p : anchored).
  Hypothesis HL : fixed_cycle c L.
  Hypothesis Hp : mk_anchored c st en tp sg rc = Ok p.

  Let S k := occ_start (every_L L) (a_start p) k.
  Let E k := occ_end (every_L L) (a_start p) (a_end p) k.

  Lemma fixed_b : 0 < L /\ 0 <= a_start p <= L /\ 0 <= a_end p <= L /\ a_cls p = c /\ L = scope_max c.
  Proof using All.
    destruct (fixed_cycle_scope _ _ HL) as [EL Pos]. destruct (mk_anchored_bounds _ _ _ _ _ _ _ Hp) as (Hc & Hs & He).
    repeat split; try assumption; try lia.
  Qed.

  (** The span at a moment strictly inside an occurrence starts with it. *)
  Lemma fixed_span_in : forall fuel k d, S k < d < E k -> get_period_span fuel (Some (PAnch p)) d = Returns (S k, d).
  Proof using All.
    intros fuel k d Hd. destruct fixed_b as (Pos & Bs & Be & Hc & EL).
    unfold get_period_span. cbn [use_reference rollback].
    destruct (is_full p) eqn:F.
    - destruct (fixed_rollback_full _ _ _ _ _ _ _ _ HL Hp d F) as (i & -> & (_ & Hr & k' & Hl & Hk')).
      cbn [of_result obind]. rewrite Hr, Hl. f_equal. f_equal.
      assert (k' = k); [|subst k'; reflexivity].
      assert (O1 := occ_order L (a_start p) (a_end p) k Pos Bs Be).
      assert (O2 := occ_order L (a_start p) (a_end p) k' Pos Bs Be).
      unfold S, E in *.
      assert (k <= k') by (apply (occ_index L (a_start p) k k' Pos); lia).
      assert (k' <= k) by (apply (occ_index L (a_start p) k' k Pos); lia). lia.
    - assert (Hnd : ~ (a_start p = L /\ a_end p = 0)).
      { intros [H1 H2]. unfold S, E, occ_start, occ_end in Hd. rewrite H1, H2 in Hd.
        destruct (Z_lt_dec L 0); unfold every_L in Hd; lia. }
      destruct (fixed_rollback _ _ _ _ _ _ _ _ HL Hp Hnd d F) as (i & -> & (_ & Hb & _ & Hin & _ & k' & Hl & Hr & Hk')).
      cbn [of_result obind].
      assert (Hin' : in_period (every_L L) (a_start p) (a_end p) d) by (exists k; unfold S, E in Hd; lia).
      rewrite (Hin Hin'), Hl. f_equal. f_equal. assert (k' = k); [|subst k'; reflexivity].
      assert (O1 := occ_order L (a_start p) (a_end p) k Pos Bs Be). unfold S, E in *.
      assert (k <= k') by (apply (occ_index L (a_start p) k k' Pos); lia).
      assert (k' <= k) by (apply (occ_index L (a_start p) k' k Pos); lia). lia.
  Qed.

  (** At its very start: itself, unless the period covers whole cycles. *)
  Lemma fixed_span_start : forall fuel k, S k < E k ->
    get_period_span fuel (Some (PAnch p)) (S k) = Returns (if is_full p then S (k - 1) else S k, S k).
  Proof using All.
    intros fuel k Hd. destruct fixed_b as (Pos & Bs & Be & Hc & EL).
    unfold get_period_span. cbn [use_reference rollback].
    destruct (is_full p) eqn:F.
    - destruct (fixed_rollback_full _ _ _ _ _ _ _ _ HL Hp (S k) F) as (i & -> & (_ & Hr & k' & Hl & Hk')).
      cbn [of_result obind]. rewrite Hr, Hl. f_equal. f_equal.
      assert (O2 := occ_order L (a_start p) (a_end p) k' Pos Bs Be).
      assert (k' = k - 1); [|subst k'; reflexivity]. unfold S, occ_start, every_L in *. nia.
    - assert (Hnd : ~ (a_start p = L /\ a_end p = 0)).
      { intros [H1 H2]. unfold S, E, occ_start, occ_end in Hd. rewrite H1, H2 in Hd.
        destruct (Z_lt_dec L 0); unfold every_L in Hd; lia. }
      destruct (fixed_rollback _ _ _ _ _ _ _ _ HL Hp Hnd (S k) F) as (i & -> & (_ & Hb & _ & Hin & _ & k' & Hl & Hr & Hk')).
      cbn [of_result obind].
      assert (Hin' : in_period (every_L L) (a_start p) (a_end p) (S k)) by (exists k; unfold S, E in *; lia).
      rewrite (Hin Hin'), Hl. f_equal. f_equal. assert (k' = k); [|subst k'; reflexivity].
      rewrite (Hin Hin') in Hb. rewrite Hl in Hb. unfold S, occ_start, every_L in *. nia.
  Qed.

  Lemma window_fixed : forall k, window (PAnch p) (S k) (E k).
  Proof using All.
    intros k fuel d s' e' Hd H. destruct fixed_b as (Pos & _).
    destruct (Z.eq_dec d (S k)) as [->|Hne].
    - rewrite (fixed_span_start fuel k) in H by lia. injection H as <- <-. split; [|reflexivity].
      destruct (is_full p); [|lia]. unfold S, occ_start, every_L. nia.
    - rewrite (fixed_span_in fuel k d) in H by lia. injection H as <- <-. lia.
  Qed.

  Lemma fixed_in : forall fuel k d, S k <= d < E k -> is_in_period fuel (PAnch p) d = Returns true.
  Proof using All.
    intros fuel k d Hd. cbn [is_in_period pcontains]. f_equal.
    apply (fixed_contains_iff _ _ _ _ _ _ _ _ HL Hp). exists k. exact Hd.
  Qed.
  Lemma fixed_out : forall fuel d, (forall k, ~ S k <= d < E k) -> is_in_period fuel (PAnch p) d = Returns false.
  Proof using All.
    intros fuel d Hd. cbn [is_in_period pcontains]. f_equal.
    destruct (acontains p d) eqn:A; [exfalso|reflexivity].
    apply (fixed_contains_iff _ _ _ _ _ _ _ _ HL Hp) in A. destruct A as [k A]. exact (Hd k A).
  Qed.

  Lemma settled_span : forall fuel k d, settled L p k d -> get_period_span fuel (Some (PAnch p)) d = Returns (S k, d).
  Proof using All.
    intros fuel k d [Hd Hf]. change (S k <= d < E k) in Hd. change (is_full p = true -> S k < d) in Hf.
    destruct (Z.eq_dec d (S k)) as [->|Hne].
    - rewrite fixed_span_start by lia. destruct (is_full p); [|reflexivity]. specialize (Hf eq_refl). lia.
    - apply fixed_span_in. lia.
  Qed.

  Lemma executable_decision : forall force st' l me retries fuel k d, cache_latest st' l me -> settled L p k d ->
    exists b, executable force st' l me retries fuel (PAnch p) d = Returns b /\
    (b = true <-> ~ did l me [ASuccess; AInaction; ATerminate] (S k) d /\
                  times l me [AFail] (S k) d <= match retries with None => 0 | Some n => n end).
  Proof using All.
    intros force st' l me retries fuel k d C Hd.
    assert (Hs := settled_span fuel k d Hd). assert (Hi := fixed_in fuel k d (proj1 Hd)).
    assert (T : exists b, executable force st' l me retries fuel (PAnch p) d = Returns b).
    { unfold executable, status_observe. cbv zeta. rewrite Hi, Hs. cbn [obind oand fst snd].
      destruct (comparable_observe _ _); cbn [obind]; [|eauto].
      destruct (comparable_observe _ _); cbn [obind]; [|eauto].
      destruct (comparable_observe _ _); cbn [obind]; eauto. }
    destruct T as [b T]. exists b. split; [exact T|].
    destruct (executable_spec _ _ _ _ _ _ _ _ _ C T) as (i & Hi' & ->). rewrite Hi in Hi'. injection Hi' as <-.
    split.
    - intros [_ (s' & e' & Hs' & H)]. rewrite Hs in Hs'. injection Hs' as <- <-. exact H.
    - intros H. split; [reflexivity|]. exists (S k), d. split; [exact Hs|exact H].
  Qed.

  Lemma runnable_decision : forall force st' l me fuel k d, cache_latest st' l me -> settled L p k d ->
    exists b, runnable force st' l me fuel (PAnch p) d = Returns b /\ (b = true <-> ~ did l me [ARun] (S k) d).
  Proof using All.
    intros force st' l me fuel k d C Hd.
    assert (Hs := settled_span fuel k d Hd). assert (Hi := fixed_in fuel k d (proj1 Hd)).
    assert (T : exists b, runnable force st' l me fuel (PAnch p) d = Returns b).
    { unfold runnable, status_observe. rewrite Hi, Hs. cbn [obind oand fst snd]. eauto. }
    destruct T as [b T]. exists b. split; [exact T|].
    destruct (runnable_spec _ _ _ _ _ _ _ _ C T) as (i & Hi' & ->). rewrite Hi in Hi'. injection Hi' as <-.
    split.
    - intros [_ (s' & e' & Hs' & H)]. rewrite Hs in Hs'. injection Hs' as <- <-. exact H.
    - intros H. split; [reflexivity|]. exists (S k), d. split; [exact Hs|exact H].
  Qed.

  Lemma out_decision : forall force st' l me retries fuel d, (forall k, ~ S k <= d < E k) ->
    executable force st' l me retries fuel (PAnch p) d = Returns false /\
    runnable force st' l me fuel (PAnch p) d = Returns false.
  Proof using All.
    intros force st' l me retries fuel d Hd. unfold executable, runnable. rewrite (fixed_out fuel d Hd). split; reflexivity.
  Qed.
End Fixed.

Lemma span_delta : forall fuel past now,
  get_period_span fuel (Some (mk_delta (Some past) None None)) now = Returns (now - Z.abs past, now).
Proof.
  intros fuel past now.
  change (mk_delta (Some past) None None) with (mk_delta (Some past) (Some 0) None). apply period_span_delta.
Qed.

Lemma window_delta : forall past s, window (mk_delta (Some past) None None) s (s + Z.abs past + 1).
Proof.
  intros past s fuel d s' e' Hd H. rewrite span_delta in H. injection H as <- <-. lia.
Qed.

Lemma legal_prefix : forall me gate l r c, legal me gate (l ++ r) c -> exists c', legal me gate l c'.
Proof.
  intros me gate l r. induction r as [|x r IH] using rev_ind; intros c0 H0.
  - rewrite app_nil_r in H0. exists c0. exact H0.
  - rewrite app_assoc in H0. inversion H0 as [c1 E|evs c1 d1 v1 v2 i1 L1 A1 A2 A3 G1 E|evs c1 a1 v1 v2 i1 L1 A1 A2 A3 E|evs c1 r1 L1 A1 A2 E].
    + symmetry in E. apply app_eq_nil in E. destruct E as [_ E]. discriminate.
    + apply app_inj_tail in E. destruct E as [-> _]. exact (IH _ L1).
    + apply app_inj_tail in E. destruct E as [-> _]. exact (IH _ L1).
    + apply app_inj_tail in E. destruct E as [-> _]. exact (IH _ L1).
Qed.

Lemma legal_at_start : forall me gate pre d u1 u2 id post c, legal me gate (pre ++ HStart d u1 u2 id :: post) c ->
  exists c', legal me gate pre c' /\ c' <= d /\ gate (hrun me pre) d = true.
Proof.
  intros me gate pre d u1 u2 id post c H.
  replace (pre ++ HStart d u1 u2 id :: post) with ((pre ++ [HStart d u1 u2 id]) ++ post) in H by (rewrite <- app_assoc; reflexivity).
  apply legal_prefix in H. destruct H as [c' H].
  inversion H as [c1 E1|evs' c1 d1 v1 v2 i1 L1 A1 A2 A3 G1 E1|evs' c1 a1 v1 v2 i1 L1 A1 A2 A3 E1|evs' c1 r1 L1 A1 A2 E1].
  - symmetry in E1. apply app_eq_nil in E1. destruct E1 as [_ E1]. discriminate.
  - apply app_inj_tail in E1. destruct E1 as [-> E1]. injection E1 as -> -> -> ->. exists c1. repeat split; assumption.
  - apply app_inj_tail in E1. destruct E1 as [_ E1]. discriminate.
  - apply app_inj_tail in E1. destruct E1 as [_ E1]. discriminate.
Qed.

Lemma every_apart : forall me force a fuel past pre ev t1 t2 mid d u1 u2 id post c,
  legal me (gate_every me force (WOne a) fuel past) (pre ++ ev :: mid ++ HStart d u1 u2 id :: post) c ->
  says_event a t1 t2 ev -> t1 + Z.abs past < d.
Proof.
  intros me force a fuel past pre ev t1 t2 mid d u1 u2 id post c H Hs.
  replace (pre ++ ev :: mid ++ HStart d u1 u2 id :: post) with ((pre ++ ev :: mid) ++ HStart d u1 u2 id :: post) in H
    by (rewrite <- app_assoc; reflexivity).
  apply legal_at_start in H. destruct H as (c' & HL & Hc & G). apply holds_true in G.
  assert (X := eq0_seen force me _ c' a fuel _ d _ ev t1 t2 (legal_world _ _ _ _ HL) Hc (span_delta fuel past d) G).
  assert (t1 < d - Z.abs past); [|lia]. apply X; [|exact Hs]. apply in_or_app. right. left. reflexivity.
Qed.

Lemma every_starts_apart : forall me force fuel past pre d t1 t2 id mid d' u1 u2 id' post c,
  legal me (gate_every me force w_started fuel past)
    (pre ++ HStart d t1 t2 id :: mid ++ HStart d' u1 u2 id' :: post) c ->
  t1 + Z.abs past < d'.
Proof.
  intros me force fuel past pre d t1 t2 id mid d' u1 u2 id' post c H.
  apply (every_apart me force ARun fuel past pre (HStart d t1 t2 id) t1 t2 mid d' u1 u2 id' post c H). repeat split; reflexivity.
Qed.
Lemma every_outcome_apart : forall me force a fuel past pre t1 t2 id mid d' u1 u2 id' post c,
  legal me (gate_every me force (WOne a) fuel past)
    (pre ++ HOutcome a t1 t2 id :: mid ++ HStart d' u1 u2 id' :: post) c ->
  t1 + Z.abs past < d'.
Proof.
  intros me force a fuel past pre t1 t2 id mid d' u1 u2 id' post c H.
  apply (every_apart me force a fuel past pre (HOutcome a t1 t2 id) t1 t2 mid d' u1 u2 id' post c H). repeat split; reflexivity.
Qed.

(** Not earlier, but then at once: the condition is exact. *)
Lemma every_decision : forall force st l me a fuel past d, cache_latest st l me ->
  exists b, every_based force st l me (WOne a) fuel past d = Returns b /\
  (b = true <-> ~ did l me [a] (d - Z.abs past) d).
Proof.
  intros force st l me a fuel past d C.
  assert (T : exists b, every_based force st l me (WOne a) fuel past d = Returns b).
  { unfold every_based, status_observe. rewrite span_delta. cbn [obind fst snd]. eauto. }
  destruct T as [b T]. exists b. split; [exact T|].
  destruct (status_spec_eq0 _ _ _ _ _ _ _ _ _ C T) as (s & e & Hs & S1). rewrite span_delta in Hs. injection Hs as <- <-.
  exact S1.
Qed.

Lemma once_runnable : forall me force fuel p s e evs c, window p s e ->
  legal me (gate_runnable me force fuel p) evs c -> starts evs s e <= 1.
Proof.
  intros me force fuel p s e evs c W H. apply (once_per_window me _ force fuel p s e evs c W H).
  intros w d G. exact (runnable_started me force fuel p w d G).
Qed.

(** At midnight sharp a daily task counts yesterday's run. *)
Lemma midnight : exists l now,
  (forall r, In r l -> r_created r < now) /\ chronological l /\ now mod us_day = 0 /\
  (exists r, l = [r; Rec 1 ASuccess (now - 5) None]) /\
  executable true fresh_state l 1 None 1 (PAnch (Anchored TDay 0 us_day)) now = Returns false /\
  executable true fresh_state l 1 None 1 (PAnch (Anchored TDay 0 us_day)) (now + 1) = Returns true.
Proof.
  exists [Rec 1 ARun (100 * us_day - 9) None; Rec 1 ASuccess (100 * us_day - 5) None], (100 * us_day).
  split; [|split; [|split; [|split; [|split]]]].
  - intros r [<- | [<- | []]]; cbn; lia.
  - intros l1 a l2 b l3 E. destruct l1 as [|x1 [|x2 [|x3 l1]]]; destruct l2 as [|y1 [|y2 l2]]; cbn in E;
      try discriminate; injection E; intros; subst; cbn; lia.
  - reflexivity.
  - eexists. reflexivity.
  - vm_compute. reflexivity.
  - vm_compute. reflexivity.
Qed.
