From Coq Require Import Lia ZifyBool Arith.
From Verif Require Import Model.Base Model.Interval Model.Calendar Model.Anchored Model.Period
  Spec.IntervalSpec Spec.PeriodSpec Spec.AlgebraSpec
  Proofs.IntervalProofs Proofs.AnchoredProofs Proofs.FixedCycleProofs Proofs.ClockProofs Proofs.MonthProofs
  Proofs.AlgebraProofs.
Open Scope Z_scope.

(** * Backward contract *)
Lemma rollback_spec_back_at B s e t i (M : Z -> Prop) :
  (forall k, B k < B (k + 1)) -> (forall k, e - s < B (k + 1) - B k) -> (forall k, s - e < B (k + 1) - B k) -> s <> e ->
  (forall u, M u <-> in_period B s e u) -> rollback_spec B s e t i -> back_at M t i.
Proof.
  intros Bm He Hs Hne HM [C [Bd [No [_ [In_ [k [K1 [K2 K3]]]]]]]].
  split; [lia|]. split; [intros u Hu Hu'; apply HM in Hu'; apply (No u Hu Hu')|].
  split; [intros u Hu; apply HM, In_, Hu|].
  destruct (Z.eq_dec (left i) (right i)) as [E|E]; [right|left; split; [exact C|lia]].
  assert (Hpos : occ_start B s k < occ_end B s e k).
  { unfold occ_start, occ_end. specialize (Hs k). destruct (Z_lt_dec s e); lia. }
  assert (Et : right i = t) by lia.
  split; [exact C|]. split; [exact E|]. split; [exact Et|]. split.
  - apply HM. exists k. lia.
  - intros H. apply HM in H. destruct H as [k' [H1 H2]].
    assert (Hlt : k' < k).
    { destruct (Z_lt_dec k' k) as [|D]; [assumption|]. exfalso.
      pose proof (B_le B Bm k k' ltac:(lia)). unfold occ_start in *. lia. }
    assert (D : occ_end B s e k' <= occ_end B s e (k - 1)).
    { unfold occ_end. destruct (Z_lt_dec s e).
      - pose proof (B_le B Bm k' (k - 1) ltac:(lia)). lia.
      - pose proof (B_le B Bm (k' + 1) (k - 1 + 1) ltac:(lia)). lia. }
    assert (D2 : occ_end B s e (k - 1) < occ_start B s k).
    { unfold occ_end, occ_start. pose proof (He (k - 1)) as Hk. replace (k - 1 + 1) with k in * by lia.
      destruct (Z_lt_dec s e); lia. }
    lia.
Qed.

Lemma rollback_full_back_at B s e t i (M : Z -> Prop) :
  (forall u, M u) -> rollback_full_spec B s e t i -> back_at M t i.
Proof.
  intros HM [C [R [k [L K]]]]. split; [lia|]. split; [intros; lia|]. split; [intros; apply HM|].
  left. split; [exact C|lia].
Qed.

Lemma back_static s e : s <= e -> back_ok (PStatic s e).
Proof.
  intros Hse t [u [Hu HM]]. cbn [moments] in HM.
  exists (Interval s (Z.min e t) CLeft). split.
  - exists O. intros fuel _. cbn [rollback]. unfold static_rollback.
    destruct (Z.ltb_spec t s); [lia|]. apply ivl_ok. lia.
  - unfold back_at. cbn [left right closed moments]. split; [lia|]. split; [intros; lia|]. split; [intros; lia|].
    left. split; [reflexivity|lia].
Qed.

Lemma back_always : back_ok PAlways.
Proof. apply (back_static p_min p_max). vm_compute. discriminate. Qed.

Lemma anchored_full_moments p t : is_full p = true -> acontains p t = true.
Proof. unfold acontains. intros ->. reflexivity. Qed.

Lemma not_full_ne p : is_full p = false -> a_start p <> a_end p /\ ~ (a_start p = 0 /\ a_end p = scope_max (a_cls p)).
Proof. unfold is_full. lia. Qed.

Lemma back_fixed_at c L st en tp sg rc p u t :
  fixed_cycle c L -> mk_anchored c st en tp sg rc = Ok p -> acontains p u = true ->
  exists i, arollback p t = Ok i /\ back_at (moments (PAnch p)) t i.
Proof.
  intros HL Hp Hu. pose proof (nonempty_not_corner _ _ _ _ _ _ _ _ _ HL Hp Hu) as Hnd.
  destruct (is_full p) eqn:F.
  - destruct (fixed_rollback_full _ _ _ _ _ _ _ _ HL Hp t F) as [i [E S]]. exists i. split; [exact E|].
    apply (rollback_full_back_at (every_L L) (a_start p) (a_end p)); [|exact S].
    intros v. apply anchored_full_moments, F.
  - destruct (fixed_rollback _ _ _ _ _ _ _ _ HL Hp Hnd t F) as [i [E S]]. exists i. split; [exact E|].
    destruct (not_full_ne p F) as [Hne Hnf].
    pose proof (mk_anchored_bounds _ _ _ _ _ _ _ Hp) as [Hc [Hs He]].
    destruct (fixed_cycle_scope _ _ HL) as [EL HLp]. rewrite Hc, <- EL in *.
    apply (rollback_spec_back_at (every_L L) (a_start p) (a_end p)); [..|exact S];
      try (intros k; unfold every_L; lia).
    + intros v. apply (fixed_contains_iff _ _ _ _ _ _ _ _ HL Hp).
Qed.

Lemma back_month_at s e t :
  0 <= s <= 28 * us_day -> 0 <= e <= 28 * us_day -> ~ (s = 28 * us_day /\ e = 0) -> e - s < 28 * us_day ->
  exists i, arollback (Anchored TMonth s e) t = Ok i /\ back_at (moments (PAnch (Anchored TMonth s e))) t i.
Proof.
  intros Hs He Hnd Hd. destruct (is_full (Anchored TMonth s e)) eqn:F.
  - destruct (month_rollback_full s e Hs He t F) as [i [E S]]. exists i. split; [exact E|].
    apply (rollback_full_back_at month_begin s e); [|exact S].
    intros v. apply anchored_full_moments, F.
  - destruct (month_rollback s e Hs He Hnd t F) as [i [E S]]. exists i. split; [exact E|].
    destruct (not_full_ne _ F) as [Hne Hnf]. cbn [a_start a_end] in Hne.
    apply (rollback_spec_back_at month_begin s e); [..|exact S].
    + exact month_begin_mono.
    + intros k. pose proof (month_len_bounds k). lia.
    + intros k. pose proof (month_len_bounds k). lia.
    + exact Hne.
    + intros v. apply (month_contains_iff s e Hs He).
Qed.

Lemma back_anch p : (forall t, exists i, arollback p t = Ok i /\ back_at (moments (PAnch p)) t i) -> back_ok (PAnch p).
Proof.
  intros H t _. destruct (H t) as [i [E Hi]]. exists i. split; [|exact Hi].
  exists O. intros fuel _. cbn [rollback]. rewrite E. reflexivity.
Qed.

(** The pieces an [&] gets from its members. *)
Definition point (t : Z) (i : interval Z) : Prop := closed i = CBoth /\ left i = t /\ right i = t.

Lemma overlaps_point_half t i j : point t i -> proper j -> right j <= t ->
  overlaps Z_ops i j = false /\ overlaps Z_ops j i = false.
Proof.
  intros [Ci [Li Ri]] [Cj Lj] Hj. unfold overlaps. rewrite Ci, Cj, Li, Ri. cbn [op_lt op_eq Z_ops in_left_neither in_right_neither orb andb].
  split; destruct (Z.ltb_spec t (left j)); destruct (Z.ltb_spec (right j) t);
    destruct (Z.eqb_spec t (left j)); destruct (Z.eqb_spec t (right j)); destruct (Z.eqb_spec (right j) t);
    destruct (Z.eqb_spec (left j) t); cbn [orb andb negb]; try reflexivity; exfalso; lia.
Qed.
Lemma overlaps_points t i j : point t i -> point t j -> overlaps Z_ops i j = true.
Proof.
  intros [Ci [Li Ri]] [Cj [Lj Rj]]. unfold overlaps. rewrite Ci, Cj, Li, Ri, Lj, Rj.
  cbn [op_lt op_eq Z_ops in_left_neither in_right_neither]. rewrite Z.ltb_irrefl, Z.eqb_refl. reflexivity.
Qed.
Lemma inter_points t i j : point t i -> point t j -> exists r, inter Z_ops i j = Ok r /\ point t r.
Proof.
  intros [Ci [Li Ri]] [Cj [Lj Rj]]. unfold inter. cbn [op_lt Z_ops]. rewrite Ci, Cj, Li, Ri, Lj, Rj.
  rewrite !Z.ltb_irrefl. cbn [in_left_both in_right_both andb]. rewrite mk_interval_ok by lia.
  eexists. split; [reflexivity|]. split; [reflexivity|split; reflexivity].
Qed.
Lemma reduce_points t l : forall a, point t a -> (forall i, In i l -> point t i) ->
  exists r, reduce_from a l = Ok r /\ point t r.
Proof.
  induction l as [|b l IH]; intros a Ha Hl; cbn [reduce_from].
  - exists a. auto.
  - destruct (inter_points t a b Ha (Hl b (or_introl eq_refl))) as [r [E Hr]]. rewrite E. cbn [bind].
    apply IH; [exact Hr|]. intros; apply Hl; right; assumption.
Qed.
Lemma all_overlap_points t l : (forall i, In i l -> point t i) -> all_overlap l = true.
Proof.
  induction l as [|a l IH]; intros H; [reflexivity|]. cbn [all_overlap]. apply andb_true_iff. split.
  - apply forallb_forall. intros j Hj. apply (overlaps_points t); apply H; cbn; auto.
  - apply IH. intros; apply H; right; assumption.
Qed.

Lemma all_overlap_mixed t l : (forall i, In i l -> (proper i /\ right i <= t) \/ point t i) -> all_overlap l = true ->
  (forall i, In i l -> proper i) \/ (forall i, In i l -> point t i).
Proof.
  induction l as [|a l IH]; intros H Ho; [left; intros i []|].
  cbn [all_overlap] in Ho. apply andb_true_iff in Ho. destruct Ho as [Ha Hl]. rewrite forallb_forall in Ha.
  destruct (IH (fun i Hi => H i (or_intror Hi)) Hl) as [Hp|Hp]; destruct (H a (or_introl eq_refl)) as [[Pa Ra]|Pa].
  - left. intros i [<-|Hi]; auto.
  - destruct l as [|b l]; [right; intros i [<-|[]]; exact Pa|].
    exfalso. specialize (Ha b (or_introl eq_refl)). specialize (Hp b (or_introl eq_refl)).
    destruct (H b) as [[_ Rb]|Pb]; [cbn; auto| |].
    + destruct (overlaps_point_half t a b Pa Hp Rb). congruence.
    + destruct Hp as [C _], Pb as [C' _]. congruence.
  - destruct l as [|b l]; [left; intros i [<-|[]]; exact Pa|].
    exfalso. specialize (Ha b (or_introl eq_refl)). specialize (Hp b (or_introl eq_refl)).
    destruct (overlaps_point_half t b a Hp Pa Ra). congruence.
  - right. intros i [<-|Hi]; auto.
Qed.

Lemma all_overlap_proper_same t l : (forall i, In i l -> proper i /\ right i = t) -> all_overlap l = true.
Proof.
  intros H. apply all_overlap_half; [intros i Hi; apply (H i Hi)|].
  intros i j Hi Hj. destruct (H i Hi) as [[_ L] R], (H j Hj) as [_ R']. lia.
Qed.

Lemma some_point t l : (forall i, In i l -> (proper i /\ right i = t) \/ point t i) -> all_overlap l = false ->
  exists i, In i l /\ point t i.
Proof.
  intros H Ho.
  assert (D : (exists i, In i l /\ closed i = CBoth) \/ forall i, In i l -> closed i <> CBoth).
  { clear. induction l as [|a l [IH|IH]].
    - right. intros i [].
    - left. destruct IH as [i [Hi E]]. exists i. cbn; auto.
    - destruct (closed a) eqn:E.
      1: right; intros i [<-|Hi]; [congruence|auto].
      1: right; intros i [<-|Hi]; [congruence|auto].
      1: left; exists a; cbn; auto.
      1: right; intros i [<-|Hi]; [congruence|auto]. }
  destruct D as [[i [Hi E]]|D].
  - exists i. split; [exact Hi|]. destruct (H i Hi) as [[[C _] _]|P]; [congruence|exact P].
  - exfalso. assert (all_overlap l = true); [|congruence]. apply (all_overlap_proper_same t).
    intros i Hi. destruct (H i Hi) as [P|[C _]]; [exact P|]. exfalso. apply (D i Hi C).
Qed.

Lemma back_all ps : ps <> [] -> (forall q, In q ps -> back_ok q) -> back_ok (PAll ps).
Proof.
  intros Hne Hok t [u [Hu HM]]. rewrite moments_all in HM.
  assert (Main : forall n t, u < t -> t - u <= Z.of_nat n ->
    exists i, (exists m, forall fuel k, (m <= fuel)%nat -> (n < k)%nat ->
       all_rollback (fun t => traverse (fun q => rollback fuel q t) ps) k t = Returns i) /\
       back_at (moments (PAll ps)) t i).
  { clear t Hu. induction n as [n IHn] using (well_founded_induction lt_wf). intros t Hu Hn.
    destruct (traverse_eventually (fun fuel q => rollback fuel q t) (fun q i => back_at (moments q) t i) ps)
      as [is [[m Hm] HF]].
    { intros q Hq. apply Hok; [exact Hq|]. exists u. auto. }
    assert (Hshape : forall i, In i is -> (proper i /\ right i <= t) \/ point t i).
    { intros i Hi. destruct (Forall2_in_r _ _ _ _ HF Hi) as [q [_ [H1 [_ [_ [[H2 H3]|[H2 [H3 [H4 _]]]]]]]]].
      - left. split; [split; assumption|exact H1].
      - right. split; [exact H2|]. lia. }
    assert (Hne' : is <> []). { intros ->. inversion HF; subst; contradiction. }
    destruct (all_overlap is) eqn:Eo.
    - destruct (all_overlap_mixed t is Hshape Eo) as [Hprop|Hpt].
      + pose proof (proj1 (all_overlap_half is Hprop) Eo) as Hall.
        destruct is as [|a is]; [contradiction|].
        destruct (reduce_half is a) as [r [Er [[Cr Lr] [Hr [[i [Hi Ei]] [j [Hj Ej]]]]]]];
          [apply proper_halfopen, Hprop; left; reflexivity|intros; apply proper_halfopen, Hprop; right; assumption
          |intros; apply Z.lt_le_incl, Hall; assumption|].
        pose proof (Hall i j Hi Hj) as Hij. rewrite <- Ei, <- Ej in Hij. clear i Hi Ei.
        exists r. split.
        * exists m. intros fuel k Hf Hk. destruct k as [|k]; [lia|]. cbn [all_rollback].
          rewrite (Hm fuel Hf), Eo. cbn [reduce_inter]. rewrite Er. reflexivity.
        * destruct (Forall2_in_r _ _ _ _ HF Hj) as [q [Hq [Hb [Hno _]]]].
          split; [lia|]. split; [|split].
          -- intros v Hv Hv'. rewrite moments_all in Hv'. apply (Hno v); [lia|]. apply Hv'. exact Hq.
          -- intros v Hv. rewrite moments_all. intros q' Hq'.
             destruct (Forall2_in_l _ _ _ _ HF Hq') as [x [Hx [_ [_ [Hin _]]]]]. apply Hin.
             apply (proj1 (Hr v) Hv x Hx).
          -- left. split; [exact Cr|lia].
      + destruct is as [|a is]; [contradiction|].
        destruct (reduce_points t is a) as [r [Er [Cr [L R]]]]; [apply Hpt; left; reflexivity|intros; apply Hpt; right; assumption|].
        exists r. split.
        * exists m. intros fuel k Hf Hk. destruct k as [|k]; [lia|]. cbn [all_rollback].
          rewrite (Hm fuel Hf), Eo. cbn [reduce_inter]. rewrite Er. reflexivity.
        * assert (Hq : forall q, In q ps -> moments q t /\ ~ moments q (t - 1)).
          { intros q Hq. destruct (Forall2_in_l _ _ _ _ HF Hq) as [x [Hx [_ [_ [_ [[C' _]|[_ [_ [_ H]]]]]]]]]; [|exact H].
            destruct (Hpt x Hx) as [C _]. congruence. }
          split; [lia|]. split; [intros; lia|]. split; [intros; lia|]. right.
          split; [exact Cr|]. split; [lia|]. split; [exact R|]. rewrite !moments_all. split.
          -- intros q Hin. apply Hq, Hin.
          -- intros H. destruct ps as [|q ps]; [contradiction|].
             destruct (Hq q (or_introl eq_refl)) as [_ H']. apply H', H. left; reflexivity.
    - destruct (min_right_spec is Hne') as [[j [Hj Ej]] Hmin].
      destruct (Forall2_in_r _ _ _ _ HF Hj) as [q [Hq [Hb [Hno _]]]].
      set (nd := if t =? min_right is then min_right is - resolution else min_right is).
      assert (Hnd : nd < t /\ u < nd /\ forall v, nd <= v < t -> ~ moments (PAll ps) v).
      { unfold nd. destruct (Z.eqb_spec t (min_right is)) as [E|E].
        - destruct (some_point t is) as [x [Hx Px]]; [|exact Eo|].
          + intros x Hx. destruct (Hshape x Hx) as [[P R]|P]; [left|right; exact P].
            split; [exact P|]. specialize (Hmin x Hx). lia.
          + destruct (Forall2_in_r _ _ _ _ HF Hx) as [q' [Hq' [_ [_ [_ [[C' _]|[_ [_ [_ [_ H]]]]]]]]]].
            { destruct Px as [C _]. congruence. }
            assert (u <> t - 1). { intros ->. apply H. apply HM, Hq'. }
            unfold resolution. split; [lia|]. split; [lia|].
            intros v Hv. replace v with (t - 1) by lia. rewrite moments_all. intros Hall. apply H, Hall, Hq'.
        - specialize (Hmin j Hj). rewrite Ej in *. split; [lia|]. split.
          + destruct (Z_lt_dec u (right j)); [assumption|]. exfalso. apply (Hno u); [lia|]. apply HM, Hq.
          + intros v Hv Hv'. rewrite moments_all in Hv'. apply (Hno v Hv). apply Hv', Hq. }
      destruct Hnd as [N1 [N2 N3]].
      destruct n as [|n]; [lia|].
      destruct (IHn n ltac:(lia) nd N2 ltac:(lia)) as [i [[m' Hm'] Hi]].
      exists i. split.
      + exists (Nat.max m m'). intros fuel k Hf Hk. destruct k as [|k]; [lia|]. cbn [all_rollback].
        rewrite Hm by lia. rewrite Eo. fold nd. apply Hm'; lia.
      + destruct Hi as [B [No [In_ Sh]]]. split; [lia|]. split; [|split; [exact In_|]].
        * intros v Hv. destruct (Z_lt_dec v nd); [apply No; lia|apply N3; lia].
        * destruct Sh as [Sh|[_ [_ [_ [H _]]]]]; [left; exact Sh|]. exfalso. apply (N3 nd); [lia|exact H]. }
  destruct (Main (Z.to_nat (t - u)) t Hu ltac:(lia)) as [i [[m Hm] Hi]].
  exists i. split; [|exact Hi]. exists (Nat.max m (S (Z.to_nat (t - u)))).
  intros fuel Hf. cbn [rollback]. apply Hm; lia.
Qed.

Theorem back_tree_ok p : back_tree p -> back_ok p.
Proof.
  induction 1 as [c L st en tp sg rc p u HL Hp Hu|s e Hs He Hnd Hd|s e H| |ps Hne _ IH].
  - apply back_anch. intros t. eapply back_fixed_at; eassumption.
  - apply back_anch. intros t. apply back_month_at; assumption.
  - apply back_static; assumption.
  - apply back_always.
  - apply back_all; assumption.
Qed.

(** * Whatever rollback returns consists of moments of the period *)
Lemma reduce_sound l : forall a r, reduce_from a l = Ok r -> forall u, zmem u r -> forall i, In i (a :: l) -> zmem u i.
Proof.
  induction l as [|b l IH]; intros a r H u Hu i Hi; cbn [reduce_from] in H.
  - injection H as <-. destruct Hi as [<-|[]]. exact Hu.
  - destruct (inter Z_ops a b) as [c|ex] eqn:E; [|discriminate]. cbn [bind] in H.
    destruct (zinter_ok_mem a b c E) as [_ Hc].
    assert (Hcu : zmem u c) by (apply (IH c r H u Hu); left; reflexivity).
    apply Hc in Hcu. destruct Hi as [<-|[<-|Hi]]; [apply Hcu|apply Hcu|].
    apply (IH c r H u Hu). right; exact Hi.
Qed.

Lemma back_at_sound M t i : back_at M t i -> forall u, zmem u i -> M u.
Proof.
  intros [_ [_ [In_ [[C _]|[C [E1 [E2 [H _]]]]]]]] u Hu.
  - apply In_. apply (zmem_cleft i u C). exact Hu.
  - destruct i as [l r c]. cbn [closed left right] in *. subst. apply zmem_both in Hu. replace u with t by lia. exact H.
Qed.

Lemma back_sound_static s e : back_sound (PStatic s e).
Proof.
  intros fuel t i. cbn [rollback]. unfold static_rollback.
  destruct (Z.ltb_spec t s); intros Hi; apply ivl_returns in Hi; destruct Hi as [-> Hi]; intros u Hu; apply zmem_left in Hu; cbn [moments].
  - exfalso. clear -Hu. revert Hu. generalize p_min. intros. lia.
  - lia.
Qed.

Lemma back_sound_anch p : (forall t, exists i, arollback p t = Ok i /\ back_at (moments (PAnch p)) t i) -> back_sound (PAnch p).
Proof.
  intros H fuel t i E. cbn [rollback] in E. destruct (H t) as [j [Ej Hj]]. rewrite Ej in E. injection E as <-.
  apply (back_at_sound _ _ _ Hj).
Qed.

Lemma back_sound_all ps : (forall q, In q ps -> back_sound q) -> back_sound (PAll ps).
Proof.
  intros Hq fuel dt i. cbn [rollback].
  enough (G : forall k dt, all_rollback (fun t => traverse (fun q => rollback fuel q t) ps) k dt = Returns i ->
    forall u, zmem u i -> moments (PAll ps) u) by apply G.
  induction k as [|k IH]; intros t H; [discriminate|]. cbn [all_rollback] in H.
  destruct (traverse (fun q => rollback fuel q t) ps) as [is|e|] eqn:E; try discriminate.
  apply traverse_returns in E.
  destruct (all_overlap is) eqn:Eo; [|apply (IH _ H)].
  destruct is as [|a is]; [discriminate|]. cbn [reduce_inter] in H.
  destruct (reduce_from a is) as [r|ex] eqn:Er; [|discriminate]. injection H as <-.
  intros u Hu. apply moments_all. intros q Hin.
  destruct (Forall2_in_l _ _ _ _ E Hin) as [j [Hj Hrj]].
  apply (Hq q Hin _ _ _ Hrj). apply (reduce_sound is a r Er u Hu j Hj).
Qed.

Theorem back_tree_sound p : back_tree p -> back_sound p.
Proof.
  induction 1 as [c L st en tp sg rc p u HL Hp Hu|s e Hs He Hnd Hd|s e H| |ps Hne _ IH].
  - apply back_sound_anch. intros t. eapply back_fixed_at; eassumption.
  - apply back_sound_anch. intros t. apply back_month_at; assumption.
  - apply back_sound_static; assumption.
  - apply (back_sound_static p_min p_max).
  - apply back_sound_all; assumption.
Qed.

(** more fuel changes nothing *)
Lemma all_rollback_mono (f g : Z -> outcome (list (interval Z))) :
  (forall t, done (f t) -> g t = f t) -> forall k k' dt, (k <= k')%nat -> done (all_rollback f k dt) ->
  all_rollback g k' dt = all_rollback f k dt.
Proof.
  intros H. induction k as [|k IH]; intros k' dt Hk D; [exfalso; apply D; reflexivity|].
  destruct k' as [|k']; [lia|]. cbn [all_rollback] in *.
  assert (Df : done (f dt)). { intros E. rewrite E in D. apply D. reflexivity. }
  rewrite (H dt Df). destruct (f dt) as [is|e|]; [|reflexivity|reflexivity].
  destruct (all_overlap is); [reflexivity|]. apply IH; [lia|exact D].
Qed.
Lemma rollback_mono p : forall fuel fuel' dt, (fuel <= fuel')%nat -> done (rollback fuel p dt) ->
  rollback fuel' p dt = rollback fuel p dt.
Proof.
  induction p as [p|s e| |a b c|a b c|ps IH|ps IH] using tperiod_rect'; intros fuel fuel' dt Hf D; try reflexivity.
  - cbn [rollback] in *. apply all_rollback_mono; [|exact Hf|exact D].
    intros t Dt. apply traverse_mono; [|exact Dt]. intros q Hq Dq. apply IH; assumption.
  - cbn [rollback] in *.
    assert (Dt : done (traverse (fun q => rollback fuel q dt) ps)).
    { intros E. rewrite E in D. apply D. reflexivity. }
    rewrite (traverse_mono (fun q => rollback fuel q dt) (fun q => rollback fuel' q dt)); [reflexivity| |exact Dt].
    intros q Hq Dq. apply IH; assumption.
Qed.

(** * Backward for [|], at instants where no member begins *)
Lemma insert_by_right_in i l x : In x (insert_by_right_desc i l) <-> x = i \/ In x l.
Proof.
  induction l as [|j l IH]; cbn [insert_by_right_desc]; [cbn; intuition auto|].
  destruct (right i <? right j); cbn; rewrite ?IH; cbn; intuition auto.
Qed.
Lemma sort_by_right_in l x : In x (sort_by_right_desc l) <-> In x l.
Proof.
  induction l as [|j l IH]; cbn [sort_by_right_desc fold_right]; [reflexivity|].
  rewrite insert_by_right_in. fold (sort_by_right_desc l). rewrite IH. cbn. intuition auto.
Qed.
Inductive desc : list (interval Z) -> Prop :=
| desc_nil : desc []
| desc_cons i l : (forall j, In j l -> right j <= right i) -> desc l -> desc (i :: l).
Lemma insert_by_right_desc_ok i l : desc l -> desc (insert_by_right_desc i l).
Proof.
  induction 1 as [|j l Hj Hl IH]; cbn [insert_by_right_desc].
  - constructor; [intros j []|constructor].
  - destruct (Z.ltb_spec (right i) (right j)).
    + constructor; [|exact IH]. intros k Hk. apply insert_by_right_in in Hk. destruct Hk as [->|Hk]; [lia|auto].
    + constructor; [|constructor; assumption]. intros k [<-|Hk]; [lia|]. specialize (Hj k Hk). lia.
Qed.
Lemma sort_by_right_ok l : desc (sort_by_right_desc l).
Proof. induction l; cbn [sort_by_right_desc fold_right]; [constructor|apply insert_by_right_desc_ok; assumption]. Qed.

Lemma extend_left_cover (M : Z -> Prop) l : forall curr hi,
  closed curr = CLeft -> right curr <= hi -> 
  (forall j, In j l -> closed j = CLeft) ->
  (forall u, left curr <= u < hi -> M u) ->
  (forall j u, In j l -> left j <= u < right j -> M u) ->
  left (extend_left curr l) <= left curr /\
  (forall u, left (extend_left curr l) <= u < hi -> M u).
Proof.
  induction l as [|i l IH]; intros curr hi Cc Hr Hc Hcur Hin; cbn [extend_left].
  - split; [lia|exact Hcur].
  - destruct (Z.ltb_spec (left i) (left curr)) as [L|L]; cbn [andb]; [|split; [lia|exact Hcur]].
    destruct (overlaps Z_ops i curr) eqn:E; [|split; [lia|exact Hcur]].
    apply overlaps_half in E; [|apply Hc; left; reflexivity|exact Cc].
    destruct (Z_le_dec (right i) hi) as [D|D].
    + destruct (IH i hi) as [H1 H2].
      * apply Hc; left; reflexivity.
      * exact D.
      * intros; apply Hc; right; assumption.
      * intros u Hu. destruct (Z_lt_dec u (left curr)); [apply (Hin i u (or_introl eq_refl)); lia|apply Hcur; lia].
      * intros j u Hj. apply Hin. right; exact Hj.
      * split; [lia|exact H2].
    + destruct (IH i (right i)) as [H1 H2].
      * apply Hc; left; reflexivity.
      * lia.
      * intros; apply Hc; right; assumption.
      * intros u Hu. apply (Hin i u (or_introl eq_refl)); lia.
      * intros j u Hj. apply Hin. right; exact Hj.
      * split; [lia|]. intros u Hu. apply H2. lia.
Qed.

Lemma back_any ps t : ps <> [] -> (forall q, In q ps -> back_ok q) ->
  (forall q, In q ps -> exists u, u < t /\ moments q u) ->
  (forall q, In q ps -> moments q t -> moments q (t - 1)) ->
  exists i, eventually (fun fuel => rollback fuel (PAny ps) t) i /\ back_at (moments (PAny ps)) t i /\
    (moments (PAny ps) t -> right i = t).
Proof.
  intros Hne Hok Hpast Hnb.
  destruct (traverse_eventually (fun fuel q => rollback fuel q t) (fun q i => back_at (moments q) t i) ps)
    as [is [[m Hm] HF]].
  { intros q Hq. apply Hok; [exact Hq|]. apply Hpast; exact Hq. }
  assert (Hp : forall i, In i is -> proper i).
  { intros i Hi. destruct (Forall2_in_r _ _ _ _ HF Hi) as [q [Hq [_ [_ [_ [H|[_ [_ [_ [H1 H2]]]]]]]]]]; [exact H|].
    exfalso. apply H2. apply Hnb; assumption. }
  assert (Hne' : is <> []). { intros ->. inversion HF; subst; contradiction. }
  assert (HM : forall j u, In j is -> left j <= u < right j -> moments (PAny ps) u).
  { intros j u Hj Hu. destruct (Forall2_in_r _ _ _ _ HF Hj) as [q [Hq [_ [_ [H _]]]]]. apply moments_any. exists q. auto. }
  destruct (sort_by_right_desc is) as [|f rest] eqn:E.
  { exfalso. destruct is as [|a is]; [contradiction|]. assert (In a (sort_by_right_desc (a :: is))) by (apply sort_by_right_in; left; reflexivity).
    rewrite E in H; destruct H. }
  pose proof (sort_by_right_ok is) as Hd. rewrite E in Hd. inversion Hd as [|? ? Hf Hd']; subst.
  assert (Hin : forall x, In x (f :: rest) <-> In x is) by (intros x; rewrite <- E; apply sort_by_right_in).
  assert (Hfin : In f is) by (apply Hin; left; reflexivity).
  destruct (Hp f Hfin) as [Cf Lf].
  destruct (extend_left_cover (moments (PAny ps)) rest f (right f) Cf ltac:(lia)) as [H1 H2].
  - intros j Hj. apply Hp. apply Hin. right; exact Hj.
  - intros u Hu. apply (HM f u Hfin Hu).
  - intros j u Hj. apply HM. apply Hin. right; exact Hj.
  - assert (Hmax : forall j, In j is -> right j <= right f).
    { intros j Hj. apply Hin in Hj. destruct Hj as [<-|Hj]; [lia|auto]. }
    assert (HnoM : forall u, right f <= u < t -> ~ moments (PAny ps) u).
    { intros u Hu Hu'. apply moments_any in Hu'. destruct Hu' as [q [Hq Hu']].
      destruct (Forall2_in_l _ _ _ _ HF Hq) as [j [Hj [_ [No _]]]]. apply (No u); [|exact Hu'].
      specialize (Hmax j Hj). lia. }
    assert (Hft : right f <= t).
    { destruct (Forall2_in_r _ _ _ _ HF Hfin) as [q [_ [H _]]]. exact H. }
    exists (Interval (left (extend_left f rest)) (right f) CLeft). split; [|split].
    + exists m. intros fuel Hfu. cbn [rollback]. rewrite (Hm fuel Hfu). cbn [obind]. unfold any_back. rewrite E.
      apply ivl_ok. lia.
    + unfold back_at. cbn [closed left right]. split; [exact Hft|]. split; [exact HnoM|]. split; [exact H2|].
      left. split; [reflexivity|lia].
    + cbn [right]. intros Hmt. apply moments_any in Hmt. destruct Hmt as [q [Hq Hmt]].
      destruct (Z.eq_dec (right f) t) as [|D]; [assumption|]. exfalso.
      apply (HnoM (t - 1)); [lia|]. apply moments_any. exists q. split; [exact Hq|]. apply Hnb; assumption.
Qed.
