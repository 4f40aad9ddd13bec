From Coq Require Import Bool Arith Lia ZifyBool.
From Verif Require Import Model.Base Model.Interval Model.Calendar Model.Anchored Model.Period Model.Condition Model.History
  Spec.ConditionSpec Spec.PeriodSpec Spec.HistorySpec Proofs.ConditionProofs Proofs.HistoryProofs Proofs.HistoryRunProofs Proofs.DependProofs.
Open Scope Z_scope.

Lemma srun_snoc : forall me w evs ev, srun me w (evs ++ [ev]) = sapply me (srun me w evs) ev.
Proof. intros me w evs ev. unfold srun. rewrite fold_left_app. reflexivity. Qed.

Lemma sapply_own : forall me w ev a t1 t2, s_action ev = Some (a, t1, t2) -> exists id,
  sapply me w ev = (TState (set_last (ts_last (fst w)) a (Some t1)) (Some a), snd w ++ [Rec me a t2 id]).
Proof.
  intros me w ev a t1 t2 H. destruct ev as [b u1 u2 id|b u id|r]; cbn in H; try discriminate; injection H as <- <- <-;
    exists id; reflexivity.
Qed.

Lemma foreign_snoc : forall me evs ev, foreign me (evs ++ [ev]) -> foreign me evs /\ (forall r, ev = SElse r -> r_task r <> me).
Proof.
  intros me evs ev H. split.
  - intros r Hr. apply H. apply in_or_app. left. exact Hr.
  - intros r ->. apply H. apply in_or_app. right. left. reflexivity.
Qed.

Lemma last_such_snoc : forall A (P : A -> Prop) l x a, last_such P (l ++ [x]) a ->
  (a = x /\ P x) \/ (~ P x /\ last_such P l a).
Proof.
  intros A P l x a (l1 & l2 & E & Ha & Hno). destruct l2 as [|y l2] using rev_ind.
  - apply app_inj_tail in E. destruct E as [-> ->]. left. split; [reflexivity|exact Ha].
  - rewrite app_comm_cons, app_assoc in E. apply app_inj_tail in E. destruct E as [-> ->].
    right. split; [apply Hno; apply in_or_app; right; left; reflexivity|].
    exists l1, l2. split; [reflexivity|]. split; [exact Ha|]. intros b Hb. apply Hno. apply in_or_app. left. exact Hb.
Qed.

Lemma status_is_last : forall me w evs ev a t1 t2 force, foreign me evs ->
  last_such (fun e => s_action e <> None) evs ev -> s_action ev = Some (a, t1, t2) ->
  get_status force (fst (srun me w evs)) (snd (srun me w evs)) me = Some a.
Proof.
  intros me w evs ev a t1 t2 force. induction evs as [|x evs IH] using rev_ind; intros F H Ha.
  - destruct H as (l1 & l2 & E & _). destruct l1; discriminate.
  - apply foreign_snoc in F. destruct F as [F Fx]. rewrite srun_snoc.
    apply last_such_snoc in H. destruct H as [[<- _]|[Hx H]].
    + destruct (sapply_own me (srun me w evs) ev a t1 t2 Ha) as [id ->]. unfold get_status. cbn [fst snd ts_status].
      rewrite latest_any_snoc. cbn [r_task]. rewrite Z.eqb_refl. destruct force; reflexivity.
    + destruct x as [b u1 u2 id|b u id|r]; cbn in Hx; try (exfalso; apply Hx; discriminate).
      specialize (IH F H Ha). unfold get_status in *. cbn [sapply fst snd]. rewrite latest_any_snoc.
      replace (r_task r =? me) with false; [exact IH|]. specialize (Fx r eq_refl). lia.
Qed.

Lemma last_is_last : forall me w evs ev a t1 t2, foreign me evs ->
  last_such (own_action a) evs ev -> s_action ev = Some (a, t1, t2) ->
  ts_last (fst (srun me w evs)) a = Some t1 /\ last_from_log (snd (srun me w evs)) me a = Some t2.
Proof.
  intros me w evs ev a t1 t2. induction evs as [|x evs IH] using rev_ind; intros F H Ha.
  - destruct H as (l1 & l2 & E & _). destruct l1; discriminate.
  - apply foreign_snoc in F. destruct F as [F Fx]. rewrite srun_snoc.
    apply last_such_snoc in H. destruct H as [[<- _]|[Hx H]].
    + destruct (sapply_own me (srun me w evs) ev a t1 t2 Ha) as [id ->]. cbn [fst snd ts_last].
      unfold set_last, last_from_log. rewrite action_eqb_refl, latest_snoc. cbn [r_task action_in r_action existsb].
      rewrite Z.eqb_refl, action_eqb_refl. split; reflexivity.
    + specialize (IH F H Ha). destruct IH as [IH1 IH2]. unfold last_from_log in *.
      destruct (s_action x) as [[[b u1] u2]|] eqn:Ex.
      * destruct (sapply_own me (srun me w evs) x b u1 u2 Ex) as [id ->]. cbn [fst snd ts_last].
        assert (Hb : action_eqb b a = false).
        { apply action_eqb_neq. intros ->. apply Hx. exists u1, u2. exact Ex. }
        unfold set_last. rewrite Hb, latest_snoc. cbn [r_task action_in r_action existsb]. rewrite Hb.
        rewrite andb_false_r. split; assumption.
      * destruct x as [b u1 u2 id|b u id|r]; cbn in Ex; try discriminate. cbn [sapply fst snd].
        rewrite latest_snoc. replace (r_task r =? me) with false by (specialize (Fx r eq_refl); lia).
        split; assumption.
Qed.

Lemma last_unchanged : forall me w evs a, foreign me evs -> (forall ev, In ev evs -> ~ own_action a ev) ->
  ts_last (fst (srun me w evs)) a = ts_last (fst w) a /\ last_from_log (snd (srun me w evs)) me a = last_from_log (snd w) me a.
Proof.
  intros me w evs a. induction evs as [|x evs IH] using rev_ind; intros F H; [split; reflexivity|].
  apply foreign_snoc in F. destruct F as [F Fx]. rewrite srun_snoc.
  destruct (IH F) as [IH1 IH2]; [intros ev Hev; apply H; apply in_or_app; left; exact Hev|].
  assert (Hx := H x ltac:(apply in_or_app; right; left; reflexivity)). unfold last_from_log in *.
  destruct (s_action x) as [[[b u1] u2]|] eqn:Ex.
  - destruct (sapply_own me (srun me w evs) x b u1 u2 Ex) as [id ->]. cbn [fst snd ts_last].
    assert (Hb : action_eqb b a = false).
    { apply action_eqb_neq. intros ->. apply Hx. exists u1, u2. exact Ex. }
    unfold set_last. rewrite Hb, latest_snoc. cbn [r_task action_in r_action existsb]. rewrite Hb.
    rewrite andb_false_r. split; assumption.
  - destruct x as [b u1 u2 id|b u id|r]; cbn in Ex; try discriminate. cbn [sapply fst snd].
    rewrite latest_snoc. replace (r_task r =? me) with false by (specialize (Fx r eq_refl); lia).
    split; assumption.
Qed.

Lemma srun_log : forall me w evs, exists l, snd (srun me w evs) = snd w ++ l.
Proof.
  intros me w evs. induction evs as [|x evs IH] using rev_ind; [exists []; rewrite app_nil_r; reflexivity|].
  destruct IH as [l IH]. rewrite srun_snoc.
  destruct x as [b u1 u2 id|b u id|r]; cbn [sapply log_record set_status fst snd]; rewrite IH, <- app_assoc; eauto.
Qed.

Lemma exact_cache : forall me w evs, cache_latest (fst w) (snd w) me -> one_reading evs -> foreign me evs ->
  chronological (snd (srun me w evs)) -> cache_latest (fst (srun me w evs)) (snd (srun me w evs)) me.
Proof.
  intros me w evs C0. induction evs as [|x evs IH] using rev_ind; intros O F C; [exact C0|].
  apply foreign_snoc in F. destruct F as [F Fx]. rewrite srun_snoc in *.
  assert (O' : one_reading evs) by (intros ev a t1 t2 Hi; apply O; apply in_or_app; left; exact Hi).
  destruct (s_action x) as [[[b u1] u2]|] eqn:Ex.
  - destruct (sapply_own me (srun me w evs) x b u1 u2 Ex) as [id Ea]. rewrite Ea in *. cbn [fst snd] in *.
    apply chronological_snoc in C. destruct C as [C Cr]. specialize (IH O' F C).
    assert (u1 = u2) by (apply (O x b u1 u2); [apply in_or_app; right; left; reflexivity|exact Ex]). subst u2.
    intros a. cbn [ts_last]. unfold set_last. destruct (action_eqb b a) eqn:E.
    + apply action_eqb_eq in E. subst a. split.
      * exists (Rec me b u1 id). split; [apply in_or_app; right; left; reflexivity|].
        split; [split; [reflexivity|left; reflexivity]|reflexivity].
      * intros r Hr _. apply in_app_or in Hr. destruct Hr as [Hr|[<- | []]]; [|cbn; lia].
        exact (Cr r Hr).
    + specialize (IH a). apply action_eqb_neq in E.
      destruct (ts_last (fst (srun me w evs)) a) as [t|].
      * destruct IH as [(r & Hr & Hb & Ht) Hall]. split.
        -- exists r. split; [apply in_or_app; left; exact Hr|]. split; assumption.
        -- intros r' Hr' Hb'. apply in_app_or in Hr'. destruct Hr' as [Hr'|[<- | []]]; [exact (Hall r' Hr' Hb')|].
           destruct Hb' as [_ [Hb'|[]]]. cbn in Hb'. congruence.
      * intros r' Hr' Hb'. apply in_app_or in Hr'. destruct Hr' as [Hr'|[<- | []]]; [exact (IH r' Hr' Hb')|].
        destruct Hb' as [_ [Hb'|[]]]. cbn in Hb'. congruence.
  - destruct x as [b u1 u2 id|b u id|r]; cbn in Ex; try discriminate. cbn [sapply fst snd] in *.
    apply chronological_snoc in C. destruct C as [C _]. specialize (IH O' F C).
    specialize (Fx r eq_refl). intros a. specialize (IH a).
    destruct (ts_last (fst (srun me w evs)) a) as [t|].
    + destruct IH as [(r0 & Hr & Hb & Ht) Hall]. split.
      * exists r0. split; [apply in_or_app; left; exact Hr|]. split; assumption.
      * intros r' Hr' Hb'. apply in_app_or in Hr'. destruct Hr' as [Hr'|[<- | []]]; [exact (Hall r' Hr' Hb')|].
        destruct Hb' as [Hb' _]. contradiction.
    + intros r' Hr' Hb'. apply in_app_or in Hr'. destruct Hr' as [Hr'|[<- | []]]; [exact (IH r' Hr' Hb')|].
      destruct Hb' as [Hb' _]. contradiction.
Qed.

Lemma cache_latest_fresh : forall me, cache_latest fresh_state [] me.
Proof. intros me a r []. Qed.

Lemma drift : exists evs,
  foreign 1 evs /\ chronological (snd (srun 1 (fresh_state, []) evs)) /\
  ts_last (fst (srun 1 (fresh_state, []) evs)) ARun <>
  last_from_log (snd (srun 1 (fresh_state, []) evs)) 1 ARun.
Proof.
  exists [SSelf ARun 10 11 None]. split; [intros r [H|[]]; discriminate|]. split; [|cbn; discriminate].
  intros l1 a l2 b l3 E. destruct l1 as [|x l1]; [destruct l2; discriminate|]. destruct l1; discriminate.
Qed.

(** Noted at 23:59:59.999999, logged at 00:00:00 the next day: has the task
    started today? *)
Lemma drift_answers : exists evs p now,
  foreign 1 evs /\
  status_observe false [] (fst (srun 1 (fresh_state, []) evs)) (snd (srun 1 (fresh_state, []) evs)) 1 w_started 1 p now
    = Returns false /\
  status_observe true [] (fst (srun 1 (fresh_state, []) evs)) (snd (srun 1 (fresh_state, []) evs)) 1 w_started 1 p now
    = Returns true.
Proof.
  exists [SSelf ARun (10 * 86400000000 - 1) (10 * 86400000000) None], (PAnch (Anchored TDay 0 86400000000)), (10 * 86400000000 + 5).
  split; [intros r [H|[]]; discriminate|]. split; vm_compute; reflexivity.
Qed.

(** Log failures *)
Lemma failed_logging : forall st l name a t1 t2 id st' l' r,
  set_status st l name a t1 t2 id false = (st', l', r) ->
  r = Err TaskLoggingError /\ l' = l /\
  (a = ARun -> ts_status st' = Some ARun /\ ts_last st' ARun = Some t1) /\
  (a <> ARun -> ts_status st' = Some AFail /\ ts_last st' AFail = Some t1 /\
                (a <> AFail -> ts_last st' a = ts_last st a)).
Proof.
  intros st l name a t1 t2 id st' l' r H. unfold set_status in H.
  destruct a; cbn in H; injection H as <- <- <-; repeat split; try reflexivity; try discriminate; try congruence;
    intros; try contradiction; try discriminate; try (split; reflexivity).
Qed.

(** * Crash recovery *)

Lemma max_action_spec : forall last acts best,
  match max_action last acts best with
  | None => best = None /\ forall a, In a acts -> last a = None
  | Some (a, t) => (best = Some (a, t) \/ (In a acts /\ last a = Some t)) /\
      (forall b u, In b acts -> last b = Some u -> u <= t) /\
      (forall b u, best = Some (b, u) -> u <= t)
  end.
Proof.
  intros last acts. induction acts as [|x acts IH]; intros best; cbn [max_action].
  - destruct best as [[a t]|].
    + split; [left; reflexivity|]. split; [intros b u []|]. intros b u H. injection H as <- <-. lia.
    + split; [reflexivity|intros a []].
  - destruct (last x) as [t|] eqn:E.
    + set (best' := match best with None => Some (x, t) | Some (_, u) => if u <? t then Some (x, t) else best end).
      assert (IH' := IH best'). destruct (max_action last acts best') as [[a u]|].
      * destruct IH' as (H1 & H2 & H3).
        assert (Hb : forall b v, best = Some (b, v) -> v <= u).
        { intros b v ->. unfold best' in H3. destruct (v <? t) eqn:E2.
          - specialize (H3 _ _ eq_refl). lia.
          - exact (H3 _ _ eq_refl). }
        assert (Hx : t <= u).
        { unfold best' in H3. destruct best as [[b v]|]; [|exact (H3 _ _ eq_refl)].
          destruct (v <? t) eqn:E2; [exact (H3 _ _ eq_refl)|]. specialize (H3 _ _ eq_refl). lia. }
        split; [|split].
        -- destruct H1 as [H1|[H1 H1']].
           ++ unfold best' in H1. destruct best as [[b v]|].
              ** destruct (v <? t); [injection H1 as <- <-; right; split; [left; reflexivity|exact E]|left; exact H1].
              ** injection H1 as <- <-. right. split; [left; reflexivity|exact E].
           ++ right. split; [right; exact H1|exact H1'].
        -- intros b v [<- | Hi] Hv; [|exact (H2 b v Hi Hv)]. rewrite E in Hv. injection Hv as <-. exact Hx.
        -- exact Hb.
      * destruct IH' as [H1 _]. exfalso. unfold best' in H1. destruct best as [[b v]|]; [|discriminate].
        destruct (v <? t); discriminate.
    + assert (IH' := IH best). destruct (max_action last acts best) as [[a u]|].
      * destruct IH' as (H1 & H2 & H3). split; [|split].
        -- destruct H1 as [H1|[H1 H1']]; [left; exact H1|right; split; [right; exact H1|exact H1']].
        -- intros b v [<- | Hi] Hv; [congruence|exact (H2 b v Hi Hv)].
        -- exact H3.
      * destruct IH' as [H1 H2]. split; [exact H1|]. intros a [<- | Ha]; [exact E|exact (H2 a Ha)].
Qed.

Lemma latest_any_spec : forall l name r, get_latest_any l name = Some r -> last_such (fun x => r_task x = name) l r.
Proof.
  intros l name r. induction l as [|x l IH] using rev_ind; intros H; [discriminate|].
  rewrite latest_any_snoc in H. destruct (r_task x =? name) eqn:E.
  - injection H as <-. exists l, []. split; [reflexivity|]. split; [lia|intros b []].
  - destruct (IH H) as (l1 & l2 & -> & Hr & Hno). exists l1, (l2 ++ [x]). split; [rewrite <- app_assoc; reflexivity|].
    split; [exact Hr|]. intros b Hb. apply in_app_or in Hb. destruct Hb as [Hb|[<- | []]]; [exact (Hno b Hb)|lia].
Qed.
Lemma latest_any_none : forall l name, get_latest_any l name = None -> forall r, In r l -> r_task r <> name.
Proof.
  intros l name. induction l as [|x l IH] using rev_ind; intros H r Hr; [destruct Hr|].
  rewrite latest_any_snoc in H. destruct (r_task x =? name) eqn:E; [discriminate|].
  apply in_app_or in Hr. destruct Hr as [Hr|[<- | []]]; [exact (IH H r Hr)|lia].
Qed.

Lemma in_cached_order : forall a, In a cached_order.
Proof. intros []; cbn; tauto. Qed.

Lemma max_is_latest : forall l me r, strictly_chronological l me -> get_latest_any l me = Some r ->
  exists t, max_action (last_from_log l me) cached_order None = Some (r_action r, t).
Proof.
  intros l me r S H. apply latest_any_spec in H. destruct H as (l1 & l2 & El & Hr & Hno).
  assert (Hlast : last_from_log l me (r_action r) = Some (r_created r)).
  { unfold last_from_log. replace (get_latest l me [r_action r]) with (Some r); [reflexivity|]. symmetry.
    apply latest_spec. exists l1, l2. split; [exact El|]. split; [split; [exact Hr|left; reflexivity]|].
    intros b Hb [Hb' _]. exact (Hno b Hb Hb'). }
  assert (M := max_action_spec (last_from_log l me) cached_order None).
  destruct (max_action (last_from_log l me) cached_order None) as [[a t]|].
  - destruct M as (H1 & H2 & _). destruct H1 as [H1|[_ H1]]; [discriminate|].
    assert (X := H2 _ _ (in_cached_order (r_action r)) Hlast).
    exists t. f_equal. f_equal.
    unfold last_from_log in H1. destruct (get_latest l me [a]) as [ra|] eqn:E; [|discriminate].
    cbn in H1. injection H1 as H1. apply latest_spec in E. destruct E as (m1 & m2 & Em & [Ha1 Ha2] & _).
    destruct Ha2 as [Ha2|[]]. subst a.
    (* ra is r, or before r and hence earlier *)
    assert (Hin : In ra l) by (rewrite Em; apply in_or_app; right; left; reflexivity).
    rewrite El in Hin. apply in_app_or in Hin. destruct Hin as [Hin|[<- | Hin]].
    + exfalso. apply in_split in Hin. destruct Hin as (x & y & ->).
      assert (r_created ra < r_created r); [|lia].
      apply (S x ra y r l2); try assumption. rewrite El, <- app_assoc. reflexivity.
    + reflexivity.
    + exfalso. exact (Hno ra Hin Ha1).
  - destruct M as [_ M]. rewrite (M _ (in_cached_order (r_action r))) in Hlast. discriminate.
Qed.

Lemma max_none : forall l me, get_latest_any l me = None -> max_action (last_from_log l me) cached_order None = None.
Proof.
  intros l me H. assert (N := latest_any_none l me H).
  assert (Z0 : forall a, last_from_log l me a = None).
  { intros a. unfold last_from_log. rewrite (proj2 (latest_none l me [a])); [reflexivity|].
    intros r Hr [Ha _]. exact (N r Hr Ha). }
  unfold cached_order. cbn [max_action]. rewrite !Z0. reflexivity.
Qed.

Lemma recovery : forall st l me t1 t2, strictly_chronological l me ->
  let '(st', l', res) := set_cached st l me t1 t2 true in
  res = Ok tt /\
  match get_latest_any l me with
  | None => l' = l /\ ts_status st' = ts_status st
  | Some r =>
      if action_eqb (r_action r) ARun
      then l' = l ++ [Rec me ACrash t2 None] /\ ts_status st' = Some ACrash
      else l' = l /\ ts_status st' = Some (r_action r)
  end.
Proof.
  intros st l me t1 t2 S. unfold set_cached. cbv zeta.
  change (max_action (fun a => last_from_log l me a)) with (max_action (last_from_log l me)).
  destruct (get_latest_any l me) as [r|] eqn:E.
  - destruct (max_is_latest l me r S E) as [t ->].
    destruct (r_action r); cbn; repeat split; reflexivity.
  - rewrite (max_none l me E). split; [reflexivity|]. split; reflexivity.
Qed.

Lemma strict_add : forall l me r, strictly_chronological l me -> r_task r = me ->
  (forall x, In x l -> r_task x = me -> r_created x < r_created r) -> strictly_chronological (l ++ [r]) me.
Proof.
  intros l me r S Hr Hlt l1 a l2 b l3 E Ha Hb. destruct l3 as [|z l3] using rev_ind.
  - assert (E' : l ++ [r] = (l1 ++ a :: l2) ++ [b]) by (rewrite E, <- app_assoc; reflexivity).
    apply app_inj_tail in E'. destruct E' as [-> ->]. apply Hlt; [apply in_or_app; right; left; reflexivity|exact Ha].
  - assert (E' : l ++ [r] = (l1 ++ a :: l2 ++ b :: l3) ++ [z]).
    { rewrite E, <- app_assoc. cbn. rewrite <- app_assoc. reflexivity. }
    apply app_inj_tail in E'. destruct E' as [-> ->]. exact (S l1 a l2 b l3 eq_refl Ha Hb).
Qed.

Lemma recovery_twice : forall st l me t1 t2 u1 u2, strictly_chronological l me ->
  (forall r, In r l -> r_task r = me -> r_created r < t2) ->
  let '(st', l', _) := set_cached st l me t1 t2 true in
  let '(st'', l'', res) := set_cached st' l' me u1 u2 true in
  res = Ok tt /\ l'' = l' /\ ts_status st'' = ts_status st'.
Proof.
  intros st l me t1 t2 u1 u2 S Hlt.
  assert (R := recovery st l me t1 t2 S). destruct (set_cached st l me t1 t2 true) as [[st' l'] res].
  destruct R as [_ R].
  destruct (get_latest_any l me) as [r|] eqn:E.
  - destruct (action_eqb (r_action r) ARun) eqn:Ea.
    + destruct R as [-> R].
      assert (S' : strictly_chronological (l ++ [Rec me ACrash t2 None]) me)
        by (apply strict_add; [exact S|reflexivity|intros x Hx Hm; exact (Hlt x Hx Hm)]).
      assert (R2 := recovery st' (l ++ [Rec me ACrash t2 None]) me u1 u2 S').
      destruct (set_cached st' _ me u1 u2 true) as [[st'' l''] res']. destruct R2 as [-> R2].
      rewrite latest_any_snoc in R2. cbn [r_task] in R2. rewrite Z.eqb_refl in R2. cbn [r_action action_eqb] in R2.
      destruct R2 as [-> ->]. repeat split; try reflexivity. symmetry. exact R.
    + destruct R as [-> R].
      assert (R2 := recovery st' l me u1 u2 S).
      destruct (set_cached st' l me u1 u2 true) as [[st'' l''] res']. destruct R2 as [-> R2].
      rewrite E, Ea in R2. destruct R2 as [-> ->]. repeat split; try reflexivity. symmetry. exact R.
  - destruct R as [-> R]. assert (R2 := recovery st' l me u1 u2 S).
    destruct (set_cached st' l me u1 u2 true) as [[st'' l''] res']. destruct R2 as [-> R2].
    rewrite E in R2. destruct R2 as [-> ->]. repeat split; reflexivity.
Qed.

(** The cache set from the log is exact. *)
Lemma recovery_cache : forall st l me t1 t2, chronological l ->
  get_latest_any l me = None \/ (exists r, get_latest_any l me = Some r /\ r_action r <> ARun) ->
  strictly_chronological l me ->
  let '(st', l', _) := set_cached st l me t1 t2 true in cache_latest st' l' me.
Proof.
  intros st l me t1 t2 C Hnr S.
  assert (K : forall x, cache_latest (TState (fun a => last_from_log l me a) x) l me).
  { intros x a. cbn [ts_last]. unfold last_from_log. destruct (get_latest l me [a]) as [r|] eqn:E.
    - cbn. split.
      + assert (E' := E). apply latest_spec in E'. destruct E' as (l1 & l2 & El & Ha & _).
        exists r. split; [rewrite El; apply in_or_app; right; left; reflexivity|]. split; [exact Ha|reflexivity].
      + intros r' Hr' Ha. exact (latest_max l me [a] r C E r' Hr' Ha).
    - cbn. exact (proj1 (latest_none l me [a]) E). }
  unfold set_cached. cbv zeta.
  change (max_action (fun a => last_from_log l me a)) with (max_action (last_from_log l me)).
  destruct Hnr as [E|(r & E & Hr)].
  - rewrite (max_none l me E). apply K.
  - destruct (max_is_latest l me r S E) as [t ->].
    destruct (r_action r); try contradiction; apply K.
Qed.

Lemma tie_crash : exists st l,
  (exists r, get_latest_any l 1 = Some r /\ r_action r = ASuccess) /\ chronological l /\
  (let '(_, l', _) := set_cached st l 1 30 31 true in l' = l ++ [Rec 1 ACrash 31 None]).
Proof.
  exists fresh_state, [Rec 1 ARun 10 None; Rec 1 ASuccess 10 None]. split; [|split].
  - exists (Rec 1 ASuccess 10 None). split; reflexivity.
  - intros l1 a l2 b l3 E. destruct l1 as [|x1 [|x2 [|x3 l1]]]; destruct l2 as [|y1 [|y2 l2]]; cbn in E;
      try discriminate; injection E; intros; subst; cbn; lia.
  - reflexivity.
Qed.
