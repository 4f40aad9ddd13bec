(** The order of starts in a cycle, and which tasks cycles start. *)
From Coq Require Import Bool Arith Lia ZifyBool Sorted Permutation.
From Verif Require Import Model.Base Model.History Model.World Model.Run Model.Scheduler.
From Verif Require Import Spec.SchedulerSpec Proofs.WorldProofs Proofs.LimitProofs Proofs.EventProofs.
Open Scope Z_scope.

(** * Sorting *)
Definition ge_pr (a b : task) : Prop := priority b <= priority a.
Lemma insert_in t l : Permutation (t :: l) (insert_task t l).
Proof.
  induction l as [|u l IH]; [reflexivity|]. cbn [insert_task]. destruct (_ <? _); [reflexivity|].
  rewrite perm_swap. now constructor.
Qed.
Lemma insert_sorted t l : StronglySorted ge_pr l -> StronglySorted ge_pr (insert_task t l).
Proof.
  induction l as [|u l IH]; intros H; [repeat constructor|]. inversion H as [|? ? H1 H2]; subst. cbn [insert_task].
  destruct (_ <? _) eqn:L.
  - constructor; [exact H|]. constructor; [unfold ge_pr, priority; lia|].
    eapply Forall_impl; [|exact H2]. unfold ge_pr, priority. intros a Ha. lia.
  - constructor; [now apply IH|]. apply (Permutation_Forall (insert_in t l)). constructor; [unfold ge_pr, priority; lia|exact H2].
Qed.
Lemma by_priority_spec ts : Permutation ts (by_priority ts) /\ StronglySorted ge_pr (by_priority ts).
Proof.
  unfold by_priority. enough (G : forall acc, StronglySorted ge_pr acc ->
    Permutation (ts ++ acc) (fold_left (fun acc t => insert_task t acc) ts acc) /\
    StronglySorted ge_pr (fold_left (fun acc t => insert_task t acc) ts acc)).
  { destruct (G [] (SSorted_nil _)) as [G1 G2]. rewrite app_nil_r in G1. now split. }
  induction ts as [|t ts IH]; intros acc H; cbn; [now split|].
  destruct (IH (insert_task t acc) (insert_sorted _ _ H)) as [I1 I2]. split; [|exact I2].
  rewrite <- I1, <- insert_in. apply Permutation_middle.
Qed.
Lemma sorted_split {A} (R : A -> A -> Prop) l1 x l2 : StronglySorted R (l1 ++ x :: l2) ->
  (forall y, In y l1 -> R y x) /\ (forall y, In y l2 -> R x y).
Proof.
  induction l1 as [|a l1 IH]; intros H; cbn in H; inversion H as [|? ? H1 H2]; subst.
  - split; [intros y []|]. now apply Forall_forall.
  - destruct (IH H1) as [I1 I2]. split; [|exact I2]. intros y [<-|Hy]; [|auto].
    rewrite Forall_forall in H2. apply H2, in_or_app. right. now left.
Qed.

(** * Turns *)
Section Turns.
Context (cfg : Z -> option tcfg).

Lemma turn_start n d ms l1 b u l2 : turn_miles (cfg n) n d (rev ms) -> ms = l1 ++ EvStart b u :: l2 ->
  b = n /\ l1 = [EvConsider n false] /\ (exists c, cfg n = Some c /\ ordinary c = true) /\ (forall x v, ~ In (EvStart x v) l2) /\
  (forall x h, ~ In (EvConsider x h) l2).
Proof.
  unfold turn_miles. intros H E. destruct (cfg n) as [c|].
  2:{ destruct H as [_ H]. apply (f_equal (@rev event)) in H. rewrite rev_involutive in H. cbn in H. subst ms. destruct l1; discriminate. }
  destruct (ordinary c) eqn:O.
  2:{ apply (f_equal (@rev event)) in H. rewrite rev_involutive in H. cbn in H. subst ms. destruct l1; discriminate. }
  destruct H as [[_ H]|[H|(s & H & S)]]; apply (f_equal (@rev event)) in H; rewrite rev_involutive in H.
  - cbn in H. subst ms. destruct l1; discriminate.
  - cbn in H. subst ms. destruct l1 as [|? [|]]; discriminate.
  - rewrite rev_app_distr in H. cbn in H. destruct S as [->|[(v & ->)|(v & p & ->)]]; cbn in H; rewrite H in E;
      destruct l1 as [|? [|? [|? l1]]]; cbn in E; inversion E; subst; try (now destruct l1); repeat split; eauto; cbn; intuition discriminate.
Qed.
Lemma turn_consider n c ms : cfg n = Some c -> ordinary c = true -> turn_miles (cfg n) n true (rev ms) ->
  exists h tl, ms = EvConsider n h :: tl /\ (forall x k, ~ In (EvConsider x k) tl).
Proof.
  intros E O H. unfold turn_miles in H. rewrite E, O in H. destruct H as [[? _]|[H|(s & H & S)]]; [discriminate| |];
    apply (f_equal (@rev event)) in H; rewrite rev_involutive in H.
  - exists true, []. split; [exact H|]. cbn. tauto.
  - rewrite rev_app_distr in H. cbn in H. exists false, (rev s). split; [exact H|].
    destruct S as [->|[(v & ->)|(v & p & ->)]]; cbn; intuition discriminate.
Qed.
Lemma turn_names n d ms : turn_miles (cfg n) n d (rev ms) ->
  (forall x u, In (EvStart x u) ms -> x = n) /\ (forall x h, In (EvConsider x h) ms -> x = n).
Proof.
  intros H. unfold turn_miles in H.
  assert (G : ms = [] \/ (exists h, ms = [EvConsider n h]) \/ (exists s, ms = EvConsider n false :: rev s /\ start_miles n s)).
  { destruct (cfg n) as [c|]; [destruct (ordinary c)|].
    - destruct H as [[_ H]|[H|(s & H & S)]]; apply (f_equal (@rev event)) in H; rewrite rev_involutive in H; auto.
      + right; left. now exists true.
      + right; right. exists s. rewrite rev_app_distr in H. now split.
    - apply (f_equal (@rev event)) in H; rewrite rev_involutive in H; auto.
    - destruct H as [_ H]. apply (f_equal (@rev event)) in H; rewrite rev_involutive in H; auto. }
  destruct G as [->|[(h & ->)|(s & -> & S)]].
  - split; intros ? ? [].
  - cbn. split; intros x u [E|[]]; inversion E; auto.
  - destruct S as [->|[(v & ->)|(v & p & ->)]]; cbn; split; intros x u K; intuition; congruence.
Qed.

(** Where a start is among the turns *)
Lemma turns_start d ns tl : turns cfg d ns tl -> forall l1 b u l2, tl = l1 ++ EvStart b u :: l2 ->
  exists ns1 ns2, ns = ns1 ++ b :: ns2 /\ (exists c, cfg b = Some c /\ ordinary c = true) /\
    (forall a c, In a ns1 -> cfg a = Some c -> ordinary c = true -> exists h, In (EvConsider a h) l1) /\
    (exists l0, l1 = l0 ++ [EvConsider b false]) /\
    (forall x v, In (EvStart x v) l1 -> In x ns1) /\ (forall x v, In (EvStart x v) l2 -> In x ns2).
Proof.
  induction 1 as [|n ns ms H|d n ns ms rest H H' IH]; intros l1 b u l2 E.
  - destruct l1; discriminate.
  - destruct (turn_start _ _ _ _ _ _ _ H E) as (-> & -> & Hc & Hl & _). exists [], ns.
    repeat split; auto; try (intros; contradiction).
    + now exists [].
    + intros x v [X|[]]. discriminate.
    + intros x v Hx. now apply Hl in Hx.
  - apply app_eq_app in E as (l & [[E1 E2]|[E1 E2]]).
    + destruct l as [|e l].
      * (* the start is in the rest *)
        rewrite app_nil_r in E1. cbn in E2. subst l1.
        destruct (IH [] b u l2 (eq_sym E2)) as (ns1 & ns2 & -> & Hc & Ha & (l0 & Hl) & _). destruct l0; discriminate.
      * cbn in E2. injection E2 as <- ->. destruct (turn_start _ _ _ _ _ _ _ H E1) as (-> & -> & Hc & Hl & _).
        exists [], ns. repeat split; auto; try (intros; contradiction).
        -- now exists [].
        -- intros x v [X|[]]. discriminate.
        -- intros x v Hx. apply in_app_or in Hx as [Hx|Hx]; [now apply Hl in Hx|].
           clear -H' Hx. induction H' as [|m ms' ms0 K|d m ms' ms0 rest K K' IH'].
           ++ destruct Hx.
           ++ left. symmetry. now apply (proj1 (turn_names _ _ _ K)) in Hx.
           ++ apply in_app_or in Hx as [Hx|Hx]; [left; symmetry; now apply (proj1 (turn_names _ _ _ K)) in Hx|right; auto].
    + destruct (IH l b u l2 E2) as (ns1 & ns2 & -> & Hc & Ha & (l0 & Hl) & Hs & Hs').
      exists (n :: ns1), ns2. subst l1. split; [reflexivity|]. split; [exact Hc|]. split; [|split; [|split]].
      * intros a c [<-|Hin] C O.
        -- destruct (turn_consider _ _ _ C O H) as (h & tl & -> & _). exists h. now left.
        -- destruct (Ha a c Hin C O) as (h & Hh). exists h. apply in_or_app. now right.
      * exists (ms ++ l0). now rewrite Hl, app_assoc.
      * intros x v Hx. apply in_app_or in Hx as [Hx|Hx]; [left; symmetry; now apply (proj1 (turn_names _ _ _ H)) in Hx|right; eauto].
      * exact Hs'.
Qed.
(** Every cyclic task is considered exactly once in a completed round *)
Lemma turns_names d ns tl : turns cfg d ns tl ->
  (forall x u, In (EvStart x u) tl -> In x ns) /\ (forall x h, In (EvConsider x h) tl -> In x ns).
Proof.
  induction 1 as [|n ns ms H|d n ns ms rest H H' [I1 I2]].
  - split; intros ? ? [].
  - destruct (turn_names _ _ _ H) as [T1 T2]. split; intros x u Hx; left; symmetry; eauto.
  - destruct (turn_names _ _ _ H) as [T1 T2].
    split; intros x u Hx; apply in_app_or in Hx as [Hx|Hx]; try (left; symmetry; eauto; fail); right; eauto.
Qed.
Lemma not_considered n l : (forall h, ~ In (EvConsider n h) l) -> considered n l = [].
Proof.
  unfold considered. induction l as [|e l IH]; intros H; [reflexivity|]. cbn.
  assert (IH' := IH (fun h Hh => H h (or_intror Hh))). destruct e; auto.
  destruct (Z.eqb_spec name n) as [->|]; auto. destruct (H held). now left.
Qed.
Lemma turns_considered ns tl : NoDup ns -> turns cfg true ns tl -> forall n c, In n ns -> cfg n = Some c -> ordinary c = true ->
  exists h, considered n tl = [EvConsider n h].
Proof.
  intros U H. remember true as d. induction H as [|m ns ms H|d m ns ms rest H H' IH]; intros n c Hin E O; try discriminate.
  - destruct Hin.
  - inversion U as [|? ? Hm U']; subst. unfold considered. rewrite filter_app. fold (considered n ms) (considered n rest).
    destruct Hin as [->|Hin].
    + destruct (turn_consider _ _ _ E O H) as (h & tl & -> & N). exists h.
      rewrite (not_considered n rest); [|intros k Hk; now apply (proj2 (turns_names _ _ _ H')) in Hk].
      rewrite app_nil_r. cbn. rewrite Z.eqb_refl. f_equal. apply not_considered. intros k. apply N.
    + destruct (IH U' eq_refl n c Hin E O) as (h & Hh). exists h. rewrite Hh.
      rewrite not_considered; [reflexivity|]. intros k Hk. apply (proj2 (turn_names _ _ _ H)) in Hk. now subst.
Qed.
End Turns.

(** * In a cycle *)
Lemma happened_miles P w w' evs : adds P w w' -> happened w w' evs -> P (rev (filter mile evs)).
Proof.
  intros [_ (new & T & H)] E. unfold happened in E. rewrite T in E. apply app_inv_tail in E. subst new.
  replace (rev (filter mile evs)) with (filter mile (rev evs)); [exact H|].
  clear. induction evs as [|e evs IH]; [reflexivity|]. cbn. rewrite filter_app, IH. cbn. destruct (mile e); cbn; [reflexivity|apply app_nil_r].
Qed.
Lemma filter_split {A} (f : A -> bool) l1 x l2 : f x = true -> filter f (l1 ++ x :: l2) = filter f l1 ++ x :: filter f l2.
Proof. intros H. rewrite filter_app. cbn. now rewrite H. Qed.
Lemma cfg_in w t : distinct_names w -> In t (w_tasks w) -> cfg_of (t_name t) w = Some (t_cfg t).
Proof. intros U H. unfold cfg_of. now rewrite (find_unique _ _ _ U H eq_refl). Qed.
Lemma cyclic_ordinary t : cyclic_task t -> ordinary (t_cfg t) = true.
Proof. intros [H1 H2]. unfold ordinary. now rewrite H1, H2. Qed.
Lemma ordinary_cyclic t : ordinary (t_cfg t) = true -> cyclic_task t.
Proof. unfold ordinary, cyclic_task. destruct (tc_startup _), (tc_shutdown _); cbn; auto; discriminate. Qed.

Section Cycle.
Context (orc : oracle) (cf : config) (fuel : nat) (w : world) (evs : list event).
Context (U : distinct_names w) (Hap : happened w (fst (run_cycle orc cf fuel w)) evs).

Lemma cycle_shape : exists tl d, filter mile evs = EvCycle :: tl /\
  (turns (fun n => cfg_of n w) d (map t_name (by_priority (w_tasks w))) tl \/ (d = false /\ tl = [])) /\
  (finished (snd (run_cycle orc cf fuel w)) = true -> d = true).
Proof using Hap.
  destruct (happened_miles _ _ _ _ (run_cycle_turns orc cf fuel w) Hap) as (tl & d & E & T & D).
  rewrite rev_involutive in E. eauto.
Qed.
Lemma cycle_start l1 b u l2 : evs = l1 ++ EvStart b u :: l2 ->
  exists s1 tb s2, by_priority (w_tasks w) = s1 ++ tb :: s2 /\ t_name tb = b /\ cyclic_task tb /\
    (forall ta, In ta s1 -> cyclic_task ta -> exists h, In (EvConsider (t_name ta) h) l1) /\
    (exists l0 l, l1 = l0 ++ EvConsider b false :: l /\ filter mile l = []) /\
    (forall x v, In (EvStart x v) l1 -> In x (map t_name s1)) /\ (forall x v, In (EvStart x v) l2 -> In x (map t_name s2)).
Proof using Hap U.
  intros E. destruct cycle_shape as (tl & d & F & T & _). rewrite E in F. rewrite filter_split in F by reflexivity.
  assert (exists k1, filter mile l1 = EvCycle :: k1 /\ tl = k1 ++ EvStart b u :: filter mile l2) as (k1 & K1 & K2).
  { destruct (filter mile l1) as [|e k1]; cbn in F; inversion F; subst. eauto. }
  destruct T as [T|[_ T]]; [|rewrite T in K2; destruct k1; discriminate].
  destruct (turns_start _ _ _ _ T _ _ _ _ K2) as (ns1 & ns2 & Ens & (c & Cb & Ob) & Ha & (l0 & Hl0) & Hs1 & Hs2).
  apply map_eq_app in Ens as (s1 & s2' & Eby & <- & Es2).
  apply map_eq_cons in Es2 as (tb & s2 & -> & Eb & <-). exists s1, tb, s2.
  assert (In' : forall t, In t (s1 ++ tb :: s2) -> In t (w_tasks w)).
  { intros t Ht. rewrite <- Eby in Ht. eapply Permutation_in; [symmetry; apply by_priority_spec|exact Ht]. }
  split; [exact Eby|]. split; [exact Eb|]. split; [|split; [|split; [|split]]].
  - apply ordinary_cyclic. rewrite <- Eb in Cb. rewrite (cfg_in _ _ U) in Cb by (apply In', in_or_app; right; now left).
    injection Cb as ->. exact Ob.
  - intros ta Hin Cy. destruct (Ha (t_name ta) (t_cfg ta)) as (h & Hh).
    + now apply in_map.
    + apply cfg_in; [exact U|]. apply In', in_or_app. now left.
    + now apply cyclic_ordinary.
    + exists h. assert (Hh' : In (EvConsider (t_name ta) h) (filter mile l1)) by (rewrite K1; now right).
      now apply filter_In in Hh' as [Hh' _].
  - subst k1. clear -K1. enough (G : forall l k e, filter mile l = k ++ [e] -> exists l0 l', l = l0 ++ e :: l' /\ filter mile l' = []).
    { apply (G l1 (EvCycle :: l0)). exact K1. }
    clear. induction l as [|a l IH]; intros k e H; cbn in H; [destruct k; discriminate|].
    destruct (mile a) eqn:Ma.
    + destruct k as [|b k].
      * cbn in H. injection H as <- H. exists [], l. auto.
      * cbn in H. injection H as <- H. destruct (IH k e H) as (l0 & l' & -> & F). exists (a :: l0), l'. auto.
    + destruct (IH k e H) as (l0 & l' & -> & F). exists (a :: l0), l'. auto.
  - intros x v Hx. apply (Hs1 x v). assert (Hx' : In (EvStart x v) (filter mile l1)) by (apply filter_In; auto).
    rewrite K1 in Hx'. destruct Hx' as [X|X]; [discriminate|exact X].
  - intros x v Hx. apply (Hs2 x v). apply filter_In; auto.
Qed.

Lemma priority_order a ua b ub ta tb : earlier evs (EvStart a ua) (EvStart b ub) ->
  In ta (w_tasks w) -> t_name ta = a -> In tb (w_tasks w) -> t_name tb = b -> a <> b /\ priority tb <= priority ta.
Proof using Hap U.
  intros (l1 & l2 & l3 & E) Hta Ea Htb Eb. rewrite app_comm_cons, app_assoc in E.
  destruct (cycle_start _ _ _ _ E) as (s1 & tb' & s2 & Eby & Eb' & _ & _ & _ & Hs1 & _).
  destruct (by_priority_spec (w_tasks w)) as [P S]. rewrite Eby in P, S.
  assert (Un : NoDup (map t_name (s1 ++ tb' :: s2))) by (rewrite <- P; exact U).
  assert (tb' = tb).
  { assert (F1 := find_unique _ b _ U Htb Eb). assert (I' : In tb' (w_tasks w)) by (rewrite P; apply in_or_app; right; now left).
    assert (F2 := find_unique _ b _ U I' Eb'). congruence. }
  subst tb'. assert (Ia : In a (map t_name s1)) by (apply (Hs1 a ua), in_or_app; right; now left).
  split.
  - intros ->. rewrite map_app in Un. cbn in Un. apply NoDup_remove_2 in Un. apply Un, in_or_app. left. now rewrite Eb'.
  - apply in_map_iff in Ia as (ta' & Ea' & Hin). assert (ta' = ta).
    { assert (F1 := find_unique _ a _ U Hta Ea). assert (I' : In ta' (w_tasks w)) by (rewrite P; apply in_or_app; now left).
      assert (F2 := find_unique _ a _ U I' Ea'). congruence. }
    subst ta'. destruct (sorted_split _ _ _ _ S) as [S1 _]. exact (S1 ta Hin).
Qed.
Lemma higher_considered l1 b ub l2 ta tb : evs = l1 ++ EvStart b ub :: l2 ->
  In ta (w_tasks w) -> In tb (w_tasks w) -> t_name tb = b -> priority tb < priority ta -> cyclic_task ta ->
  exists held, In (EvConsider (t_name ta) held) l1.
Proof using Hap U.
  intros E Hta Htb Eb L Cy. destruct (cycle_start _ _ _ _ E) as (s1 & tb' & s2 & Eby & Eb' & _ & Hc & _).
  destruct (by_priority_spec (w_tasks w)) as [P S]. rewrite Eby in P, S.
  assert (tb' = tb).
  { assert (F1 := find_unique _ b _ U Htb Eb). assert (I' : In tb' (w_tasks w)) by (rewrite P; apply in_or_app; right; now left).
    assert (F2 := find_unique _ b _ U I' Eb'). congruence. }
  subst tb'. apply (Hc ta); [|exact Cy]. rewrite P in Hta. destruct (sorted_split _ _ _ _ S) as [_ S2].
  apply in_app_or in Hta as [Hta|[<-|Hta]]; [exact Hta|lia|]. specialize (S2 ta Hta). unfold ge_pr in S2. lia.
Qed.
Lemma start_considered l1 b ub l2 : evs = l1 ++ EvStart b ub :: l2 ->
  exists l0 l, l1 = l0 ++ EvConsider b false :: l /\ (forall e, In e l -> mile e = false).
Proof using Hap U.
  intros E. destruct (cycle_start _ _ _ _ E) as (s1 & tb & s2 & _ & _ & _ & _ & (l0 & l & -> & F) & _).
  exists l0, l. split; [reflexivity|]. intros e He. destruct (mile e) eqn:M; [|reflexivity].
  assert (X : In e (filter mile l)) by (apply filter_In; auto). rewrite F in X. destruct X.
Qed.
Lemma cycle_considers t : snd (run_cycle orc cf fuel w) = Returns tt -> In t (w_tasks w) -> cyclic_task t ->
  exists held, considered (t_name t) evs = [EvConsider (t_name t) held].
Proof using Hap U.
  intros R Hin Cy. destruct cycle_shape as (tl & d & F & T & D). rewrite R in D. specialize (D eq_refl). subst d.
  destruct T as [T|[? _]]; [|discriminate].
  assert (K : considered (t_name t) evs = considered (t_name t) tl).
  { transitivity (considered (t_name t) (filter mile evs)); [|now rewrite F].
    clear. unfold considered. induction evs as [|e l IH]; [reflexivity|]. destruct e; cbn; rewrite ?IH; reflexivity. }
  rewrite K. destruct (by_priority_spec (w_tasks w)) as [P _].
  eapply turns_considered; [| exact T | | apply cfg_in; [exact U|exact Hin] | now apply cyclic_ordinary].
  - rewrite <- P. exact U.
  - rewrite <- P. now apply in_map.
Qed.
Lemma cycle_starts_cyclic b u t : In (EvStart b u) evs -> In t (w_tasks w) -> t_name t = b -> cyclic_task t.
Proof using Hap U.
  intros H Hin Eb. apply in_split in H as (l1 & l2 & E). destruct (cycle_start _ _ _ _ E) as (s1 & tb & s2 & Eby & Eb' & Cy & _).
  destruct (by_priority_spec (w_tasks w)) as [P _]. rewrite Eby in P.
  assert (F1 := find_unique _ b _ U Hin Eb). assert (I' : In tb (w_tasks w)) by (rewrite P; apply in_or_app; right; now left).
  assert (F2 := find_unique _ b _ U I' Eb'). replace t with tb by congruence. exact Cy.
Qed.
End Cycle.
