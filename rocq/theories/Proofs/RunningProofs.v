(** The conditions about running tasks count what they should. *)
From Coq Require Import List Bool Arith ZArith Permutation Lia ZifyBool.
From Verif Require Import Model.Base Model.Interval Model.Period Model.Condition Model.History Model.Running
  Spec.ConditionSpec Spec.RunningSpec.
Import ListNotations.
Local Open Scope Z_scope.
Local Open Scope list_scope.

(** ** Comparisons *)
Lemma says_compare : forall op n k, int_compare op n (BInt k) = true <-> says op n k.
Proof. intros op n k. destruct op; cbn; lia. Qed.
Lemma meets_state : forall cs n, comp_state (as_comps cs) n = true <-> meets cs n.
Proof.
  intros cs n. unfold meets. destruct cs as [|c cs].
  - cbn. rewrite Z.ltb_lt. split; [left; split; [reflexivity|lia]|]. intros [[_ H]|[H _]]; [lia|now destruct H].
  - change (comp_state (as_comps (c :: cs)) n)
      with (forallb (fun ov => int_compare (fst ov) n (snd ov)) (as_comps (c :: cs))).
    rewrite forallb_forall. split.
    + intros H. right. split; [discriminate|]. intros op k I. apply says_compare.
      apply (H (op, BInt k)). unfold as_comps. apply in_map_iff. now exists (op, k).
    + intros [[H _]|[_ H]]; [discriminate H|]. intros x I. unfold as_comps in I. apply in_map_iff in I.
      destruct I as ((op, k) & <- & I). apply says_compare. now apply H.
Qed.

(** ** The span *)
Lemma ivl_is : forall l r, l <= r -> ivl l r = Returns (Interval l r CLeft).
Proof. intros l r L. unfold ivl, mk_interval. cbn [op_lt Z_ops]. destruct (Z.ltb_spec r l); [lia|]. reflexivity. Qed.
Lemma span_of : forall fuel f now, form_ok f now -> exists e,
  get_period_span fuel (form_period f) now = Returns (earliest f now, e) /\
  forall x, x <= now -> (x <=? e) = (x <=? latest_start f now).
Proof.
  intros fuel f now (B1 & B2 & K). destruct f as [|d|d|a b]; cbn [form_period earliest latest_start].
  - exists p_max. split; [reflexivity|]. intros x L. lia.
  - exists (now - d). split; [|reflexivity]. unfold running_more_than, get_period_span, mk_span, use_reference, mk_span, rollback, span_rollback, option_map.
    replace (now - Z.abs (Z.abs d)) with (now - d) by lia. rewrite ivl_is by lia. reflexivity.
  - exists now. split; [|reflexivity]. unfold running_less_than, get_period_span, mk_span, use_reference, mk_span, rollback, span_rollback, option_map.
    replace (now - Z.abs (Z.abs 0)) with now by lia. replace (now - Z.abs (Z.abs d)) with (now - d) by lia.
    rewrite ivl_is by lia. reflexivity.
  - exists (now - a). split; [|reflexivity]. unfold running_between, get_period_span, mk_span, use_reference, mk_span, rollback, span_rollback, option_map.
    replace (now - Z.abs (Z.abs a)) with (now - a) by lia. replace (now - Z.abs (Z.abs b)) with (now - b) by lia.
    rewrite ivl_is by lia. reflexivity.
Qed.

(** ** The run stack *)
Lemma filter_perm : forall {A} (f : A -> bool) l l', Permutation l l' -> Permutation (filter f l) (filter f l').
Proof.
  intros A f l l' H. induction H as [|x l l' H IH|x y l|l l' l'' H IH H' IH'].
  - constructor.
  - cbn. destruct (f x); [now constructor|exact IH].
  - cbn. destruct (f x), (f y); try constructor; try apply Permutation_refl.
  - now apply (perm_trans IH).
Qed.
Theorem stack_count : forall stack runs f now fuel cs ids l name, form_ok f now ->
  stack_tells stack runs -> (forall st, In st runs -> happened now st) ->
  exists b, running_observe false ids (as_comps cs) stack l name fuel (form_period f) now = Returns b /\
    (b = true <-> meets cs (how_many (fun st => alive st && wanted f now st) runs)).
Proof.
  intros stack runs f now fuel cs ids l name K (kept & gone & P & G & ->) H.
  destruct (span_of fuel f now K) as (e & S & Q). unfold running_observe. rewrite S. cbn [obind fst snd].
  eexists. split; [reflexivity|]. cbn [comparable_observe]. rewrite meets_state.
  assert (E : Z.of_nat (List.length (running_stack (map (fun st => StackRun (s_began st) (alive st)) kept) (earliest f now) e)) =
              how_many (fun st => alive st && wanted f now st) runs); [|now rewrite E].
  unfold running_stack, how_many. rewrite map_length. f_equal.
  rewrite (Permutation_length (filter_perm (fun st => alive st && wanted f now st) _ _ P)). rewrite filter_app, app_length.
  assert (Z0 : filter (fun st => alive st && wanted f now st) gone = []).
  { clear - G. induction gone as [|g gone IH]; [reflexivity|]. cbn. rewrite (G g (or_introl eq_refl)). cbn. apply IH.
    intros st I. apply G. now right. }
  rewrite Z0. cbn [List.length]. rewrite Nat.add_0_r.
  assert (Hk : forall st, In st kept -> s_began st <= now).
  { intros st I. assert (I' : In st runs) by (apply (Permutation_in _ (Permutation_sym P)), in_or_app; now left).
    destruct (H st I') as [? _]. lia. }
  clear - Hk Q. induction kept as [|k kept IH]; [reflexivity|]. cbn [map filter sr_alive sr_start].
  rewrite (Q (s_began k)) by (apply Hk; now left). fold (wanted f now k).
  change ((earliest f now <=? s_began k) && (s_began k <=? latest_start f now)) with (wanted f now k).
  assert (IH' := IH (fun st I => Hk st (or_intror I))).
  destruct (alive k && wanted f now k); cbn [List.length]; now rewrite IH'.
Qed.

(** ** The log *)
Lemma insert_perm : forall r l, Permutation (insert_record r l) (r :: l).
Proof.
  intros r l. induction l as [|r' l IH]; [apply Permutation_refl|]. cbn. destruct (r_created r <=? r_created r'); [apply Permutation_refl|].
  rewrite IH. apply perm_swap.
Qed.
Lemma sort_perm : forall l, Permutation (sort_records l) l.
Proof.
  induction l as [|r l IH]; [constructor|]. unfold sort_records in *. cbn [fold_right]. rewrite insert_perm. now constructor.
Qed.
Fixpoint ascending (l : list Z) : Prop :=
  match l with [] => True | x :: l => (forall y, In y l -> x <= y) /\ ascending l end.
Lemma insert_sorted : forall r l, ascending (map r_created l) -> ascending (map r_created (insert_record r l)).
Proof.
  intros r l. induction l as [|r' l IH]; intros H; [cbn; split; [intros y []|exact I]|].
  cbn [insert_record]. destruct (Z.leb_spec (r_created r) (r_created r')) as [L|L].
  - cbn [map ascending] in *. destruct H as [H1 H2]. split; [|now split].
    intros y [<- |I]; [exact L|]. specialize (H1 y I). lia.
  - cbn [map ascending] in *. destruct H as [H1 H2]. split; [|now apply IH].
    intros y I. apply in_map_iff in I. destruct I as (q & <- & I).
    apply (Permutation_in _ (insert_perm r l)) in I. destruct I as [<- |I]; [lia|]. apply H1. now apply in_map.
Qed.
Lemma sort_sorted : forall l, ascending (map r_created (sort_records l)).
Proof. induction l as [|r l IH]; [exact I|]. unfold sort_records in *. cbn [fold_right]. now apply insert_sorted. Qed.
Lemma ascending_filter : forall f l, ascending (map r_created l) -> ascending (map r_created (filter f l)).
Proof.
  intros f l. induction l as [|r l IH]; intros H; [exact I|]. cbn [map ascending] in H. destruct H as [H1 H2]. cbn [filter].
  destruct (f r); [|now apply IH]. cbn [map ascending]. split; [|now apply IH]. intros y I. apply in_map_iff in I.
  destruct I as (q & <- & I). apply filter_In in I. apply H1. apply in_map. apply I.
Qed.

(** The records of the task in the window *)
Definition in_window (s e : Z) (r : record) : bool := (s <=? r_created r) && (r_created r <=? e).
Lemma log_window : forall ids l name runs s e, log_tells ids l name runs ->
  Permutation (sort_records (filter_by l name (in_window s e))) (filter (in_window s e) (flat_map (written ids name) runs)).
Proof.
  intros ids l name runs s e [P _]. rewrite sort_perm. unfold filter_by.
  assert (E : filter (fun r => (r_task r =? name) && in_window s e r) l = filter (in_window s e) (filter (fun r => r_task r =? name) l)).
  { clear. induction l as [|r l IH]; [reflexivity|]. cbn [filter]. destruct (r_task r =? name); cbn [andb filter]; [|exact IH].
    destruct (in_window s e r); now rewrite IH. }
  rewrite E. now apply filter_perm.
Qed.

(** *** With run ids *)
Definition ended_in (s e : Z) (st : story) : bool :=
  match s_end st with Some (_, t) => (s <=? t) && (t <=? e) | None => false end.
Lemma finished_in : forall i records, In i (finished_ids records) <->
  exists r, In r records /\ is_run r = false /\ r_run_id r = Some i.
Proof.
  intros i records. unfold finished_ids. rewrite in_flat_map. split.
  - intros (r & I & H). destruct (r_run_id r) as [k|] eqn:E; [|destruct H]. destruct (is_run r) eqn:R; [destruct H|].
    destruct H as [<- |[]]. now exists r.
  - intros (r & I & R & E). exists r. split; [exact I|]. rewrite E, R. now left.
Qed.
Lemma run_or_not : forall a, a <> ARun -> action_eqb a ARun = false.
Proof. intros a N. destruct a; try reflexivity. now destruct N. Qed.
Lemma by_id_count : forall name runs s e ids, (forall st a t, In st runs -> s_end st = Some (a, t) -> a <> ARun) ->
  List.length (filter (fun r => is_run r && negb (id_in (r_run_id r) ids))
    (filter (in_window s e) (flat_map (written true name) runs))) =
  List.length (filter (fun st => (s <=? s_began st) && (s_began st <=? e) && negb (existsb (Z.eqb (s_id st)) ids)) runs).
Proof.
  intros name runs s e ids H. induction runs as [|st runs IH]; [reflexivity|].
  assert (IH' := IH (fun st' a t I => H st' a t (or_intror I))). cbn [flat_map]. rewrite !filter_app, app_length, IH'.
  unfold written. cbn [filter]. unfold in_window at 1. cbn [r_created].
  assert (T : filter (fun r => is_run r && negb (id_in (r_run_id r) ids))
     (filter (in_window s e) match s_end st with Some (a, t) => [Rec name a t (Some (s_id st))] | None => [] end) = []).
  { destruct (s_end st) as [[a t]|] eqn:E; [|reflexivity]. cbn [filter].
    destruct (in_window s e _); [|reflexivity]. cbn [filter]. unfold is_run at 1. cbn [r_action].
    rewrite (run_or_not a) by (apply (H st a t); [now left|exact E]). reflexivity. }
  destruct ((s <=? s_began st) && (s_began st <=? e)) eqn:W; cbn [andb].
  - cbn [filter]. unfold is_run at 1. cbn [r_action action_eqb andb r_run_id id_in]. rewrite T.
    destruct (existsb (Z.eqb (s_id st)) ids); reflexivity.
  - rewrite T. reflexivity.
Qed.
Lemma nodup_id : forall runs a b, NoDup (map s_id runs) -> In a runs -> In b runs -> s_id a = s_id b -> a = b.
Proof.
  intros runs a b. induction runs as [|st runs IH]; intros N Ia Ib E; [destruct Ia|].
  inversion N as [|? ? N1 N2]; subst. destruct Ia as [-> |Ia], Ib as [-> |Ib]; [reflexivity| | |now apply IH].
  - destruct N1. rewrite E. now apply in_map.
  - destruct N1. rewrite <- E. now apply in_map.
Qed.
Lemma log_ids_count : forall l name runs s e now, log_tells true l name runs -> (forall st, In st runs -> happened now st) ->
  List.length (running_log true l name s e) =
  List.length (filter (fun st => (s <=? s_began st) && (s_began st <=? e) && negb (ended_in s e st)) runs).
Proof.
  intros l name runs s e now T H. pose proof (log_window true l name runs s e T) as P. destruct T as [_ N].
  change (running_log true l name s e) with (runs_by_id (sort_records (filter_by l name (in_window s e)))).
  unfold runs_by_id. rewrite map_length.
  set (ids := finished_ids (sort_records (filter_by l name (in_window s e)))).
  rewrite (Permutation_length (filter_perm (fun r => is_run r && negb (id_in (r_run_id r) ids)) _ _ P)).
  rewrite by_id_count by (intros st a t I E; destruct (H st I) as [_ X]; rewrite E in X; apply X).
  f_equal. apply filter_ext_in. intros st I. f_equal. f_equal.
  assert (X : existsb (Z.eqb (s_id st)) ids = true <-> ended_in s e st = true); [|destruct (existsb _ ids), (ended_in s e st); intuition congruence].
  rewrite existsb_exists. split.
  - intros (i & J & E). apply Z.eqb_eq in E. subst i. unfold ids in J. apply finished_in in J. destruct J as (r & J & R & Id).
    apply (Permutation_in _ P) in J. apply filter_In in J. destruct J as [J W]. apply in_flat_map in J.
    destruct J as (st' & I' & J). unfold written in J. destruct J as [<- |J]; [discriminate R|].
    destruct (s_end st') as [[a t]|] eqn:E; [|destruct J]. destruct J as [<- |[]]. injection Id as Id.
    assert (st' = st) by now apply (nodup_id runs). subst st'. unfold ended_in. rewrite E. exact W.
  - intros E. exists (s_id st). split; [|apply Z.eqb_refl]. unfold ids. apply finished_in. unfold ended_in in E.
    destruct (s_end st) as [[a t]|] eqn:Q; [|discriminate E]. exists (Rec name a t (Some (s_id st))).
    split; [|split; [|reflexivity]].
    + apply (Permutation_in _ (Permutation_sym P)). apply filter_In. split; [|exact E]. apply in_flat_map. exists st.
      split; [exact I|]. unfold written. rewrite Q. right. now left.
    + unfold is_run. cbn [r_action]. apply run_or_not. destruct (H st I) as [_ X]. rewrite Q in X. apply X.
Qed.

(** *** Without run ids *)
Fixpoint guess (starts finishes : list Z) : nat :=
  match starts with
  | [] => 0
  | x :: starts => match take_finish x finishes with Some fs => guess starts fs | None => S (guess starts finishes) end
  end.
Lemma guess_is : forall records fs,
  List.length (guess_runs records fs) = guess (map r_created (filter is_run records)) fs.
Proof.
  induction records as [|r records IH]; intros fs; [reflexivity|]. cbn [guess_runs filter]. destruct (is_run r); [|apply IH].
  cbn [map guess]. destruct (take_finish (r_created r) fs); [apply IH|]. cbn [List.length]. now rewrite IH.
Qed.
Definition before (t : Z) (l : list Z) : nat := List.length (filter (fun x => x <? t) l).
Lemma guess_all : forall starts finishes, ascending starts -> ascending finishes ->
  (forall t, (before t finishes <= before t starts)%nat) ->
  (guess starts finishes + List.length finishes = List.length starts)%nat.
Proof.
  induction starts as [|x starts IH]; intros finishes A B H.
  - destruct finishes as [|f fs]; [reflexivity|]. specialize (H (f + 1)). unfold before in H. cbn [filter] in H.
    destruct (Z.ltb_spec f (f + 1)); [|lia]. cbn in H. lia.
  - destruct finishes as [|f fs].
    + cbn [guess take_finish]. cbn [ascending] in A. cbn [List.length]. specialize (IH [] ltac:(tauto) I).
      cbn [List.length] in IH. rewrite <- IH; [lia|]. intros t. cbn. lia.
    + cbn [ascending] in A, B. destruct A as [A1 A2], B as [B1 B2].
      assert (L : x <= f).
      { pose proof (H (f + 1)) as Q. unfold before in Q. cbn [filter] in Q. destruct (Z.ltb_spec f (f + 1)); [|lia].
        destruct (Z.ltb_spec x (f + 1)); [lia|]. cbn [List.length] in Q.
        destruct (filter (fun y => y <? f + 1) starts) as [|y ys] eqn:E; [cbn in Q; lia|].
        assert (J : In y (filter (fun y => y <? f + 1) starts)) by (rewrite E; now left). apply filter_In in J.
        destruct J as [J1 J2]. specialize (A1 y J1). lia. }
      cbn [guess take_finish]. destruct (Z.leb_spec x f); [|lia]. cbn [List.length].
      assert (IH' := IH fs A2 B2). rewrite <- IH'; [lia|]. intros t. specialize (H t). unfold before in *. cbn [filter] in H.
      destruct (Z.ltb_spec f t).
      * destruct (Z.ltb_spec x t); [|lia]. cbn [List.length] in H. lia.
      * assert (E : filter (fun y => y <? t) fs = []).
        { destruct (filter (fun y => y <? t) fs) as [|y ys] eqn:E; [reflexivity|].
          assert (J : In y (filter (fun y => y <? t) fs)) by (rewrite E; now left). apply filter_In in J.
          destruct J as [J1 J2]. specialize (B1 y J1). lia. }
        rewrite E. cbn. lia.
Qed.
Lemma starts_count : forall name runs s e (g : Z -> bool), (forall st a t, In st runs -> s_end st = Some (a, t) -> a <> ARun) ->
  List.length (filter g (map r_created (filter is_run (filter (in_window s e) (flat_map (written false name) runs))))) =
  List.length (filter (fun st => (s <=? s_began st) && (s_began st <=? e) && g (s_began st)) runs).
Proof.
  intros name runs s e g H. induction runs as [|st runs IH]; [reflexivity|].
  assert (IH' := IH (fun st' a t I => H st' a t (or_intror I))). cbn [flat_map].
  rewrite !filter_app, map_app, filter_app, app_length, IH'.
  unfold written. cbn [filter]. unfold in_window at 1. cbn [r_created].
  assert (T : filter is_run (filter (in_window s e) match s_end st with Some (a, t) => [Rec name a t None] | None => [] end) = []).
  { destruct (s_end st) as [[a t]|] eqn:E; [|reflexivity]. cbn [filter].
    destruct (in_window s e _); [|reflexivity]. cbn [filter]. unfold is_run at 1. cbn [r_action].
    rewrite (run_or_not a) by (apply (H st a t); [now left|exact E]). reflexivity. }
  destruct ((s <=? s_began st) && (s_began st <=? e)) eqn:W; cbn [andb].
  - cbn [filter]. unfold is_run at 1. cbn [r_action action_eqb]. rewrite T. cbn [map filter r_created].
    destruct (g (s_began st)); reflexivity.
  - rewrite T. reflexivity.
Qed.
Lemma finishes_count : forall name runs s e (g : Z -> bool), (forall st a t, In st runs -> s_end st = Some (a, t) -> a <> ARun) ->
  List.length (filter g (finish_times (filter (in_window s e) (flat_map (written false name) runs)))) =
  List.length (filter (fun st => ended_in s e st && match s_end st with Some (_, t) => g t | None => false end) runs).
Proof.
  intros name runs s e g H. unfold finish_times. induction runs as [|st runs IH]; [reflexivity|].
  assert (IH' := IH (fun st' a t I => H st' a t (or_intror I))). cbn [flat_map].
  rewrite !filter_app, map_app, filter_app, app_length, IH'.
  unfold written. cbn [filter].
  assert (F : forall (r : record) q, r_action r = ARun -> filter (fun r => negb (is_run r)) (if in_window s e r then r :: q else q) =
              filter (fun r => negb (is_run r)) q).
  { intros r q A. destruct (in_window s e r); [|reflexivity]. cbn [filter]. unfold is_run at 1. now rewrite A. }
  rewrite F by reflexivity. unfold ended_in. destruct (s_end st) as [[a t]|] eqn:E; [|reflexivity].
  cbn [filter]. unfold in_window. cbn [r_created]. destruct ((s <=? t) && (t <=? e)); [|reflexivity]. cbn [filter andb].
  unfold is_run. cbn [r_action]. rewrite (run_or_not a) by (apply (H st a t); [now left|exact E]). cbn [negb map filter r_created].
  destruct (g t); reflexivity.
Qed.
Lemma filter_true : forall {A} (l : list A), filter (fun _ => true) l = l.
Proof. intros A l. induction l as [|x l IH]; [reflexivity|]. cbn. now rewrite IH. Qed.
Lemma log_guess_count : forall l name runs s e now, log_tells false l name runs -> (forall st, In st runs -> happened now st) ->
  (forall st, In st runs -> ended_in s e st = true -> s <= s_began st) ->
  List.length (running_log false l name s e) =
  List.length (filter (fun st => (s <=? s_began st) && (s_began st <=? e) && negb (ended_in s e st)) runs).
Proof.
  intros l name runs s e now T H O. pose proof (log_window false l name runs s e T) as P.
  assert (HA : forall st a t, In st runs -> s_end st = Some (a, t) -> a <> ARun).
  { intros st a t I E. destruct (H st I) as [_ X]. rewrite E in X. apply X. }
  change (running_log false l name s e) with
    (let records := sort_records (filter_by l name (in_window s e)) in guess_runs records (finish_times records)).
  cbv zeta. rewrite guess_is. set (records := sort_records (filter_by l name (in_window s e))) in *.
  assert (PS : Permutation (map r_created (filter is_run records))
                 (map r_created (filter is_run (filter (in_window s e) (flat_map (written false name) runs))))).
  { apply Permutation_map. now apply filter_perm. }
  assert (PF : Permutation (finish_times records) (finish_times (filter (in_window s e) (flat_map (written false name) runs)))).
  { unfold finish_times. apply Permutation_map. now apply filter_perm. }
  assert (Sub : forall st, In st runs -> ended_in s e st = true -> (s <=? s_began st) && (s_began st <=? e) = true).
  { intros st I E. specialize (O st I E). unfold ended_in in E. destruct (H st I) as [_ X].
    destruct (s_end st) as [[a t]|]; [|discriminate E]. lia. }
  assert (G := guess_all (map r_created (filter is_run records)) (finish_times records)
                 (ascending_filter is_run records (sort_sorted _))
                 (ascending_filter (fun r => negb (is_run r)) records (sort_sorted _))).
  assert (C : forall t, (before t (finish_times records) <= before t (map r_created (filter is_run records)))%nat).
  { intros t. unfold before. rewrite (Permutation_length (filter_perm (fun x => x <? t) _ _ PS)).
    rewrite (Permutation_length (filter_perm (fun x => x <? t) _ _ PF)). rewrite (finishes_count _ _ _ _ _ HA), (starts_count _ _ _ _ _ HA).
    clear - Sub H. induction runs as [|st runs IH]; [apply le_n|].
    assert (IH' := IH (fun st' I => H st' (or_intror I)) (fun st' I => Sub st' (or_intror I))). cbn [filter].
    destruct (ended_in s e st && _) eqn:E.
    - apply andb_prop in E. destruct E as [E1 E2]. rewrite (Sub st (or_introl eq_refl) E1).
      destruct (H st (or_introl eq_refl)) as [_ X]. destruct (s_end st) as [[a u]|]; [|discriminate E2].
      replace (s_began st <? t) with true by lia. cbn [andb List.length]. lia.
    - destruct ((s <=? s_began st) && (s_began st <=? e) && (s_began st <? t)); cbn [List.length]; lia. }
  specialize (G C). rewrite (Permutation_length PF), (Permutation_length PS) in G.
  rewrite <- (filter_true (map r_created (filter is_run (filter _ _)))) in G.
  rewrite <- (filter_true (finish_times (filter _ _))) in G.
  rewrite (finishes_count _ _ _ _ (fun _ => true) HA), (starts_count _ _ _ _ (fun _ => true) HA) in G.
  assert (E : Nat.add (List.length (filter (fun st => (s <=? s_began st) && (s_began st <=? e) && negb (ended_in s e st)) runs))
               (List.length (filter (fun st => ended_in s e st && match s_end st with Some (_, _) => true | None => false end) runs)) =
               List.length (filter (fun st => (s <=? s_began st) && (s_began st <=? e) && true) runs)).
  { clear - Sub. induction runs as [|st runs IH]; [reflexivity|].
    assert (IH' := IH (fun st' I => Sub st' (or_intror I))). cbn [filter]. specialize (Sub st (or_introl eq_refl)).
    destruct (ended_in s e st) eqn:E.
    - rewrite (Sub eq_refl). unfold ended_in in E. destruct (s_end st) as [[a t]|]; [|discriminate E]. cbn [andb negb List.length]. lia.
    - cbn [andb negb]. rewrite !andb_true_r. destruct ((s <=? s_began st) && (s_began st <=? e)); cbn [List.length]; lia. }
  lia.
Qed.
