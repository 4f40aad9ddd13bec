(** C73: periods put together are a set. *)
From Coq Require Import ZArith List Bool Permutation String Lia.
From Verif Require Import Model.Base Model.Interval Model.Calendar Model.Anchored Model.Period Model.Combine Spec.CombineSpec
  Proofs.CombineProofs Proofs.CombineSets Proofs.CombineKept Proofs.CombineExamples.
Import ListNotations.
Open Scope Z_scope.

(** Periods that compare equal have the same windows (no unions or RelativeDays
    in them), whatever the hashes. *)
Theorem c73_equal_partial : forall hash cs p q, made hash p -> made hash q -> plain p -> p_eqb hash p q = true -> alike cs p q.
Proof. exact equal_alike. Qed.
Print Assumptions c73_equal_partial.
(** the same two periods intersected the other way round; relative to different moments *)
Example c73_equal_met :
  let p := CAll [daily_at 10 14; CLeaf (PDelta 5 0 None)] in let q := CAll [CLeaf (PDelta 5 0 (Some 7)); daily_at 10 14] in
  let hash := fun _ => 0 in made hash p /\ made hash q /\ plain p /\ p_eqb hash p q = true /\ p <> q.
Proof. cbn. repeat split; try discriminate; repeat constructor. Qed.

(** An intersection has the same windows whatever the order the periods are
    given in, however often each, and whatever order the set is gone through:
    no period is lost, unless a period equal to it has other windows. *)
Theorem c73_all : forall hash cs o1 o2 args args' p q,
  an_order o1 -> an_order o2 -> (forall a, part args a -> made hash a) ->
  (forall a b, part args a -> part args b -> p_eqb hash a b = true -> alike cs a b) ->
  same_args args args' -> new_all hash o1 args = Ok p -> new_all hash o2 args' = Ok q -> alike cs p q.
Proof. exact all_set. Qed.
Print Assumptions c73_all.
Example c73_all_met :
  let args := [daily_at 10 14; CAll [daily_at 9 13; CAny [daily_at 10 11; daily_at 12 13]]; daily_at 10 14] in
  let args' := [CAll [daily_at 9 13; CAny [daily_at 10 11; daily_at 12 13]]; daily_at 10 14] in
  an_order the_order /\ an_order other_order /\ (forall a, part args a -> made sum_hash a) /\
  (forall a b, part args a -> part args b -> p_eqb sum_hash a b = true -> alike no_cron a b) /\ same_args args args' /\
  exists p q i, new_all sum_hash the_order args = Ok p /\ new_all sum_hash other_order args' = Ok q /\ p <> q /\
    c_rollforward no_cron 9 p noon = Returns i.
Proof.
  cbn zeta. split; [exact the_order_ok|]. split; [exact other_order_ok|].
  assert (X : forall a, part [daily_at 10 14; CAll [daily_at 9 13; CAny [daily_at 10 11; daily_at 12 13]]; daily_at 10 14] a ->
    a = daily_at 10 14 \/ a = daily_at 9 13 \/ a = CAny [daily_at 10 11; daily_at 12 13]).
  { intros a [p H N|ps p H K].
    - destruct H as [<- |[<- |[<- |[]]]]; [auto|exfalso; apply (N _ eq_refl)|auto].
    - destruct H as [H|[H|[H|[]]]]; try discriminate H. injection H as <-. destruct K as [<- |[<- |[]]]; auto. }
  split.
  { intros a H. destruct (X a H) as [-> |[-> | ->]]; [exact I|exact I|]. cbn. split; [|auto].
    constructor; [constructor; [reflexivity|constructor]|]. constructor; constructor. }
  split.
  { intros a b Ha Hb E. destruct (X a Ha) as [-> |[-> | ->]], (X b Hb) as [-> |[-> | ->]]; try (vm_compute in E; discriminate E); apply alike_refl. }
  split; [intros p; cbn; tauto|].
  eexists _, _, _. split; [vm_compute; reflexivity|]. split; [vm_compute; reflexivity|]. split; [discriminate|]. vm_compute. reflexivity.
Qed.

(** Every period given, and every one in an intersection given, is in the
    intersection or one that compares equal is (Always says nothing there); none
    comes in. *)
Theorem c73_all_kept : forall hash order args p, an_order order -> new_all hash order args = Ok p ->
  exists ps, p = CAll ps /\ (forall a, part args a -> a <> CLeaf PAlways -> exists b, In b ps /\ counts_as hash b a) /\
    (forall b, In b ps -> part args b).
Proof. exact all_kept. Qed.
Print Assumptions c73_all_kept.
(** The same for a union, which with Always is always. *)
Theorem c73_any_kept : forall hash order args p, an_order order -> new_any hash order args = Ok p ->
  exists ps, p = CAny ps /\ (In (CLeaf PAlways) args -> ps = [CLeaf PAlways]) /\
    (~ In (CLeaf PAlways) args -> forall a, union_part args a -> exists b, In b ps /\ counts_as hash b a) /\
    (forall b, In b ps -> union_part args b).
Proof. exact any_kept. Qed.
Print Assumptions c73_any_kept.
Example c73_kept_met : an_order the_order /\
  new_all sum_hash the_order [daily_at 10 14; CAll [daily_at 9 13; daily_at 10 14]; CLeaf PAlways; CAny [daily_at 1 2]] =
    Ok (CAll [daily_at 10 14; daily_at 9 13; CAny [daily_at 1 2]]) /\
  new_any sum_hash the_order [daily_at 10 14; CAny [daily_at 9 13; daily_at 10 14]; CAll [daily_at 1 2]] =
    Ok (CAny [daily_at 10 14; daily_at 9 13; CAll [daily_at 1 2]]).
Proof. split; [exact the_order_ok|]. split; vm_compute; reflexivity. Qed.

(** Whether a moment is in a union does not depend on the order the set is gone
    through, if each window from that moment on is not empty. *)
Theorem c73_any_contains : forall cs l l' fuel t, l <> [] -> Permutation l l' ->
  (forall p, In p l -> exists i, c_rollforward cs fuel p t = Returns i /\ t <= left i < right i) ->
  exists b, c_contains cs fuel (CAny l) t = Returns b /\ c_contains cs fuel (CAny l') t = Returns b.
Proof. exact any_contains_order. Qed.
Print Assumptions c73_any_contains.
Example c73_any_contains_met : let l := [daily_at 10 14; daily_at 9 14; daily_at 8 13; daily_at 16 18] in
  (forall p, In p l -> exists i, c_rollforward no_cron 5 p noon = Returns i /\ noon <= left i < right i) /\
  c_contains no_cron 5 (CAny l) noon = Returns true.
Proof.
  split; [|vm_compute; reflexivity].
  intros p [<- |[<- |[<- |[<- |[]]]]]; (eexists; split; [vm_compute; reflexivity|]; vm_compute; split; [discriminate|reflexivity]).
Qed.

(** The windows of a union do not depend on the order if no two of its periods'
    windows end (forward: begin) at the same moment ... *)
Theorem c73_any_back_partial : forall cs l l' fuel dt, Permutation l l' ->
  (forall is, Forall2 (fun p i => c_rollback cs fuel p dt = Returns i) l is -> NoDup (map right is)) ->
  forall i, c_rollback cs fuel (CAny l) dt = Returns i -> c_rollback cs fuel (CAny l') dt = Returns i.
Proof. exact any_back_order. Qed.
Print Assumptions c73_any_back_partial.
Theorem c73_any_forward_partial : forall cs l l' fuel dt, Permutation l l' ->
  (forall is, Forall2 (fun p i => c_rollforward cs fuel p dt = Returns i) l is -> NoDup (map left is)) ->
  forall i, c_rollforward cs fuel (CAny l) dt = Returns i -> c_rollforward cs fuel (CAny l') dt = Returns i.
Proof. exact any_forward_order. Qed.
Print Assumptions c73_any_forward_partial.
Example c73_any_order_met : let l := [daily_at 1 3; daily_at 2 5; daily_at 4 6] in let l' := [daily_at 4 6; daily_at 1 3; daily_at 2 5] in
  Permutation l l' /\
  (forall is, Forall2 (fun p i => c_rollback no_cron 5 p noon = Returns i) l is -> NoDup (map right is)) /\
  (forall is, Forall2 (fun p i => c_rollforward no_cron 5 p noon = Returns i) l is -> NoDup (map left is)) /\
  exists i, c_rollback no_cron 5 (CAny l) noon = Returns i /\ right i - left i = 5 * us_hour.
Proof.
  cbn zeta. split; [apply (Permutation_app_comm [daily_at 1 3; daily_at 2 5] [daily_at 4 6])|].
  split; [|split].
  - intros is F. apply traverse_spec in F. vm_compute in F. injection F as <-. cbn.
    repeat (constructor; [cbn; intros H; repeat (destruct H as [H|H]; [discriminate H|]); exact H|]). constructor.
  - intros is F. apply traverse_spec in F. vm_compute in F. injection F as <-. cbn.
    repeat (constructor; [cbn; intros H; repeat (destruct H as [H|H]; [discriminate H|]); exact H|]). constructor.
  - eexists. split; vm_compute; reflexivity.
Qed.
(** ... nor if there are two of them, with windows that are not empty. *)
Theorem c73_any_two : forall cs p q fuel dt,
  (forall i j, c_rollback cs fuel p dt = Returns i -> c_rollback cs fuel q dt = Returns j -> left i < right i -> left j < right j ->
    c_rollback cs fuel (CAny [p; q]) dt = c_rollback cs fuel (CAny [q; p]) dt) /\
  (forall i j, c_rollforward cs fuel p dt = Returns i -> c_rollforward cs fuel q dt = Returns j -> left i < right i -> left j < right j ->
    c_rollforward cs fuel (CAny [p; q]) dt = c_rollforward cs fuel (CAny [q; p]) dt).
Proof. exact any_two. Qed.
Print Assumptions c73_any_two.
Example c73_any_two_met : exists i j, c_rollback no_cron 5 (daily_at 10 14) noon = Returns i /\ c_rollback no_cron 5 (daily_at 9 13) noon = Returns j /\
  left i < right i /\ left j < right j /\ right i = right j.
Proof. eexists _, _. split; [vm_compute; reflexivity|]. split; [vm_compute; reflexivity|]. vm_compute. repeat split. Qed.

(** Three daily periods that are open: how far back their union goes depends on
    the order the set happens to be gone through. *)
Theorem c73_order_refuted : exists hash o1 o2 args p q fuel t i j,
  an_order o1 /\ an_order o2 /\ new_any hash o1 args = Ok p /\ new_any hash o2 args = Ok q /\ p_eqb hash p q = true /\
  c_rollback no_cron fuel p t = Returns i /\ c_rollback no_cron fuel q t = Returns j /\ left i < left j /\ right i = right j /\
  Forall (fun a => exists s e, a = daily_at s e) args.
Proof. exact union_order. Qed.
Print Assumptions c73_order_refuted.
(** At the end of a fixed interval it depends on the order whether the moment is
    in the union. *)
Theorem c73_contains_refuted : exists hash o1 o2 args p q fuel t,
  an_order o1 /\ an_order o2 /\ new_any hash o1 args = Ok p /\ new_any hash o2 args = Ok q /\
  c_contains no_cron fuel p t = Returns true /\ c_contains no_cron fuel q t = Returns false.
Proof. exact union_contains_order. Qed.
Print Assumptions c73_contains_refuted.
(** RelativeDay("today") and RelativeDay("yesterday") compare equal; their union
    is the one that comes first, the other is lost. *)
Theorem c73_relative_day_refuted : forall hash order, an_order order ->
  p_eqb hash (relative_day 0) (relative_day 1) = true /\
  new_any hash order [relative_day 0; relative_day 1] = Ok (CAny [relative_day 0]) /\
  new_any hash order [relative_day 1; relative_day 0] = Ok (CAny [relative_day 1]) /\
  exists i j, c_rollback no_cron 5 (CAny [relative_day 0]) noon = Returns i /\ c_rollback no_cron 5 (CAny [relative_day 1]) noon = Returns j /\
    right j < left i.
Proof. exact relative_days. Qed.
Print Assumptions c73_relative_day_refuted.
