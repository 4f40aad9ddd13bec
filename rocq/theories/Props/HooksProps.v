(** Hooks and run ids: C41, C42. *)
From Coq Require Import Bool Arith Lia ZifyBool.
From Verif Require Import Model.Base Model.Hooks Spec.HooksSpec Proofs.HooksProofs.
Open Scope nat_scope.

(** * C41 *)

(** Hooks that do not raise: each runs once before, in order; then those that
    yielded are resumed once each, in order, and the outcome is that of the code
    they are around. *)
Theorem c41_paired : forall {B} always (hooks : list hook) (body : list B) r,
  (forall h, In h hooks -> no_failure h) -> always = true \/ r = None ->
  hooked always None None hooks body r =
  (map Before (seq 0 (length hooks)) ++ map During body ++ map After (resumed 0 hooks), r).
Proof. exact (@paired). Qed.
Print Assumptions c41_paired.

(** [resumed] are the generator hooks that yielded. *)
Theorem c41_resumed : forall hooks j,
  In j (resumed 0 hooks) <-> exists h, nth_error hooks j = Some h /\ yielded h = true.
Proof. exact resumed_spec. Qed.
Print Assumptions c41_resumed.

Example c41_met :
  let hooks := [Hook None (Generator Yields Ends); Hook None (Function None); Hook None (Generator Ends Ends);
                Hook None (Generator Yields Yields)] in
  (forall h, In h hooks -> no_failure h) /\
  hooked true None None hooks [7] (Some ValueError) =
  ([Before 0; Before 1; Before 2; Before 3; During 7; After 0; After 3], Some ValueError).
Proof.
  split; [|reflexivity]. intros h [<- | [<- | [<- | [<- | []]]]]; split; try reflexivity; split; try discriminate;
    intros; discriminate.
Qed.

(** Whatever raises, hooks run in order and none runs twice on either side:
    some first ones before, or all of them before and some first ones of those
    that yielded after. *)
Theorem c41_in_order_partial : forall {B} always setup finish (hooks : list hook) (body : list B) r evs r',
  hooked always setup finish hooks body r = (evs, r') ->
  exists k m,
    (k <= length hooks /\ evs = map Before (seq 0 k)) \/
    (m <= length (resumed 0 hooks) /\
     evs = map Before (seq 0 (length hooks)) ++ map During body ++ map After (firstn m (resumed 0 hooks))).
Proof. exact (@in_order). Qed.
Print Assumptions c41_in_order_partial.

(** Events cut short after the code and before it *)
Example c41_in_order_case :
  let hooks := [Hook None (Generator Yields Yields); Hook None (Function None); Hook None (Generator Yields (Fails ValueError)); Hook None (Generator Yields Ends)] in
  hooked true None None hooks [7]%nat None =
    ([Before 0; Before 1; Before 2; Before 3; During 7; After 0; After 2]%nat, Some ValueError) /\
  hooked true None None (hooks ++ [Hook None (Function (Some KeyError))]) [7]%nat None =
    ([Before 0; Before 1; Before 2; Before 3; Before 4]%nat, Some KeyError).
Proof. split; vm_compute; reflexivity. Qed.

(** A hook that raises before keeps those that yielded from being resumed. *)
Theorem c41_raising_before_refuted : exists hooks (body : list nat) evs,
  hooked true None None hooks body None = (evs, Some ValueError) /\
  In (Before 0) evs /\ In 0 (resumed 0 hooks) /\ ~ In (After 0) evs.
Proof. exact raising_before. Qed.
Print Assumptions c41_raising_before_refuted.

(** A hook that raises after keeps the later ones from being resumed. *)
Theorem c41_raising_after_refuted : exists hooks (body : list nat) evs,
  hooked true None None hooks body None = (evs, Some ValueError) /\
  In (Before 1) evs /\ In 1 (resumed 0 hooks) /\ ~ In (After 1) evs.
Proof. exact raising_after. Qed.
Print Assumptions c41_raising_after_refuted.

(** In a run, so does a parameter that cannot be materialised, and so does
    process_finish when it raises. *)
Theorem c41_raising_around_refuted : forall setup finish, setup <> None \/ finish <> None ->
  exists hooks (body : list nat) evs e,
  (forall h, In h hooks -> no_failure h) /\
  hooked true setup finish hooks body None = (evs, Some e) /\
  In (Before 0) evs /\ In 0 (resumed 0 hooks) /\ ~ In (After 0) evs.
Proof. exact raising_around. Qed.
Print Assumptions c41_raising_around_refuted.

(** Cycle and startup hooks are not resumed when the cycle or the startup ends
    in an exception. *)
Theorem c41_raising_inside_refuted : exists hooks (body : list nat) evs,
  (forall h, In h hooks -> no_failure h) /\
  hooked false None None hooks body (Some ValueError) = (evs, Some ValueError) /\
  In (Before 0) evs /\ In 0 (resumed 0 hooks) /\ ~ In (After 0) evs.
Proof. exact raising_inside. Qed.
Print Assumptions c41_raising_inside_refuted.

(** * C42 *)

Open Scope Z_scope.

(** The search ends, with the smallest positive number not in use. *)
Theorem c42_smallest : forall ids, exists i, increment (S (length ids)) ids = Returns i /\
  1 <= i /\ ~ In i ids /\ forall j, 1 <= j < i -> In j ids.
Proof. exact increment_smallest. Qed.
Print Assumptions c42_smallest.

Example c42_met : increment 9 [2; 1; 4; -7] = Returns 3.
Proof. reflexivity. Qed.

(** The ids of the runs a task tracks are distinct at any time. *)
Theorem c42_distinct : forall ids, id_history ids -> NoDup ids.
Proof. exact ids_distinct. Qed.
Print Assumptions c42_distinct.

Example c42_distinct_met : id_history [2; 1].
Proof.
  refine (IdMore [2] [2; 1] _ (IdStart 9 [2] 1 eq_refl)).
  refine (IdMore [1; 2] [2] _ (IdClean (fun i => i =? 2) [1; 2])).
  refine (IdMore [1] [1; 2] _ (IdStart 9 [1] 2 eq_refl)).
  exact (IdMore [] [1] IdNone (IdStart 9 [] 1 eq_refl)).
Qed.
