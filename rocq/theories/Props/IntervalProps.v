(** C01, C02: intervals as sets of moments. *)
From Verif Require Import Model.Base Model.Interval Spec.IntervalSpec Proofs.IntervalProofs.
From Coq Require Import QArith Lqa Lia.

(** C01: overlapping means sharing a moment, for any closedness. *)
Theorem c01_overlaps_iff_shared_moment : forall a b : interval Q,
  qnonempty a -> qnonempty b ->
  (overlaps Q_ops a b = true <-> exists t, qmem t a /\ qmem t b).
Proof. exact overlaps_iff_shared. Qed.
Print Assumptions c01_overlaps_iff_shared_moment.

Example c01_overlaps_nonvacuous :
  qnonempty (Interval 0 1 CRight) /\ qnonempty (Interval 1 2 CLeft) /\
  overlaps Q_ops (Interval 0 1 CRight) (Interval 1 2 CLeft) = true /\
  overlaps Q_ops (Interval 0 1 CLeft) (Interval 1 2 CLeft) = false.
Proof.
  repeat split; try reflexivity.
  - exists 1%Q. apply qmem_right. lra.
  - exists 1%Q. apply qmem_left. lra.
Qed.

Theorem c01_overlaps_symmetric : forall a b : interval Q,
  overlaps Q_ops a b = overlaps Q_ops b a.
Proof. exact overlaps_comm. Qed.
Print Assumptions c01_overlaps_symmetric.

(** C01 at microsecond resolution, for the closedness the periods produce. *)
Theorem c01_overlaps_iff_shared_microsecond : forall a b : interval Z,
  left_included (closed a) -> left_included (closed b) ->
  (exists t, zmem t a) -> (exists t, zmem t b) ->
  (overlaps Z_ops a b = true <-> exists t, zmem t a /\ zmem t b).
Proof. exact zoverlaps_iff_shared. Qed.
Print Assumptions c01_overlaps_iff_shared_microsecond.

Example c01_microsecond_nonvacuous :
  left_included (closed (Interval 5 9 CLeft)%Z) /\ left_included (closed (Interval 9 9 CBoth)%Z) /\
  (exists t, zmem t (Interval 5 9 CLeft)%Z) /\ (exists t, zmem t (Interval 9 9 CBoth)%Z).
Proof.
  repeat split; cbn; unfold left_included; auto.
  - exists 5%Z. apply zmem_left. lia.
  - exists 9%Z. apply zmem_both. lia.
Qed.

(** A moment is reported contained iff it is a member. *)
Theorem c02_contains_is_membership : forall (i : interval Q) (t : Q),
  contains Q_ops i t = true <-> qmem t i.
Proof. exact contains_qmem. Qed.
Print Assumptions c02_contains_is_membership.

(** C02: when [&] returns, it returns a valid interval with exactly the common moments. *)
Theorem c02_intersection_exact : forall a b i : interval Q,
  inter Q_ops a b = Ok i ->
  qvalid i /\ forall t, qmem t i <-> qmem t a /\ qmem t b.
Proof. exact inter_ok_mem. Qed.
Print Assumptions c02_intersection_exact.

Example c02_intersection_nonvacuous :
  inter Q_ops (Interval 0 3 CBoth) (Interval 1 5 CNeither) = Ok (Interval 1 3 CRight)%Q.
Proof. reflexivity. Qed.

(** C02: [&] raises exactly when the intervals lie strictly apart. *)
Theorem c02_intersection_raises_iff_apart : forall a b : interval Q,
  qvalid a -> qvalid b ->
  (inter Q_ops a b = Err ValueError <-> (right a < left b \/ right b < left a)%Q).
Proof. exact inter_raises_iff. Qed.
Print Assumptions c02_intersection_raises_iff_apart.

Theorem c02_intersection_no_other_outcome : forall a b : interval Q,
  exists x, inter Q_ops a b = Ok x \/ inter Q_ops a b = Err ValueError.
Proof. exact inter_total. Qed.
Print Assumptions c02_intersection_no_other_outcome.

Example c02_raises_nonvacuous :
  qvalid (Interval 0 1 CBoth) /\ qvalid (Interval 2 3 CBoth) /\
  inter Q_ops (Interval 0 1 CBoth) (Interval 2 3 CBoth) = Err ValueError.
Proof. repeat split; unfold qvalid; cbn; lra. Qed.

(** C02: [is_empty] means having no moment. *)
Theorem c02_is_empty_iff_no_moment : forall i : interval Q,
  qvalid i -> (is_empty Q_ops i = true <-> forall t, ~ qmem t i).
Proof. exact is_empty_iff. Qed.
Print Assumptions c02_is_empty_iff_no_moment.

Example c02_is_empty_nonvacuous :
  qvalid (Interval 1 1 CLeft) /\ is_empty Q_ops (Interval 1 1 CLeft) = true /\
  is_empty Q_ops (Interval 1 1 CBoth) = false.
Proof. repeat split; unfold qvalid; cbn; lra. Qed.

(** C02 at microsecond resolution. *)
Theorem c02_intersection_exact_microsecond : forall a b i : interval Z,
  inter Z_ops a b = Ok i ->
  zvalid i /\ forall t, zmem t i <-> zmem t a /\ zmem t b.
Proof. exact zinter_ok_mem. Qed.
Print Assumptions c02_intersection_exact_microsecond.

Example c02_microsecond_nonvacuous :
  inter Z_ops (Interval 0 10 CLeft)%Z (Interval 10 10 CBoth)%Z = Ok (Interval 10 10 CLeft)%Z.
Proof. reflexivity. Qed.
