From Verif Require Import Model.Base Model.Interval Spec.IntervalSpec.
From Coq Require Import QArith Lqa Lia ZifyBool.

Lemma Qlt_bool_spec a b : Qlt_bool a b = true <-> (a < b)%Q.
Proof.
  unfold Qlt_bool. rewrite negb_true_iff. rewrite <- not_true_iff_false, Qle_bool_iff.
  split; [apply Qnot_le_lt | apply Qlt_not_le].
Qed.

Lemma Qlt_bool_false a b : Qlt_bool a b = false <-> (b <= a)%Q.
Proof.
  unfold Qlt_bool. rewrite negb_false_iff. apply Qle_bool_iff.
Qed.

Lemma Qle_bool_false a b : Qle_bool a b = false <-> (b < a)%Q.
Proof.
  rewrite <- not_true_iff_false, Qle_bool_iff.
  split; [apply Qnot_le_lt | apply Qlt_not_le].
Qed.

Lemma Qeq_bool_false a b : Qeq_bool a b = false <-> ~ (a == b)%Q.
Proof.
  rewrite <- not_true_iff_false, Qeq_bool_iff. reflexivity.
Qed.

Ltac qb :=
  repeat match goal with
  | H : context [andb _ _ = true] |- _ => rewrite andb_true_iff in H
  | H : context [orb _ _ = true] |- _ => rewrite orb_true_iff in H
  | H : context [andb _ _ = false] |- _ => rewrite andb_false_iff in H
  | H : context [orb _ _ = false] |- _ => rewrite orb_false_iff in H
  | H : Qlt_bool _ _ = true |- _ => apply Qlt_bool_spec in H
  | H : Qlt_bool _ _ = false |- _ => apply Qlt_bool_false in H
  | H : Qle_bool _ _ = true |- _ => apply Qle_bool_iff in H
  | H : Qle_bool _ _ = false |- _ => apply Qle_bool_false in H
  | H : Qeq_bool _ _ = true |- _ => apply Qeq_bool_iff in H
  | H : Qeq_bool _ _ = false |- _ => apply Qeq_bool_false in H
  end.

(** Membership as inequalities, by closedness. *)
Lemma qmem_left l r t : qmem t (Interval l r CLeft) <-> (l <= t < r)%Q.
Proof.
  unfold qmem, left_included, right_included; cbn.
  split.
  - intros [[A|[A _]] [B|[_ [B|B]]]]; try discriminate; lra.
  - intros [A B]; split; [|left; exact B].
    destruct (Qlt_le_dec l t); [left; assumption|right; split; [lra|auto]].
Qed.
Lemma qmem_right l r t : qmem t (Interval l r CRight) <-> (l < t /\ t <= r)%Q.
Proof.
  unfold qmem, left_included, right_included; cbn.
  split.
  - intros [[A|[_ [A|A]]] [B|[B _]]]; try discriminate; lra.
  - intros [A B]; split; [left; exact A|].
    destruct (Qlt_le_dec t r); [left; assumption|right; split; [lra|auto]].
Qed.
Lemma qmem_both l r t : qmem t (Interval l r CBoth) <-> (l <= t /\ t <= r)%Q.
Proof.
  unfold qmem, left_included, right_included; cbn.
  split.
  - intros [[A|[A _]] [B|[B _]]]; lra.
  - intros [A B]; split.
    + destruct (Qlt_le_dec l t); [left; assumption|right; split; [lra|auto]].
    + destruct (Qlt_le_dec t r); [left; assumption|right; split; [lra|auto]].
Qed.
Lemma qmem_neither l r t : qmem t (Interval l r CNeither) <-> (l < t /\ t < r)%Q.
Proof.
  unfold qmem, left_included, right_included; cbn.
  split.
  - intros [[A|[_ [A|A]]] [B|[_ [B|B]]]]; try discriminate; lra.
  - intros [A B]; split; left; assumption.
Qed.

Lemma contains_qmem i t : contains Q_ops i t = true <-> qmem t i.
Proof.
  destruct i as [l r c]; destruct c;
    rewrite ?qmem_left, ?qmem_right, ?qmem_both, ?qmem_neither;
    unfold contains; cbn [closed left right op_lt op_le Q_ops];
    rewrite andb_true_iff, ?Qlt_bool_spec, ?Qle_bool_iff; tauto.
Qed.

Ltac qmemrw := rewrite ?qmem_left, ?qmem_right, ?qmem_both, ?qmem_neither.
Ltac qmemrw_in H := rewrite ?qmem_left, ?qmem_right, ?qmem_both, ?qmem_neither in H.

(** A finite candidate set that witnesses non-emptiness. *)
Definition candidates (a b : interval Q) : list Q :=
  [left a; left b; right a; right b;
   (left a + right a) / (2#1); (left a + right b) / (2#1);
   (left b + right a) / (2#1); (left b + right b) / (2#1)]%Q.

Lemma overlaps_iff_shared a b :
  qnonempty a -> qnonempty b ->
  (overlaps Q_ops a b = true <-> exists t, qmem t a /\ qmem t b).
Proof.
  destruct a as [l r c], b as [l' r' c'].
  intros [ta Ha] [tb Hb].
  unfold overlaps; cbn [closed left right op_lt op_le op_eq Q_ops].
  destruct (Qlt_bool r l') eqn:E1;
  [ cbn; split; [discriminate|]; intros [t [H1 H2]]; qb;
    destruct c, c'; qmemrw_in H1; qmemrw_in H2; lra | ].
  destruct (Qlt_bool r' l) eqn:E2;
  [ cbn; split; [discriminate|]; intros [t [H1 H2]]; qb;
    destruct c, c'; qmemrw_in H1; qmemrw_in H2; lra | ].
  cbn [orb].
  destruct (Qeq_bool r l') eqn:E3; destruct (Qeq_bool l r') eqn:E4; qb;
  destruct c, c'; cbn [in_left_neither in_right_neither andb orb];
  (split;
   [ try discriminate; intros _
   | try (intros _; reflexivity); intros [t [H1 H2]]; exfalso; qmemrw_in H1; qmemrw_in H2; lra ]);
  qmemrw_in Ha; qmemrw_in Hb; try (exfalso; lra).
  all: try (exists r; qmemrw; split; lra).
  all: try (exists l; qmemrw; split; lra).
  all: destruct (Qlt_le_dec l l') as [Hl|Hl], (Qlt_le_dec r r') as [Hr|Hr].
  all: try (exists ((l + r) / (2#1))%Q; qmemrw; split; split;
            try (apply Qlt_shift_div_l; [reflexivity|lra]);
            try (apply Qlt_shift_div_r; [reflexivity|lra]);
            try (apply Qle_shift_div_l; [reflexivity|lra]);
            try (apply Qle_shift_div_r; [reflexivity|lra]); fail).
  all: try (exists ((l' + r) / (2#1))%Q; qmemrw; split; split;
            try (apply Qlt_shift_div_l; [reflexivity|lra]);
            try (apply Qlt_shift_div_r; [reflexivity|lra]);
            try (apply Qle_shift_div_l; [reflexivity|lra]);
            try (apply Qle_shift_div_r; [reflexivity|lra]); fail).
  all: try (exists ((l + r') / (2#1))%Q; qmemrw; split; split;
            try (apply Qlt_shift_div_l; [reflexivity|lra]);
            try (apply Qlt_shift_div_r; [reflexivity|lra]);
            try (apply Qle_shift_div_l; [reflexivity|lra]);
            try (apply Qle_shift_div_r; [reflexivity|lra]); fail).
  all: try (exists ((l' + r') / (2#1))%Q; qmemrw; split; split;
            try (apply Qlt_shift_div_l; [reflexivity|lra]);
            try (apply Qlt_shift_div_r; [reflexivity|lra]);
            try (apply Qle_shift_div_l; [reflexivity|lra]);
            try (apply Qle_shift_div_r; [reflexivity|lra]); fail).
Qed.

Lemma Qeq_bool_comm a b : Qeq_bool a b = Qeq_bool b a.
Proof.
  destruct (Qeq_bool a b) eqn:E1, (Qeq_bool b a) eqn:E2; qb; try reflexivity; exfalso; lra.
Qed.

Lemma overlaps_comm a b : overlaps Q_ops a b = overlaps Q_ops b a.
Proof.
  destruct a as [l r c], b as [l' r' c'].
  unfold overlaps; cbn [closed left right op_lt op_le op_eq Q_ops].
  rewrite (Qeq_bool_comm r' l), (Qeq_bool_comm l' r).
  destruct (Qlt_bool r l'), (Qlt_bool r' l), (Qeq_bool r l'), (Qeq_bool l r'), c, c'; reflexivity.
Qed.

Lemma is_empty_iff i : qvalid i -> (is_empty Q_ops i = true <-> forall t, ~ qmem t i).
Proof.
  destruct i as [l r c]; unfold qvalid, is_empty; cbn [closed left right op_lt op_le Q_ops]; intros V.
  rewrite negb_true_iff.
  destruct c; rewrite ?Qlt_bool_false, ?Qle_bool_false; split.
  all: try (intros H t Ht; qmemrw_in Ht; lra).
  - intros H. destruct (Qlt_le_dec l r) as [D|D]; [|exact D].
    exfalso; apply (H l); qmemrw; lra.
  - intros H. destruct (Qlt_le_dec l r) as [D|D]; [|exact D].
    exfalso; apply (H r); qmemrw; lra.
  - intros H. exfalso; apply (H l); qmemrw; lra.
  - intros H. destruct (Qlt_le_dec l r) as [D|D]; [|exact D].
    exfalso; apply (H ((l + r) / (2#1))%Q); qmemrw; split.
    + apply Qlt_shift_div_l; [reflexivity|lra].
    + apply Qlt_shift_div_r; [reflexivity|lra].
Qed.

Lemma inter_ok_mem a b i :
  inter Q_ops a b = Ok i ->
  qvalid i /\ forall t, qmem t i <-> qmem t a /\ qmem t b.
Proof.
  destruct a as [l r c], b as [l' r' c'].
  unfold inter, mk_interval, qvalid; cbn [closed left right op_lt op_le Q_ops].
  destruct (Qlt_bool l' l) eqn:E1; [|destruct (Qlt_bool l l') eqn:E2];
  (destruct (Qlt_bool r r') eqn:E3; [|destruct (Qlt_bool r' r) eqn:E4]).
  all: match goal with |- context [if Qlt_bool ?x ?y then Err _ else _] =>
         destruct (Qlt_bool x y) eqn:E5 end; [discriminate|].
  all: intros H; injection H as <-; qb; cbn [left right]; split; [assumption|].
  all: intros t; destruct c, c'; cbn [in_left_both in_right_both andb]; qmemrw; lra.
Qed.

Lemma inter_err_apart a b e :
  qvalid a -> qvalid b ->
  inter Q_ops a b = Err e ->
  e = ValueError /\ (right a < left b \/ right b < left a)%Q.
Proof.
  destruct a as [l r c], b as [l' r' c'].
  unfold inter, mk_interval, qvalid; cbn [closed left right op_lt op_le Q_ops]; intros Va Vb.
  destruct (Qlt_bool l' l) eqn:E1; [|destruct (Qlt_bool l l') eqn:E2];
  (destruct (Qlt_bool r r') eqn:E3; [|destruct (Qlt_bool r' r) eqn:E4]).
  all: match goal with |- context [if Qlt_bool ?x ?y then Err _ else _] =>
         destruct (Qlt_bool x y) eqn:E5 end; [|discriminate].
  all: intros H; injection H as <-; qb; split; [reflexivity|]; lra.
Qed.

Lemma inter_apart_err a b :
  (right a < left b \/ right b < left a)%Q ->
  inter Q_ops a b = Err ValueError.
Proof.
  destruct a as [l r c], b as [l' r' c'].
  unfold inter, mk_interval; cbn [closed left right op_lt op_le Q_ops]; intros H.
  destruct (Qlt_bool l' l) eqn:E1; [|destruct (Qlt_bool l l') eqn:E2];
  (destruct (Qlt_bool r r') eqn:E3; [|destruct (Qlt_bool r' r) eqn:E4]).
  all: match goal with |- context [if Qlt_bool ?x ?y then Err _ else _] =>
         destruct (Qlt_bool x y) eqn:E5 end; [reflexivity|].
  all: qb; exfalso; try lra.
Qed.

(** ** Integer moments (datetimes) *)
Ltac zcase c := destruct c; cbn [in_left_both in_right_both in_left_neither in_right_neither andb orb].

Lemma zmem_left l r t : zmem t (Interval l r CLeft) <-> (l <= t < r)%Z.
Proof.
  unfold zmem, left_included, right_included; cbn; split.
  - intros [[A|[A _]] [B|[_ [B|B]]]]; try discriminate; lia.
  - intros H. split; [|left; lia]. destruct (Z.eq_dec l t); [right; auto|left; lia].
Qed.
Lemma zmem_right l r t : zmem t (Interval l r CRight) <-> (l < t <= r)%Z.
Proof.
  unfold zmem, left_included, right_included; cbn; split.
  - intros [[A|[_ [A|A]]] [B|[B _]]]; try discriminate; lia.
  - intros H. split; [left; lia|]. destruct (Z.eq_dec t r); [right; auto|left; lia].
Qed.
Lemma zmem_both l r t : zmem t (Interval l r CBoth) <-> (l <= t <= r)%Z.
Proof.
  unfold zmem, left_included, right_included; cbn; split.
  - intros [[A|[A _]] [B|[B _]]]; lia.
  - intros H. split; [destruct (Z.eq_dec l t); [right; auto|left; lia]|].
    destruct (Z.eq_dec t r); [right; auto|left; lia].
Qed.
Lemma zmem_neither l r t : zmem t (Interval l r CNeither) <-> (l < t < r)%Z.
Proof.
  unfold zmem, left_included, right_included; cbn; split.
  - intros [[A|[_ [A|A]]] [B|[_ [B|B]]]]; try discriminate; lia.
  - intros H; split; left; lia.
Qed.

Ltac zmemrw := rewrite ?zmem_left, ?zmem_right, ?zmem_both, ?zmem_neither.
Ltac zmemrw_in H := rewrite ?zmem_left, ?zmem_right, ?zmem_both, ?zmem_neither in H.

Lemma zcontains_zmem i t : contains Z_ops i t = true <-> zmem t i.
Proof.
  destruct i as [l r c]; destruct c; zmemrw;
    unfold contains; cbn [closed left right op_lt op_le Z_ops]; lia.
Qed.

Lemma zoverlaps_iff_shared a b :
  left_included (closed a) -> left_included (closed b) ->
  (exists t, zmem t a) -> (exists t, zmem t b) ->
  (overlaps Z_ops a b = true <-> exists t, zmem t a /\ zmem t b).
Proof.
  destruct a as [l r c], b as [l' r' c']; cbn [closed].
  intros Lc Lc' [ta Ha] [tb Hb].
  unfold overlaps; cbn [closed left right op_lt op_le op_eq Z_ops].
  assert (Hc : c = CLeft \/ c = CBoth) by exact Lc.
  assert (Hc' : c' = CLeft \/ c' = CBoth) by exact Lc'.
  destruct Hc as [-> | ->], Hc' as [-> | ->]; cbn [in_left_neither in_right_neither orb andb];
    zmemrw_in Ha; zmemrw_in Hb.
  all: destruct (Z.ltb_spec r l') as [E1|E1]; destruct (Z.ltb_spec r' l) as [E2|E2];
       destruct (Z.eqb_spec r l') as [E3|E3]; destruct (Z.eqb_spec l r') as [E4|E4];
       cbn [orb andb].
  all: split; [try discriminate; intros _; exists (Z.max l l'); zmemrw; split; lia
              | intros [t [H1 H2]]; zmemrw_in H1; zmemrw_in H2; first [reflexivity | exfalso; lia] ].
Qed.

Lemma zinter_ok_mem a b i :
  inter Z_ops a b = Ok i ->
  zvalid i /\ forall t, zmem t i <-> zmem t a /\ zmem t b.
Proof.
  destruct a as [l r c], b as [l' r' c'].
  unfold inter, mk_interval, zvalid; cbn [closed left right op_lt op_le Z_ops].
  destruct (Z.ltb l' l) eqn:E1; [|destruct (Z.ltb l l') eqn:E2];
  (destruct (Z.ltb r r') eqn:E3; [|destruct (Z.ltb r' r) eqn:E4]).
  all: match goal with |- context [if Z.ltb ?x ?y then Err _ else _] =>
         destruct (Z.ltb x y) eqn:E5 end; [discriminate|].
  all: intros H; injection H as <-; cbn [left right]; split; [lia|].
  all: intros t; destruct c, c'; cbn [in_left_both in_right_both andb]; zmemrw; lia.
Qed.

Lemma inter_raises_iff a b :
  qvalid a -> qvalid b ->
  (inter Q_ops a b = Err ValueError <-> (right a < left b \/ right b < left a)%Q).
Proof.
  intros Va Vb. split.
  - intros H. apply (inter_err_apart a b ValueError Va Vb H).
  - apply inter_apart_err.
Qed.

Lemma inter_total a b : exists x, inter Q_ops a b = Ok x \/ inter Q_ops a b = Err ValueError.
Proof.
  unfold inter, mk_interval.
  match goal with |- context [let '(_, _) := ?p in _] => destruct p as [l lc] end.
  match goal with |- context [let '(_, _) := ?p in _] => destruct p as [r rc] end.
  match goal with |- context [if ?c then Err _ else Ok ?y] => destruct c; exists y end; auto.
Qed.
