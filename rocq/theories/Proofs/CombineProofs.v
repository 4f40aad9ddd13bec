(** C73: periods put together as sets. *)
From Coq Require Import ZArith List Bool Permutation String Lia ZifyBool.
From Verif Require Import Model.Base Model.Interval Model.Calendar Model.Anchored Model.Period Model.Combine Spec.CombineSpec.
Import ListNotations.
Open Scope Z_scope.

(** * Intervals *)
Lemma ov_comm (a b : interval Z) : overlaps Z_ops a b = overlaps Z_ops b a.
Proof.
  unfold overlaps, Z_ops; cbn [op_lt op_eq].
  destruct a as [al ar ac], b as [bl br bc]; cbn [left right closed].
  destruct (ar <? bl) eqn:E1; destruct (br <? al) eqn:E2; cbn [orb]; try reflexivity.
  destruct (ar =? bl) eqn:E3; destruct (al =? br) eqn:E4;
  rewrite ?(Z.eqb_sym br al), ?(Z.eqb_sym bl ar), ?E3, ?E4; cbn [andb].
  all: destruct ac, bc; reflexivity.
Qed.
Lemma all_overlap_perm (l l' : list (interval Z)) : Permutation l l' -> all_overlap l = all_overlap l'.
Proof.
  induction 1 as [|x l l' P IH|x y l|l1 l2 l3 P1 IH1 P2 IH2].
  - reflexivity.
  - cbn [all_overlap]. rewrite IH. f_equal.
    destruct (forallb (overlaps Z_ops x) l) eqn:E; symmetry.
    + rewrite forallb_forall in E |- *. intros y Hy. apply E. eapply Permutation_in; [symmetry; exact P|exact Hy].
    + destruct (forallb (overlaps Z_ops x) l') eqn:E'; [|reflexivity]. exfalso.
      assert (X : forallb (overlaps Z_ops x) l = true); [|congruence].
      rewrite forallb_forall in E' |- *. intros y Hy. apply E'. eapply Permutation_in; [exact P|exact Hy].
  - cbn [all_overlap forallb]. rewrite (ov_comm y x).
    destruct (overlaps Z_ops x y), (forallb (overlaps Z_ops x) l), (forallb (overlaps Z_ops y) l); reflexivity.
  - congruence.
Qed.
Lemma max_left_spec (l : list (interval Z)) : l <> [] ->
  (exists i, In i l /\ left i = max_left l) /\ forall i, In i l -> left i <= max_left l.
Proof.
  induction l as [|a l IH]; [congruence|]. intros _. destruct l as [|b l].
  - cbn. split; [exists a; auto|]. intros i [-> | []]. lia.
  - destruct IH as [[j [Hj Ej]] B]; [discriminate|]. change (max_left (a :: b :: l)) with (Z.max (left a) (max_left (b :: l))).
    split.
    + destruct (Z.max_spec (left a) (max_left (b :: l))) as [[_ ->]|[_ ->]]; [exists j|exists a]; cbn; auto.
    + intros i [<- |Hi]; [lia|]. specialize (B i Hi). lia.
Qed.
Lemma min_right_spec (l : list (interval Z)) : l <> [] ->
  (exists i, In i l /\ right i = min_right l) /\ forall i, In i l -> min_right l <= right i.
Proof.
  induction l as [|a l IH]; [congruence|]. intros _. destruct l as [|b l].
  - cbn. split; [exists a; auto|]. intros i [-> | []]. lia.
  - destruct IH as [[j [Hj Ej]] B]; [discriminate|]. change (min_right (a :: b :: l)) with (Z.min (right a) (min_right (b :: l))).
    split.
    + destruct (Z.min_spec (right a) (min_right (b :: l))) as [[_ ->]|[_ ->]]; [exists a|exists j]; cbn; auto.
    + intros i [<- |Hi]; [lia|]. specialize (B i Hi). lia.
Qed.
Lemma max_left_perm l l' : Permutation l l' -> max_left l = max_left l'.
Proof.
  intros P. destruct l as [|a l]; [apply Permutation_nil in P; subst; reflexivity|].
  assert (N : l' <> []). { intros ->. symmetry in P. apply Permutation_nil in P. discriminate. }
  destruct (max_left_spec (a :: l)) as [[i [Hi Ei]] B]; [discriminate|].
  destruct (max_left_spec l' N) as [[j [Hj Ej]] B'].
  apply (Permutation_in _ P) in Hi. apply (Permutation_in _ (Permutation_sym P)) in Hj.
  specialize (B _ Hj). specialize (B' _ Hi). lia.
Qed.
Lemma min_right_perm l l' : Permutation l l' -> min_right l = min_right l'.
Proof.
  intros P. destruct l as [|a l]; [apply Permutation_nil in P; subst; reflexivity|].
  assert (N : l' <> []). { intros ->. symmetry in P. apply Permutation_nil in P. discriminate. }
  destruct (min_right_spec (a :: l)) as [[i [Hi Ei]] B]; [discriminate|].
  destruct (min_right_spec l' N) as [[j [Hj Ej]] B'].
  apply (Permutation_in _ P) in Hi. apply (Permutation_in _ (Permutation_sym P)) in Hj.
  specialize (B _ Hj). specialize (B' _ Hi). lia.
Qed.
Lemma existsb_perm {A} (f : A -> bool) l l' : Permutation l l' -> existsb f l = existsb f l'.
Proof.
  intros P. destruct (existsb f l) eqn:E; symmetry.
  - apply existsb_exists in E as [x [H1 H2]]. apply existsb_exists. exists x. split; [eapply Permutation_in; eassumption|exact H2].
  - destruct (existsb f l') eqn:E'; [|reflexivity]. exfalso. apply existsb_exists in E' as [x [H1 H2]].
    assert (X : existsb f l = true); [|congruence]. apply existsb_exists. exists x. split; [eapply Permutation_in; [symmetry; eassumption|exact H1]|exact H2].
Qed.

(** What the intersection of a list of intervals is *)
Record meets (l : list (interval Z)) (r : interval Z) : Prop := {
  m_left : exists i, In i l /\ left i = left r;
  m_left_max : forall i, In i l -> left i <= left r;
  m_left_closed : in_left_both (closed r) = true <-> forall i, In i l -> left i = left r -> in_left_both (closed i) = true;
  m_right : exists i, In i l /\ right i = right r;
  m_right_min : forall i, In i l -> right r <= right i;
  m_right_closed : in_right_both (closed r) = true <-> forall i, In i l -> right i = right r -> in_right_both (closed i) = true }.
Lemma meets_unique l l' r r' : Permutation l l' -> meets l r -> meets l' r' -> r = r'.
Proof.
  intros P M M'.
  assert (I : forall i, In i l <-> In i l'). { intros i; split; apply Permutation_in; [exact P|symmetry; exact P]. }
  assert (L : left r = left r').
  { destruct (m_left _ _ M) as [i [Hi Ei]], (m_left _ _ M') as [j [Hj Ej]].
    pose proof (m_left_max _ _ M j (proj2 (I j) Hj)). pose proof (m_left_max _ _ M' i (proj1 (I i) Hi)). lia. }
  assert (R : right r = right r').
  { destruct (m_right _ _ M) as [i [Hi Ei]], (m_right _ _ M') as [j [Hj Ej]].
    pose proof (m_right_min _ _ M j (proj2 (I j) Hj)). pose proof (m_right_min _ _ M' i (proj1 (I i) Hi)). lia. }
  assert (LC : in_left_both (closed r) = true <-> in_left_both (closed r') = true).
  { rewrite (m_left_closed _ _ M), (m_left_closed _ _ M'). rewrite L. split; intros H i Hi Ei; apply H; auto; apply I; exact Hi. }
  assert (RC : in_right_both (closed r) = true <-> in_right_both (closed r') = true).
  { rewrite (m_right_closed _ _ M), (m_right_closed _ _ M'). rewrite R. split; intros H i Hi Ei; apply H; auto; apply I; exact Hi. }
  destruct r as [a b c], r' as [a' b' c']; cbn in *. subst a' b'. f_equal.
  destruct c, c'; cbn in *; try reflexivity; destruct LC, RC; intuition congruence.
Qed.
Lemma meets_one a : meets [a] a.
Proof.
  constructor; cbn.
  - exists a; auto.
  - intros i [<- | []]; lia.
  - split; [intros H i [<- | []] _; exact H|intros H; apply H; auto].
  - exists a; auto.
  - intros i [<- | []]; lia.
  - split; [intros H i [<- | []] _; exact H|intros H; apply H; auto].
Qed.
Lemma inter_meets a b c : inter Z_ops a b = Ok c -> meets [a; b] c /\ left c <= right c.
Proof.
  unfold inter, mk_interval, Z_ops; cbn [op_lt]. intros H.
  destruct a as [al ar ac], b as [bl br bc]; cbn [left right closed] in *.
  destruct (bl <? al) eqn:E1; [|destruct (al <? bl) eqn:E2];
  (destruct (ar <? br) eqn:E3; [|destruct (br <? ar) eqn:E4]);
  match type of H with (if ?b then _ else _) = _ => destruct b eqn:E5 end; try discriminate;
  injection H as <-; cbn [left right closed]; (split; [|lia]).
  all: constructor; cbn [left right closed In].
  all: try (intros i [<- |[<- |[]]]; cbn [left right]; lia).
  all: try (exists (Interval al ar ac); cbn; split; [auto|lia]).
  all: try (exists (Interval bl br bc); cbn; split; [auto|lia]).
  all: split.
  all: try (intros H i [<- |[<- |[]]] E; cbn [left right closed] in *; try lia; destruct ac, bc; cbn in *; congruence).
  all: intros H;
    pose proof (H (Interval al ar ac) (or_introl eq_refl)) as Ha; pose proof (H (Interval bl br bc) (or_intror (or_introl eq_refl))) as Hb;
    cbn [left right closed] in *; clear H;
    try (assert (Xa : in_left_both ac = true) by (apply Ha; lia));
    try (assert (Xb : in_left_both bc = true) by (apply Hb; lia));
    try (assert (Ya : in_right_both ac = true) by (apply Ha; lia));
    try (assert (Yb : in_right_both bc = true) by (apply Hb; lia));
    destruct ac, bc; cbn in *; congruence.
Qed.
Lemma meets_cons a b l c r : meets [a; b] c -> meets (c :: l) r -> meets (a :: b :: l) r.
Proof.
  intros M N.
  assert (La := m_left_max _ _ M a (or_introl eq_refl)). assert (Lb := m_left_max _ _ M b (or_intror (or_introl eq_refl))).
  assert (Ra := m_right_min _ _ M a (or_introl eq_refl)). assert (Rb := m_right_min _ _ M b (or_intror (or_introl eq_refl))).
  assert (Lc := m_left_max _ _ N c (or_introl eq_refl)). assert (Rc := m_right_min _ _ N c (or_introl eq_refl)).
  constructor.
  - destruct (m_left _ _ N) as [i [[<- |Hi] Ei]].
    + destruct (m_left _ _ M) as [j [Hj Ej]]. exists j. split; [|congruence]. cbn in *. tauto.
    + exists i. split; [cbn; auto|exact Ei].
  - intros i [<- |[<- |Hi]]; [lia|lia|]. apply (m_left_max _ _ N). right; exact Hi.
  - rewrite (m_left_closed _ _ N). split.
    + intros H i [<- |[<- |Hi]] Ei.
      * assert (Ec : left c = left r) by lia. specialize (H c (or_introl eq_refl) Ec).
        apply (m_left_closed _ _ M); [exact H|cbn; auto|lia].
      * assert (Ec : left c = left r) by lia. specialize (H c (or_introl eq_refl) Ec).
        apply (m_left_closed _ _ M); [exact H|cbn; auto|lia].
      * apply H; [cbn; auto|exact Ei].
    + intros H i [<- |Hi] Ei.
      * apply (m_left_closed _ _ M). intros j Hj Ej. apply H; [cbn in *; tauto|lia].
      * apply H; [cbn; auto|exact Ei].
  - destruct (m_right _ _ N) as [i [[<- |Hi] Ei]].
    + destruct (m_right _ _ M) as [j [Hj Ej]]. exists j. split; [|congruence]. cbn in *. tauto.
    + exists i. split; [cbn; auto|exact Ei].
  - intros i [<- |[<- |Hi]]; [lia|lia|]. apply (m_right_min _ _ N). right; exact Hi.
  - rewrite (m_right_closed _ _ N). split.
    + intros H i [<- |[<- |Hi]] Ei.
      * assert (Ec : right c = right r) by lia. specialize (H c (or_introl eq_refl) Ec).
        apply (m_right_closed _ _ M); [exact H|cbn; auto|lia].
      * assert (Ec : right c = right r) by lia. specialize (H c (or_introl eq_refl) Ec).
        apply (m_right_closed _ _ M); [exact H|cbn; auto|lia].
      * apply H; [cbn; auto|exact Ei].
    + intros H i [<- |Hi] Ei.
      * apply (m_right_closed _ _ M). intros j Hj Ej. apply H; [cbn in *; tauto|lia].
      * apply H; [cbn; auto|exact Ei].
Qed.
Lemma reduce_meets l : forall a r, reduce_from a l = Ok r -> meets (a :: l) r /\ (l = [] \/ left r <= right r).
Proof.
  induction l as [|b l IH]; intros a r; cbn [reduce_from].
  - intros H; injection H as <-. split; [apply meets_one|auto].
  - destruct (inter Z_ops a b) as [c|e] eqn:E; cbn [bind]; [|discriminate]. intros H.
    apply inter_meets in E as [M Le]. destruct (IH _ _ H) as [N O]. split; [eapply meets_cons; eassumption|].
    right. destruct O as [-> |O]; [|exact O]. cbn in H. injection H as <-. exact Le.
Qed.
Lemma reduce_total l : forall a, (forall i j, In i (a :: l) -> In j (a :: l) -> left i <= right j) -> exists r, reduce_from a l = Ok r.
Proof.
  induction l as [|b l IH]; intros a H; cbn [reduce_from]; [eexists; reflexivity|].
  destruct (inter Z_ops a b) as [c|e] eqn:E.
  - cbn [bind]. apply IH. apply inter_meets in E as [M _]. intros i j Hi Hj.
    destruct (m_left _ _ M) as [x [Hx Ex]], (m_right _ _ M) as [y [Hy Ey]].
    destruct Hi as [<- |Hi], Hj as [<- |Hj]; rewrite <- ?Ex, <- ?Ey; apply H; cbn in *; tauto.
  - exfalso. revert E. unfold inter, mk_interval, Z_ops; cbn [op_lt].
    assert (H1 := H a a). assert (H2 := H a b). assert (H3 := H b a). assert (H4 := H b b). cbn in H1, H2, H3, H4.
    specialize (H1 (or_introl eq_refl) (or_introl eq_refl)). specialize (H2 (or_introl eq_refl) (or_intror (or_introl eq_refl))).
    specialize (H3 (or_intror (or_introl eq_refl)) (or_introl eq_refl)). specialize (H4 (or_intror (or_introl eq_refl)) (or_intror (or_introl eq_refl))).
    destruct (left b <? left a) eqn:E1; [|destruct (left a <? left b) eqn:E2];
    (destruct (right a <? right b) eqn:E3; [|destruct (right b <? right a) eqn:E4]);
    match goal with |- (if ?b then _ else _) = _ -> _ => destruct b eqn:E5 end; try discriminate; lia.
Qed.
Lemma reduce_perm l l' r : Permutation l l' -> reduce_inter l = Returns r -> reduce_inter l' = Returns r.
Proof.
  intros P H. destruct l as [|a l]; cbn [reduce_inter] in H; [discriminate|].
  destruct l' as [|a' l']; [symmetry in P; apply Permutation_nil in P; discriminate|].
  destruct (reduce_from a l) as [r'|] eqn:E; cbn in H; [|discriminate]. injection H as ->.
  destruct (reduce_meets _ _ _ E) as [M O]. destruct O as [-> |O].
  - apply Permutation_length_1_inv in P. injection P as -> ->. cbn in *. congruence.
  - destruct (reduce_total l' a') as [r' E'].
    { intros i j Hi Hj. apply (Permutation_in _ (Permutation_sym P)) in Hi, Hj.
      pose proof (m_left_max _ _ M i Hi). pose proof (m_right_min _ _ M j Hj). lia. }
    cbn [reduce_inter]. rewrite E'. cbn. destruct (reduce_meets _ _ _ E') as [M' _].
    rewrite (meets_unique _ _ _ _ P M M'). reflexivity.
Qed.

(** * Going through a list *)
Lemma traverse_spec {A B} (f : A -> outcome B) l : forall bs, traverse f l = Returns bs <-> Forall2 (fun a b => f a = Returns b) l bs.
Proof.
  induction l as [|a l IH]; intros bs; cbn [traverse].
  - split; [intros H; injection H as <-; constructor|]. intros H; inversion H. reflexivity.
  - split.
    + destruct (f a) as [b|e|] eqn:E; try discriminate. destruct (traverse f l) as [bs'|e|] eqn:E'; try discriminate.
      intros H; injection H as <-. constructor; [exact E|]. apply IH. reflexivity.
    + intros H. inversion H as [|x y l' bs' E F]; subst. rewrite E. apply IH in F. rewrite F. reflexivity.
Qed.

(** Lists of periods with the same windows, up to the order *)
Definition related {A} (R : A -> A -> Prop) (l l' : list A) : Prop := exists m, Permutation l m /\ Forall2 R m l'.
Lemma related_traverse {A B} (f g : A -> outcome B) (R : A -> A -> Prop) l l' bs :
  (forall a a' b, R a a' -> f a = Returns b -> g a' = Returns b) ->
  related R l l' -> traverse f l = Returns bs -> exists bs', Permutation bs bs' /\ traverse g l' = Returns bs'.
Proof.
  intros HR [m [P F]] H. apply traverse_spec in H.
  destruct (Permutation_Forall2 P H) as [bs' [P' F']]. exists bs'. split; [exact P'|].
  apply traverse_spec. clear P P' H. revert l' F. induction F' as [|a b m bs' E F' IH]; intros l' F; inversion F; subst; constructor; eauto.
Qed.
Lemma all_back_related subs subs' fuel : (forall t bs, subs t = Returns bs -> exists bs', Permutation bs bs' /\ subs' t = Returns bs') ->
  forall dt r, all_rollback subs fuel dt = Returns r -> all_rollback subs' fuel dt = Returns r.
Proof.
  intros H. induction fuel as [|fuel IH]; intros dt r; cbn [all_rollback]; [discriminate|].
  destruct (subs dt) as [bs|e|] eqn:E; try discriminate. destruct (H _ _ E) as [bs' [P E']]. rewrite E'.
  rewrite <- (all_overlap_perm _ _ P), <- (min_right_perm _ _ P).
  destruct (all_overlap bs); [apply reduce_perm; exact P|]. apply IH.
Qed.
Lemma all_forward_related subs subs' fuel : (forall t bs, subs t = Returns bs -> exists bs', Permutation bs bs' /\ subs' t = Returns bs') ->
  forall dt r, all_rollforward subs fuel dt = Returns r -> all_rollforward subs' fuel dt = Returns r.
Proof.
  intros H. induction fuel as [|fuel IH]; intros dt r; cbn [all_rollforward]; [discriminate|].
  destruct (subs dt) as [bs|e|] eqn:E; try discriminate. destruct (H _ _ E) as [bs' [P E']]. rewrite E'.
  rewrite <- (all_overlap_perm _ _ P), <- (max_left_perm _ _ P).
  destruct (all_overlap bs); [apply reduce_perm; exact P|].
  rewrite <- (existsb_perm _ _ _ P). apply IH.
Qed.

Section Sub.
Context (cs : list string -> tperiod).
Lemma alike_refl p : alike cs p p. Proof. split; reflexivity. Qed.
Lemma alike_sym p q : alike cs p q -> alike cs q p.
Proof. intros H fuel dt i. destruct (H fuel dt i). split; symmetry; assumption. Qed.
Lemma alike_trans p q r : alike cs p q -> alike cs q r -> alike cs p r.
Proof. intros H K fuel dt i. destruct (H fuel dt i), (K fuel dt i). split; etransitivity; eassumption. Qed.
Lemma related_sym l l' : related (alike cs) l l' -> related (alike cs) l' l.
Proof.
  intros [m [P F]].
  destruct (Permutation_Forall2 (Permutation_sym P) F) as [m' [P' F'']].
  exists m'. split; [exact P'|]. clear - F''. induction F''; constructor; auto using alike_sym.
Qed.
Lemma all_related_1 l l' fuel dt i : related (alike cs) l l' ->
  (c_rollback cs fuel (CAll l) dt = Returns i -> c_rollback cs fuel (CAll l') dt = Returns i) /\
  (c_rollforward cs fuel (CAll l) dt = Returns i -> c_rollforward cs fuel (CAll l') dt = Returns i).
Proof.
  intros R. split; cbn [c_rollback c_rollforward].
  - apply all_back_related. intros t bs. apply (related_traverse _ _ (alike cs)); [|exact R].
    intros a a' b H. apply (H fuel t b).
  - apply all_forward_related. intros t bs. apply (related_traverse _ _ (alike cs)); [|exact R].
    intros a a' b H. apply (H fuel t b).
Qed.
Lemma all_related l l' : related (alike cs) l l' -> alike cs (CAll l) (CAll l').
Proof.
  intros R fuel dt i. pose proof (all_related_1 l l' fuel dt i R) as [A B].
  pose proof (all_related_1 l' l fuel dt i (related_sym _ _ R)) as [C D]. tauto.
Qed.
End Sub.

(** * Sameness *)
Lemma cperiod_rect' (P : cperiod -> Prop) :
  (forall p, P (CLeaf p)) -> (forall l, P (CCron l)) -> (forall b s e, P (CRel b s e)) ->
  (forall ps, Forall P ps -> P (CAll ps)) -> (forall ps, Forall P ps -> P (CAny ps)) -> forall p, P p.
Proof.
  intros HL HC HR HA HY. fix IH 1. intros [p|l|b s e|ps|ps].
  - apply HL.
  - apply HC.
  - apply HR.
  - apply HA. induction ps as [|p ps IHps]; constructor; [apply IH|exact IHps].
  - apply HY. induction ps as [|p ps IHps]; constructor; [apply IH|exact IHps].
Qed.
Lemma acls_eqb_eq a b : acls_eqb a b = true <-> a = b.
Proof. destruct a, b; cbn; split; congruence. Qed.
Lemma oeqb_eq a b : oeqb a b = true <-> a = b.
Proof. destruct a, b; cbn; split; try congruence; [intros H; f_equal; lia|intros H; injection H as ->; lia]. Qed.
Lemma texts_eqb_eq a : forall b, texts_eqb a b = true <-> a = b.
Proof.
  induction a as [|x a IH]; intros [|y b]; cbn; try (split; congruence).
  rewrite andb_true_iff, IH, String.eqb_eq. split; [intros [-> ->]; reflexivity|intros H; injection H as -> ->; auto].
Qed.
Lemma leaf_eqb_refl p : match p with PAll _ | PAny _ => leaf_eqb p p = false | _ => leaf_eqb p p = true end.
Proof.
  destruct p; cbn; rewrite ?Z.eqb_refl, ?(proj2 (acls_eqb_eq _ _) eq_refl), ?(proj2 (oeqb_eq _ _) eq_refl); reflexivity.
Qed.
Lemma leaf_eqb_sym p q : leaf_eqb p q = leaf_eqb q p.
Proof.
  destruct p, q; cbn; try reflexivity.
  - rewrite !(Z.eqb_sym (a_start p)), !(Z.eqb_sym (a_end p)). f_equal. f_equal. destruct (a_cls p), (a_cls p0); reflexivity.
  - rewrite (Z.eqb_sym start), (Z.eqb_sym end_). reflexivity.
  - rewrite (Z.eqb_sym past), (Z.eqb_sym future). reflexivity.
  - rewrite (Z.eqb_sym near). f_equal. destruct far, far0; cbn; try reflexivity. apply Z.eqb_sym.
Qed.
Ltac leafs := repeat match goal with
  | H : (_ && _)%bool = true |- _ => apply andb_true_iff in H as []
  | H : (_ =? _) = true |- _ => apply Z.eqb_eq in H
  | H : acls_eqb _ _ = true |- _ => apply acls_eqb_eq in H
  | H : oeqb _ _ = true |- _ => apply oeqb_eq in H
  end; subst.
Lemma leaf_eqb_trans p q r : leaf_eqb p q = true -> leaf_eqb q r = true -> leaf_eqb p r = true.
Proof.
  destruct p, q; cbn [leaf_eqb]; intros H; try discriminate H; destruct r; cbn [leaf_eqb]; intros K; try discriminate K; leafs;
  rewrite ?andb_true_iff, ?Z.eqb_eq, ?acls_eqb_eq, ?oeqb_eq; repeat split; congruence.
Qed.
(** Equal leaves have the same windows *)
Lemma leaf_alike cs p q : leaf_eqb p q = true -> alike cs (CLeaf p) (CLeaf q).
Proof.
  intros H fuel dt i. cbn [c_rollback c_rollforward].
  destruct p, q; cbn [leaf_eqb] in H; try discriminate H; leafs; cbn [rollback rollforward]; try (split; reflexivity).
  destruct p as [a b c], p0 as [a' b' c']; cbn in *. subst. split; reflexivity.
Qed.

Section Same.
Context (hash : list field -> Z).
Notation same := (same hash). Notation p_eqb := (p_eqb hash). Notation phash := (phash hash).

Lemma same_iff p q : same p q = true <-> phash p = phash q /\ p_eqb p q = true.
Proof. unfold Combine.same. rewrite andb_true_iff, Z.eqb_eq. reflexivity. Qed.
Lemma sets_iff ps qs : (forallb (fun x => existsb (fun y => (phash x =? phash y) && p_eqb x y) qs) ps &&
      forallb (fun y => existsb (fun x => (phash x =? phash y) && p_eqb x y) ps) qs)%bool = true <->
  (forall x, In x ps -> exists y, In y qs /\ same x y = true) /\ (forall y, In y qs -> exists x, In x ps /\ same x y = true).
Proof.
  rewrite andb_true_iff, !forallb_forall. split; intros [A B]; split; intros x Hx.
  - apply existsb_exists. exact (A x Hx).
  - apply existsb_exists. exact (B x Hx).
  - apply existsb_exists. exact (A x Hx).
  - apply existsb_exists. exact (B x Hx).
Qed.
Lemma p_eqb_all ps qs : p_eqb (CAll ps) (CAll qs) = true <->
  (forall x, In x ps -> exists y, In y qs /\ same x y = true) /\ (forall y, In y qs -> exists x, In x ps /\ same x y = true).
Proof. apply sets_iff. Qed.
Lemma p_eqb_any ps qs : p_eqb (CAny ps) (CAny qs) = true <->
  (forall x, In x ps -> exists y, In y qs /\ same x y = true) /\ (forall y, In y qs -> exists x, In x ps /\ same x y = true).
Proof. apply sets_iff. Qed.

Lemma p_eqb_sym_1 p : forall q, p_eqb p q = true -> p_eqb q p = true.
Proof.
  induction p as [p|l|b s e|ps IH|ps IH] using cperiod_rect'; intros q H; destruct q as [q|m|b' s' e'|qs|qs]; try discriminate H.
  - cbn in *. rewrite leaf_eqb_sym. exact H.
  - cbn in *. apply texts_eqb_eq in H. apply texts_eqb_eq. congruence.
  - reflexivity.
  - apply p_eqb_all in H as [A B]. apply p_eqb_all. rewrite Forall_forall in IH.
    split; [intros y Hy; destruct (B y Hy) as [x [Hx E]]; exists x|intros x Hx; destruct (A x Hx) as [y [Hy E]]; exists y]; (split; [assumption|]);
    apply same_iff in E as [E1 E2]; apply same_iff; (split; [congruence|apply (IH x Hx); exact E2]).
  - apply p_eqb_any in H as [A B]. apply p_eqb_any. rewrite Forall_forall in IH.
    split; [intros y Hy; destruct (B y Hy) as [x [Hx E]]; exists x|intros x Hx; destruct (A x Hx) as [y [Hy E]]; exists y]; (split; [assumption|]);
    apply same_iff in E as [E1 E2]; apply same_iff; (split; [congruence|apply (IH x Hx); exact E2]).
Qed.
Lemma p_eqb_trans p : forall q r, p_eqb p q = true -> p_eqb q r = true -> p_eqb p r = true.
Proof.
  induction p as [p|l|b s e|ps IH|ps IH] using cperiod_rect'; intros q r H K;
  destruct q as [q|m|b' s' e'|qs|qs]; try discriminate H; destruct r as [r|n|b'' s'' e''|rs|rs]; try discriminate K.
  - cbn in *. eapply leaf_eqb_trans; eassumption.
  - cbn in *. apply texts_eqb_eq in H, K. apply texts_eqb_eq. congruence.
  - reflexivity.
  - apply p_eqb_all in H as [A B], K as [C D]. apply p_eqb_all. rewrite Forall_forall in IH. split.
    + intros x Hx. destruct (A x Hx) as [y [Hy E]]. destruct (C y Hy) as [z [Hz F]]. exists z. split; [exact Hz|].
      apply same_iff in E as [E1 E2], F as [F1 F2]. apply same_iff. split; [congruence|]. eapply IH; eassumption.
    + intros z Hz. destruct (D z Hz) as [y [Hy F]]. destruct (B y Hy) as [x [Hx E]]. exists x. split; [exact Hx|].
      apply same_iff in E as [E1 E2], F as [F1 F2]. apply same_iff. split; [congruence|]. eapply IH; eassumption.
  - apply p_eqb_any in H as [A B], K as [C D]. apply p_eqb_any. rewrite Forall_forall in IH. split.
    + intros x Hx. destruct (A x Hx) as [y [Hy E]]. destruct (C y Hy) as [z [Hz F]]. exists z. split; [exact Hz|].
      apply same_iff in E as [E1 E2], F as [F1 F2]. apply same_iff. split; [congruence|]. eapply IH; eassumption.
    + intros z Hz. destruct (D z Hz) as [y [Hy F]]. destruct (B y Hy) as [x [Hx E]]. exists x. split; [exact Hx|].
      apply same_iff in E as [E1 E2], F as [F1 F2]. apply same_iff. split; [congruence|]. eapply IH; eassumption.
Qed.
Lemma same_sym p q : same p q = true -> same q p = true.
Proof. rewrite !same_iff. intros [A B]. split; [congruence|apply p_eqb_sym_1; exact B]. Qed.
Lemma same_trans p q r : same p q = true -> same q r = true -> same p r = true.
Proof. rewrite !same_iff. intros [A B] [C D]. split; [congruence|eapply p_eqb_trans; eassumption]. Qed.

Lemma f2_impl {A B} (P Q : A -> B -> Prop) l m : (forall a b, P a b -> Q a b) -> Forall2 P l m -> Forall2 Q l m.
Proof. intros H F. induction F; constructor; auto. Qed.
(** Two lists of different members that cover each other *)
Notation apart := (ForallOrdPairs (fun p q => same p q = false)).
Lemma apart_app l p l' : apart (l ++ p :: l') -> apart (l ++ l') /\ forall q, In q (l ++ l') -> same p q = false /\ same q p = false.
Proof.
  assert (S : forall a b, same a b = false -> same b a = false).
  { intros a b H. destruct (same b a) eqn:E; [|reflexivity]. apply same_sym in E. congruence. }
  induction l as [|x l IH]; cbn; intros H.
  - inversion H as [|? ? F G]; subst. split; [exact G|]. rewrite Forall_forall in F. intros q Hq. split; [|apply S]; apply F; exact Hq.
  - inversion H as [|? ? F G]; subst. destruct (IH G) as [I J]. rewrite Forall_forall in F. split.
    + constructor; [|exact I]. apply Forall_forall. intros q Hq. apply F. apply in_app_iff in Hq. apply in_app_iff. cbn. tauto.
    + intros q [<- |Hq]; [|apply J; exact Hq]. assert (X : same x p = false) by (apply F; apply in_app_iff; cbn; tauto). auto.
Qed.
Lemma covers l : forall l', apart l -> apart l' ->
  (forall x, In x l -> exists y, In y l' /\ same x y = true) -> (forall y, In y l' -> exists x, In x l /\ same x y = true) ->
  exists m, Permutation l' m /\ Forall2 (fun x y => In x l /\ In y l' /\ same x y = true) l m.
Proof.
  induction l as [|x l IH]; intros l' AL AL' A B.
  - destruct l' as [|y l']; [exists []; split; constructor|]. destruct (B y (or_introl eq_refl)) as [? [[] _]].
  - destruct (A x (or_introl eq_refl)) as [y [Hy E]]. apply in_split in Hy as [l1 [l2 ->]].
    destruct (apart_app _ _ _ AL') as [AL2 NY].
    assert (NX : forall z, In z l -> same x z = false /\ same z x = false) by (intros z Hz; exact (proj2 (apart_app [] x l AL) z Hz)).
    inversion AL as [|? ? _ AL1]; subst.
    destruct (IH (l1 ++ l2) AL1 AL2) as [m [P F]].
    + intros z Hz. destruct (A z (or_intror Hz)) as [w [Hw Ew]]. apply in_app_iff in Hw as [Hw|[<- |Hw]].
      * exists w. split; [apply in_app_iff; auto|exact Ew].
      * exfalso. destruct (NX z Hz) as [_ N]. apply same_sym in E. rewrite (same_trans _ _ _ Ew E) in N. discriminate.
      * exists w. split; [apply in_app_iff; auto|exact Ew].
    + intros w Hw. assert (Hw' : In w (l1 ++ y :: l2)). { apply in_app_iff in Hw. apply in_app_iff. cbn. tauto. }
      destruct (B w Hw') as [z [[<- |Hz] Ez]]; [|exists z; auto].
      exfalso. destruct (NY w Hw) as [N _]. apply same_sym in E. rewrite (same_trans _ _ _ E Ez) in N. discriminate.
    + exists (y :: m). split.
      * rewrite <- Permutation_middle. constructor. exact P.
      * constructor; [cbn; split; [auto|split; [apply in_app_iff; cbn; auto|exact E]]|].
        revert F. apply f2_impl. intros a b [Ha [Hb E']].
        split; [cbn; auto|]. split; [|exact E']. apply in_app_iff in Hb. apply in_app_iff. cbn. tauto.
Qed.

(** frozenset *)
Lemma frozen_from l : forall set, apart set ->
  apart (add_all hash set l) /\
  (forall q, In q (add_all hash set l) -> In q set \/ In q l) /\
  (forall q, In q set -> In q (add_all hash set l)) /\
  (forall q, In q l -> same q q = true -> exists p, In p (add_all hash set l) /\ same p q = true).
Proof.
  induction l as [|p l IH]; intros set A; cbn [add_all].
  - split; [exact A|]. split; [auto|]. split; [auto|]. intros q [].
  - set (s' := if existsb (fun q => same q p) set then set else set ++ [p]).
    assert (A' : apart s').
    { unfold s'. destruct (existsb (fun q => same q p) set) eqn:E; [exact A|].
      assert (N : forall q, In q set -> same q p = false).
      { intros q Hq. destruct (same q p) eqn:X; [|reflexivity]. assert (Y : existsb (fun q => same q p) set = true) by (apply existsb_exists; eauto). congruence. }
      clear E s' IH. induction A as [|x set F A IH]; cbn; [constructor; constructor|].
      constructor; [|apply IH; intros q Hq; apply N; right; exact Hq].
      apply Forall_app. split; [exact F|]. constructor; [apply N; left; reflexivity|constructor]. }
    destruct (IH s' A') as [I1 [I2 [I3 I4]]]. split; [exact I1|]. split; [|split].
    + intros q Hq. destruct (I2 q Hq) as [H|H]; [|cbn; auto]. unfold s' in H.
      destruct (existsb (fun q => same q p) set); [auto|]. apply in_app_iff in H as [H|[<- |[]]]; cbn; auto.
    + intros q Hq. apply I3. unfold s'. destruct (existsb (fun q => same q p) set); [exact Hq|]. apply in_app_iff. auto.
    + intros q [<- |Hq] R; [|apply I4; assumption]. destruct (existsb (fun q => same q p) set) eqn:E.
      * apply existsb_exists in E as [x [Hx Ex]]. exists x. split; [apply I3; unfold s'; exact Hx|exact Ex].
      * exists p. split; [apply I3; unfold s'; apply in_app_iff; cbn; auto|exact R].
Qed.
Lemma frozen_spec l : apart (frozen hash l) /\ (forall q, In q (frozen hash l) -> In q l) /\
  (forall q, In q l -> same q q = true -> exists p, In p (frozen hash l) /\ same p q = true).
Proof.
  destruct (frozen_from l [] (FOP_nil _)) as [A [B [_ D]]]. split; [exact A|]. split; [|exact D].
  intros q Hq. destruct (B q Hq) as [[]|H]. exact H.
Qed.
End Same.
