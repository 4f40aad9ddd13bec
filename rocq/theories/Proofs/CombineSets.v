(** C73: intersections and unions of periods as sets. *)
From Coq Require Import ZArith List Bool Permutation Sorted String Lia ZifyBool.
From Verif Require Import Model.Base Model.Interval Model.Calendar Model.Anchored Model.Period Model.Combine Spec.CombineSpec
  Proofs.CombineProofs.
Import ListNotations.
Open Scope Z_scope.

Lemma folded {A} (P : A -> Prop) l : fold_right (fun q Q => P q /\ Q) True l <-> forall q, In q l -> P q.
Proof.
  induction l as [|a l IH]; cbn; [split; [intros _ q []|auto]|]. rewrite IH. split.
  - intros [H K] q [<- |Hq]; auto.
  - intros H. split; [apply H; auto|intros q Hq; apply H; auto].
Qed.
Lemma f2_perm_related {A} (R : A -> A -> Prop) l m l' : Permutation l' m -> Forall2 R l m -> (forall a b, R a b -> R b a) -> related R l' l.
Proof. intros P F S. exists m. split; [exact P|]. clear P. induction F; constructor; auto. Qed.

Lemma f2_flip {A B} (R : A -> B -> Prop) l m : Forall2 R l m -> Forall2 (fun b a => R a b) m l.
Proof. induction 1; constructor; auto. Qed.

Section Sets.
Context (hash : list field -> Z) (cs : list string -> tperiod).

Lemma p_eqb_refl p : made hash p -> p_eqb hash p p = true.
Proof.
  induction p as [p|l|b s e|ps IH|ps IH] using cperiod_rect'; intros M.
  - cbn in *. pose proof (leaf_eqb_refl p) as H. destruct p; try exact H; destruct M.
  - cbn. apply texts_eqb_eq. reflexivity.
  - reflexivity.
  - destruct M as [_ M]. rewrite (folded (made hash)) in M. rewrite Forall_forall in IH. apply p_eqb_all.
    split; intros x Hx; exists x; (split; [exact Hx|]); apply same_iff; split; auto.
  - destruct M as [_ M]. rewrite (folded (made hash)) in M. rewrite Forall_forall in IH. apply p_eqb_any.
    split; intros x Hx; exists x; (split; [exact Hx|]); apply same_iff; split; auto.
Qed.
Lemma same_refl p : made hash p -> same hash p p = true.
Proof. intros M. apply same_iff. split; [reflexivity|apply p_eqb_refl; exact M]. Qed.

(** Equal periods have the same windows *)
Lemma equal_alike p : forall q, made hash p -> made hash q -> plain p -> p_eqb hash p q = true -> alike cs p q.
Proof.
  induction p as [p|l|b s e|ps IH|ps IH] using cperiod_rect'; intros q M N PL E; destruct q as [q|m|b' s' e'|qs|qs]; try discriminate E.
  - apply leaf_alike. exact E.
  - cbn in E. apply texts_eqb_eq in E as ->. apply alike_refl.
  - destruct PL.
  - apply p_eqb_all in E as [A B]. cbn [made plain] in M, N, PL. destruct M as [AP M], N as [AQ N].
    rewrite (folded (made hash)) in M, N. rewrite (folded plain) in PL. rewrite Forall_forall in IH.
    destruct (covers hash ps qs AP AQ A B) as [m [P F]].
    apply alike_sym. apply all_related. apply (f2_perm_related _ _ _ _ P); [|apply alike_sym].
    revert F. apply f2_impl. intros x y [Hx [Hy S]]. apply same_iff in S as [_ S]. apply (IH x Hx y); auto.
  - destruct PL.
Qed.

Lemma in_call_members args p : In p (call_members args) -> part args p.
Proof.
  induction args as [|a args IH]; [intros []|].
  assert (W : part args p -> part (a :: args) p).
  { intros [q Hq Nq|ps q Hps Hq]; [apply part_given; [right; exact Hq|exact Nq]|eapply part_of; [right; exact Hps|exact Hq]]. }
  assert (G : (forall ps, a <> CAll ps) -> In p (a :: call_members args) -> part (a :: args) p).
  { intros Na [-> |H]; [apply part_given; [left; reflexivity|exact Na]|auto]. }
  destruct a as [t|l|b s e|ps|ps].
  - destruct t; cbn [call_members]; try (apply G; discriminate). auto.
  - apply G; discriminate.
  - apply G; discriminate.
  - cbn [call_members]. intros H. apply in_app_iff in H as [H|H]; [|auto]. eapply part_of; [left; reflexivity|exact H].
  - apply G; discriminate.
Qed.
Lemma call_members_app l1 l2 : call_members (l1 ++ l2) = call_members l1 ++ call_members l2.
Proof.
  induction l1 as [|a l1 IH]; [reflexivity|]. cbn [app]. destruct a as [t|l|b s e|ps|ps]; cbn [call_members];
  try destruct t; rewrite ?IH; cbn [app]; rewrite <- ?app_assoc; reflexivity.
Qed.
Lemma call_members_same a b : same_args a b -> forall p, In p (call_members a) -> In p (call_members b).
Proof.
  intros H p Hp.
  assert (X : exists x, In x a /\ In p (call_members [x])).
  { clear H. induction a as [|x a IH]; [destruct Hp|]. change (x :: a) with ([x] ++ a) in Hp. rewrite call_members_app in Hp.
    apply in_app_iff in Hp as [Hp|Hp]; [exists x; cbn [In]; auto|]. destruct (IH Hp) as [y [Hy Ey]]. exists y; cbn [In]; auto. }
  destruct X as [x [Hx Ex]]. apply H in Hx. apply in_split in Hx as [l1 [l2 ->]].
  change (x :: l2) with ([x] ++ l2). rewrite !call_members_app. apply in_app_iff. right. apply in_app_iff. auto.
Qed.

Lemma perm_apart l l' : Permutation l l' -> ForallOrdPairs (fun p q => same hash p q = false) l -> ForallOrdPairs (fun p q => same hash p q = false) l'.
Proof.
  assert (S : forall a b, same hash a b = false -> same hash b a = false).
  { intros a b H. destruct (same hash b a) eqn:E; [|reflexivity]. apply same_sym in E. congruence. }
  induction 1 as [|x l l' P IH|x y l|l1 l2 l3 P1 IH1 P2 IH2]; intros H; auto.
  - inversion H as [|? ? F G]; subst. constructor; [|auto]. rewrite Forall_forall in F |- *. intros z Hz. apply F.
    eapply Permutation_in; [symmetry; exact P|exact Hz].
  - inversion H as [|? ? F G]; subst. inversion G as [|? ? F' G']; subst. inversion F as [|? ? Fx F'']; subst.
    constructor; [constructor; [apply S; exact Fx|exact F']|]. constructor; assumption.
Qed.

Lemma all_set o1 o2 args args' p q :
  an_order o1 -> an_order o2 -> (forall a, part args a -> made hash a) ->
  (forall a b, part args a -> part args b -> p_eqb hash a b = true -> alike cs a b) ->
  same_args args args' -> new_all hash o1 args = Ok p -> new_all hash o2 args' = Ok q -> alike cs p q.
Proof.
  intros O1 O2 M E S H1 H2.
  destruct args as [|a0 args0] eqn:Ea; [discriminate|]. destruct args' as [|b0 args0'] eqn:Eb; [discriminate|].
  rewrite <- Ea, <- Eb in *. cbn in H1, H2.
  assert (H1' : p = CAll (o1 (frozen hash (call_members args)))) by (rewrite Ea in *; cbn in *; congruence).
  assert (H2' : q = CAll (o2 (frozen hash (call_members args')))) by (rewrite Eb in *; cbn in *; congruence).
  clear H1 H2 Ea Eb a0 b0 args0 args0'. subst p q.
  destruct (frozen_spec hash (call_members args)) as [A1 [B1 C1]], (frozen_spec hash (call_members args')) as [A2 [B2 C2]].
  set (f1 := frozen hash (call_members args)) in *. set (f2 := frozen hash (call_members args')) in *.
  assert (S' : same_args args' args) by (intros x; symmetry; apply S).
  destruct (covers hash f1 f2 A1 A2) as [m [P F]].
  { intros x Hx. apply B1 in Hx. assert (Mx := same_refl x (M x (in_call_members _ _ Hx))).
    destruct (C2 x (call_members_same _ _ S _ Hx) Mx) as [y [Hy Ey]]. exists y. split; [exact Hy|apply same_sym; exact Ey]. }
  { intros y Hy. apply B2 in Hy. apply (call_members_same _ _ S') in Hy. assert (My := same_refl y (M y (in_call_members _ _ Hy))).
    destruct (C1 y Hy My) as [x [Hx Ex]]. exists x. auto. }
  assert (R : related (alike cs) f2 f1).
  { apply (f2_perm_related _ _ _ _ P); [|apply alike_sym]. revert F. apply f2_impl. intros x y [Hx [Hy Exy]].
    apply same_iff in Exy as [_ Exy]. apply E; [apply in_call_members; auto| |exact Exy].
    apply in_call_members. apply (call_members_same _ _ S'). auto. }
  apply all_related. destruct (related_sym _ _ _ R) as [m' [P' F']].
  (* o1 f1 ~ f1 ~ m' ; Forall2 alike m' f2 ; f2 ~ o2 f2 *)
  destruct (Permutation_Forall2 (Permutation_sym (O2 f2)) (f2_flip _ _ _ F')) as [m2 [P2 F2]].
  exists m2. split; [rewrite (O1 f1), P'; exact P2|]. apply (f2_flip _ _ _ F2).
Qed.
End Sets.

(** * Unions *)
Lemma traverse_perm {A B} (f : A -> outcome B) l l' bs : Permutation l l' -> traverse f l = Returns bs ->
  exists bs', Permutation bs bs' /\ traverse f l' = Returns bs'.
Proof.
  intros P H. apply (related_traverse f f eq l l' bs); [intros a a' b <-; auto| |exact H].
  exists l'. split; [exact P|]. clear. induction l'; constructor; auto.
Qed.
Lemma insert_left_perm i l : Permutation (insert_by_left i l) (i :: l).
Proof.
  induction l as [|j l IH]; [reflexivity|]. cbn [insert_by_left]. destruct (left j <? left i); [|reflexivity].
  rewrite IH. constructor.
Qed.
Lemma sort_left_perm l : Permutation (sort_by_left l) l.
Proof. induction l as [|i l IH]; [reflexivity|]. cbn [sort_by_left fold_right]. rewrite insert_left_perm. constructor. exact IH. Qed.
Lemma insert_right_perm i l : Permutation (insert_by_right_desc i l) (i :: l).
Proof.
  induction l as [|j l IH]; [reflexivity|]. cbn [insert_by_right_desc]. destruct (right i <? right j); [|reflexivity].
  rewrite IH. constructor.
Qed.
Lemma sort_right_perm l : Permutation (sort_by_right_desc l) l.
Proof. induction l as [|i l IH]; [reflexivity|]. cbn [sort_by_right_desc fold_right]. rewrite insert_right_perm. constructor. exact IH. Qed.
Lemma sort_left_sorted l : StronglySorted (fun a b : interval Z => left a <= left b) (sort_by_left l).
Proof.
  induction l as [|i l IH]; [constructor|]. cbn [sort_by_left fold_right]. fold (sort_by_left l).
  induction IH as [|j m S IHm F]; cbn [insert_by_left]; [constructor; constructor|].
  destruct (left j <? left i) eqn:E.
  - constructor; [exact IHm|]. rewrite Forall_forall in F |- *. intros k Hk. apply (Permutation_in _ (insert_left_perm i m)) in Hk as [<- |Hk]; [lia|auto].
  - constructor; [constructor; assumption|]. constructor; [lia|]. rewrite Forall_forall in F |- *. intros k Hk. specialize (F k Hk). cbn in F. lia.
Qed.
Lemma sort_right_sorted l : StronglySorted (fun a b : interval Z => right b <= right a) (sort_by_right_desc l).
Proof.
  induction l as [|i l IH]; [constructor|]. cbn [sort_by_right_desc fold_right]. fold (sort_by_right_desc l).
  induction IH as [|j m S IHm F]; cbn [insert_by_right_desc]; [constructor; constructor|].
  destruct (right i <? right j) eqn:E.
  - constructor; [exact IHm|]. rewrite Forall_forall in F |- *. intros k Hk. apply (Permutation_in _ (insert_right_perm i m)) in Hk as [<- |Hk]; [lia|auto].
  - constructor; [constructor; assumption|]. constructor; [lia|]. rewrite Forall_forall in F |- *. intros k Hk. specialize (F k Hk). cbn in F. lia.
Qed.
Lemma sorted_unique (key : interval Z -> Z) (R : Z -> Z -> Prop) (anti : forall a b, R a b -> R b a -> a = b) l : forall l',
  StronglySorted (fun a b => R (key a) (key b)) l -> StronglySorted (fun a b => R (key a) (key b)) l' ->
  NoDup (map key l) -> Permutation l l' -> l = l'.
Proof.
  induction l as [|a l IH]; intros l' S S' N P; [apply Permutation_nil in P; congruence|].
  destruct l' as [|b l']; [symmetry in P; apply Permutation_nil in P; discriminate|].
  inversion S as [|? ? S1 F1]; subst. inversion S' as [|? ? S2 F2]; subst. inversion N as [|? ? N1 N2]; subst.
  rewrite Forall_forall in F1, F2.
  assert (Eab : a = b).
  { assert (Ha : In a (b :: l')) by (eapply Permutation_in; [exact P|left; reflexivity]).
    assert (Hb : In b (a :: l)) by (eapply Permutation_in; [symmetry; exact P|left; reflexivity]).
    destruct Ha as [<- |Ha]; [reflexivity|]. destruct Hb as [<- |Hb]; [reflexivity|]. exfalso.
    apply N1. rewrite (anti _ _ (F1 b Hb) (F2 a Ha)). apply in_map. exact Hb. }
  subst b. f_equal. apply IH; auto. apply Permutation_cons_inv with a. exact P.
Qed.
Lemma any_back_distinct l l' : Permutation l l' -> NoDup (map right l) -> any_back l = any_back l'.
Proof.
  intros P N. unfold any_back. replace (sort_by_right_desc l') with (sort_by_right_desc l); [reflexivity|].
  apply (sorted_unique right (fun a b => b <= a)); [intros; lia|apply sort_right_sorted|apply sort_right_sorted| |].
  - eapply Permutation_NoDup; [|exact N]. apply Permutation_map. symmetry. apply sort_right_perm.
  - rewrite !sort_right_perm. exact P.
Qed.
Lemma any_forward_distinct l l' : Permutation l l' -> NoDup (map left l) -> any_forward l = any_forward l'.
Proof.
  intros P N. unfold any_forward. replace (sort_by_left l') with (sort_by_left l); [reflexivity|].
  apply (sorted_unique left Z.le); [intros; lia|apply sort_left_sorted|apply sort_left_sorted| |].
  - eapply Permutation_NoDup; [|exact N]. apply Permutation_map. symmetry. apply sort_left_perm.
  - rewrite !sort_left_perm. exact P.
Qed.
Lemma extend_right_more l : forall c, right c <= right (extend_right c l).
Proof.
  induction l as [|i l IH]; intros c; cbn [extend_right]; [lia|].
  destruct (right c <? right i) eqn:E; cbn [andb]; [|lia]. destruct (overlaps Z_ops i c); [|lia]. specialize (IH i). lia.
Qed.
(** Whether a moment is in a union, all windows from it on being real ones *)
Lemma any_forward_in l t : l <> [] -> (forall i, In i l -> t <= left i < right i) ->
  exists j, any_forward l = Returns j /\ (contains Z_ops j t = true <-> exists i, In i l /\ left i = t).
Proof.
  intros N H. unfold any_forward. pose proof (sort_left_perm l) as P. pose proof (sort_left_sorted l) as S.
  destruct (sort_by_left l) as [|s rest] eqn:E; [apply Permutation_nil in P; congruence|].
  assert (Hs : t <= left s < right s). { apply H. eapply Permutation_in; [exact P|left; reflexivity]. }
  pose proof (extend_right_more rest s) as X.
  unfold ivl, mk_interval, Z_ops; cbn [op_lt]. destruct (right (extend_right s rest) <? left s) eqn:E1; [lia|]. cbn [of_result].
  eexists. split; [reflexivity|]. unfold contains; cbn [closed left right op_le op_lt]. split.
  - intros C. exists s. split; [eapply Permutation_in; [exact P|left; reflexivity]|]. lia.
  - intros [i [Hi Ei]]. inversion S as [|? ? _ F]; subst. rewrite Forall_forall in F.
    apply (Permutation_in _ (Permutation_sym P)) in Hi as [<- |Hi]; [lia|]. specialize (F i Hi). cbn in F. lia.
Qed.
Lemma any_back_two i j : left i < right i -> left j < right j -> any_back [i; j] = any_back [j; i].
Proof.
  intros Hi Hj. unfold any_back, sort_by_right_desc. cbn [fold_right insert_by_right_desc].
  destruct (right i <? right j) eqn:E1; destruct (right j <? right i) eqn:E2; try reflexivity; try lia.
  assert (O : overlaps Z_ops i j = true).
  { unfold overlaps, Z_ops; cbn [op_lt op_eq]. destruct (right i <? left j) eqn:A; [lia|]. destruct (right j <? left i) eqn:B; [lia|]. cbn [orb].
    destruct (right i =? left j) eqn:C; [lia|]. destruct (left i =? right j) eqn:D; [lia|]. reflexivity. }
  cbn [extend_left]. rewrite (ov_comm j i), O, !andb_true_r.
  destruct (left j <? left i) eqn:A; destruct (left i <? left j) eqn:B; try lia; f_equal; lia.
Qed.
Lemma any_forward_two i j : left i < right i -> left j < right j -> any_forward [i; j] = any_forward [j; i].
Proof.
  intros Hi Hj. unfold any_forward, sort_by_left. cbn [fold_right insert_by_left].
  destruct (left i <? left j) eqn:E1; destruct (left j <? left i) eqn:E2; try reflexivity; try lia.
  assert (O : overlaps Z_ops i j = true).
  { unfold overlaps, Z_ops; cbn [op_lt op_eq]. destruct (right i <? left j) eqn:A; [lia|]. destruct (right j <? left i) eqn:B; [lia|]. cbn [orb].
    destruct (right i =? left j) eqn:C; [lia|]. destruct (left i =? right j) eqn:D; [lia|]. reflexivity. }
  cbn [extend_right]. rewrite (ov_comm j i), O, !andb_true_r.
  destruct (right i <? right j) eqn:A; destruct (right j <? right i) eqn:B; try lia; f_equal; lia.
Qed.

Section Unions.
Context (cs : list string -> tperiod).
Lemma any_contains_order l l' fuel t : l <> [] -> Permutation l l' ->
  (forall p, In p l -> exists i, c_rollforward cs fuel p t = Returns i /\ t <= left i < right i) ->
  exists b, c_contains cs fuel (CAny l) t = Returns b /\ c_contains cs fuel (CAny l') t = Returns b.
Proof.
  intros N P H. cbn [c_contains c_rollforward].
  assert (T : exists is, traverse (fun q => c_rollforward cs fuel q t) l = Returns is /\ forall i, In i is -> t <= left i < right i).
  { clear N P. induction l as [|p l IH]; [exists []; cbn; split; [reflexivity|intros i []]|].
    destruct IH as [is [E F]]; [intros q Hq; apply H; right; exact Hq|]. destruct (H p (or_introl eq_refl)) as [i [Ei Bi]].
    exists (i :: is). cbn [traverse]. rewrite Ei, E. split; [reflexivity|]. intros j [<- |Hj]; auto. }
  destruct T as [is [E F]]. destruct (traverse_perm _ _ _ _ P E) as [is' [P' E']]. rewrite E, E'. cbn [obind].
  assert (Ni : is <> []). { intros ->. apply traverse_spec in E. inversion E. congruence. }
  assert (Ni' : is' <> []). { intros ->. symmetry in P'. apply Permutation_nil in P'. congruence. }
  destruct (any_forward_in is t Ni F) as [j [Ej Cj]].
  destruct (any_forward_in is' t Ni') as [j' [Ej' Cj']]. { intros i Hi. apply F. eapply Permutation_in; [symmetry; exact P'|exact Hi]. }
  rewrite Ej, Ej'. cbn [obind]. exists (contains Z_ops j t). split; [reflexivity|]. f_equal.
  assert (X : contains Z_ops j' t = true <-> contains Z_ops j t = true).
  { rewrite Cj, Cj'. split; intros [i [Hi Ei]]; exists i; (split; [|exact Ei]); eapply Permutation_in; try exact Hi; [symmetry|]; exact P'. }
  destruct (contains Z_ops j t), (contains Z_ops j' t); try reflexivity; destruct X as [X Y]; [discriminate (Y eq_refl)|discriminate (X eq_refl)].
Qed.
Lemma any_back_order l l' fuel dt : Permutation l l' ->
  (forall is, Forall2 (fun p i => c_rollback cs fuel p dt = Returns i) l is -> NoDup (map right is)) ->
  forall i, c_rollback cs fuel (CAny l) dt = Returns i -> c_rollback cs fuel (CAny l') dt = Returns i.
Proof.
  intros P H i. cbn [c_rollback]. destruct (traverse (fun q => c_rollback cs fuel q dt) l) as [is|e|] eqn:E; try discriminate.
  destruct (traverse_perm _ _ _ _ P E) as [is' [P' E']]. rewrite E'. cbn [obind].
  rewrite (any_back_distinct _ _ P'); [auto|]. apply H. apply traverse_spec. exact E.
Qed.
Lemma any_forward_order l l' fuel dt : Permutation l l' ->
  (forall is, Forall2 (fun p i => c_rollforward cs fuel p dt = Returns i) l is -> NoDup (map left is)) ->
  forall i, c_rollforward cs fuel (CAny l) dt = Returns i -> c_rollforward cs fuel (CAny l') dt = Returns i.
Proof.
  intros P H i. cbn [c_rollforward]. destruct (traverse (fun q => c_rollforward cs fuel q dt) l) as [is|e|] eqn:E; try discriminate.
  destruct (traverse_perm _ _ _ _ P E) as [is' [P' E']]. rewrite E'. cbn [obind].
  rewrite (any_forward_distinct _ _ P'); [auto|]. apply H. apply traverse_spec. exact E.
Qed.
Lemma any_two p q fuel dt :
  (forall i j, c_rollback cs fuel p dt = Returns i -> c_rollback cs fuel q dt = Returns j -> left i < right i -> left j < right j ->
    c_rollback cs fuel (CAny [p; q]) dt = c_rollback cs fuel (CAny [q; p]) dt) /\ (forall i j, c_rollforward cs fuel p dt = Returns i -> c_rollforward cs fuel q dt = Returns j -> left i < right i -> left j < right j ->
    c_rollforward cs fuel (CAny [p; q]) dt = c_rollforward cs fuel (CAny [q; p]) dt).
Proof.
  split; intros i j E1 E2 H1 H2; cbn [c_rollback c_rollforward traverse]; rewrite E1, E2; cbn [obind];
  [apply any_back_two|apply any_forward_two]; assumption.
Qed.
End Unions.
