(** No period given to an intersection or a union is lost, and none comes in. *)
From Coq Require Import ZArith List Bool Permutation String Lia ZifyBool.
From Verif Require Import Model.Base Model.Interval Model.Calendar Model.Anchored Model.Period Model.Combine Spec.CombineSpec.
Import ListNotations.
Open Scope Z_scope.

Section Kept.
Context (hash : list field -> Z).

Lemma add_all_in l : forall set p, In p (add_all hash set l) -> In p set \/ In p l.
Proof using.
  induction l as [|x l IH]; intros set p; cbn [add_all In]; [auto|]. intros H. apply IH in H as [H|H]; [|auto].
  destruct (existsb _ set); [auto|]. apply in_app_iff in H as [H|[<- |[]]]; auto.
Qed.
Lemma add_all_keeps l : forall set p, In p set -> In p (add_all hash set l).
Proof using.
  induction l as [|x l IH]; intros set p H; cbn [add_all]; [exact H|]. apply IH.
  destruct (existsb _ set); [exact H|]. apply in_app_iff. auto.
Qed.
Lemma add_all_counts l : forall set p, In p l -> exists q, In q (add_all hash set l) /\ counts_as hash q p.
Proof using.
  induction l as [|x l IH]; intros set p; cbn [add_all In]; [intros []|]. intros [<- |H]; [|apply IH; exact H].
  destruct (existsb (fun q => same hash q x) set) eqn:E.
  - apply existsb_exists in E as [q [Hq E]]. exists q. split; [apply add_all_keeps; exact Hq|].
    right. unfold same in E. apply andb_true_iff in E as [_ E]. exact E.
  - exists x. split; [apply add_all_keeps, in_app_iff; right; now left|now left].
Qed.

Lemma part_more args x p : part args p -> part (x :: args) p.
Proof using. intros [r H N|ps r H K]; [apply part_given|eapply part_of]; try right; eassumption. Qed.
Lemma upart_more args x p : union_part args p -> union_part (x :: args) p.
Proof using. intros [r H N|ps r H K]; [apply upart_given|eapply upart_of]; try right; eassumption. Qed.
Lemma all_members_part args p : In p (call_members args) -> part args p.
Proof using.
  induction args as [|x args IH]; [intros []|]. intros H.
  assert (N : In p (x :: call_members args) -> (forall ps, x <> CAll ps) -> part (x :: args) p).
  { intros [<- |K] D; [apply part_given; [now left|exact D]|apply part_more, IH, K]. }
  destruct x as [q|line|b s e|ps|ps]; cbn [call_members] in H; try (apply N; [exact H|discriminate]).
  - destruct q; try (apply N; [exact H|discriminate]). apply part_more, IH, H.
  - apply in_app_iff in H as [H|H]; [eapply part_of; [now left|exact H]|apply part_more, IH, H].
Qed.
Lemma part_all_members args p : part args p -> In p (call_members args) \/ p = CLeaf PAlways.
Proof using.
  induction args as [|x args IH].
  - intros [q H _|ps q H _]; destruct H.
  - intros H.
    assert (C : (p = x /\ forall ps, x <> CAll ps) \/ (exists ps, x = CAll ps /\ In p ps) \/ part args p).
    { destruct H as [q H N|ps q H K]; (destruct H as [H|H]; [|]).
      - left. subst. auto.
      - right; right. apply part_given; assumption.
      - right; left. eauto.
      - right; right. eapply part_of; eassumption. }
    destruct C as [[-> D]|[[ps [-> D]]|D]].
    + destruct x as [q|line|b s e|ps|ps]; cbn [call_members]; try (left; now left).
      * destruct q; try (left; now left). now right.
      * destruct (D ps eq_refl).
    + left. cbn [call_members]. apply in_app_iff. now left.
    + apply IH in D as [D|D]; [left|now right].
      destruct x as [q|line|b s e|ps|ps]; cbn [call_members]; try (now right).
      * destruct q; try (now right). exact D.
      * apply in_app_iff. now right.
Qed.

Theorem all_kept order args p : an_order order -> new_all hash order args = Ok p ->
  exists ps, p = CAll ps /\ (forall a, part args a -> a <> CLeaf PAlways -> exists b, In b ps /\ counts_as hash b a) /\
    (forall b, In b ps -> part args b).
Proof using.
  intros O H. assert (E : p = CAll (order (frozen hash (call_members args)))) by (destruct args; cbn in H; [discriminate|now injection H as <-]).
  exists (order (frozen hash (call_members args))). split; [exact E|]. split.
  - intros a Ha N. destruct (part_all_members _ _ Ha) as [M|M]; [|contradiction].
    destruct (add_all_counts _ [] _ M) as [b [B C]]. exists b. split; [|exact C].
    eapply Permutation_in; [symmetry; apply O|exact B].
  - intros b B. apply (Permutation_in _ (O _)) in B. apply add_all_in in B as [[]|B]. apply all_members_part. exact B.
Qed.

Lemma any_members_always args : In (CLeaf PAlways) args -> forall acc, cany_members acc args = [CLeaf PAlways].
Proof using.
  induction args as [|x args IH]; [intros []|]. intros [-> |H] acc; [reflexivity|].
  destruct x as [q|line|b s e|ps|ps]; cbn [cany_members]; try (apply IH; exact H).
  destruct q; try (apply IH; exact H). reflexivity.
Qed.
Lemma any_members_in args : ~ In (CLeaf PAlways) args -> forall acc p,
  In p (cany_members acc args) <-> In p acc \/ union_part args p.
Proof using.
  induction args as [|x args IH]; intros N acc p.
  - cbn. split; [auto|]. intros [H|[q H _|ps q H _]]; [exact H|destruct H|destruct H].
  - assert (N' : ~ In (CLeaf PAlways) args) by (intros H; apply N; now right).
    assert (C : union_part (x :: args) p <-> (p = x /\ (forall ps, x <> CAny ps)) \/ (exists ps, x = CAny ps /\ In p ps) \/ union_part args p).
    { split.
      - intros [q H D|ps q H K]; (destruct H as [H|H]; [|]).
        + left. subst. auto.
        + right; right. apply upart_given; assumption.
        + right; left. eauto.
        + right; right. eapply upart_of; eassumption.
      - intros [[-> D]|[[ps [-> D]]|D]]; [apply upart_given; [now left|exact D]|eapply upart_of; [now left|exact D]|apply upart_more, D]. }
    assert (G : forall y, (forall ps, y <> CAny ps) -> In p (cany_members (acc ++ [y]) args) <->
       In p acc \/ (p = y /\ (forall ps, y <> CAny ps)) \/ (exists ps, y = CAny ps /\ In p ps) \/ union_part args p).
    { intros y D. rewrite (IH N'), in_app_iff. cbn [In]. split.
      - intros [[H|[<- |[]]]|H]; auto.
      - intros [H|[[-> _]|[[ps [E _]]|H]]]; auto. destruct (D ps E). }
    rewrite C. destruct x as [q|line|b s e|ps|ps]; cbn [cany_members]; try (apply G; discriminate).
    + destruct q; try (apply G; discriminate). destruct N. now left.
    + rewrite (IH N'), in_app_iff. split.
      * intros [[H|H]|H]; [now left|right; right; left; eauto|auto].
      * intros [H|[[_ D]|[[qs [E H]]|H]]]; [auto|destruct (D ps eq_refl)| |auto]. injection E as <-. auto.
Qed.

Lemma always_in (args : list cperiod) : In (CLeaf PAlways) args \/ ~ In (CLeaf PAlways) args.
Proof using.
  induction args as [|x args [IH|IH]]; [now right|left; now right|].
  assert (D : x = CLeaf PAlways \/ x <> CLeaf PAlways).
  { destruct x as [q|line|b s e|ps|ps]; try (right; discriminate). destruct q; try (right; discriminate). now left. }
  destruct D as [-> |D]; [left; now left|right; intros [H|H]; auto].
Qed.
Theorem any_kept order args p : an_order order -> new_any hash order args = Ok p ->
  exists ps, p = CAny ps /\ (In (CLeaf PAlways) args -> ps = [CLeaf PAlways]) /\
    (~ In (CLeaf PAlways) args -> forall a, union_part args a -> exists b, In b ps /\ counts_as hash b a) /\
    (forall b, In b ps -> union_part args b).
Proof using.
  intros O H. assert (E : p = CAny (order (frozen hash (cany_members [] args)))) by (destruct args; cbn in H; [discriminate|now injection H as <-]).
  exists (order (frozen hash (cany_members [] args))). split; [exact E|].
  assert (A : In (CLeaf PAlways) args -> order (frozen hash (cany_members [] args)) = [CLeaf PAlways]).
  { intros I. rewrite (any_members_always _ I). cbn. apply Permutation_length_1_inv. symmetry. apply O. }
  split; [exact A|]. split.
  - intros N a Ha. destruct (add_all_counts (cany_members [] args) [] a) as [b [B C]].
    { apply any_members_in; auto. }
    exists b. split; [|exact C]. eapply Permutation_in; [symmetry; apply O|exact B].
  - intros b B. destruct (always_in args) as [I|I].
    + rewrite (A I) in B. destruct B as [<- |[]]. apply upart_given; [exact I|discriminate].
    + apply (Permutation_in _ (O _)) in B. apply add_all_in in B as [[]|B]. apply any_members_in in B as [[]|B]; assumption.
Qed.
End Kept.
