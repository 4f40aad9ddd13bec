(** Proofs about dependency listings. *)
From Coq Require Import Bool Arith Lia ZifyBool String.
From Verif Require Import Model.Base Model.Condition Model.World Model.Registry Model.Depend.
From Verif Require Import Spec.ConditionSpec Spec.RegistrySpec Spec.DependSpec Proofs.RegistryProofs.
Open Scope nat_scope.

Section D.
  Variable dep : nat -> option (relation * string).
  Variable st : store.
  Variable s : nat.

  Lemma sub_ok child k : forall cs ls, sub_links dep st s child k cs = Ok ls ->
    forall l, In l ls <-> l_child l = child /\ l_type l = Some k /\
      exists a n, In (CAtom a) cs /\ dep a = Some (l_relation l, n) /\ lookup st s n = Ok (l_parent l).
  Proof using.
    induction cs as [|c cs IH]; intros ls H l; cbn [sub_links] in H.
    - injection H as <-. split; [intros []|]. intros (_ & _ & a & n & [] & _).
    - destruct (is_dep dep c) as [[r n]|] eqn:D.
      + destruct (lookup st s n) as [p|e] eqn:L; [|discriminate].
        destruct (sub_links dep st s child k cs) as [ls'|e] eqn:R; [|discriminate]. injection H as <-.
        specialize (IH ls' eq_refl l). destruct c as [| |a| | |]; try discriminate D. cbn [is_dep] in D. split.
        * intros [<- | I].
          -- cbn [l_child l_type l_relation l_parent]. split; [reflexivity|]. split; [reflexivity|].
             exists a, n. split; [now left|]. split; assumption.
          -- apply IH in I as (I1 & I2 & b & m & I3 & I4). split; [exact I1|]. split; [exact I2|].
             exists b, m. split; [now right|exact I4].
        * intros (I1 & I2 & b & m & [I3|I3] & I4 & I5).
          -- injection I3 as <-. left. rewrite D in I4. injection I4 as Er En. rewrite <- En, L in I5. injection I5 as Ep.
             destruct l as [p' c' r' t']. cbn in *. now subst.
          -- right. apply IH. split; [exact I1|]. split; [exact I2|]. exists b, m. auto.
      + specialize (IH ls H l). rewrite IH. split.
        * intros (I1 & I2 & b & m & I3 & I4). split; [exact I1|]. split; [exact I2|]. exists b, m. split; [now right|exact I4].
        * intros (I1 & I2 & b & m & [I3|I3] & I4 & I5).
          -- subst c. cbn [is_dep] in D. rewrite D in I4. discriminate.
          -- split; [exact I1|]. split; [exact I2|]. exists b, m. auto.
  Qed.
  Lemma sub_err child k : forall cs e, sub_links dep st s child k cs = Err e ->
    e = KeyError /\ exists a r n, In (CAtom a) cs /\ dep a = Some (r, n) /\ ~ used st s n.
  Proof using.
    induction cs as [|c cs IH]; intros e H; cbn [sub_links] in H; [discriminate|].
    assert (Rec : sub_links dep st s child k cs = Err e ->
      e = KeyError /\ exists a r n, In (CAtom a) (c :: cs) /\ dep a = Some (r, n) /\ ~ used st s n).
    { intros R. apply IH in R as (E & a & r & n & I & R). split; [exact E|]. exists a, r, n. split; [now right|exact R]. }
    destruct (is_dep dep c) as [[r n]|] eqn:D; [|now apply Rec].
    destruct (lookup st s n) as [p|e'] eqn:L.
    - destruct (sub_links dep st s child k cs) as [ls'|e'] eqn:R; [discriminate|]. injection H as ->. now apply Rec.
    - injection H as ->. apply lookup_err in L as [-> L]. split; [reflexivity|].
      destruct c as [| |a| | |]; try discriminate D. exists a, r, n. split; [now left|]. split; assumption.
  Qed.

  Lemma get_ok child ls : get_links dep st s child = Ok ls ->
    forall l, In l ls <-> l_child l = child /\
      exists a n, part_of (o_start (st_obj st child)) a (l_type l) /\
        dep a = Some (l_relation l, n) /\ lookup st s n = Ok (l_parent l).
  Proof using.
    unfold get_links. intros H l. destruct (o_start (st_obj st child)) as [| |a|cs|cs|c]; cbn [is_dep] in H.
    - injection H as <-. split; [intros []|]. intros (_ & a & n & P & _). inversion P.
    - injection H as <-. split; [intros []|]. intros (_ & a & n & P & _). inversion P.
    - destruct (dep a) as [[r n]|] eqn:D.
      + destruct (lookup st s n) as [p|e] eqn:L; [|discriminate]. injection H as <-. split.
        * intros [<- | []]. split; [reflexivity|]. exists a, n. split; [constructor|]. split; assumption.
        * intros (I1 & b & m & P & I4 & I5). inversion P as [x Ex Ey Et| |]; subst. left. rewrite D in I4. injection I4 as Er En.
          rewrite <- En, L in I5. injection I5 as Ep. destruct l as [p' c' r' t']. cbn in *. now subst.
      + injection H as <-. split; [intros []|]. intros (_ & b & m & P & I4 & _). inversion P; subst. congruence.
    - rewrite (sub_ok _ _ _ _ H l). split.
      + intros (I1 & I2 & a & n & I3 & I4). split; [exact I1|]. exists a, n. rewrite I2. split; [now constructor|exact I4].
      + intros (I1 & a & n & P & I4). inversion P; subst. split; [reflexivity|]. split; [reflexivity|]. exists a, n. auto.
    - rewrite (sub_ok _ _ _ _ H l). split.
      + intros (I1 & I2 & a & n & I3 & I4). split; [exact I1|]. exists a, n. rewrite I2. split; [now constructor|exact I4].
      + intros (I1 & a & n & P & I4). inversion P; subst. split; [reflexivity|]. split; [reflexivity|]. exists a, n. auto.
    - injection H as <-. split; [intros []|]. intros (_ & a & n & P & _). inversion P.
  Qed.
  Lemma get_err child e : get_links dep st s child = Err e ->
    e = KeyError /\ exists a k r n, part_of (o_start (st_obj st child)) a k /\ dep a = Some (r, n) /\ ~ used st s n.
  Proof using.
    unfold get_links. destruct (o_start (st_obj st child)) as [| |a|cs|cs|c]; cbn [is_dep]; try discriminate.
    - destruct (dep a) as [[r n]|] eqn:D; [|discriminate]. destruct (lookup st s n) as [p|e'] eqn:L; [discriminate|].
      intros [= ->]. apply lookup_err in L as [-> L]. split; [reflexivity|]. exists a, None, r, n. split; [constructor|]. now split.
    - intros H. apply sub_err in H as (E & a & r & n & I & H). split; [exact E|]. exists a, (Some InAny), r, n. split; [now constructor|exact H].
    - intros H. apply sub_err in H as (E & a & r & n & I & H). split; [exact E|]. exists a, (Some InAll), r, n. split; [now constructor|exact H].
  Qed.

  Lemma all_ok : forall ts ls, all_links dep st s ts = Ok ls ->
    forall l, In l ls <-> In (l_child l) ts /\
      exists a n, part_of (o_start (st_obj st (l_child l))) a (l_type l) /\
        dep a = Some (l_relation l, n) /\ lookup st s n = Ok (l_parent l).
  Proof using.
    induction ts as [|i ts IH]; intros ls H l; cbn [all_links] in H.
    - injection H as <-. split; [intros []|]. intros ([] & _).
    - destruct (get_links dep st s i) as [a|e] eqn:G; [|discriminate].
      destruct (all_links dep st s ts) as [b|e] eqn:A; [|discriminate]. injection H as <-.
      rewrite in_app_iff, (get_ok i a G l), (IH b eq_refl l). split.
      + intros [(E & X) | (E & X)]; [rewrite <- E in X; split; [left; congruence|exact X]|split; [now right|exact X]].
      + intros ([E|E] & X); [left; split; [congruence|]; now rewrite E|right; now split].
  Qed.
  Lemma all_err : forall ts e, all_links dep st s ts = Err e ->
    e = KeyError /\ exists i a k r n, In i ts /\ part_of (o_start (st_obj st i)) a k /\ dep a = Some (r, n) /\ ~ used st s n.
  Proof using.
    induction ts as [|i ts IH]; intros e H; cbn [all_links] in H; [discriminate|].
    destruct (get_links dep st s i) as [a|e'] eqn:G.
    - destruct (all_links dep st s ts) as [b|e'] eqn:A; [discriminate|]. injection H as ->.
      destruct (IH e eq_refl) as (E & j & a' & k & r & n & I & R). split; [exact E|]. exists j, a', k, r, n. split; [now right|exact R].
    - injection H as ->. apply get_err in G as (E & a & k & r & n & R). split; [exact E|]. exists i, a, k, r, n. split; [now left|exact R].
  Qed.

  Theorem listed : known dep st s ->
    exists ls, get_dependencies dep st s = Ok ls /\ forall l, In l ls <-> depends dep st s l.
  Proof using.
    intros K. unfold get_dependencies. destruct (all_links dep st s (st_tasks st s)) as [ls|e] eqn:A.
    - exists ls. split; [reflexivity|]. intros l. exact (all_ok _ _ A l).
    - exfalso. apply all_err in A as (_ & i & a & k & r & n & I & P & D & N). apply N. exact (K i a k r n I P D).
  Qed.
  Theorem unknown : ~ known dep st s -> get_dependencies dep st s = Err KeyError.
  Proof using.
    intros K. unfold get_dependencies. destruct (all_links dep st s (st_tasks st s)) as [ls|e] eqn:A.
    - exfalso. apply K. intros i a k r n I P D. apply contains_spec. destruct (contains st s n) eqn:C; [reflexivity|].
      apply not_contains in C. exfalso. unfold task_of in I. revert ls A I. clear K. induction (st_tasks st s) as [|j ts IH]; intros ls A I; [destruct I|].
      cbn [all_links] in A. destruct (get_links dep st s j) as [x|e] eqn:G; [|discriminate].
      destruct (all_links dep st s ts) as [b|e] eqn:A'; [|discriminate]. destruct I as [->|I]; [|exact (IH b eq_refl I)].
      unfold get_links in G. clear IH. inversion P as [y Ey|cs y Y Ey|cs y Y Ey]; subst.
      + rewrite <- Ey in G. cbn [is_dep] in G. rewrite D in G.
        destruct (lookup st s n) as [q|] eqn:L; [|discriminate]. apply lookup_ok in L. apply C. now exists q.
      + rewrite <- Ey in G. clear Ey P A. revert x G. induction cs as [|c cs IH]; intros x G; [destruct Y|].
        cbn [sub_links] in G. destruct Y as [->|Y].
        * cbn [is_dep] in G. rewrite D in G.
          destruct (lookup st s n) as [q|] eqn:L; [|discriminate]. apply lookup_ok in L. apply C. now exists q.
        * destruct (is_dep dep c) as [[r' n']|]; [|exact (IH Y x G)]. destruct (lookup st s n'); [|discriminate].
          destruct (sub_links dep st s i InAny cs) as [z|] eqn:Z; [|discriminate]. exact (IH Y z eq_refl).
      + rewrite <- Ey in G. clear Ey P A. revert x G. induction cs as [|c cs IH]; intros x G; [destruct Y|].
        cbn [sub_links] in G. destruct Y as [->|Y].
        * cbn [is_dep] in G. rewrite D in G.
          destruct (lookup st s n) as [q|] eqn:L; [|discriminate]. apply lookup_ok in L. apply C. now exists q.
        * destruct (is_dep dep c) as [[r' n']|]; [|exact (IH Y x G)]. destruct (lookup st s n'); [|discriminate].
          destruct (sub_links dep st s i InAll cs) as [z|] eqn:Z; [|discriminate]. exact (IH Y z eq_refl).
    - now apply all_err in A as [-> _].
  Qed.
End D.

(** * What combinations of atoms become *)
Lemma all_subs_and a b : c_and a b = CAll (all_subs [a; b]).
Proof. reflexivity. Qed.
Lemma joined_and e a : joined_by_and e a -> (exists b, e = XAtom b /\ b = a) \/
  exists cs, cbuild e = CAll cs /\ In (CAtom a) cs.
Proof.
  intros J. induction J as [a|e f a J IH|e f a J IH]; [left; eauto| |]; right; cbn [cbuild];
    rewrite all_subs_and; eexists; (split; [reflexivity|]); unfold all_subs; cbn [flat_map]; rewrite app_nil_r; apply in_or_app.
  - left. destruct IH as [(b & -> & ->) | (cs & E & I)]; [now left|]. rewrite E. exact I.
  - right. destruct IH as [(b & -> & ->) | (cs & E & I)]; [now left|]. rewrite E. exact I.
Qed.
Lemma joined_or e a : joined_by_or e a -> (exists b, e = XAtom b /\ b = a) \/
  exists cs, cbuild e = CAny cs /\ In (CAtom a) cs.
Proof.
  intros J. induction J as [a|e f a J IH|e f a J IH]; [left; eauto| |]; right; cbn [cbuild];
    unfold c_or, mk_any; eexists; (split; [reflexivity|]); unfold any_subs; cbn [flat_map]; rewrite app_nil_r; apply in_or_app.
  - left. destruct IH as [(b & -> & ->) | (cs & E & I)]; [now left|]. rewrite E. exact I.
  - right. destruct IH as [(b & -> & ->) | (cs & E & I)]; [now left|]. rewrite E. exact I.
Qed.
Theorem joined_parts e a : joined_by_and e a \/ joined_by_or e a -> exists k, part_of (cbuild e) a k.
Proof.
  intros [J|J]; [apply joined_and in J|apply joined_or in J]; destruct J as [(b & -> & ->) | (cs & E & I)];
    try (exists None; constructor); rewrite E; eexists; constructor; exact I.
Qed.
