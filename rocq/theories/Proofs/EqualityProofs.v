(** Conditions that compare equal answer the same. *)
From Coq Require Import Bool Arith Lia ZifyBool.
From Verif Require Import Model.Base Model.Condition Model.Equality Spec.ConditionSpec Spec.EqualitySpec Proofs.ConditionProofs.
Open Scope Z_scope.

Section Induction.
  Variable P : cnd -> Prop.
  Hypothesis PT : P KTrue.
  Hypothesis PF : P KFalse.
  Hypothesis PP : forall k x, P (KPlain k x).
  Hypothesis PC : forall k x c, P (KComp k x c).
  Hypothesis PAny' : forall l, (forall a, In a l -> P a) -> P (KAny l).
  Hypothesis PAll' : forall l, (forall a, In a l -> P a) -> P (KAll l).
  Hypothesis PN : forall a, P a -> P (KNot a).
  Fixpoint cnd_rect' (a : cnd) : P a.
  Proof using PT PF PP PC PAny' PAll' PN.
    destruct a as [| |k x|k x c|l|l|a]; [exact PT|exact PF|apply PP|apply PC| | |exact (PN a (cnd_rect' a))].
    - apply PAny'. induction l as [|a l IH]; [intros a []|]. intros b [<- |I]; [apply cnd_rect'|exact (IH b I)].
    - apply PAll'. induction l as [|a l IH]; [intros a []|]. intros b [<- |I]; [apply cnd_rect'|exact (IH b I)].
  Qed.
End Induction.

(** * The bounds *)

Lemma op_eqb_eq : forall a b, op_eqb a b = true <-> a = b.
Proof. intros [] []; cbn; split; congruence. Qed.

Lemma equal_get : forall py c d op, integers_tell py -> keys_ok c -> keys_ok d -> integers c -> integers d ->
  comps_equal py c d = true -> comps_get c op = comps_get d op.
Proof.
  intros py c d op T KC KD IC ID E. unfold comps_equal in E. apply andb_true_iff in E as [L F].
  apply Nat.eqb_eq in L. rewrite forallb_forall in F.
  assert (G : forall o v, In (o, v) c -> comps_get d o = Some v).
  { intros o v I. specialize (F _ I). cbn [fst snd] in F. destruct (comps_get d o) as [w|] eqn:W; [|discriminate F].
    destruct (IC _ _ I) as [m ->]. destruct (ID o w) as [n ->]; [apply comps_get_in; assumption|].
    rewrite (T _ _ F). reflexivity. }
  destruct (comps_get c op) as [v|] eqn:C.
  - symmetry. apply G. apply comps_get_in; assumption.
  - destruct (comps_get d op) as [w|] eqn:W; [|reflexivity]. exfalso.
    assert (S : incl (map fst d) (map fst c)).
    { apply NoDup_length_incl; [exact KC|rewrite !map_length; lia|].
      intros o I. apply in_map_iff in I as ([o' v] & <- & I). cbn [fst]. specialize (G _ _ I).
      apply comps_get_in in G; [|exact KD]. change o' with (fst (o', v)). apply in_map. exact G. }
    apply comps_get_in in W; [|exact KD].
    assert (J : In op (map fst c)) by (apply S; change op with (fst (op, w)); apply in_map; exact W).
    apply in_map_iff in J as ([o v] & E & J). cbn [fst] in E. subst o.
    apply comps_get_in in J; [congruence|exact KC].
Qed.

Lemma state_get : forall c d n, keys_ok c -> keys_ok d -> same_bounds c d -> comp_state c n = comp_state d n.
Proof.
  intros c d n KC KD S.
  assert (H : forall c d, keys_ok c -> keys_ok d -> same_bounds c d ->
    forallb (fun ov => int_compare (fst ov) n (snd ov)) c = true -> forallb (fun ov => int_compare (fst ov) n (snd ov)) d = true).
  { clear c d KC KD S. intros c d KC KD S F. rewrite forallb_forall in *. intros [o v] I. apply F.
    apply comps_get_in; [exact KC|]. rewrite S. apply comps_get_in; assumption. }
  assert (B : forallb (fun ov => int_compare (fst ov) n (snd ov)) c = forallb (fun ov => int_compare (fst ov) n (snd ov)) d).
  { apply eq_true_iff_eq. split; apply H; try assumption. intros op. symmetry. apply S. }
  unfold comp_state. destruct c as [|[o v] c]; destruct d as [|[p w] d]; [reflexivity| | |exact B].
  - specialize (S p). cbn in S. rewrite (proj2 (op_eqb_eq p p) eq_refl) in S. discriminate S.
  - specialize (S o). cbn in S. rewrite (proj2 (op_eqb_eq o o) eq_refl) in S. discriminate S.
Qed.

(** * Equal conditions answer the same *)

Lemma keq_any : forall py l r, keq py (KAny l) (KAny r) = keq py (KAll l) (KAll r).
Proof. reflexivity. Qed.
Lemma keq_cons : forall py a l b r, keq py (KAll (a :: l)) (KAll (b :: r)) = keq py a b && keq py (KAll l) (KAll r).
Proof. reflexivity. Qed.
Lemma any_cons : forall py a l, kobserve py (KAny (a :: l)) = let* b := kobserve py a in if b then Ok true else kobserve py (KAny l).
Proof. reflexivity. Qed.
Lemma all_cons : forall py a l, kobserve py (KAll (a :: l)) = let* b := kobserve py a in if b then kobserve py (KAll l) else Ok false.
Proof. reflexivity. Qed.

Lemma equal_answers : forall py a b, attributes_tell py -> integers_tell py -> order_free py -> counted a -> counted b ->
  keq py a b = true -> kobserve py a = kobserve py b.
Proof.
  intros py a b [A1 A2] T O. revert b. induction a as [| |k x|k x c|l IH|l IH|a IH] using cnd_rect'; intros b CA CB E.
  - destruct b; discriminate E || reflexivity.
  - destruct b; discriminate E || reflexivity.
  - destruct b as [| |j y| | | |]; try discriminate E. cbn in E. apply andb_true_iff in E as [E1 E2].
    assert (k = j) by lia. subst j. exact (A1 _ _ k E2).
  - destruct b as [| | |j y d| | |]; try discriminate E. cbn in E. apply andb_true_iff in E as [E1 E3].
    apply andb_true_iff in E1 as [E1 E2]. assert (k = j) by lia. subst j.
    inversion CA as [| | |k' x' c' KC IC| | |]; subst. inversion CB as [| | |k' x' c' KD ID| | |]; subst.
    assert (S : same_bounds c d) by (intros op; apply (equal_get py); assumption).
    cbn [kobserve]. rewrite (A2 _ _ k c E2), (O k y c d S).
    destruct (py_measure py k y d) as [m|]; [|reflexivity]. cbn [bind]. f_equal.
    destruct m as [v|n|v]; [reflexivity|apply state_get; assumption|apply state_get; assumption].
  - destruct b as [| | | |r| |]; try discriminate E. rewrite keq_any in E.
    inversion CA as [| | | |l' HL| |]; subst. inversion CB as [| | | |l' HR| |]; subst. clear CA CB.
    revert r HR E. induction l as [|a l IL]; intros [|b r] HR E; try discriminate E; [reflexivity|].
    rewrite keq_cons in E. apply andb_true_iff in E as [E1 E2]. rewrite !any_cons.
    rewrite (IH a (or_introl eq_refl) b (HL _ (or_introl eq_refl)) (HR _ (or_introl eq_refl)) E1).
    destruct (kobserve py b) as [[|]|]; try reflexivity. cbn [bind].
    apply IL; [intros c I; exact (IH c (or_intror I))|intros c I; exact (HL c (or_intror I))|intros c I; exact (HR c (or_intror I))|exact E2].
  - destruct b as [| | | | |r|]; try discriminate E.
    inversion CA as [| | | | |l' HL|]; subst. inversion CB as [| | | | |l' HR|]; subst. clear CA CB.
    revert r HR E. induction l as [|a l IL]; intros [|b r] HR E; try discriminate E; [reflexivity|].
    rewrite keq_cons in E. apply andb_true_iff in E as [E1 E2]. rewrite !all_cons.
    rewrite (IH a (or_introl eq_refl) b (HL _ (or_introl eq_refl)) (HR _ (or_introl eq_refl)) E1).
    destruct (kobserve py b) as [[|]|]; try reflexivity. cbn [bind].
    apply IL; [intros c I; exact (IH c (or_intror I))|intros c I; exact (HL c (or_intror I))|intros c I; exact (HR c (or_intror I))|exact E2].
  - inversion CA as [| | | | | |a' HA]; subst. destruct b as [| | | | | |b]; try discriminate E.
    + destruct a; discriminate E || reflexivity.
    + destruct a; discriminate E || reflexivity.
    + inversion CB as [| | | | | |b' HB]; subst. cbn [kobserve]. rewrite (IH b HA HB E). reflexivity.
Qed.

(** * Reflexivity and symmetry *)

Lemma equal_self : forall py a, reflexive py -> counted a -> keq py a a = true.
Proof.
  intros py a [R1 R2]. induction a as [| |k x|k x c|l IH|l IH|a IH] using cnd_rect'; intros C; try reflexivity.
  - cbn. rewrite Z.eqb_refl. exact (R1 x).
  - inversion C as [| | |k' x' c' KC IC| | |]; subst. cbn. rewrite Z.eqb_refl, R1. cbn [andb].
    unfold comps_equal. rewrite Nat.eqb_refl. cbn [andb]. apply forallb_forall. intros [o v] I. cbn [fst snd].
    rewrite (proj2 (comps_get_in c o v KC) I). apply R2.
  - inversion C as [| | | |l' HL| |]; subst. clear C. rewrite keq_any. induction l as [|a l IL]; [reflexivity|].
    rewrite keq_cons. rewrite (IH a (or_introl eq_refl) (HL a (or_introl eq_refl))). cbn [andb].
    apply IL; [intros c I; exact (IH c (or_intror I))|intros c I; exact (HL c (or_intror I))].
  - inversion C as [| | | | |l' HL|]; subst. clear C. induction l as [|a l IL]; [reflexivity|].
    rewrite keq_cons. rewrite (IH a (or_introl eq_refl) (HL a (or_introl eq_refl))). cbn [andb].
    apply IL; [intros c I; exact (IH c (or_intror I))|intros c I; exact (HL c (or_intror I))].
  - inversion C as [| | | | | |a' HA]; subst. exact (IH HA).
Qed.

Lemma bounds_back : forall py c d, symmetric py -> keys_ok c -> keys_ok d -> comps_equal py c d = true -> comps_equal py d c = true.
Proof.
  intros py c d [_ S] KC KD E. unfold comps_equal in *. apply andb_true_iff in E as [L F]. apply Nat.eqb_eq in L.
  rewrite forallb_forall in F. rewrite L, Nat.eqb_refl. cbn [andb]. apply forallb_forall. intros [o w] I. cbn [fst snd].
  assert (J : In o (map fst c)).
  { assert (X : incl (map fst d) (map fst c)).
    { apply NoDup_length_incl; [exact KC|rewrite !map_length; lia|].
      intros p H. apply in_map_iff in H as ([p' v] & <- & H). cbn [fst]. specialize (F _ H). cbn [fst] in F.
      destruct (comps_get d p') as [u|] eqn:G; [|discriminate F]. apply comps_get_in in G; [|exact KD].
      change p' with (fst (p', u)). apply in_map. exact G. }
    apply X. change o with (fst (o, w)). apply in_map. exact I. }
  apply in_map_iff in J as ([p v] & P & J). cbn [fst] in P. subst p.
  rewrite (proj2 (comps_get_in c o v KC) J). specialize (F _ J). cbn [fst snd] in F.
  rewrite (proj2 (comps_get_in d o w KD) I) in F. rewrite S. exact F.
Qed.

Lemma equal_back : forall py a b, symmetric py -> counted a -> counted b ->
  no_negated_constant a -> keq py a b = true -> keq py b a = true.
Proof.
  intros py a b SY. pose proof SY as [S1 S2]. revert b. induction a as [| |k x|k x c|l IH|l IH|a IH] using cnd_rect'; intros b CA CB N E.
  - destruct b; discriminate E || reflexivity.
  - destruct b; discriminate E || reflexivity.
  - destruct b as [| |j y| | | |]; try discriminate E. cbn in *. rewrite Z.eqb_sym, S1. exact E.
  - destruct b as [| | |j y d| | |]; try discriminate E. cbn in E. apply andb_true_iff in E as [E1 E3].
    inversion CA as [| | |k' x' c' KC IC| | |]; subst. inversion CB as [| | |k' x' c' KD ID| | |]; subst.
    cbn. rewrite Z.eqb_sym, S1, E1. cbn [andb]. exact (bounds_back py c d SY KC KD E3).
  - destruct b as [| | | |r| |]; try discriminate E. rewrite keq_any in *.
    inversion CA as [| | | |l' HL| |]; subst. inversion CB as [| | | |l' HR| |]; subst.
    inversion N as [| | | |l' HN| |]; subst. clear CA CB N.
    revert r HR E. induction l as [|a l IL]; intros [|b r] HR E; try discriminate E; [reflexivity|].
    rewrite keq_cons in *. apply andb_true_iff in E as [E1 E2].
    rewrite (IH a (or_introl eq_refl) b (HL _ (or_introl eq_refl)) (HR _ (or_introl eq_refl)) (HN _ (or_introl eq_refl)) E1).
    cbn [andb]. apply IL; [intros c I; exact (IH c (or_intror I))|intros c I; exact (HL c (or_intror I))|
      intros c I; exact (HN c (or_intror I))|intros c I; exact (HR c (or_intror I))|exact E2].
  - destruct b as [| | | | |r|]; try discriminate E.
    inversion CA as [| | | | |l' HL|]; subst. inversion CB as [| | | | |l' HR|]; subst.
    inversion N as [| | | | |l' HN|]; subst. clear CA CB N.
    revert r HR E. induction l as [|a l IL]; intros [|b r] HR E; try discriminate E; [reflexivity|].
    rewrite keq_cons in *. apply andb_true_iff in E as [E1 E2].
    rewrite (IH a (or_introl eq_refl) b (HL _ (or_introl eq_refl)) (HR _ (or_introl eq_refl)) (HN _ (or_introl eq_refl)) E1).
    cbn [andb]. apply IL; [intros c I; exact (IH c (or_intror I))|intros c I; exact (HL c (or_intror I))|
      intros c I; exact (HN c (or_intror I))|intros c I; exact (HR c (or_intror I))|exact E2].
  - inversion CA as [| | | | | |a' HA]; subst. inversion N as [| | | | | |a' NT NF HN]; subst.
    destruct b as [| | | | | |b]; try discriminate E.
    + destruct a; discriminate E || congruence.
    + destruct a; discriminate E || congruence.
    + inversion CB as [| | | | | |b' HB]; subst. exact (IH b HA HB HN E).
Qed.

(** * != *)

Lemma ne_is_not_eq : forall py a b, ~ counts a -> kne py a b = (Ok (negb (keq py a b)), a).
Proof. intros py a b N. destruct a; try reflexivity. exfalso. apply N. exact I. Qed.

Lemma ne_spoils : forall py k x b n, (forall c, py_measure py k x c = Ok (MNum n)) ->
  fst (kne py (KComp k x []) b) = Ok true /\ kobserve py (snd (kne py (KComp k x []) b)) = Ok true.
Proof. intros py k x b n M. split; cbn [kne fst snd kobserve]; rewrite M; reflexivity. Qed.

(** * Cases *)

(** The task 1 was started twice, the task 2 never; 2.0 is a bound that equals 2. *)
Definition eq_python : python :=
  Python Z.eqb (fun v w => match v, w with BInt m, BInt n => m =? n | BOther, BOther => true | BInt m, BOther => m =? 2 | BOther, BInt n => n =? 2 end)
    (fun k x => if k =? 9 then Err KeyError else Ok (k =? x)) (fun _ x _ => Ok (MNum (if x =? 1 then 2 else 0))).

Lemma eq_tells : attributes_tell eq_python /\ integers_tell eq_python /\ order_free eq_python /\ reflexive eq_python /\ symmetric eq_python.
Proof.
  split; [split; cbn; intros x y k; [intros E|intros c E]; apply Z.eqb_eq in E; subst y; reflexivity|].
  split; [intros m n E; cbn in E; lia|]. split; [intros k x c d S; reflexivity|].
  split; [split; [intros x; apply Z.eqb_refl|intros [n|]; [apply Z.eqb_refl|reflexivity]]|].
  split; [intros x y; apply Z.eqb_sym|intros [m|] [n|]; try reflexivity; apply Z.eqb_sym].
Qed.

Definition eq_left : cnd := KAny [KNot (KComp 3 1 [(OpGe, BInt 1); (OpLt, BInt 3)]); KAll [KPlain 9 4; KFalse]].
Definition eq_right : cnd := KAny [KNot (KComp 3 1 [(OpLt, BInt 3); (OpGe, BInt 1)]); KAll [KPlain 9 4; KFalse]].

Lemma eq_counted : counted eq_left /\ counted eq_right /\ no_negated_constant eq_left.
Proof.
  split; [|split].
  - apply cd_any. intros a [<- |[<- |[]]].
    + apply cd_not, cd_comp; [repeat constructor; cbn; intuition discriminate|].
      intros op v [E|[E|[]]]; injection E as <- <-; eauto.
    + apply cd_all. intros a [<- |[<- |[]]]; constructor.
  - apply cd_any. intros a [<- |[<- |[]]].
    + apply cd_not, cd_comp; [repeat constructor; cbn; intuition discriminate|].
      intros op v [E|[E|[]]]; injection E as <- <-; eauto.
    + apply cd_all. intros a [<- |[<- |[]]]; constructor.
  - apply nn_any. intros a [<- |[<- |[]]].
    + apply nn_not; [discriminate|discriminate|constructor].
    + apply nn_all. intros a [<- |[<- |[]]]; constructor.
Qed.

Lemma one_way : exists py a b, symmetric py /\ reflexive py /\ counted a /\ counted b /\ keq py a b = true /\ keq py b a = false.
Proof.
  exists eq_python, (KNot KFalse), KTrue. destruct eq_tells as (_ & _ & _ & R & S).
  split; [exact S|]. split; [exact R|]. split; [repeat constructor|]. split; [constructor|]. split; reflexivity.
Qed.

Lemma float_equal : exists py a b, attributes_tell py /\ integers_tell py /\ order_free py /\
  keq py a b = true /\ kobserve py a <> kobserve py b.
Proof.
  exists eq_python, (KComp 3 2 [(OpEq, BInt 2)]), (KComp 3 2 [(OpEq, BOther)]). destruct eq_tells as (A & T & O & _).
  split; [exact A|]. split; [exact T|]. split; [exact O|]. split; [reflexivity|]. vm_compute. congruence.
Qed.
