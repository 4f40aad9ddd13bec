From Coq Require Import Lia ZifyBool Arith.
From Verif Require Import Model.Base Model.Interval Model.Calendar Model.Anchored Model.Period
  Spec.IntervalSpec Spec.PeriodSpec Spec.AlgebraSpec
  Proofs.IntervalProofs Proofs.AnchoredProofs Proofs.FixedCycleProofs Proofs.ClockProofs Proofs.MonthProofs.
Open Scope Z_scope.

Lemma moments_all ps t : moments (PAll ps) t <-> forall q, In q ps -> moments q t.
Proof.
  cbn [moments]. induction ps as [|p ps IH]; cbn [fold_right].
  - split; [intros _ q []|auto].
  - rewrite IH. split.
    + intros [H1 H2] q [<-|Hq]; auto.
    + intros H. split; [apply H; left; reflexivity|intros q Hq; apply H; right; exact Hq].
Qed.

Lemma moments_any ps t : moments (PAny ps) t <-> exists q, In q ps /\ moments q t.
Proof.
  cbn [moments]. induction ps as [|p ps IH]; cbn [fold_right].
  - split; [contradiction|intros [q [[] _]]].
  - rewrite IH. split.
    + intros [H|[q [H1 H2]]]; [exists p|exists q]; cbn; auto.
    + intros [q [[<-|Hq] H]]; [left; auto|right; exists q; auto].
Qed.

Lemma ivl_ok l r : l <= r -> ivl l r = Returns (Interval l r CLeft).
Proof. intros H. unfold ivl. rewrite mk_interval_ok by exact H. reflexivity. Qed.
Lemma ivl_returns l r i : ivl l r = Returns i -> i = Interval l r CLeft /\ l <= r.
Proof.
  unfold ivl, mk_interval. cbn [op_lt Z_ops]. destruct (Z.ltb_spec r l); cbn; [discriminate|].
  intros H'; injection H' as <-. auto.
Qed.

Lemma zmem_cleft i t : closed i = CLeft -> (zmem t i <-> left i <= t < right i).
Proof. destruct i as [l r c]. cbn [closed]. intros ->. apply zmem_left. Qed.

(** * Lists of half-open intervals *)
Definition proper (i : interval Z) : Prop := closed i = CLeft /\ left i < right i.
Definition halfopen (i : interval Z) : Prop := closed i = CLeft /\ left i <= right i.

Lemma overlaps_left a b : closed a = CLeft -> closed b = CLeft ->
  overlaps Z_ops a b = true <->
  (left b < right a \/ left b = right a /\ False) /\ left a < right b \/ False.
Proof.
  intros Ha Hb. unfold overlaps. rewrite Ha, Hb. cbn [op_lt op_eq Z_ops in_left_neither in_right_neither orb andb].
  destruct (Z.ltb_spec (right a) (left b)); destruct (Z.ltb_spec (right b) (left a)); cbn [orb]; try lia;
  destruct (Z.eqb_spec (right a) (left b)); cbn [andb orb]; try lia;
  destruct (Z.eqb_spec (left a) (right b)); cbn [andb orb]; try lia.
Qed.

Lemma overlaps_half a b : closed a = CLeft -> closed b = CLeft ->
  overlaps Z_ops a b = true <-> left b < right a /\ left a < right b.
Proof. intros Ha Hb. rewrite overlaps_left by assumption. lia. Qed.

Lemma all_overlap_half l : (forall i, In i l -> proper i) ->
  (all_overlap l = true <-> forall i j, In i l -> In j l -> left i < right j).
Proof.
  induction l as [|a l IH]; intros Hp; cbn [all_overlap].
  - split; [intros _ i j []|reflexivity].
  - rewrite andb_true_iff, forallb_forall, IH by (intros; apply Hp; right; assumption).
    pose proof (Hp a (or_introl eq_refl)) as [Ca La].
    split.
    + intros [H1 H2] i j [<-|Hi] [<-|Hj]; auto.
      * specialize (H1 j Hj). apply overlaps_half in H1; [lia|exact Ca|apply Hp; right; exact Hj].
      * specialize (H1 i Hi). apply overlaps_half in H1; [lia|exact Ca|apply Hp; right; exact Hi].
    + intros H. split.
      * intros x Hx. apply overlaps_half; [exact Ca|apply Hp; right; exact Hx|].
        split; apply H; cbn; auto.
      * intros i j Hi Hj. apply H; right; assumption.
Qed.

Lemma inter_half a b : closed a = CLeft -> closed b = CLeft -> Z.max (left a) (left b) <= Z.min (right a) (right b) ->
  inter Z_ops a b = Ok (Interval (Z.max (left a) (left b)) (Z.min (right a) (right b)) CLeft).
Proof.
  intros Ca Cb H. unfold inter. cbn [op_lt Z_ops]. rewrite Ca, Cb. cbn [in_left_both in_right_both andb].
  destruct (Z.ltb_spec (left b) (left a)); [|destruct (Z.ltb_spec (left a) (left b))];
  (destruct (Z.ltb_spec (right a) (right b)); [|destruct (Z.ltb_spec (right b) (right a))]);
  cbn [andb]; rewrite mk_interval_ok by lia; f_equal; f_equal; lia.
Qed.

Lemma reduce_half l : forall a, halfopen a -> (forall i, In i l -> halfopen i) ->
  (forall i j, In i (a :: l) -> In j (a :: l) -> left i <= right j) ->
  exists r, reduce_from a l = Ok r /\ halfopen r /\
    (forall u, left r <= u < right r <-> forall i, In i (a :: l) -> left i <= u < right i) /\
    (exists i, In i (a :: l) /\ left r = left i) /\ (exists i, In i (a :: l) /\ right r = right i).
Proof.
  induction l as [|b l IH]; intros a Ha Hl Hall; cbn [reduce_from].
  - exists a. split; [reflexivity|]. split; [exact Ha|]. split.
    + intros u. split; [intros H i [<-|[]]; exact H|intros H; apply H; left; reflexivity].
    + split; exists a; cbn; auto.
  - pose proof (Hl b (or_introl eq_refl)) as Hb. destruct Ha as [Ca La], Hb as [Cb Lb].
    pose proof (Hall a b ltac:(cbn; auto) ltac:(cbn; auto)). pose proof (Hall b a ltac:(cbn; auto) ltac:(cbn; auto)).
    rewrite inter_half by (assumption || lia). cbn [bind].
    destruct (IH (Interval (Z.max (left a) (left b)) (Z.min (right a) (right b)) CLeft)) as [r [E [Hr [Hu [Hle Hri]]]]].
    + split; cbn [closed left right]; [reflexivity|lia].
    + intros i Hi. apply Hl. right. exact Hi.
    + intros i j Hi Hj.
      assert (Gi : forall k, In k (a :: b :: l) -> left i <= right k).
      { intros k Hk. destruct Hi as [<-|Hi]; cbn [left].
        - pose proof (Hall a k ltac:(cbn; auto) Hk). pose proof (Hall b k ltac:(cbn; auto) Hk). lia.
        - apply Hall; [cbn; auto|exact Hk]. }
      destruct Hj as [<-|Hj]; cbn [right].
      * pose proof (Gi a ltac:(cbn; auto)). pose proof (Gi b ltac:(cbn; auto)). lia.
      * apply Gi. cbn; auto.
    + exists r. split; [exact E|]. split; [exact Hr|]. split; [|split].
      * intros u. rewrite Hu. split.
        -- intros H' i Hi. pose proof (H' _ (or_introl eq_refl)) as H1. cbn [left right] in H1.
           destruct Hi as [<-|[<-|Hi]]; [lia|lia|]. apply H'. right. exact Hi.
        -- intros H' i [<-|Hi]; cbn [left right].
           ++ pose proof (H' a ltac:(cbn; auto)). pose proof (H' b ltac:(cbn; auto)). lia.
           ++ apply H'. cbn; auto.
      * destruct Hle as [i [[<-|Hi] Ei]]; cbn [left] in Ei.
        -- destruct (Z.max_spec (left a) (left b)) as [[_ M]|[_ M]]; rewrite M in Ei; [exists b|exists a]; cbn; auto.
        -- exists i. cbn; auto.
      * destruct Hri as [i [[<-|Hi] Ei]]; cbn [right] in Ei.
        -- destruct (Z.min_spec (right a) (right b)) as [[_ M]|[_ M]]; rewrite M in Ei; [exists a|exists b]; cbn; auto.
        -- exists i. cbn; auto.
Qed.

Lemma proper_halfopen i : proper i -> halfopen i.
Proof. intros [C L]. split; [exact C|lia]. Qed.

Lemma max_left_spec l : l <> [] -> (exists i, In i l /\ max_left l = left i) /\ forall i, In i l -> left i <= max_left l.
Proof.
  induction l as [|a l IH]; intros Hne; [contradiction|].
  destruct l as [|b l].
  - cbn. split; [exists a; auto|intros i [<-|[]]; lia].
  - destruct (IH ltac:(discriminate)) as [[i [Hi E]] Hm].
    change (max_left (a :: b :: l)) with (Z.max (left a) (max_left (b :: l))).
    split.
    + destruct (Z.max_spec (left a) (max_left (b :: l))) as [[_ M]|[_ M]]; rewrite M; [exists i|exists a].
      * split; [right; exact Hi|exact E].
      * split; [left; reflexivity|reflexivity].
    + intros j [<-|Hj]; [lia|]. specialize (Hm j Hj). lia.
Qed.

Lemma min_right_spec l : l <> [] -> (exists i, In i l /\ min_right l = right i) /\ forall i, In i l -> min_right l <= right i.
Proof.
  induction l as [|a l IH]; intros Hne; [contradiction|].
  destruct l as [|b l].
  - cbn. split; [exists a; auto|intros i [<-|[]]; lia].
  - destruct (IH ltac:(discriminate)) as [[i [Hi E]] Hm].
    change (min_right (a :: b :: l)) with (Z.min (right a) (min_right (b :: l))).
    split.
    + destruct (Z.min_spec (right a) (min_right (b :: l))) as [[_ M]|[_ M]]; rewrite M; [exists a|exists i].
      * split; [left; reflexivity|reflexivity].
      * split; [right; exact Hi|exact E].
    + intros j [<-|Hj]; [lia|]. specialize (Hm j Hj). lia.
Qed.

(** * traverse *)
Lemma traverse_returns {A B} (f : A -> outcome B) l bs : traverse f l = Returns bs <-> Forall2 (fun a b => f a = Returns b) l bs.
Proof.
  revert bs; induction l as [|a l IH]; intros bs; cbn [traverse].
  - split; [intros H; injection H as <-; constructor|intros H; inversion H; reflexivity].
  - split.
    + destruct (f a) as [b|e|] eqn:E; try discriminate.
      destruct (traverse f l) as [bs'|e|] eqn:E2; try discriminate.
      intros H; injection H as <-. constructor; [exact E|]. apply IH. reflexivity.
    + intros H; inversion H as [|? b ? bs' H1 H2]; subst. rewrite H1. apply IH in H2. rewrite H2. reflexivity.
Qed.

Lemma Forall2_in_r {A B} (R : A -> B -> Prop) l bs b : Forall2 R l bs -> In b bs -> exists a, In a l /\ R a b.
Proof.
  intros H; induction H as [|x y l bs Hxy H IH]; intros Hin; [destruct Hin|].
  destruct Hin as [<-|Hin]; [exists x; cbn; auto|]. destruct (IH Hin) as [a [Ha HR]]. exists a; cbn; auto.
Qed.
Lemma Forall2_in_l {A B} (R : A -> B -> Prop) l bs a : Forall2 R l bs -> In a l -> exists b, In b bs /\ R a b.
Proof.
  intros H; induction H as [|x y l bs Hxy H IH]; intros Hin; [destruct Hin|].
  destruct Hin as [<-|Hin]; [exists y; cbn; auto|]. destruct (IH Hin) as [b [Hb HR]]. exists b; cbn; auto.
Qed.

(** all members eventually return: so does the list *)
Lemma traverse_eventually {A B} (f : nat -> A -> outcome B) (P : A -> B -> Prop) l :
  (forall a, In a l -> exists b, eventually (fun n => f n a) b /\ P a b) ->
  exists bs, eventually (fun n => traverse (f n) l) bs /\ Forall2 P l bs.
Proof.
  induction l as [|a l IH]; intros H.
  - exists []. split; [exists O; reflexivity|constructor].
  - destruct (H a (or_introl eq_refl)) as [b [[n Hn] HP]].
    destruct IH as [bs [[m Hm] HF]]; [intros; apply H; right; assumption|].
    exists (b :: bs). split; [|constructor; assumption].
    exists (Nat.max n m). intros fuel Hf. cbn [traverse]. rewrite Hn by lia. rewrite Hm by lia. reflexivity.
Qed.

(** * Forward contract *)
Lemma forward_all ps : ps <> [] -> (forall q, In q ps -> forward_ok q) -> forward_ok (PAll ps).
Proof.
  intros Hne Hok dt [u [Hu HM]]. rewrite moments_all in HM.
  assert (Main : forall n dt, dt <= u -> u - dt <= Z.of_nat n ->
    exists i, (exists m, forall fuel k, (m <= fuel)%nat -> (n < k)%nat ->
       all_rollforward (fun t => traverse (fun q => rollforward fuel q t) ps) k dt = Returns i) /\
       forward_at (moments (PAll ps)) dt i).
  { clear dt Hu. induction n as [n IHn] using (well_founded_induction lt_wf). intros dt Hu Hn.
    destruct (traverse_eventually (fun fuel q => rollforward fuel q dt) (fun q i => forward_at (moments q) dt i) ps)
      as [is [[m Hm] HF]].
    { intros q Hq. apply Hok; [exact Hq|]. exists u. auto. }
    assert (Hprop : forall i, In i is -> proper i).
    { intros i Hi. destruct (Forall2_in_r _ _ _ _ HF Hi) as [q [_ [H1 [H2 _]]]]. split; [exact H1|lia]. }
    assert (Hne' : is <> []). { intros ->. inversion HF; subst; contradiction. }
    destruct (all_overlap is) eqn:Eo.
    - (* found *)
      pose proof (proj1 (all_overlap_half is Hprop) Eo) as Hall.
      destruct is as [|a is]; [contradiction|].
      destruct (reduce_half is a) as [r [Er [[Cr Lr] [Hr [[i [Hi Ei]] [j [Hj Ej]]]]]]];
        [apply proper_halfopen, Hprop; left; reflexivity|intros; apply proper_halfopen, Hprop; right; assumption
        |intros; apply Z.lt_le_incl, Hall; assumption|].
      pose proof (Hall i j Hi Hj) as Hij. rewrite <- Ei, <- Ej in Hij. clear j Hj Ej.
      exists r. split.
      + exists m. intros fuel k Hf Hk. destruct k as [|k]; [lia|]. cbn [all_rollforward].
        rewrite (Hm fuel Hf), Eo. cbn [reduce_inter]. rewrite Er. reflexivity.
      + split; [exact Cr|]. destruct (Forall2_in_r _ _ _ _ HF Hi) as [q [Hq [_ [Hb [Hno _]]]]].
        split; [lia|]. split.
        * intros v Hv Hv'. rewrite moments_all in Hv'. apply (Hno v); [lia|]. apply Hv'. exact Hq.
        * intros v Hv. rewrite moments_all. intros q' Hq'.
          destruct (Forall2_in_l _ _ _ _ HF Hq') as [j [Hj [_ [_ [_ Hin]]]]]. apply Hin.
          apply (proj1 (Hr v) Hv j Hj).
    - (* try again *)
      destruct (max_left_spec is Hne') as [[j [Hj Ej]] Hmax].
      destruct (Forall2_in_r _ _ _ _ HF Hj) as [q [Hq [_ [Hb [Hno _]]]]].
      assert (Hlu : max_left is <= u).
      { rewrite Ej. destruct (Z_lt_dec u (left j)); [|lia]. exfalso. apply (Hno u); [lia|]. auto. }
      assert (Hgt : dt < max_left is).
      { destruct (Z_lt_dec dt (max_left is)) as [|Hle]; [assumption|]. exfalso.
        assert (all_overlap is = true); [|congruence].
        apply all_overlap_half; [exact Hprop|]. intros a b Ha Hb'. pose proof (Hmax a Ha).
        destruct (Forall2_in_r _ _ _ _ HF Hb') as [? [_ [_ [? _]]]]. lia. }
      assert (Hopen : existsb (fun i => (left i =? max_left is) && negb (in_left_both (closed i))) is = false).
      { destruct (existsb _ is) eqn:Ex; [|reflexivity]. apply existsb_exists in Ex. destruct Ex as [x [Hx Hx']].
        destruct (Hprop x Hx) as [Cx _]. rewrite Cx in Hx'. cbn in Hx'. rewrite andb_false_r in Hx'. discriminate. }
      destruct n as [|n]; [lia|].
      destruct (IHn n ltac:(lia) (max_left is) Hlu ltac:(lia)) as [i [[m' Hm'] Hi]].
      exists i. split.
      + exists (Nat.max m m'). intros fuel k Hf Hk. destruct k as [|k]; [lia|]. cbn [all_rollforward].
        rewrite Hm by lia. rewrite Eo, Hopen. apply Hm'; lia.
      + destruct Hi as [C [B [No In_]]]. split; [exact C|]. split; [lia|]. split; [|exact In_].
        intros v Hv Hv'. destruct (Z_lt_dec v (max_left is)) as [D|D].
        * rewrite moments_all in Hv'. apply (Hno v); [lia|]. apply Hv'; exact Hq.
        * apply (No v); [lia|exact Hv']. }
  destruct (Main (Z.to_nat (u - dt)) dt Hu ltac:(lia)) as [i [[m Hm] Hi]].
  exists i. split; [|exact Hi]. exists (Nat.max m (S (Z.to_nat (u - dt)))).
  intros fuel Hf. cbn [rollforward]. apply Hm; lia.
Qed.

(** sorting *)
Lemma insert_by_left_in i l x : In x (insert_by_left i l) <-> x = i \/ In x l.
Proof.
  induction l as [|j l IH]; cbn [insert_by_left]; [cbn; intuition auto|].
  destruct (left j <? left i); cbn; rewrite ?IH; cbn; intuition auto.
Qed.
Lemma sort_by_left_in l x : In x (sort_by_left l) <-> In x l.
Proof.
  induction l as [|j l IH]; cbn [sort_by_left fold_right]; [reflexivity|].
  rewrite insert_by_left_in. fold (sort_by_left l). rewrite IH. cbn. intuition auto.
Qed.
Inductive asc : list (interval Z) -> Prop :=
| asc_nil : asc []
| asc_cons i l : (forall j, In j l -> left i <= left j) -> asc l -> asc (i :: l).
Lemma insert_by_left_asc i l : asc l -> asc (insert_by_left i l).
Proof.
  induction 1 as [|j l Hj Hl IH]; cbn [insert_by_left].
  - constructor; [intros j []|constructor].
  - destruct (Z.ltb_spec (left j) (left i)).
    + constructor; [|exact IH]. intros k Hk. apply insert_by_left_in in Hk. destruct Hk as [->|Hk]; [lia|auto].
    + constructor; [|constructor; assumption]. intros k [<-|Hk]; [lia|]. specialize (Hj k Hk). lia.
Qed.
Lemma sort_by_left_asc l : asc (sort_by_left l).
Proof. induction l; cbn [sort_by_left fold_right]; [constructor|apply insert_by_left_asc; assumption]. Qed.

(** the merged interval is covered by the intervals *)
Lemma extend_right_cover (M : Z -> Prop) l : forall curr lo,
  closed curr = CLeft -> lo <= left curr -> (forall j, In j l -> left curr <= left j) ->
  asc l -> (forall j, In j l -> closed j = CLeft) ->
  (forall u, lo <= u < right curr -> M u) ->
  (forall j u, In j l -> left j <= u < right j -> M u) ->
  right curr <= right (extend_right curr l) /\
  closed (extend_right curr l) = CLeft /\ left curr <= left (extend_right curr l) /\
  (forall u, lo <= u < right (extend_right curr l) -> M u) /\
  (extend_right curr l = curr \/ In (extend_right curr l) l).
Proof.
  induction l as [|i l IH]; intros curr lo Cc Hlo Hl Ha Hc Hcur Hin; cbn [extend_right].
  - split; [lia|]. split; [exact Cc|]. split; [lia|]. split; [exact Hcur|left; reflexivity].
  - destruct (Z.ltb_spec (right curr) (right i)) as [L|L]; cbn [andb].
    2:{ split; [lia|]. split; [exact Cc|]. split; [lia|]. split; [exact Hcur|left; reflexivity]. }
    destruct (overlaps Z_ops i curr) eqn:E.
    2:{ split; [lia|]. split; [exact Cc|]. split; [lia|]. split; [exact Hcur|left; reflexivity]. }
    apply overlaps_half in E; [|apply Hc; left; reflexivity|exact Cc].
    pose proof (Hl i (or_introl eq_refl)).
    inversion Ha as [|? ? Hi' Ha']; subst.
    destruct (IH i lo) as [H1 [H2 [H2' [H3 H4]]]].
    + apply Hc; left; reflexivity.
    + lia.
    + exact Hi'.
    + exact Ha'.
    + intros; apply Hc; right; assumption.
    + intros u Hu. destruct (Z_lt_dec u (right curr)); [apply Hcur; lia|].
      apply (Hin i u (or_introl eq_refl)). lia.
    + intros j u Hj. apply Hin. right; exact Hj.
    + split; [lia|]. split; [exact H2|]. split; [lia|]. split; [exact H3|].
      right. destruct H4 as [->|H4]; cbn; auto.
Qed.

Lemma any_forward_core (M : Z -> Prop) is : is <> [] ->
  (forall i, In i is -> closed i = CLeft /\ left i <= right i) ->
  (forall j u, In j is -> left j <= u < right j -> M u) ->
  exists i, any_forward is = Returns i /\ closed i = CLeft /\ left i <= right i /\
    (forall u, left i <= u < right i -> M u) /\
    exists f, In f is /\ left f = left i /\ right f <= right i /\ forall j, In j is -> left f <= left j.
Proof.
  intros Hne Hh HM. unfold any_forward.
  destruct (sort_by_left is) as [|f rest] eqn:E.
  { exfalso. destruct is as [|a is]; [contradiction|]. assert (In a (sort_by_left (a :: is))) by (apply sort_by_left_in; left; reflexivity).
    rewrite E in H; destruct H. }
  pose proof (sort_by_left_asc is) as Ha. rewrite E in Ha. inversion Ha as [|? ? Hf Ha']; subst.
  assert (Hin : forall x, In x (f :: rest) <-> In x is) by (intros x; rewrite <- E; apply sort_by_left_in).
  assert (Hfin : In f is) by (apply Hin; left; reflexivity).
  destruct (Hh f Hfin) as [Cf Lf].
  destruct (extend_right_cover M rest f (left f) Cf ltac:(lia) Hf Ha') as [H1 [H2 [H3 [H4 H5]]]].
  - intros j Hj. apply Hh. apply Hin. right; exact Hj.
  - intros u Hu. apply (HM f u Hfin Hu).
  - intros j u Hj. apply HM. apply Hin. right; exact Hj.
  - exists (Interval (left f) (right (extend_right f rest)) CLeft).
    rewrite ivl_ok by lia. split; [reflexivity|]. cbn [closed left right]. split; [reflexivity|]. split; [lia|].
    split; [exact H4|]. exists f. split; [exact Hfin|]. split; [reflexivity|]. split; [lia|].
    intros j Hj. apply Hin in Hj. destruct Hj as [<-|Hj]; [lia|auto].
Qed.

Lemma forward_any ps : ps <> [] -> (forall q, In q ps -> forward_ok q) -> (forall q, In q ps -> recurrent q) ->
  forward_ok (PAny ps).
Proof.
  intros Hne Hok Hrec dt _.
  destruct (traverse_eventually (fun fuel q => rollforward fuel q dt) (fun q i => forward_at (moments q) dt i) ps)
    as [is [[m Hm] HF]].
  { intros q Hq. apply Hok; [exact Hq|]. apply Hrec; exact Hq. }
  assert (Hne' : is <> []). { intros ->. inversion HF; subst; contradiction. }
  destruct (any_forward_core (moments (PAny ps)) is Hne') as [i [E [C [L [HM [f [Hf [Lf [Rf Hmin]]]]]]]]].
  - intros j Hj. destruct (Forall2_in_r _ _ _ _ HF Hj) as [q [_ [H1 [H2 _]]]]. split; [exact H1|lia].
  - intros j u Hj Hu. destruct (Forall2_in_r _ _ _ _ HF Hj) as [q [Hq [_ [_ [_ H]]]]].
    apply moments_any. exists q. auto.
  - exists i. split.
    + exists m. intros fuel Hfu. cbn [rollforward]. rewrite (Hm fuel Hfu). exact E.
    + destruct (Forall2_in_r _ _ _ _ HF Hf) as [q [Hq [_ [Hb _]]]].
      split; [exact C|]. split; [lia|]. split; [|exact HM].
      intros u Hu Hu'. apply moments_any in Hu'. destruct Hu' as [q' [Hq' Hu']].
      destruct (Forall2_in_l _ _ _ _ HF Hq') as [j [Hj [_ [_ [No _]]]]].
      apply (No u); [|exact Hu']. specialize (Hmin j Hj). lia.
Qed.

Lemma forward_static s e : s <= e -> forward_ok (PStatic s e).
Proof.
  intros Hse dt [u [Hu HM]]. cbn [moments] in HM.
  exists (Interval (Z.max s dt) e CLeft). split.
  - exists O. intros fuel _. cbn [rollforward]. unfold static_rollforward.
    destruct (Z.ltb_spec e dt); [lia|]. apply ivl_ok. lia.
  - split; [reflexivity|]. cbn [left right moments]. split; [lia|]. split; intros v Hv; lia.
Qed.

Lemma forward_always : forward_ok PAlways.
Proof. apply (forward_static p_min p_max). vm_compute. discriminate. Qed.

Lemma rollforward_spec_forward_at B s e t i M :
  (forall u, M u <-> in_period B s e u) -> rollforward_spec B s e t i -> forward_at M t i.
Proof.
  intros HM [C [Bd [No [In_ _]]]]. split; [exact C|]. split; [exact Bd|]. split.
  - intros u Hu H. apply HM in H. apply (No u Hu H).
  - intros u Hu. apply HM. apply In_. exact Hu.
Qed.

Lemma forward_fixed c L st en tp sg rc p u :
  fixed_cycle c L -> mk_anchored c st en tp sg rc = Ok p -> acontains p u = true -> forward_ok (PAnch p).
Proof.
  intros HL Hp Hu dt _.
  pose proof (nonempty_not_corner _ _ _ _ _ _ _ _ _ HL Hp Hu) as Hnd.
  destruct (fixed_rollforward _ _ _ _ _ _ _ _ HL Hp Hnd 0 dt) as [i [E S]].
  exists i. split.
  - exists 1%nat. intros fuel Hf. destruct fuel as [|fuel]; [lia|].
    destruct (fixed_rollforward _ _ _ _ _ _ _ _ HL Hp Hnd fuel dt) as [j [Ej Sj]].
    cbn [rollforward]. rewrite Ej. f_equal.
    (* the result is determined *)
    destruct S as [C [Bd [No [In_ [k [K1 [K2 K3]]]]]]]. destruct Sj as [C' [Bd' [No' [In_' [k' [K1' [K2' K3']]]]]]].
    revert E Ej. cbn [arollforward].
    destruct (is_full p); [congruence|].
    destruct (rollstart p dt =? next_end p dt); [discriminate|congruence].
  - apply (rollforward_spec_forward_at (every_L L) (a_start p) (a_end p)); [|exact S].
    intros v. apply (fixed_contains_iff _ _ _ _ _ _ _ _ HL Hp).
Qed.

Lemma forward_month s e :
  0 <= s <= 28 * us_day -> 0 <= e <= 28 * us_day -> ~ (s = 28 * us_day /\ e = 0) ->
  forward_ok (PAnch (Anchored TMonth s e)).
Proof.
  intros Hs He Hnd dt _.
  destruct (month_rollforward s e Hs He Hnd 0 dt) as [i [E S]].
  exists i. split.
  - exists 1%nat. intros fuel Hf. destruct fuel as [|fuel]; [lia|].
    revert E. cbn [rollforward arollforward].
    destruct (is_full _); [auto|].
    destruct (rollstart _ dt =? next_end _ dt); [discriminate|auto].
  - apply (rollforward_spec_forward_at month_begin s e); [|exact S].
    intros v. apply (month_contains_iff s e Hs He).
Qed.

Theorem fwd_tree_ok p : fwd_tree p -> forward_ok p.
Proof.
  induction 1.
  - eapply forward_fixed; eassumption.
  - apply forward_month; assumption.
  - apply forward_static; assumption.
  - apply forward_always.
  - apply forward_all; assumption.
  - apply forward_any; assumption.
Qed.

(** * Soundness of whatever is returned, and membership *)
Lemma all_overlap_half_weak l : (forall i, In i l -> halfopen i) -> all_overlap l = true ->
  forall i j, In i l -> In j l -> left i <= right j.
Proof.
  induction l as [|a l IH]; intros Hh Ho i j Hi Hj; [destruct Hi|].
  cbn [all_overlap] in Ho. apply andb_true_iff in Ho. destruct Ho as [Ha Hl]. rewrite forallb_forall in Ha.
  pose proof (Hh a (or_introl eq_refl)) as [Ca La].
  destruct Hi as [<-|Hi], Hj as [<-|Hj].
  - lia.
  - specialize (Ha j Hj). pose proof (Hh j (or_intror Hj)) as [Cj Lj]. apply overlaps_half in Ha; [lia|exact Ca|exact Cj].
  - specialize (Ha i Hi). pose proof (Hh i (or_intror Hi)) as [Ci Li]. apply overlaps_half in Ha; [lia|exact Ca|exact Ci].
  - apply IH; [intros; apply Hh; right; assumption|exact Hl|exact Hi|exact Hj].
Qed.

Lemma sound_all ps : (forall q, In q ps -> forward_sound q) -> forward_sound (PAll ps).
Proof.
  intros Hq fuel dt i. cbn [rollforward].
  enough (G : forall k dt, all_rollforward (fun t => traverse (fun q => rollforward fuel q t) ps) k dt = Returns i ->
    closed i = CLeft /\ left i <= right i /\ (forall u, left i <= u < right i -> moments (PAll ps) u)) by apply G.
  induction k as [|k IH]; intros t H; [discriminate|]. cbn [all_rollforward] in H.
  destruct (traverse (fun q => rollforward fuel q t) ps) as [is|e|] eqn:E; try discriminate.
  apply traverse_returns in E.
  destruct (all_overlap is) eqn:Eo; [|apply (IH _ H)].
  assert (Hh : forall j, In j is -> halfopen j).
  { intros j Hj. destruct (Forall2_in_r _ _ _ _ E Hj) as [q [Hin Hr]]. destruct (Hq q Hin _ _ _ Hr) as [C [L _]]. split; assumption. }
  pose proof (all_overlap_half_weak is Hh Eo) as Hall.
  destruct is as [|a is]; [discriminate|].
  destruct (reduce_half is a) as [r [Er [[Cr Lr] [Hr _]]]];
    [apply Hh; left; reflexivity|intros; apply Hh; right; assumption|exact Hall|].
  cbn [reduce_inter] in H. rewrite Er in H. injection H as <-.
  split; [exact Cr|]. split; [exact Lr|]. intros u Hu. apply moments_all. intros q Hin.
  destruct (Forall2_in_l _ _ _ _ E Hin) as [j [Hj Hrj]]. destruct (Hq q Hin _ _ _ Hrj) as [_ [_ HM]].
  apply HM. apply (proj1 (Hr u) Hu j Hj).
Qed.

Lemma sound_any ps : (forall q, In q ps -> forward_sound q) -> forward_sound (PAny ps).
Proof.
  intros Hq fuel dt i H. cbn [rollforward] in H.
  destruct (traverse (fun q => rollforward fuel q dt) ps) as [is|e|] eqn:E; try discriminate. cbn [obind] in H.
  apply traverse_returns in E.
  assert (Hne : is <> []). { intros ->. discriminate. }
  destruct (any_forward_core (moments (PAny ps)) is Hne) as [j [Ej [C [L [HM _]]]]].
  - intros j Hj. destruct (Forall2_in_r _ _ _ _ E Hj) as [q [Hin Hr]]. destruct (Hq q Hin _ _ _ Hr) as [C [L _]]. auto.
  - intros j u Hj Hu. destruct (Forall2_in_r _ _ _ _ E Hj) as [q [Hin Hr]]. destruct (Hq q Hin _ _ _ Hr) as [_ [_ HM]].
    apply moments_any. exists q. auto.
  - rewrite H in Ej. injection Ej as <-. auto.
Qed.

Lemma sound_static s e : forward_sound (PStatic s e).
Proof.
  intros fuel dt i. cbn [rollforward]. unfold static_rollforward.
  destruct (Z.ltb_spec e dt); intros Hi; apply ivl_returns in Hi; destruct Hi as [-> Hi]; cbn [closed left right moments].
  - split; [reflexivity|]. split; [lia|]. intros u Hu. exfalso. clear -Hu. revert Hu. generalize p_max. intros. lia.
  - split; [reflexivity|]. split; [lia|]. intros; lia.
Qed.

Lemma sound_of_forward_at M i dt : forward_at M dt i ->
  closed i = CLeft /\ left i <= right i /\ forall u, left i <= u < right i -> M u.
Proof. intros [C [B [_ H]]]. split; [exact C|]. split; [lia|exact H]. Qed.

Lemma sound_anch p : (forall fuel dt, exists i, arollforward (S fuel) p dt = Returns i /\ forward_at (moments (PAnch p)) dt i) ->
  forward_sound (PAnch p).
Proof.
  intros H fuel dt i E. cbn [rollforward] in E. destruct fuel as [|fuel]; [discriminate|].
  destruct (H fuel dt) as [j [Ej Hj]]. rewrite E in Ej. injection Ej as <-.
  apply (sound_of_forward_at _ _ _ Hj).
Qed.

Theorem fwd_tree_sound p : fwd_tree p -> forward_sound p.
Proof.
  induction 1 as [c L st en tp sg rc p u HL Hp Hu|s e Hs He Hnd|s e H| |ps Hne _ IH|ps Hne _ IH _].
  - apply sound_anch. intros fuel dt.
    destruct (fixed_rollforward _ _ _ _ _ _ _ _ HL Hp (nonempty_not_corner _ _ _ _ _ _ _ _ _ HL Hp Hu) fuel dt) as [i [E S]].
    exists i. split; [exact E|]. apply (rollforward_spec_forward_at (every_L L) (a_start p) (a_end p)); [|exact S].
    intros v. apply (fixed_contains_iff _ _ _ _ _ _ _ _ HL Hp).
  - apply sound_anch. intros fuel dt.
    destruct (month_rollforward s e Hs He Hnd fuel dt) as [i [E S]].
    exists i. split; [exact E|]. apply (rollforward_spec_forward_at month_begin s e); [|exact S].
    intros v. apply (month_contains_iff s e Hs He).
  - apply sound_static.
  - apply (sound_static p_min p_max).
  - apply sound_all; exact IH.
  - apply sound_any; exact IH.
Qed.

(** * More fuel changes nothing *)
Definition done {A} (o : outcome A) : Prop := o <> OutOfFuel.
Lemma traverse_mono {A B} (f g : A -> outcome B) l :
  (forall a, In a l -> done (f a) -> g a = f a) -> done (traverse f l) -> traverse g l = traverse f l.
Proof.
  induction l as [|a l IH]; intros H D; [reflexivity|]. cbn [traverse] in *.
  assert (Da : done (f a)). { intros E. rewrite E in D. apply D. reflexivity. }
  rewrite (H a (or_introl eq_refl) Da).
  destruct (f a) as [b|e|]; [|reflexivity|reflexivity].
  assert (Dl : done (traverse f l)). { intros E. rewrite E in D. apply D. reflexivity. }
  rewrite IH; [reflexivity| |exact Dl]. intros x Hx. apply H. right; exact Hx.
Qed.

Lemma arollforward_mono p : forall fuel fuel' dt, (fuel <= fuel')%nat -> done (arollforward fuel p dt) ->
  arollforward fuel' p dt = arollforward fuel p dt.
Proof.
  induction fuel as [|fuel IH]; intros fuel' dt Hf D; [exfalso; apply D; reflexivity|].
  destruct fuel' as [|fuel']; [lia|]. cbn [arollforward] in *.
  destruct (is_full p); [reflexivity|]. destruct (rollstart p dt =? next_end p dt); [|reflexivity].
  apply IH; [lia|exact D].
Qed.

Lemma all_rollforward_mono (f g : Z -> outcome (list (interval Z))) :
  (forall t, done (f t) -> g t = f t) -> forall k k' dt, (k <= k')%nat -> done (all_rollforward f k dt) ->
  all_rollforward g k' dt = all_rollforward f k dt.
Proof.
  intros H. induction k as [|k IH]; intros k' dt Hk D; [exfalso; apply D; reflexivity|].
  destruct k' as [|k']; [lia|]. cbn [all_rollforward] in *.
  assert (Df : done (f dt)). { intros E. rewrite E in D. apply D. reflexivity. }
  rewrite (H dt Df). destruct (f dt) as [is|e|]; [|reflexivity|reflexivity].
  destruct (all_overlap is); [reflexivity|]. apply IH; [lia|exact D].
Qed.

Fixpoint tperiod_rect' (P : tperiod -> Prop)
  (Ha : forall p, P (PAnch p)) (Hs : forall s e, P (PStatic s e)) (Hal : P PAlways)
  (Hd : forall a b c, P (PDelta a b c)) (Hsp : forall a b c, P (PSpan a b c))
  (Hall : forall ps, (forall q, In q ps -> P q) -> P (PAll ps))
  (Hany : forall ps, (forall q, In q ps -> P q) -> P (PAny ps)) (p : tperiod) : P p :=
  let go := tperiod_rect' P Ha Hs Hal Hd Hsp Hall Hany in
  let gol := fix gol (l : list tperiod) : forall q, In q l -> P q :=
    match l with
    | [] => fun q H => match H with end
    | a :: l => fun q H => match H with
                           | or_introl E => match E with eq_refl => go a end
                           | or_intror H => gol l q H
                           end
    end in
  match p with
  | PAnch a => Ha a
  | PStatic s e => Hs s e
  | PAlways => Hal
  | PDelta a b c => Hd a b c
  | PSpan a b c => Hsp a b c
  | PAll ps => Hall ps (gol ps)
  | PAny ps => Hany ps (gol ps)
  end.

Lemma rollforward_mono p : forall fuel fuel' dt, (fuel <= fuel')%nat -> done (rollforward fuel p dt) ->
  rollforward fuel' p dt = rollforward fuel p dt.
Proof.
  induction p as [p|s e| |a b c|a b c|ps IH|ps IH] using tperiod_rect'; intros fuel fuel' dt Hf D; try reflexivity.
  - apply arollforward_mono; assumption.
  - cbn [rollforward] in *. apply all_rollforward_mono; [|exact Hf|exact D].
    intros t Dt. apply traverse_mono; [|exact Dt]. intros q Hq Dq. apply IH; assumption.
  - cbn [rollforward] in *.
    assert (Dt : done (traverse (fun q => rollforward fuel q dt) ps)).
    { intros E. rewrite E in D. apply D. reflexivity. }
    rewrite (traverse_mono (fun q => rollforward fuel q dt) (fun q => rollforward fuel' q dt)); [reflexivity| |exact Dt].
    intros q Hq Dq. apply IH; assumption.
Qed.

(** Whatever rollforward returns starts at the earliest moment, if there is one. *)
Theorem fwd_tree_returns p fuel dt i : fwd_tree p -> rollforward fuel p dt = Returns i ->
  (exists u, dt <= u /\ moments p u) -> forward_at (moments p) dt i.
Proof.
  intros Hp E Hu. destruct (fwd_tree_ok p Hp dt Hu) as [j [[n Hn] Hj]].
  assert (i = j); [|subst; exact Hj].
  pose proof (Hn (Nat.max n fuel) ltac:(lia)) as E1. cbn beta in E1.
  rewrite (rollforward_mono p fuel) in E1; [congruence|lia|unfold done; congruence].
Qed.

Theorem fwd_tree_contains p fuel dt b : fwd_tree p -> pcontains fuel p dt = Returns b ->
  (b = true <-> moments p dt).
Proof.
  intros Hp. 
  assert (G : forall i, rollforward fuel p dt = Returns i -> (contains Z_ops i dt = true <-> moments p dt)).
  { intros i E. rewrite zcontains_zmem. 
    destruct (fwd_tree_sound p Hp fuel dt i E) as [C [L HM]].
    rewrite (zmem_cleft i dt C). split.
    - intros H. apply HM. lia.
    - intros H. destruct (fwd_tree_returns p fuel dt i Hp E) as [_ [B [No _]]].
      + exists dt. split; [lia|exact H].
      + destruct (Z.eq_dec (left i) dt); [lia|]. exfalso. apply (No dt); [lia|exact H]. }
  destruct Hp as [c L st en tp sg rc p u HL Hq Hu|s e Hs He Hnd|s e H| |ps Hne Hin|ps Hne Hin Hrec];
    cbn [pcontains]; intros E;
    try (injection E as <-; cbn [moments]; reflexivity);
    (destruct (rollforward fuel _ dt) as [i|ex|] eqn:Er; try discriminate; cbn [obind] in E; injection E as <-; apply G; reflexivity).
Qed.
