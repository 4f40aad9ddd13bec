(** C73: witnesses. *)
From Coq Require Import ZArith List Bool Permutation String Lia.
From Verif Require Import Model.Base Model.Interval Model.Calendar Model.Anchored Model.Period Model.Combine Spec.CombineSpec
  Proofs.CombineProofs Proofs.CombineSets.
Import ListNotations.
Open Scope Z_scope.

Definition the_order (l : list cperiod) : list cperiod := l.
Definition other_order (l : list cperiod) : list cperiod := match l with a :: b :: l => b :: a :: l | _ => l end.
Lemma the_order_ok : an_order the_order. Proof. intros l. apply Permutation_refl. Qed.
Lemma other_order_ok : an_order other_order.
Proof. intros [|a [|b l]]; cbn; [constructor|apply Permutation_refl|constructor]. Qed.
Definition sum_hash (l : list field) : Z := fold_left (fun n f => 7 * n + match f with FZ z => z | FOpt (Some z) => z | FOpt None => 1 | FText _ => 2 | FSet l => fold_left Z.add l 0 end) l 0.

(** Three windows that are open at noon: what of today is in their union depends
    on the order *)
Lemma union_order : exists hash o1 o2 args p q fuel t i j,
  an_order o1 /\ an_order o2 /\ new_any hash o1 args = Ok p /\ new_any hash o2 args = Ok q /\ p_eqb hash p q = true /\
  c_rollback no_cron fuel p t = Returns i /\ c_rollback no_cron fuel q t = Returns j /\ left i < left j /\ right i = right j /\
  Forall (fun a => exists s e, a = daily_at s e) args.
Proof.
  exists sum_hash, the_order, other_order, [daily_at 10 14; daily_at 9 14; daily_at 8 13].
  eexists _, _, 5%nat, noon, (Interval (noon - hour 4) noon CLeft), (Interval (noon - hour 3) noon CLeft).
  split; [exact the_order_ok|]. split; [exact other_order_ok|]. split; [reflexivity|]. split; [reflexivity|].
  split; [vm_compute; reflexivity|]. split; [vm_compute; reflexivity|]. split; [vm_compute; reflexivity|].
  split; [vm_compute; reflexivity|]. split; [reflexivity|].
  repeat (constructor; [eexists _, _; reflexivity|]). constructor.
Qed.
(** ... and so does whether a moment is in the union of two *)
Lemma union_contains_order : exists hash o1 o2 args p q fuel t,
  an_order o1 /\ an_order o2 /\ new_any hash o1 args = Ok p /\ new_any hash o2 args = Ok q /\
  c_contains no_cron fuel p t = Returns true /\ c_contains no_cron fuel q t = Returns false.
Proof.
  exists sum_hash, other_order, the_order, [CLeaf (PStatic (noon - hour 1) noon); daily_at 10 14].
  eexists _, _, 5%nat, noon.
  split; [exact other_order_ok|]. split; [exact the_order_ok|]. split; [reflexivity|]. split; [reflexivity|].
  split; vm_compute; reflexivity.
Qed.
(** Any(RelativeDay("today"), RelativeDay("yesterday")) is today alone *)
Lemma relative_days : forall hash order, an_order order ->
  p_eqb hash (relative_day 0) (relative_day 1) = true /\
  new_any hash order [relative_day 0; relative_day 1] = Ok (CAny [relative_day 0]) /\
  new_any hash order [relative_day 1; relative_day 0] = Ok (CAny [relative_day 1]) /\
  exists i j, c_rollback no_cron 5 (CAny [relative_day 0]) noon = Returns i /\ c_rollback no_cron 5 (CAny [relative_day 1]) noon = Returns j /\
    right j < left i.
Proof.
  intros hash order O. split; [reflexivity|].
  assert (X : forall a b, frozen hash [relative_day a; relative_day b] = [relative_day a]).
  { intros a b. unfold frozen, relative_day. cbn [add_all existsb app]. unfold same. cbn [phash p_eqb]. rewrite Z.eqb_refl. reflexivity. }
  assert (Y : forall a, order [a] = [a]). { intros a. apply Permutation_length_1_inv. symmetry. apply O. }
  split; [unfold new_any; cbn [cany_members app relative_day]; fold (relative_day 0); fold (relative_day 1); rewrite X, Y; reflexivity|].
  split; [unfold new_any; cbn [cany_members app relative_day]; fold (relative_day 0); fold (relative_day 1); rewrite X, Y; reflexivity|].
  eexists _, _. split; [vm_compute; reflexivity|]. split; [vm_compute; reflexivity|]. vm_compute. reflexivity.
Qed.
