(** Concrete cases of dependencies and commands. *)
From Coq Require Import Bool Arith Lia ZifyBool String.
From Verif Require Import Model.Base Model.Condition Model.World Model.Registry Model.Depend Model.Command.
From Verif Require Import Spec.ConditionSpec Spec.RegistrySpec Spec.DependSpec Spec.CommandSpec.
Open Scope nat_scope.
Open Scope string_scope.

Definition ex_dep (a : nat) : option (relation * string) :=
  match a with 0 => Some (RSuccess, "a") | 1 => Some (RFailure, "b") | _ => None end.
Definition dep_store : store :=
  history [ONew 1 "a" (CAtom 5) None; ONew 1 "b" (CAtom 0) None;
           ONew 1 "c" (cbuild (XAnd (XAtom 5) (XAnd (XAtom 0) (XAtom 1)))) None] empty_store.
Lemma ex_known : known ex_dep dep_store 1.
Proof.
  intros i a k r n _ _ D. destruct a as [|[|a]]; try discriminate D; injection D as <- <-.
  - exists 0. vm_compute. auto.
  - exists 1. vm_compute. auto.
Qed.
Definition nested_store : store :=
  history [ONew 1 "a" (CAtom 5) None; ONew 1 "b" (cbuild (XOr (XAtom 5) (XAnd (XAtom 6) (XAtom 0)))) None] empty_store.
Lemma nested : exists dep st s child a n,
  known dep st s /\ task_of st s child /\ mentions (o_start (st_obj st child)) a /\ dep a = Some (RSuccess, n) /\
  used st s n /\ get_dependencies dep st s = Ok [].
Proof.
  exists (fun a => match a with 0 => Some (RSuccess, "a") | _ => None end), nested_store, 1, 1, 0, "a".
  split; [|split; [vm_compute; auto|split; [vm_compute; auto|split; [reflexivity|split; [exists 0; vm_compute; auto|vm_compute; reflexivity]]]]].
  intros i a k r n _ _ D. destruct a as [|a]; [|discriminate D]. injection D as <- <-. exists 0. vm_compute. auto.
Qed.
Lemma repeated : exists f c ps, formed f ps /\
  runs f c [ps; ps] = [Ok (expected f c ps); Ok (expected f (expected f c ps) ps)] /\
  expected f c ps <> expected f (expected f c ps) ps.
Proof.
  exists FLong, (CList ["run"]), [("x", "1")]. split; [left; discriminate|]. split; [reflexivity|]. cbn. discriminate.
Qed.
