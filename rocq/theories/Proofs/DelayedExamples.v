(** Runs of tasks given by a file that do not do what one expects. *)
From Coq Require Import List Bool ZArith Lia String.
From Verif Require Import Model.Delayed Spec.DelayedSpec Proofs.DelayedProofs Proofs.DelayedResults.
Import ListNotations.
Local Open Scope Z_scope.
Local Open Scope list_scope.

Definition fine (v : Z) : bool := false.
(** The first run goes on while the file is changed and the second is started *)
Definition ex_overlap : list happens :=
  [Begin 1 Inside; Filter 1; Execute 1; Save (Some 2); Begin 2 Inside; Filter 2; Execute 2].
Theorem overlap_stale : exists cache d es, all_inside es /\ ~ up_to_date d (marks fine cache d es).
Proof.
  exists false, (Some 1), ex_overlap. split.
  - intros r p I. cbn in I. intuition congruence.
  - intros H. set (m1 := [MImport 1; MBegun 1 Inside; MImport 1; MKept 1; MRan 1 1 1; MSaved (Some 2)]).
    assert (X := H m1 2 Inside [] 1 1 [] ltac:(vm_compute; reflexivity) ltac:(intros q [])).
    cbn in X. intuition congruence.
Qed.

(** The file is changed between the start of the run and that of its process *)
Definition ex_mixed : list happens := [Begin 1 Outside; Save (Some 2); Filter 1; Execute 1; Finish 1].
Theorem mixed : exists cache d es, all_outside es /\ ~ matching (marks fine cache d es).
Proof.
  exists false, (Some 1), ex_mixed. split.
  - intros r p I. cbn in I. intuition congruence.
  - intros H. assert (X := H 1 1 2 ltac:(vm_compute; tauto)). discriminate.
Qed.

Theorem imported_twice : forall raises cache v r p, raises v = false ->
  imports r (marks raises cache (Some v) [Begin r p; Filter r; Execute r; Finish r]) = 2.
Proof.
  intros raises cache v r p N. unfold marks. rewrite (run_alone raises _ v r p); [|reflexivity..|exact N].
  destruct p; cbn -[Z.eqb]; rewrite Z.eqb_refl; reflexivity.
Qed.

Theorem script_name : forall pkg d f, pkg d = false -> module_name (find_package_root pkg d) d f = Some f.
Proof. intros pkg d f H. change d with ([] ++ d) at 1. rewrite (root_found pkg d []); [reflexivity|]. split; [exact H|].
  intros a b E N. destruct a, b; try discriminate. congruence. Qed.

(** Runs one after the other, with a change between, then two that overlap *)
Definition ex_runs : list happens :=
  [Begin 1 Inside; Filter 1; Execute 1; Finish 1; Save (Some 2); Begin 2 Inside; Save (Some 3); Filter 2; Execute 2; Finish 2].
(** /srv/app/pkg/sub with packages pkg and pkg/sub *)
Definition ex_pkg (d : dir) : bool :=
  match d with ["pkg"; "app"; "srv"]%string | ["sub"; "pkg"; "app"; "srv"]%string => true | _ => false end.
