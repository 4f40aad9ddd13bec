(** Imports of files of tasks that do not do what one expects. *)
From Coq Require Import List Bool ZArith Lia String.
From Verif Require Import Model.Imports Spec.ImportsSpec Proofs.ImportsProofs.
Import ListNotations.
Local Open Scope Z_scope.
Local Open Scope list_scope.
Local Open Scope string_scope.
Local Open Scope list_scope.

(** The directories /jobs/a and /jobs/b, both with a module utils, and /shared with a module tools *)
Definition ex_files (d n : string) : option Z :=
  if String.eqb n "utils" then if String.eqb d "/jobs/a" then Some 1 else if String.eqb d "/jobs/b" then Some 2 else None
  else if String.eqb n "tools" && String.eqb d "/shared" then Some 3 else None.
Definition ex_python : python := Python [Text "/app"; Text "/lib"] None [("os", ("/lib", 0))] ex_files.

Lemma ex_new : forall n, n <> "os" -> not_imported n ex_python.
Proof. intros n D m [I|[]]. injection I as I _. congruence. Qed.
Lemma ex_not_on_path : forall n, not_on_path n ex_python.
Proof.
  intros n d I. cbn in I. unfold ex_python. cbn [py_files]. unfold ex_files.
  destruct I as [I|[I|[]]]; injection I as <-; destruct (String.eqb n "utils"), (String.eqb n "tools"); reflexivity.
Qed.

Theorem order_changes : forall root ns es py, unassigned py -> py_path py = Text root :: es -> ~ In (Text root) es ->
  path_after root [] ns py = es ++ [Text root].
Proof.
  intros root ns es py U P N. unfold path_after, load. pose proof (exec_keeps ns (enter (added root []) py)) as K.
  destruct (exec_imports ns (enter (added root []) py)) as [bs py1]. cbn [snd] in K |- *. destruct K as (K1 & K2 & _).
  unfold leave. rewrite K2. cbn [enter py_first py_path] in K1 |- *. rewrite U. cbn [py_path]. rewrite K1, P.
  cbn. now rewrite String.eqb_refl.
Qed.

Theorem other_module : exists py a b n v w, unassigned py /\ not_imported n py /\ not_on_path n py /\ a <> b /\
  py_files py a n = Some v /\ py_files py b n = Some w /\
  meaning b [] [n] (do py (Load a [] [n])) = Some [(n, (a, v))].
Proof.
  exists ex_python, "/jobs/a", "/jobs/b", "utils", 1, 2. split; [reflexivity|]. split; [now apply ex_new|].
  split; [apply ex_not_on_path|]. split; [discriminate|]. repeat split; vm_compute; reflexivity.
Qed.

Theorem sys_paths_ignored : exists py root d n v, py_files py d n = Some v /\ meaning root [d] [n] py = None /\
  forall ns sps, meaning root sps ns py = meaning root [] ns py.
Proof.
  exists ex_python, "/jobs/a", "/shared", "tools", 3. split; [reflexivity|]. split; [vm_compute; reflexivity|].
  intros ns sps. apply sys_paths_unused.
Qed.
