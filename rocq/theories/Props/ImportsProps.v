(** C68: the search path and the modules of the file of a task. *)
From Coq Require Import List Bool ZArith Lia String Permutation.
From Verif Require Import Model.Imports Spec.ImportsSpec Proofs.ImportsProofs Proofs.ImportsExamples.
Import ListNotations.
Local Open Scope Z_scope.
Local Open Scope list_scope.
Local Open Scope string_scope.
Local Open Scope list_scope.

(** The import of the file leaves sys.path as it was, whether it succeeds or not, if none of the added
    directories was on it.  Missing: that one was, and that sys.path has been assigned. *)
Theorem c68_path_partial : forall root sps ns py, unassigned py ->
  (forall e, In e (added root sps) -> ~ In e (py_path py)) -> path_after root sps ns py = py_path py.
Proof. exact path_kept. Qed.
Print Assumptions c68_path_partial.

Example c68_path_met : unassigned ex_python /\ (forall e, In e (added "/jobs/a" ["/shared"]) -> ~ In e (py_path ex_python)) /\
  meaning "/jobs/a" ["/shared"] ["os"; "utils"] ex_python = Some [("os", ("/lib", 0)); ("utils", ("/jobs/a", 1))].
Proof.
  split; [reflexivity|]. split; [|vm_compute; reflexivity]. intros e [<- |[<- |[]]] I; cbn in I; intuition discriminate.
Qed.

(** In any case the same entries are on it, if it has not been assigned *)
Theorem c68_path_members : forall root sps ns py, unassigned py -> Permutation (path_after root sps ns py) (py_path py).
Proof. exact path_members. Qed.
Print Assumptions c68_path_members.

Example c68_path_members_met : unassigned (Python [Text "/jobs/a"; Text "/lib"] None [] ex_files) /\
  path_after "/jobs/a" ["/shared"] ["utils"] (Python [Text "/jobs/a"; Text "/lib"] None [] ex_files) = [Text "/lib"; Text "/jobs/a"].
Proof. split; [reflexivity|vm_compute; reflexivity]. Qed.

(** The modules beside the file can be imported ... *)
Theorem c68_works : forall root sps ns py, (forall n, In n ns -> exists v, py_files py root n = Some v) -> exists bs, meaning root sps ns py = Some bs.
Proof. exact works_beside. Qed.
Print Assumptions c68_works.

Example c68_works_met : forall n, In n ["utils"] -> exists v, py_files ex_python "/jobs/b" n = Some v.
Proof. intros n [<- |[]]. now exists 2. Qed.

(** ... and a name that nobody has imported, and that no directory on sys.path has, means the one beside the
    file, as it is on disk.  Missing: names that have been imported, or that another directory has. *)
Theorem c68_beside_partial : forall root sps ns py bs n m, meaning root sps ns py = Some bs -> In (n, m) bs ->
  not_imported n py -> not_on_path n py -> exists v, m = (root, v) /\ py_files py root n = Some v.
Proof. exact found_beside. Qed.
Print Assumptions c68_beside_partial.

Example c68_beside_met : meaning "/jobs/b" ["/shared"] ["os"; "utils"] ex_python = Some [("os", ("/lib", 0)); ("utils", ("/jobs/b", 2))] /\
  In ("utils", ("/jobs/b", 2)) [("os", ("/lib", 0)); ("utils", ("/jobs/b", 2))] /\ not_imported "utils" ex_python /\ not_on_path "utils" ex_python.
Proof. split; [vm_compute; reflexivity|]. split; [right; now left|]. split; [now apply ex_new|apply ex_not_on_path]. Qed.

(** A directory that was on sys.path is moved to its end *)
Theorem c68_order_refuted : forall root ns es py, unassigned py -> py_path py = Text root :: es -> ~ In (Text root) es ->
  path_after root [] ns py = es ++ [Text root].
Proof. exact order_changes. Qed.
Print Assumptions c68_order_refuted.

Example c68_order_met : let py := Python [Text "/jobs/a"; Text "/lib"] None [] ex_files in
  unassigned py /\ py_path py = Text "/jobs/a" :: [Text "/lib"] /\ ~ In (Text "/jobs/a") [Text "/lib"].
Proof. cbv zeta. split; [reflexivity|]. split; [reflexivity|]. intros [I|[]]. discriminate I. Qed.

(** Once the program has assigned sys.path, every import of a file of a task leaves its directories on it *)
Theorem c68_assigned_refuted : forall root sps ns es k py, let py1 := do_all (repeat (Load root sps ns) k) (do py (Assign es)) in
  py_path py1 = es ++ List.concat (repeat (added root sps) k).
Proof. exact path_grows. Qed.
Print Assumptions c68_assigned_refuted.

Example c68_assigned_met : py_path (do_all (repeat (Load "/jobs/a" [] ["utils"]) 2) (do ex_python (Assign [Text "/app"]))) =
  [Text "/app"; Text "/jobs/a"; Text "/jobs/a"].
Proof. vm_compute. reflexivity. Qed.

(** The directories in sys_paths are never searched *)
Theorem c68_sys_paths_refuted : exists py root d n v, py_files py d n = Some v /\ meaning root [d] [n] py = None /\
  forall ns sps, meaning root sps ns py = meaning root [] ns py.
Proof. exact sys_paths_ignored. Qed.
Print Assumptions c68_sys_paths_refuted.

(** What a name means in the file of one task is what it means in all later imports of files of tasks, whatever
    is changed on disk, ... *)
Theorem c68_stale_refuted : forall es root sps ns root' sps' ns' py bs bs' n m m', meaning root sps ns py = Some bs -> In (n, m) bs ->
  meaning root' sps' ns' (do_all es (do py (Load root sps ns))) = Some bs' -> In (n, m') bs' -> m' = m.
Proof. exact means_for_ever. Qed.
Print Assumptions c68_stale_refuted.

Example c68_stale_met : meaning "/jobs/a" [] ["utils"] ex_python = Some [("utils", ("/jobs/a", 1))] /\
  meaning "/jobs/a" [] ["utils"] (do_all [Write "/jobs/a" "utils" (Some 9)] (do ex_python (Load "/jobs/a" [] ["utils"]))) =
    Some [("utils", ("/jobs/a", 1))].
Proof. split; vm_compute; reflexivity. Qed.

(** ... so that a task in another directory gets the module of the first *)
Theorem c68_other_refuted : exists py a b n v w, unassigned py /\ not_imported n py /\ not_on_path n py /\ a <> b /\
  py_files py a n = Some v /\ py_files py b n = Some w /\
  meaning b [] [n] (do py (Load a [] [n])) = Some [(n, (a, v))].
Proof. exact other_module. Qed.
Print Assumptions c68_other_refuted.

(** A directory on sys.path comes before the one of the file *)
Theorem c68_shadow_refuted : forall root sps ns py bs n m a d v b, meaning root sps ns py = Some bs -> In (n, m) bs ->
  not_imported n py -> py_path py = a ++ Text d :: b -> (forall c, In (Text c) a -> py_files py c n = None) -> py_files py d n = Some v -> m = (d, v).
Proof. exact found_first. Qed.
Print Assumptions c68_shadow_refuted.

Example c68_shadow_met : let py := Python [Text "/app"; Text "/jobs/b"] None [] ex_files in
  meaning "/jobs/a" [] ["utils"] py = Some [("utils", ("/jobs/b", 2))] /\ not_imported "utils" py /\
  py_path py = [Text "/app"] ++ Text "/jobs/b" :: [] /\ (forall c, In (Text c) [Text "/app"] -> py_files py c "utils" = None) /\
  py_files py "/jobs/b" "utils" = Some 2 /\ py_files py "/jobs/a" "utils" = Some 1.
Proof.
  cbv zeta. split; [vm_compute; reflexivity|]. split; [intros m []|]. split; [reflexivity|].
  split; [intros c [I|[]]; injection I as <-; reflexivity|]. split; reflexivity.
Qed.
