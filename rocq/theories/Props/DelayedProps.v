(** C67: the function that runs of a task given by a file call. *)
From Coq Require Import List Bool ZArith Lia String.
From Verif Require Import Model.Delayed Spec.DelayedSpec Proofs.DelayedProofs Proofs.DelayedResults Proofs.DelayedExamples.
Import ListNotations.
Local Open Scope Z_scope.
Local Open Scope list_scope.

(** A run that begins when no earlier run has left its function behind calls a version of the function that was
    in the file since the run began, with the parameters of the version in the file when it began.
    Missing: runs that begin while another run in the same process is under way, or after one that failed
    in its parameters. *)
Theorem c67_fresh_partial : forall raises cache d es m1 r p m2 s v m3,
  marks raises cache d es = m1 ++ MBegun r p :: m2 ++ MRan r s v :: m3 -> (forall q, ~ In (MBegun r q) m2) -> tidy m1 ->
  In (Some v) (on_disk (disk_after d m1) m2) /\ disk_after d m1 = Some s.
Proof. exact runs_fresh. Qed.
Print Assumptions c67_fresh_partial.

Example c67_fresh_met :
  marks fine false (Some 1) ex_runs =
    [MImport 1; MBegun 1 Inside; MImport 1; MKept 1; MRan 1 1 1; MFinished 1 Inside; MSaved (Some 2); MImport 2] ++
    MBegun 2 Inside :: [MSaved (Some 3); MImport 2; MKept 2] ++ MRan 2 2 3 :: [MFinished 2 Inside] /\
  tidy [MImport 1; MBegun 1 Inside; MImport 1; MKept 1; MRan 1 1 1; MFinished 1 Inside; MSaved (Some 2); MImport 2].
Proof. split; vm_compute; reflexivity. Qed.

(** Whatever runs overlap, a run that begins after some run in the scheduler's process has finished calls a
    version that was in the file after that *)
Theorem c67_after_finish : forall raises cache d es m1 q m2 r p m3 s v m4,
  marks raises cache d es = m1 ++ MFinished q Inside :: m2 ++ MBegun r p :: m3 ++ MRan r s v :: m4 ->
  (forall q, ~ In (MBegun r q) m3) -> In (Some v) (on_disk (disk_after d m1) (m2 ++ MBegun r p :: m3)).
Proof. exact runs_after_finish. Qed.
Print Assumptions c67_after_finish.

Example c67_after_finish_met :
  marks fine false (Some 1) ex_runs =
    [MImport 1; MBegun 1 Inside; MImport 1; MKept 1; MRan 1 1 1] ++ MFinished 1 Inside :: [MSaved (Some 2); MImport 2] ++
    MBegun 2 Inside :: [MSaved (Some 3); MImport 2; MKept 2] ++ MRan 2 2 3 :: [MFinished 2 Inside].
Proof. vm_compute; reflexivity. Qed.

(** Runs in processes of their own are always up to date, however they overlap and fail *)
Theorem c67_process : forall raises cache d es, all_outside es -> up_to_date d (marks raises cache d es).
Proof. exact processes_fresh. Qed.
Print Assumptions c67_process.

Example c67_process_met : all_outside ex_mixed /\
  marks fine false (Some 1) ex_mixed = [MImport 1] ++ MBegun 1 Outside :: [MSaved (Some 2); MImport 1] ++ MRan 1 1 2 :: [MFinished 1 Outside].
Proof. split; [intros r p I; cbn in I; intuition congruence|vm_compute; reflexivity]. Qed.

(** Unless the file changes meanwhile, the parameters are those of the version that is called *)
Theorem c67_matching_partial : forall raises cache d es m1 r p m2 s v m3,
  marks raises cache d es = m1 ++ MBegun r p :: m2 ++ MRan r s v :: m3 -> (forall q, ~ In (MBegun r q) m2) -> tidy m1 ->
  unsaved m2 -> s = v.
Proof. exact runs_match. Qed.
Print Assumptions c67_matching_partial.

Example c67_matching_met :
  marks fine true (Some 1) ex_runs = [MImport 1] ++ MBegun 1 Inside :: [MImport 1; MKept 1] ++ MRan 1 1 1 ::
    [MFinished 1 Inside; MSaved (Some 2); MImport 2; MBegun 2 Inside; MSaved (Some 3); MImport 2; MKept 2; MRan 2 2 3; MFinished 2 Inside] /\
  tidy [MImport 1] /\ unsaved [MImport 1; MKept 1].
Proof. split; [vm_compute; reflexivity|]. split; [reflexivity|]. intros d I. cbn in I. intuition discriminate. Qed.

(** A run in one piece, of a task that nothing was left behind in: it calls what is in the file and leaves
    nothing behind, whatever the task's cache says *)
Theorem c67_alone : forall raises t v r p, d_runs t = [] -> d_func t = None -> d_disk t = Some v -> raises v = false ->
  happen_all raises [Begin r p; Filter r; Execute r; Finish r] t =
  Delayed None (d_cache t) (Some v) [] (d_marks t ++
    [MImport r; MBegun r p; MImport r] ++ (match p with Inside => [MKept r] | Outside => [] end) ++ [MRan r v v; MFinished r p]).
Proof. exact run_alone. Qed.
Print Assumptions c67_alone.

Example c67_alone_met : d_runs (new_delayed true (Some 7)) = [] /\ d_func (new_delayed true (Some 7)) = None /\
  d_disk (new_delayed true (Some 7)) = Some 7 /\ fine 7 = false.
Proof. repeat split; reflexivity. Qed.

(** A file in packages is imported under its dotted name from the root of the packages, which is the first
    directory above it that is not a package, ... *)
Theorem c67_package : forall pkg r ps f, packages_below pkg r ps -> ps <> [] ->
  find_package_root pkg (ps ++ r) = Root r /\
  module_name (find_package_root pkg (ps ++ r)) (ps ++ r) f = Some (String.concat "." (rev ps ++ [stem f])).
Proof. exact packaged. Qed.
Print Assumptions c67_package.

Example c67_package_met : packages_below ex_pkg ["app"; "srv"]%string ["sub"; "pkg"]%string /\
  module_name (find_package_root ex_pkg ["sub"; "pkg"; "app"; "srv"]%string) ["sub"; "pkg"; "app"; "srv"]%string "jobs.py" = Some "pkg.sub.jobs"%string.
Proof.
  split; [|vm_compute; reflexivity]. split; [reflexivity|]. intros a b E N.
  destruct a as [|x [|y [|z a]]]; cbn in E; [subst b; reflexivity|injection E as <- <-; reflexivity|
    destruct b; [congruence|discriminate E]|discriminate E].
Qed.

(** ... where what follows the last dot is left out, unless the dot comes first or last, ... *)
Theorem c67_stem : forall p e, dotless e -> stem e = e /\ stem ("." ++ e) = ("." ++ e)%string /\ stem (p ++ ".") = (p ++ ".")%string /\
  (p <> ""%string -> e <> ""%string -> stem (p ++ "." ++ e) = p).
Proof. exact stem_means. Qed.
Print Assumptions c67_stem.

Example c67_stem_met : dotless "py" /\ stem ("my.jobs" ++ "." ++ "py") = "my.jobs"%string.
Proof. split; [|vm_compute; reflexivity]. intros a b E. destruct a as [|x [|y [|z a]]]; discriminate E. Qed.

(** ... and only if there is none it cannot be imported *)
Theorem c67_no_root : forall pkg d, (forall a b, d = a ++ b -> pkg b = true) <-> find_package_root pkg d = NoRoot.
Proof. exact root_missing_iff. Qed.
Print Assumptions c67_no_root.

Example c67_no_root_met : (forall a b, (["b"; "a"]%string : dir) = a ++ b -> (fun _ => true) b = true) /\
  find_package_root (fun d => match d with [] => false | _ => true end) ["b"; "a"]%string = Root [].
Proof. split; reflexivity. Qed.

(** A run started in the scheduler's process while another goes on calls what was in the file then *)
Theorem c67_overlap_refuted : exists cache d es, all_inside es /\ ~ up_to_date d (marks fine cache d es).
Proof. exact overlap_stale. Qed.
Print Assumptions c67_overlap_refuted.

(** After a run that failed because a parameter of its function raises, no run in the scheduler's process
    ever calls anything, whatever is saved to the file *)
Theorem c67_stuck_refuted : forall raises cache v r es, raises v = true -> all_inside es ->
  forall q s w, ~ In (MRan q s w) (marks raises cache (Some v) (Begin r Inside :: Filter r :: es)).
Proof. exact stuck_for_ever. Qed.
Print Assumptions c67_stuck_refuted.

Example c67_stuck_met : let raises := Z.eqb 1 in raises 1 = true /\ raises 2 = false /\
  all_inside [Save (Some 2); Begin 2 Inside; Filter 2; Execute 2; Finish 2; Begin 3 Inside; Filter 3; Execute 3] /\
  marks raises false (Some 1) [Begin 1 Outside; Filter 1; Save (Some 2); Begin 2 Outside; Filter 2; Execute 2] =
    [MImport 1; MBegun 1 Outside; MImport 1; MFailed 1; MSaved (Some 2); MImport 2; MBegun 2 Outside; MImport 2; MRan 2 2 2].
Proof. cbv zeta. split; [reflexivity|]. split; [reflexivity|]. split; [intros r p I; cbn in I; intuition congruence|vm_compute; reflexivity]. Qed.

(** A change between the start of the run and that of its process gives it the parameters of another version *)
Theorem c67_matching_refuted : exists cache d es, all_outside es /\ ~ matching (marks fine cache d es).
Proof. exact mixed. Qed.
Print Assumptions c67_matching_refuted.

(** A run executes the file twice: once, in the scheduler's process, for the parameters *)
Theorem c67_once_refuted : forall raises cache v r p, raises v = false ->
  imports r (marks raises cache (Some v) [Begin r p; Filter r; Execute r; Finish r]) = 2.
Proof. exact imported_twice. Qed.
Print Assumptions c67_once_refuted.

Example c67_once_met : fine 5 = false.
Proof. reflexivity. Qed.

(** A file outside packages is imported under its name with the suffix *)
Theorem c67_script_name_refuted : forall pkg d f, pkg d = false -> module_name (find_package_root pkg d) d f = Some f.
Proof. exact script_name. Qed.
Print Assumptions c67_script_name_refuted.

Example c67_script_name_met : ex_pkg ["app"; "srv"]%string = false /\ stem "jobs.py" = "jobs"%string /\ stem ".env" = ".env"%string /\ stem "a.b.py" = "a.b"%string.
Proof. repeat split; vm_compute; reflexivity. Qed.
