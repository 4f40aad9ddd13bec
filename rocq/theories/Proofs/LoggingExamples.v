From Coq Require Import Bool Arith Lia ZifyBool List ZArith String Ascii.
From Verif Require Import Model.Base Model.Interval Model.Period Model.Condition Model.History Model.Logging
  Spec.LoggingSpec Proofs.LoggingProofs Proofs.LoggingResults.
Import ListNotations.
Local Open Scope Z_scope.
Local Open Scope list_scope.

(** Python as it starts: a root logger with level WARNING, here with a stream handler *)
Definition ex_bare : registry := Registry (Logger [Handler None 0] 30 true None) [].
Definition ex_none : stores := fun _ => [].
(** Repository 1 has a record of an earlier session *)
Definition ex_old : record := Rec 1 ASuccess 100 None.
Definition ex_stores : stores := fun r => if r =? 1 then [ex_old] else [].
Definition rec_run : record := Rec 1 ARun 200 None.
Definition rec_ok : record := Rec 1 ASuccess 201 None.
Definition rec_fail : record := Rec 2 AFail 202 None.

Lemma ex_unused : forall r, unused r ex_bare.
Proof. intros r. split; [intros h [<- |[]]; discriminate|intros n g h H; discriminate H]. Qed.
Lemma ex_sole : forall base, sole base ex_bare.
Proof. intros base. split; [constructor|intros n []]. Qed.

Definition ex_happenings : list happening :=
  [HCheck "rocketry.task" 7; HAdd "rocketry.task" (Handler None 0); HWrap "rocketry.task" 5 true;
   HApp "other.task" 2; HLog "rocketry.task" rec_run; HLog "rocketry.task" rec_fail; HRelay "rocketry.task" rec_ok; HDelete "other"].
Lemma ex_harmless : Forall (harmless_all "rocketry.task" 1) ex_happenings.
Proof.
  unfold ex_happenings. repeat (apply Forall_cons); try apply Forall_nil; split;
    try (intros task; cbn; try (split; discriminate); try discriminate; try reflexivity; try exact I; intros _; reflexivity);
    intros n I; cbn in I; destruct I as [<- |[]] || destruct I; intros E; try reflexivity; discriminate E.
Qed.

(** The second application with the same base name hides the repository of the first *)
Lemma shared_wrong : exists base r q reg st task,
  unused r reg /\ unused q reg /\ q <> r /\
  let w := steps_of [HApp base r; HApp base q] (reg, st) in
  filter (fun x => r_task x =? task) (st r) <> [] /\ read_task (fst w) (snd w) base task = Ok [].
Proof.
  exists "rocketry.task"%string, 1, 2, ex_bare, ex_stores, 1. split; [apply ex_unused|]. split; [apply ex_unused|].
  split; [discriminate|]. cbv zeta. split; [discriminate|vm_compute; reflexivity].
Qed.

(** A task of a group logs elsewhere *)
Lemma group_wrong : exists base n r q reg st x,
  unused r reg /\ q <> r /\ task_logger_name base NoName = Ok base /\ group_logger_name NoName = Ok n /\
  let w := steps_of [HApp base r; HCheck default_base q; HLog n x] (reg, st) in
  snd w r = [] /\ get_task_log base (fst w) (snd w) = Ok [].
Proof.
  exists "myapp.task"%string, "rocketry.task"%string, 1, 2, ex_bare, ex_none, rec_run. split; [apply ex_unused|].
  split; [discriminate|]. split; [reflexivity|]. split; [reflexivity|]. cbv zeta. split; vm_compute; reflexivity.
Qed.

(** A logger below that of the application: it cannot be read, ... *)
Lemma child_unreadable : exists base n r reg st x,
  unused r reg /\ task_logger_name base (NameLogger n) = Ok n /\
  let w := steps_of [HApp base r; HLog n x] (reg, st) in
  snd w r = [x] /\ read_task (fst w) (snd w) n (r_task x) = Err AttributeError /\
  get_task_log base (fst w) (snd w) = Err AttributeError.
Proof.
  exists "rocketry.task"%string, "rocketry.task.mine"%string, 1, ex_bare, ex_none, rec_run. split; [apply ex_unused|].
  split; [reflexivity|]. cbv zeta. split; [vm_compute; reflexivity|]. split; vm_compute; reflexivity.
Qed.
(** ... or everything is found twice, ... *)
Lemma child_twice : exists base n r q reg st x,
  unused r reg /\ unused q reg /\ q <> r /\ task_logger_name base (NameLogger n) = Ok n /\
  let w := steps_of [HApp base r; HAdd n (repo_handler q); HLog n x] (reg, st) in
  get_task_log base (fst w) (snd w) = Ok [x; x].
Proof.
  exists "rocketry.task"%string, "rocketry.task.mine"%string, 1, 2, ex_bare, ex_none, rec_run. split; [apply ex_unused|].
  split; [apply ex_unused|]. split; [discriminate|]. split; [reflexivity|]. vm_compute. reflexivity.
Qed.
(** ... and its level is not looked after *)
Lemma child_level : exists base n r q reg st x,
  unused r reg /\ unused q reg /\ q <> r /\ task_logger_name base (NameLogger n) = Ok n /\
  let w := steps_of [HApp base r; HAdd n (repo_handler q); HLevel n 30; HCheck base 9; HLog n x] (reg, st) in
  read_task (fst w) (snd w) n (r_task x) = Ok [] /\ snd w r = [].
Proof.
  exists "rocketry.task"%string, "rocketry.task.mine"%string, 1, 2, ex_bare, ex_none, rec_ok. split; [apply ex_unused|].
  split; [apply ex_unused|]. split; [discriminate|]. split; [reflexivity|]. cbv zeta. split; vm_compute; reflexivity.
Qed.

(** The log of the session includes that of an application whose base name begins alike *)
Lemma prefix_wrong : exists base other r q reg st x,
  other <> base /\ unused r reg /\ unused q reg /\ q <> r /\
  let w := steps_of [HApp base r; HApp other q; HLog other x] (reg, st) in
  snd w r = [] /\ get_task_log base (fst w) (snd w) = Ok [x].
Proof.
  exists "rocketry.task"%string, "rocketry.task2"%string, 1, 2, ex_bare, ex_none, rec_run. split; [discriminate|].
  split; [apply ex_unused|]. split; [apply ex_unused|]. split; [discriminate|]. cbv zeta. split; vm_compute; reflexivity.
Qed.

(** A logger given by name is not checked *)
Lemma text_wrong : exists base n r reg st x,
  unused r reg /\ task_logger_name base (NameLogger n) = Err ValueError /\ task_logger_name base (NameText n) = Ok n /\
  let w := steps_of [HApp base r; HLog n x] (reg, st) in
  snd w r = [] /\ get_task_log base (fst w) (snd w) = Ok [] /\ read_task (fst w) (snd w) n (r_task x) = Err AttributeError.
Proof.
  exists "rocketry.task"%string, "mylogs"%string, 1, ex_bare, ex_none, rec_run. split; [apply ex_unused|].
  split; [reflexivity|]. split; [reflexivity|]. cbv zeta. split; [vm_compute; reflexivity|]. split; vm_compute; reflexivity.
Qed.

(** The second session with a time_func does not get its records stamped, nor does any with a logger of its own *)
Lemma clock_wrong : exists base n s s' reg st, s' <> s /\ stamped_by base reg = None /\ task_logger_name base (NameLogger n) = Ok n /\
  stamped_by base (fst (steps_of [HWrap base s true; HWrap base s' true] (reg, st))) = Some s /\
  stamped_by n (fst (steps_of [HWrap base s true] (reg, st))) = None.
Proof.
  exists "rocketry.task"%string, "rocketry.task.mine"%string, 1, 2, ex_bare, ex_none. split; [discriminate|].
  split; [reflexivity|]. split; [reflexivity|]. split; vm_compute; reflexivity.
Qed.

Lemma names_checked : forall base n, task_logger_name base (NameLogger n) = Ok n <-> String.prefix base n = true.
Proof. intros base n. cbn. destruct (String.prefix base n); split; congruence. Qed.
