(** Dependency listings and command tasks: C49, C50. *)
From Coq Require Import Bool Arith Lia ZifyBool String.
From Verif Require Import Model.Base Model.Condition Model.World Model.Registry Model.Depend Model.Command.
From Verif Require Import Spec.ConditionSpec Spec.RegistrySpec Spec.DependSpec Spec.CommandSpec.
From Verif Require Import Proofs.LinkProofs Proofs.CommandProofs Proofs.DependExamples.
Open Scope nat_scope.
Open Scope string_scope.

(** * C49 *)

(** When dependencies name tasks of the session, the links listed are those from
    a task to one whose start condition depends on it by itself or as a member
    of its outermost combination. *)
Theorem c49_listed : forall dep st s, known dep st s ->
  exists ls, get_dependencies dep st s = Ok ls /\ forall l, In l ls <-> depends dep st s l.
Proof. exact listed. Qed.
Print Assumptions c49_listed.

(** Otherwise there is no list. *)
Theorem c49_unknown : forall dep st s, ~ known dep st s -> get_dependencies dep st s = Err KeyError.
Proof. exact unknown. Qed.
Print Assumptions c49_unknown.

(** Conditions joined by & alone or by | alone are members of the outermost
    combination, however they were nested. *)
Theorem c49_joined : forall e a, joined_by_and e a \/ joined_by_or e a -> exists k, part_of (cbuild e) a k.
Proof. exact joined_parts. Qed.
Print Assumptions c49_joined.

Example c49_met :
  known ex_dep dep_store 1 /\
  get_dependencies ex_dep dep_store 1 =
    Ok [Link 0 1 RSuccess None; Link 0 2 RSuccess (Some InAll); Link 1 2 RFailure (Some InAll)] /\
  joined_by_and (XAnd (XAtom 5) (XAnd (XAtom 0) (XAtom 1))) 0.
Proof. split; [exact ex_known|]. split; [vm_compute; reflexivity|]. apply and_right, and_left, and_atom. Qed.

Example c49_unknown_met : ~ known ex_dep (history [ONew 1 "b" (CAtom 0) None] empty_store) 1.
Proof.
  intros K. destruct (K 0 0 None RSuccess "a") as (i & I & N); [vm_compute; auto|vm_compute; constructor|reflexivity|].
  vm_compute in I. destruct I as [<- | []]. vm_compute in N. discriminate.
Qed.

(** A dependency inside another combination or a negation is not listed. *)
Theorem c49_nested_refuted : exists dep st s child a n,
  known dep st s /\ task_of st s child /\ mentions (o_start (st_obj st child)) a /\ dep a = Some (RSuccess, n) /\
  used st s n /\ get_dependencies dep st s = Ok [].
Proof. exact nested. Qed.
Print Assumptions c49_nested_refuted.

(** * C50 *)

(** One run gets the command followed by the run's parameters, in order. *)
Theorem c50_one_run : forall f c ps, formed f ps -> snd (execute f c ps) = Ok (expected f c ps).
Proof. exact one_run. Qed.
Print Assumptions c50_one_run.

Example c50_one_run_met :
  formed FLong [("x", "1"); ("-y", "2")] /\
  snd (execute FLong (CList ["run"; "it"]) [("x", "1"); ("-y", "2")]) = Ok (CList ["run"; "it"; "--x"; "1"; "-y"; "2"]) /\
  snd (execute FShort (CStr "run it") [("x", "1"); ("-y", "2")]) = Ok (CStr "run it -x ""1"" -y ""2""").
Proof. split; [left; discriminate|]. split; reflexivity. Qed.

(** All runs do when the command is a string or there are no parameters. *)
Theorem c50_same_partial : forall f c rs, (forall ps, In ps rs -> formed f ps) ->
  is_string c \/ (forall ps, In ps rs -> ps = []) -> runs f c rs = map (fun ps => Ok (expected f c ps)) rs.
Proof. exact same_runs. Qed.
Print Assumptions c50_same_partial.

Example c50_same_met :
  runs FLong (CStr "run") [[("x", "1")]; []; [("x", "1")]] =
  [Ok (CStr "run --x ""1"""); Ok (CStr "run"); Ok (CStr "run --x ""1""")].
Proof. reflexivity. Qed.

(** A command that is a list gets, in each run, the parameters of all earlier
    runs too. *)
Theorem c50_accumulates : forall f rs l, (forall ps, In ps rs -> formed f ps) ->
  forall k ps, nth_error rs k = Some ps ->
  nth_error (runs f (CList l) rs) k = Some (Ok (CList (l ++ flat_map (words f) (firstn k rs) ++ words f ps)%list)).
Proof. exact list_runs. Qed.
Print Assumptions c50_accumulates.

Theorem c50_repeated_refuted : exists f c ps, formed f ps /\
  runs f c [ps; ps] = [Ok (expected f c ps); Ok (expected f (expected f c ps) ps)] /\
  expected f c ps <> expected f (expected f c ps) ps.
Proof. exact repeated. Qed.
Print Assumptions c50_repeated_refuted.

(** Without a form of options given, a parameter that does not start with a dash
    fails the run, although "--" is the intended default. *)
Theorem c50_no_form : forall ps c p v, In (p, v) ps -> String.prefix "-" p = false ->
  snd (execute FNone c ps) = Err TypeError.
Proof. exact no_form. Qed.
Print Assumptions c50_no_form.

Example c50_no_form_met : snd (execute FNone (CStr "run") [("x", "1")]) = Err TypeError.
Proof. reflexivity. Qed.
