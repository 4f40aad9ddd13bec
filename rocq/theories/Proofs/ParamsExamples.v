(** Concrete parameter sets for the theorems about parameters. *)
From Coq Require Import Bool Arith Lia ZifyBool.
From Verif Require Import Model.Base Model.World Model.Params Spec.ParamsSpec Proofs.ParamsProofs.
Open Scope Z_scope.

(** Session parameters: 5 is a secret, 6 looks 5 up, 7 is a plain value, 8 a
    function of the session parameter 7. *)
Definition ex_sess : sess :=
  Sess [(5, PArg (PrivateArg (VData 42))); (6, PArg (ArgKey 5 None)); (7, PVal (VData 70));
        (8, PArg (FuncArg 1 [(0, ArgKey 7 None)] None))]
    [1; 2] [(2, VData 200)] [(9, VData 900)] [10; 11; 12] false (fun _ => XMain)
    (fun _ kw => match dget 0 kw with Some v => Ok v | None => Err TypeError end) (VEvent 1).

(** A function task that takes 5 to 8 and _thread_terminate_; its own
    parameters and one request *)
Definition ex_ptask : ptask :=
  PTask 1 [(6, PVal (VData 61)); (7, PArg (ReturnArg 2 None))] [] (fun k => (k =? k_terminate) || (k =? 5) || (k =? 6) || (k =? 7) || (k =? 8))
    (PFunc false) [[(7, PVal (VData 77))]].

Lemma ex_dictionaries : dictionaries ex_sess ex_ptask [].
Proof.
  unfold dictionaries, one_per_key. cbn.
  repeat split; repeat constructor; cbn; intuition discriminate.
Qed.

Lemma ex_kwargs :
  run_kwargs 9 ex_sess ex_sess ex_ptask XThread (VEvent 0) [] =
  Ok [(5, VData 42); (6, VData 61); (7, VData 77); (8, VData 70); (k_terminate, VEvent 0)].
Proof. vm_compute. reflexivity. Qed.

(** A pipe nested to the right, whose first two members have no value *)
Definition ex_pipe : pipe :=
  Then (One (ArgKey 99 None)) (Then (One (ReturnArg 1 None)) (Then (One (EnvArg 9 None)) (One (SimpleArg VNone)))).

(** A thread evaluates parameters that are overridden. *)
Definition ex_broken : sess :=
  Sess [(5, PArg (ArgKey 9 None))] [1] [] [] [] false (fun _ => XMain) (fun _ _ => Ok VNone) (VEvent 1).
Definition ex_override : ptask := PTask 1 [(5, PVal (VData 1))] [] (fun k => k =? 5) (PFunc false) [].

Lemma thread_evaluates_overridden : exists n s t flag kw,
  is_func t /\ dictionaries s t [] /\
  (forall k p, chosen s t XThread flag [] k = Some p -> exists v, worth n s s t XThread flag p (Ok v)) /\
  run_kwargs n s s t XMain flag [] = Ok kw /\
  run_kwargs n s s t XThread flag [] = Err KeyError.
Proof.
  exists 9%nat, ex_broken, ex_override, (VEvent 0), [(5, VData 1)].
  split; [discriminate|]. split; [|split; [|split; vm_compute; reflexivity]].
  - unfold dictionaries, one_per_key. cbn. repeat split; repeat constructor; cbn; intuition discriminate.
  - intros k p H. unfold chosen, ex_override, request_of, signature_of in H.
    cbn [pt_requests pt_own pt_kind first_with dget pt_takes] in H. rewrite (Z.eqb_sym 5 k) in H.
    destruct (k =? 5) eqn:E.
    + injection H as <-. exists (VData 1). reflexivity.
    + discriminate.
Qed.

(** A task of another class than the function task *)
Definition ex_base (takes : Z -> bool) : ptask := PTask 1 [] [] takes PBase [].

Lemma base_hides_secret : exists n s t flag kw k v,
  pt_kind t = PBase /\ dictionaries s t [] /\
  chosen s t XMain flag [] k = Some (PArg (PrivateArg v)) /\
  worth n s s t XMain flag (PArg (PrivateArg v)) (Ok v) /\
  run_kwargs n s s t XMain flag [] = Ok kw /\
  dget k kw = Some VHidden /\ v <> VHidden.
Proof.
  exists 9%nat, (Sess [(5, PArg (PrivateArg (VData 42)))] [1] [] [] [] false (fun _ => XMain) (fun _ _ => Ok VNone) (VEvent 1)),
    (ex_base (fun k => k =? 5)), (VEvent 0), [(5, VHidden)], 5, (VData 42).
  split; [reflexivity|]. split.
  { unfold dictionaries, one_per_key. cbn. repeat split; repeat constructor; cbn; intuition discriminate. }
  repeat split; try (vm_compute; reflexivity). discriminate.
Qed.

Lemma base_fails_for_others : exists n s t flag,
  pt_kind t = PBase /\ dictionaries s t [] /\
  (forall k, chosen s t XMain flag [] k = None) /\
  run_kwargs n s s t XMain flag [] = Err AttributeError.
Proof.
  exists 9%nat, (Sess [(5, PArg (ReturnArg 2 (Some VNone)))] [1; 2] [(2, VData 3)] [] [] false (fun _ => XMain) (fun _ _ => Ok VNone) (VEvent 1)),
    (ex_base (fun _ => false)), (VEvent 0).
  split; [reflexivity|]. split.
  { unfold dictionaries, one_per_key. cbn. repeat split; repeat constructor; cbn; intuition discriminate. }
  split; [intros k; reflexivity|vm_compute; reflexivity].
Qed.
