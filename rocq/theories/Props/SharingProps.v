(** Parameter sets as objects: C80. *)
From Coq Require Import Bool Arith Lia.
From Verif Require Import Model.Base Model.World Model.Params Model.Sharing Spec.SharingSpec Proofs.SharingProofs.
Open Scope Z_scope.

(** * C80 *)

(** Starting a run changes none of the parameter sets there are, the session's,
    the tasks' and the requests' among them, also when it fails, *)
Theorem c80_start : forall n s sp h t x flag passed, untouched h (snd (fst (start_run n s sp h t x flag passed))).
Proof. exact start_leaves_any. Qed.
Print Assumptions c80_start.

(** nor does its beginning to run. *)
Theorem c80_begin : forall n s' h t params direct, untouched h (snd (begin_run n s' h t params direct)).
Proof. exact begin_leaves_any. Qed.
Print Assumptions c80_begin.

(** So a set stays what it is whatever tasks are made, requested and run, and
    whatever is done to other sets, until it is changed itself. *)
Theorem c80_kept : forall es h l, existing h l -> (forall e, In e es -> ~ changes e l) ->
  existing (happens h es) l /\ read (happens h es) l = read h l.
Proof. exact happens_keeps. Qed.
Print Assumptions c80_kept.

(** A session with the parameter 5 and a task with 6 (to be worked out from the
    session's 5) and a request for 7, run in a thread *)
Example c80_kept_met :
  let s := Sess [] [1] [] [] [] false (fun _ => XThread) (fun _ _ => Err KeyError) (VEvent 9) in
  let h := [[(5, PVal (VData 50))]; [(6, PArg (ArgKey 5 None))]; [(7, PVal (VData 70))]] in
  let t := STask 1 1%nat [] (fun k => k =? 5) (PFunc false) [2%nat] in
  existing h 0%nat /\ has_sets h t /\
  exists params direct h', start_run 5 s 0%nat h t XThread (VEvent 0) [] = (Ok (params, direct), h', []) /\
    read h' direct = [(6, PVal (VData 50)); (7, PVal (VData 70))] /\ firstn 3 h' = h /\
    fst (begin_run 5 (seen_session h' s 0%nat) (p_set h' 1%nat 6 (PVal (VData 61))) t params direct) =
      Ok [(5, VData 50); (6, VData 50); (7, VData 70)].
Proof.
  cbv zeta. split; [unfold existing; cbn; lia|]. split; [split; [unfold existing; cbn; lia|repeat constructor; unfold existing; cbn; lia]|].
  do 3 eexists. split; [vm_compute; reflexivity|]. split; [vm_compute; reflexivity|]. split; vm_compute; reflexivity.
Qed.

(** What is asked for with a request is what is asked for then, whatever becomes of
    the set it was given. *)
Theorem c80_request : forall h given kwargs r h' es, existing h given -> request h given kwargs = (r, h') ->
  (forall e, In e es -> ~ changes e r) -> read (happens h' es) r = request_params (read h given) kwargs.
Proof. exact request_kept. Qed.
Print Assumptions c80_request.

Example c80_request_met :
  let h := [[(5, PVal (VData 50))]] in
  exists h', request h 0%nat [(6, PVal (VData 60))] = (1%nat, h') /\ (forall e, In e [EClear 0%nat] -> ~ changes e 1%nat) /\
    happens h' [EClear 0%nat] = [[]; [(5, PVal (VData 50)); (6, PVal (VData 60))]].
Proof.
  cbv zeta. eexists. split; [vm_compute; reflexivity|]. split; [|vm_compute; reflexivity].
  intros e [<-|[]]. cbn. discriminate.
Qed.

(** A run that was started gets the arguments Model.Params (C37) has for the
    parameters as they were at its start, whatever happens to the task's, the
    session's and the request's sets before it begins: none of what can happen
    to them changes the two sets made for it. *)
Theorem c80_arguments : forall n s s' sp h t x flag passed p d h1 bs es, existing h sp -> has_sets h t ->
  start_run n s sp h t x flag passed = (Ok (p, d), h1, bs) -> (forall e, In e es -> ~ changes e p /\ ~ changes e d) ->
  fst (begin_run n s' (happens h1 es) t p d) = run_kwargs n (seen_session h s sp) s' (seen_task h t) x flag passed.
Proof. exact run_gets_later. Qed.
Print Assumptions c80_arguments.

(** These two sets are new, *)
Theorem c80_new : forall n s sp h t x flag passed p d h1 bs, existing h sp -> has_sets h t ->
  start_run n s sp h t x flag passed = (Ok (p, d), h1, bs) -> ~ existing h p /\ ~ existing h d /\ existing h1 p /\ existing h1 d.
Proof. exact sets_new. Qed.
Print Assumptions c80_new.

(** and a start fails only as it does there. *)
Theorem c80_fails : forall n s s' sp h t x flag passed e h1 bs, existing h sp -> has_sets h t ->
  start_run n s sp h t x flag passed = (Err e, h1, bs) ->
  run_kwargs n (seen_session h s sp) s' (seen_task h t) x flag passed = Err e.
Proof. exact run_fails. Qed.
Print Assumptions c80_fails.

(** A parameter worked out from one the session does not have *)
Example c80_fails_met :
  let s := Sess [] [1] [] [] [] false (fun _ => XProcess) (fun _ _ => Err KeyError) (VEvent 9) in
  let h := [[]; [(6, PArg (ArgKey 5 None))]] in
  let t := STask 1 1%nat [] (fun k => k =? 5) (PFunc false) [] in
  existing h 0%nat /\ has_sets h t /\ exists h', start_run 5 s 0%nat h t XProcess (VEvent 0) [] = (Err KeyError, h', []).
Proof.
  cbv zeta. split; [unfold existing; cbn; lia|]. split; [split; [unfold existing; cbn; lia|constructor]|].
  eexists. vm_compute. reflexivity.
Qed.

(** A function task given its function has a set of its own, *)
Theorem c80_own : forall h sig given l h', existing h given -> own_params h (PFunc false) sig given = (l, h') ->
  ~ existing h l /\ existing h' l /\ read h' l = params_or sig (read h given).
Proof. exact own_new. Qed.
Print Assumptions c80_own.

(** and so has any task given a dictionary. *)
Theorem c80_own_dict : forall h kind sig given l h', own_params_of_dict h kind sig given = (l, h') ->
  ~ existing h l /\ existing h' l.
Proof. exact own_of_dict_new. Qed.
Print Assumptions c80_own_dict.

Example c80_own_met :
  let h := [[(5, PVal (VData 50))]] in
  own_params h (PFunc false) [(6, PArg (SimpleArg VNone))] 0%nat =
    (2%nat, h ++ [[(6, PArg (SimpleArg VNone))]; [(6, PArg (SimpleArg VNone)); (5, PVal (VData 50))]]) /\
  fst (own_params_of_dict h PBase [] [(5, PVal (VData 50))]) = 1%nat.
Proof. split; vm_compute; reflexivity. Qed.

(** Other tasks given one Parameters object share it: what is set for one of
    them is set for the other. *)
Theorem c80_shared_refuted : forall h kind sig sig' given k p a h1 b h2, existing h given -> kind <> PFunc false ->
  own_params h kind sig given = (a, h1) -> own_params h1 kind sig' given = (b, h2) ->
  read (p_set h2 a k p) b = dset k p (read h2 b).
Proof. exact shared. Qed.
Print Assumptions c80_shared_refuted.

Example c80_shared_met :
  let h := [[(5, PVal (VData 50))]] in
  own_params h PBase [] 0%nat = (0%nat, h) /\ read (p_set h 0%nat 5 (PVal (VData 51))) 0%nat = [(5, PVal (VData 51))].
Proof. split; vm_compute; reflexivity. Qed.
