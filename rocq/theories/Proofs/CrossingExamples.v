(** Concrete parameters and tasks for child processes. *)
From Coq Require Import Bool Arith Lia ZifyBool.
From Verif Require Import Model.Base Model.World Model.Params Model.Condition Model.History Model.Crossing
  Spec.ParamsSpec Spec.CrossingSpec Proofs.ParamsProofs Proofs.CrossingProofs.
Open Scope Z_scope.

(** Values from 1000 on cannot be pickled. *)
Definition cx_pick (p : param) : bool := match p with PVal (VData n) => n <? 1000 | _ => true end.

(** Session parameter 5 and a function 8 of it; the task takes 5, 6 and 8 and has
    its own 5 and 6. *)
Definition cx_sess : sess :=
  Sess [(5, PVal (VData 50)); (8, PArg (FuncArg 1 [(0, ArgKey 5 (Some VNone))] None))] [1] [] [(9, VData 900)] [] false
    (fun _ => XProcess) (fun _ kw => match dget 0 kw with Some v => Ok v | None => Err TypeError end) (VEvent 1).
Definition cx_takes (l : list Z) (k : Z) : bool := existsb (Z.eqb k) l.
Definition cx_task (own : dict param) (takes : list Z) : ptask := PTask 1 own [] (cx_takes takes) (PFunc false) [].

Ltac dicts := unfold dictionaries, one_per_key; cbn; repeat split; repeat constructor; cbn; intuition discriminate.

Lemma lost_parameter : exists n pick s t k v kw kw',
  is_func t /\ dictionaries s t [] /\ own_source t k = Some (PVal v) /\
  run_kwargs n s s t XMain VNone [] = Ok kw /\ dget k kw = Some v /\
  spawn_kwargs n pick s s t [] = Ok kw' /\ dget k kw' = None.
Proof.
  exists 9%nat, cx_pick, cx_sess, (cx_task [(6, PVal (VData 1006))] [5; 6]), 6, (VData 1006),
    [(5, VData 50); (6, VData 1006)], [(5, VData 50)].
  split; [discriminate|]. split; [dicts|]. repeat split; vm_compute; reflexivity.
Qed.

Lemma other_parameter : exists n pick s t k v w kw kw',
  is_func t /\ dictionaries s t [] /\ own_source t k = Some (PVal v) /\ dget k (ss_params s) = Some (PVal w) /\ v <> w /\
  run_kwargs n s s t XMain VNone [] = Ok kw /\ dget k kw = Some v /\
  spawn_kwargs n pick s s t [] = Ok kw' /\ dget k kw' = Some w.
Proof.
  exists 9%nat, cx_pick, cx_sess, (cx_task [(5, PVal (VData 1005))] [5; 6]), 5, (VData 1005), (VData 50),
    [(5, VData 1005)], [(5, VData 50)].
  split; [discriminate|]. split; [dicts|]. split; [reflexivity|]. split; [reflexivity|]. split; [discriminate|].
  repeat split; vm_compute; reflexivity.
Qed.

(** A function of a session parameter, called in the child *)
Lemma late_function : exists s t kw, is_func t /\ dictionaries s t [] /\
  (forall n, run_kwargs (4 + n) s s t XMain VNone [] = Ok kw /\ run_kwargs (4 + n) s s t XProcess VNone [] = Ok kw) /\
  forall n pick, (forall p, pick p = true) -> spawn_kwargs (4 + n) pick s s t [] = Err AttributeError.
Proof.
  exists cx_sess, (cx_task [] [8]), [(8, VData 50)].
  split; [discriminate|]. split; [dicts|]. split.
  - intros n. split; reflexivity.
  - intros n pick P. unfold spawn_kwargs, crossed.
    cbn [get_extra_params prefilter cx_task pt_kind bind]. cbn. rewrite P. reflexivity.
Qed.

Lemma cross_example : is_func (cx_task [(6, PVal (VData 6))] [5; 6]) /\
  all_cross 9 cx_pick (with_params [(5, PVal (VData 50)); (7, PArg (FuncArg 1 [(0, EnvArg 9 None)] None))] cx_sess)
    (cx_task [(6, PVal (VData 6))] [5; 6; 7]) [].
Proof.
  split; [discriminate|]. intros d k p I J.
  destruct I as [<- | [<- | [<- | [<- | [<- | [<- | []]]]]]]; cbn in J;
    repeat match goal with H : _ \/ _ |- _ => destruct H as [H|H] end; try contradiction; injection J as <- <-;
    (split; [intros q S; cbn in S|intros a E; try discriminate E]).
  all: try (subst q; reflexivity).
  - destruct S as [S _]. rewrite S; reflexivity.
  - injection E as <-. intros _. reflexivity.
Qed.

(** Ten seconds in 2020 *)
Definition cx_t : Z := 63713433600000000.

Lemma retry_not_made : exists name t id,
  let after g := start_spawned g fresh_state [] name t id in
  let retries g := retry_state 1 false (fst (fst (after g))) (snd (fst (after g))) name in
  retries (Cargo true false) = true /\ retries (Cargo false true) = false.
Proof. exists 1, cx_t, 7. split; vm_compute; reflexivity. Qed.
