(** Tasks removed in order: no record is lost or credited to another task, the
    bound on the processes holds, nothing is left running. *)
From Coq Require Import ZArith List Bool Arith Lia Permutation.
From Verif Require Import Model.Base Model.History Model.Dynamic Spec.DynamicSpec Proofs.DynamicProofs Proofs.DynamicStart.
Import ListNotations.
Open Scope nat_scope.

Definition live_of (i : nat) (w : dworld) : list (nat * nat * dkind) :=
  map (fun r => (i, dr_uid r, do_kind (obj i w))) (filter dr_alive (do_runs (obj i w))).
Definition of_ (i : nat) (l : list (nat * nat * dkind)) : list (nat * nat * dkind) := filter (fun x => fst (fst x) =? i) l.

Record J (w : dworld) : Prop := {
  j_nodup : NoDup (dw_members w);
  j_valid : forall i, In i (dw_members w) -> i < length (dw_objs w);
  j_names : forall i j, In i (dw_members w) -> In j (dw_members w) -> do_name (obj i w) = do_name (obj j w) -> i = j;
  j_queue : forall r, In r (dw_queue w) -> In (q_from r) (dw_members w) /\ q_name r = do_name (obj (q_from r) w);
  j_proc : forall r, In r (dw_queue w) -> do_kind (obj (q_from r) w) <> KMain;
  j_out : forall i, ~ In i (dw_members w) -> (forall r, In r (do_runs (obj i w)) -> dr_alive r = false) /\
            (do_kind (obj i w) = KMain \/ do_disabled (obj i w) = true);
  j_main : forall i, do_kind (obj i w) = KMain -> do_runs (obj i w) = [];
  j_live : forall i, of_ i (live_after (dw_trace w)) = live_of i w;
  j_note : forall i q, In (DNote i q) (dw_trace w) -> q_from q = i }.

Lemma live_app tr e : live_after (tr ++ [e]) = live_step (live_after tr) e.
Proof. unfold live_after. rewrite fold_left_app. reflexivity. Qed.
Lemma of_app i a b : of_ i (a ++ b) = of_ i a ++ of_ i b.
Proof. apply filter_app. Qed.
Definition silent (e : devent) : Prop := match e with DStart _ _ _ | DOver _ _ | DNote _ _ => False | _ => True end.
Lemma silent_live e l : silent e -> live_step l e = l.
Proof. destruct e; cbn; tauto. Qed.

(** the same tasks with the same runs *)
Definition same_obj (o o' : dobj) : Prop := look o' = look o /\ do_runs o' = do_runs o /\ do_disabled o' = do_disabled o.
Lemma J_same w w' : dw_members w' = dw_members w -> length (dw_objs w') = length (dw_objs w) ->
  (forall i, same_obj (obj i w) (obj i w')) -> (forall r, In r (dw_queue w') -> In r (dw_queue w)) ->
  (dw_trace w' = dw_trace w \/ exists e, (silent e \/ exists i q, e = DNote i q /\ q_from q = i) /\ dw_trace w' = dw_trace w ++ [e]) -> J w -> J w'.
Proof.
  intros M L O Q T [J1 J2 J3 J4 JP J5 J6 J7 J8].
  assert (N : forall i, do_name (obj i w') = do_name (obj i w)) by (intros i; destruct (O i) as [E _]; unfold look in E; congruence).
  assert (K : forall i, do_kind (obj i w') = do_kind (obj i w)) by (intros i; destruct (O i) as [E _]; unfold look in E; congruence).
  assert (R : forall i, do_runs (obj i w') = do_runs (obj i w)) by (intros i; apply (O i)).
  assert (B : forall i, do_disabled (obj i w') = do_disabled (obj i w)) by (intros i; apply (O i)).
  assert (LV : live_after (dw_trace w') = live_after (dw_trace w)).
  { destruct T as [-> |(e & S & ->)]; [reflexivity|]. rewrite live_app. destruct S as [S|(i & q & -> & _)]; [apply silent_live; exact S|reflexivity]. }
  constructor.
  - rewrite M. exact J1.
  - intros i. rewrite M, L. apply J2.
  - intros i j. rewrite M, !N. apply J3.
  - intros r Hr. rewrite M, N. apply J4. apply Q. exact Hr.
  - intros r Hr. rewrite K. apply JP. apply Q. exact Hr.
  - intros i. rewrite M, R, K, B. apply J5.
  - intros i. rewrite K, R. apply J6.
  - intros i. unfold live_of. rewrite LV, K, R. apply J7.
  - intros i q. destruct T as [-> |(e & S & ->)]; [apply J8|]. intros H. apply in_app_or in H. destruct H as [H|[-> |[]]]; [apply J8; exact H|].
    destruct S as [[]|(i' & q' & [= <- <-] & E)]. exact E.
Qed.
Lemma same_on i f w j : (forall o, same_obj o (f o)) -> same_obj (obj j w) (obj j (on_obj i f w)).
Proof. intros F. rewrite obj_on. destruct (_ && _); [apply F|repeat split]. Qed.
Lemma note_obj i a t w j : same_obj (obj j w) (obj j (note i a t w)).
Proof. destruct (note_spec i a t w) as (st & l & ->). apply (same_on i (with_dstate st) w j). intros o. repeat split. Qed.
Lemma J_note i a t w : J w -> J (note i a t w).
Proof.
  destruct (note_same i a t w) as (E1 & E2 & E3 & E4 & _). apply J_same; [exact E2|exact E4|apply note_obj|rewrite E3; auto|left; exact E1].
Qed.
Lemma J_like w w' : alike w w' -> J w -> J w'.
Proof.
  intros (A1 & A2 & A3 & A4 & A5 & _). apply J_same; [exact A2|rewrite A1; reflexivity| |rewrite A3; auto|left; exact A5].
  intros i. unfold obj. rewrite A1. repeat split.
Qed.
Lemma J_silent w e : silent e -> J w -> J (demit e w).
Proof. intros S. apply J_same; try reflexivity; auto. - intros i. repeat split. - right. exists e. split; [left; exact S|reflexivity]. Qed.
Lemma J_found w r : J w -> In r (dw_queue w) -> by_name (q_name r) w = Some (q_from r).
Proof.
  intros H Hr. destruct (j_queue w H r Hr) as [A B]. destruct (by_name (q_name r) w) as [i|] eqn:E.
  - apply by_name_spec in E. destruct E as [E1 E2]. f_equal. apply (j_names w H); [exact E1|exact A|congruence].
  - exfalso. exact (by_name_none _ _ E (q_from r) A (eq_sym B)).
Qed.
Lemma J_pop w r q i : J w -> dw_queue w = r :: q -> by_name (q_name r) w = Some i -> J (noted i r q w).
Proof.
  intros H E B. rewrite (J_found w r H ltac:(rewrite E; left; reflexivity)) in B. injection B as <-.
  unfold noted. destruct (note_same (q_from r) (q_action r) (q_time r) (dset_queue q w)) as (E1 & E2 & E3 & E4 & _).
  revert H. apply J_same.
  - exact E2.
  - exact E4.
  - intros j. apply (note_obj (q_from r) (q_action r) (q_time r) (dset_queue q w) j).
  - cbn [demit dw_queue]. rewrite E3. cbn. rewrite E. intros x Hx. right. exact Hx.
  - right. exists (DNote (q_from r) r). split; [right; exists (q_from r), r; split; reflexivity|]. cbn [demit dw_trace]. rewrite E1. reflexivity.
Qed.

(** a run starts *)
Lemma J_push i w : J w -> do_kind (obj i w) <> KMain -> In i (dw_members w) -> J (push_run i w).
Proof.
  intros H K IN. set (g := fun o => with_druns (do_runs o ++ [DRun (dw_uid w) true]) o).
  assert (PR : push_run i w = demit (DStart i (dw_uid w) (do_kind (obj i w))) (dset_uid (S (dw_uid w)) (on_obj i g w)))
    by (unfold push_run, g; destruct (do_kind (obj i w)); [contradiction|reflexivity|reflexivity]).
  assert (OB : forall j, obj j (push_run i w) = if j =? i then g (obj j w) else obj j w).
  { intros j. rewrite PR. change (obj j (demit ?e (dset_uid ?u ?x))) with (obj j x). rewrite obj_on.
    pose proof (j_valid w H i IN) as V. apply Nat.ltb_lt in V. rewrite V, andb_true_r. reflexivity. }
  assert (NM : forall j, do_name (obj j (push_run i w)) = do_name (obj j w)) by (intros j; apply push_kind).
  assert (KD : forall j, do_kind (obj j (push_run i w)) = do_kind (obj j w)) by (intros j; apply push_kind).
  assert (DD : forall j, do_disabled (obj j (push_run i w)) = do_disabled (obj j w)) by (intros j; rewrite OB; destruct (j =? i); reflexivity).
  assert (ME : dw_members (push_run i w) = dw_members w) by (rewrite PR; reflexivity).
  assert (QU : dw_queue (push_run i w) = dw_queue w) by (rewrite PR; reflexivity).
  assert (TR : dw_trace (push_run i w) = dw_trace w ++ [DStart i (dw_uid w) (do_kind (obj i w))]) by (rewrite PR; reflexivity).
  assert (LN : length (dw_objs (push_run i w)) = length (dw_objs w)) by (rewrite PR; cbn; apply update_length).
  destruct H as [J1 J2 J3 J4 JP J5 J6 J7 J8]. constructor.
  - rewrite ME. exact J1.
  - intros j. rewrite ME, LN. apply J2.
  - intros j1 j2. rewrite ME, !NM. apply J3.
  - intros r. rewrite QU, ME, NM. apply J4.
  - intros r. rewrite QU, KD. apply JP.
  - intros j. rewrite ME, KD, DD. intros Hj. rewrite OB. destruct (j =? i) eqn:E; [apply Nat.eqb_eq in E; subst j; contradiction|apply J5; exact Hj].
  - intros j. rewrite KD, OB. intros Kj. destruct (j =? i) eqn:E; [apply Nat.eqb_eq in E; subst j; contradiction|apply J6; exact Kj].
  - intros j. rewrite TR, live_app. unfold live_of. rewrite KD, OB.
    assert (LS : live_step (live_after (dw_trace w)) (DStart i (dw_uid w) (do_kind (obj i w))) = live_after (dw_trace w) ++ [(i, dw_uid w, do_kind (obj i w))])
      by (cbn; destruct (do_kind (obj i w)); [contradiction|reflexivity|reflexivity]).
    rewrite LS, of_app, J7. unfold of_, live_of. cbn [filter fst snd]. rewrite (Nat.eqb_sym i j).
    destruct (j =? i) eqn:E; [|rewrite app_nil_r; reflexivity].
    apply Nat.eqb_eq in E. subst j. cbn [g with_druns do_runs]. rewrite filter_app, map_app. reflexivity.
  - intros j q. rewrite TR. intros X. apply in_app_or in X. destruct X as [X|[X|[]]]; [apply J8; exact X|discriminate].
Qed.
Lemma runnable_member cf i w : J w -> drunnable cf i w = true -> do_kind (obj i w) <> KMain -> In i (dw_members w).
Proof.
  intros H R K. unfold drunnable in R. apply andb_prop in R. destruct R as [R _]. apply andb_prop in R. destruct R as [_ R]. apply negb_true_iff in R.
  destruct (in_dec Nat.eq_dec i (dw_members w)) as [Y|Y]; [exact Y|]. destruct (j_out w H i Y) as [_ [Z|Z]]; congruence.
Qed.
Lemma J_start_push cf i w : J w -> drunnable cf i w = true -> J (enqueued i (push_run i w)).
Proof.
  intros H R. unfold enqueued. destruct (push_kind i w i) as [K1 N1]. rewrite K1.
  assert (C : do_kind (obj i w) = KMain \/ do_kind (obj i w) <> KMain) by (destruct (do_kind (obj i w)); [left|right|right]; congruence).
  destruct C as [K|K].
  - rewrite K. unfold push_run. rewrite K. destruct H as [J1 J2 J3 J4 JP J5 J6 J7 J8]. constructor; auto.
    + intros j. cbn [demit dw_trace]. rewrite live_app. apply J7.
    + intros j q X. apply in_app_or in X. destruct X as [X|[X|[]]]; [apply J8; exact X|discriminate].
  - pose proof (runnable_member cf i w H R K) as IN. pose proof (J_push i w H K IN) as P1.
    destruct (do_kind (obj i w)) eqn:E; [contradiction|exact P1|].
    destruct P1 as [J1 J2 J3 J4 JP J5 J6 J7 J8]. constructor; try assumption.
    + intros r Hr. cbn in Hr. apply in_app_or in Hr. destruct Hr as [Hr|[<- |[]]]; [apply J4; exact Hr|].
      split; [|reflexivity]. cbn. destruct (push_view i w) as (_ & M & _). unfold enqueued in M. rewrite K1 in M. cbn in M. rewrite M. exact IN.
    + intros r Hr. cbn in Hr. apply in_app_or in Hr. destruct Hr as [Hr|[<- |[]]]; [apply JP; exact Hr|].
      cbn [q_from]. change (do_kind (obj i (push_run i w)) <> KMain). rewrite K1. discriminate.
Qed.

(** a run is over *)
Lemma filter_end u l : filter dr_alive (end_run u l) = filter (fun r => negb (dr_uid r =? u)) (filter dr_alive l).
Proof.
  induction l as [|r l IH]; [reflexivity|]. cbn [end_run map filter]. fold (end_run u l).
  destruct (dr_uid r =? u) eqn:E; cbn [dr_alive].
  - rewrite IH. destruct (dr_alive r); cbn [filter]; [rewrite E; reflexivity|reflexivity].
  - destruct (dr_alive r) eqn:A; cbn [filter]; [rewrite E; cbn [negb]; rewrite IH; reflexivity|exact IH].
Qed.
Lemma of_over i j u l : of_ j (filter (fun x => negb ((fst (fst x) =? i) && (snd (fst x) =? u))) l) =
  if j =? i then filter (fun x => negb (snd (fst x) =? u)) (of_ j l) else of_ j l.
Proof.
  unfold of_. induction l as [|[[a b] k] l IH]; cbn [filter fst snd]; [destruct (j =? i); reflexivity|].
  destruct (a =? i) eqn:A; cbn [andb negb].
  - apply Nat.eqb_eq in A. subst a. rewrite (Nat.eqb_sym i j). destruct (j =? i) eqn:E; cbn [filter fst snd].
    + destruct (b =? u) eqn:B; cbn [negb filter fst snd]; [exact IH|]. rewrite Nat.eqb_sym, E. cbn [filter]. rewrite IH. reflexivity.
    + destruct (b =? u) eqn:B; cbn [negb filter fst snd]; [exact IH|]. rewrite Nat.eqb_sym, E. exact IH.
  - cbn [filter fst snd]. destruct (a =? j) eqn:B; [|exact IH]. apply Nat.eqb_eq in B. subst a. rewrite A in *.
    f_equal. exact IH.
Qed.
Lemma J_over i u w : J w -> J (demit (DOver i u) (on_obj i (fun o => with_druns (end_run u (do_runs o)) o) w)).
Proof.
  intros H. set (g := fun o => with_druns (end_run u (do_runs o)) o).
  assert (E0 : end_run u [] = []) by reflexivity.
  assert (OB : forall j, obj j (on_obj i g w) = if j =? i then g (obj j w) else obj j w).
  { intros j. rewrite obj_on. destruct (j =? i) eqn:E; [|reflexivity]. cbn [andb]. destruct (i <? length (dw_objs w)) eqn:V; [reflexivity|].
    apply Nat.eqb_eq in E. subst j. apply Nat.ltb_ge in V. unfold obj. rewrite nth_overflow by exact V. reflexivity. }
  assert (NM : forall j, do_name (obj j (on_obj i g w)) = do_name (obj j w)) by (intros j; rewrite OB; destruct (j =? i); reflexivity).
  assert (KD : forall j, do_kind (obj j (on_obj i g w)) = do_kind (obj j w)) by (intros j; rewrite OB; destruct (j =? i); reflexivity).
  assert (DD : forall j, do_disabled (obj j (on_obj i g w)) = do_disabled (obj j w)) by (intros j; rewrite OB; destruct (j =? i); reflexivity).
  destruct H as [J1 J2 J3 J4 JP J5 J6 J7 J8]. constructor.
  - exact J1.
  - intros j Hj. cbn. rewrite update_length. apply J2. exact Hj.
  - intros j1 j2 H1 H2. change (do_name (obj j1 (on_obj i g w)) = do_name (obj j2 (on_obj i g w)) -> j1 = j2). rewrite !NM. apply J3; assumption.
  - intros r Hr. change (In (q_from r) (dw_members w) /\ q_name r = do_name (obj (q_from r) (on_obj i g w))). rewrite NM. apply J4. exact Hr.
  - intros r Hr. change (do_kind (obj (q_from r) (on_obj i g w)) <> KMain). rewrite KD. apply JP. exact Hr.
  - intros j Hj. change (obj j (demit ?e ?x)) with (obj j x). change (~ In j (dw_members w)) in Hj. rewrite KD, DD. destruct (J5 j Hj) as [A B]. split; [|exact B].
    intros r. rewrite OB. destruct (j =? i); [|apply A]. cbn. unfold end_run. rewrite in_map_iff. intros (x & <- & X).
    destruct (dr_uid x =? u); [reflexivity|apply A; exact X].
  - intros j. change (obj j (demit ?e ?x)) with (obj j x). rewrite KD. intros Kj. rewrite OB. destruct (j =? i); [|apply J6; exact Kj].
    cbn. rewrite (J6 j Kj). reflexivity.
  - intros j. cbn [demit dw_trace]. rewrite live_app. cbn [live_step]. rewrite of_over. unfold live_of. change (obj j (demit ?e ?x)) with (obj j x).
    change (dw_trace (on_obj i g w)) with (dw_trace w). rewrite J7. unfold live_of. rewrite KD, OB. destruct (j =? i); [|reflexivity].
    cbn [g with_druns do_runs]. rewrite filter_end. generalize (filter dr_alive (do_runs (obj j w))). intros l.
    induction l as [|r l IH]; [reflexivity|]. cbn [filter map fst snd]. destruct (dr_uid r =? u); cbn [negb map]; [exact IH|]. f_equal. exact IH.
  - intros j q X. cbn in X. apply in_app_or in X. destruct X as [X|[X|[]]]; [apply J8; exact X|discriminate].
Qed.
Lemma J_kill i r w : J w -> J (kill_run i w r).
Proof. intros H. unfold kill_run. destruct (dr_alive r); [|exact H]. apply J_note. apply J_over. exact H. Qed.

(** the session's tasks change *)
Lemma filter_remove i l : forall j, In j (filter (fun j => negb (i =? j)) l) <-> In j l /\ j <> i.
Proof.
  intros j. rewrite filter_In, negb_true_iff, Nat.eqb_neq. intuition congruence.
Qed.
Lemma J_move orc k w : orderly orc -> J w -> J (do_move (o_move orc k w) w).
Proof.
  intros OR H. specialize (OR k w). destruct (o_move orc k w) as [d|n kd p u d|i|i|i b|i u e|]; cbn [do_move].
  - revert H. apply J_like. repeat split.
  - destruct (by_name n w) eqn:B; [exact H|]. unfold dadd. set (o := DObj n kd p u d false fresh_state []).
    assert (NEW : obj (length (dw_objs w)) (dset_objs (dw_objs w ++ [o]) w) = o) by (unfold obj; cbn; rewrite app_nth2, Nat.sub_diag by lia; reflexivity).
    assert (OLD : forall j, j <> length (dw_objs w) -> obj j (dset_objs (dw_objs w ++ [o]) w) = obj j w).
    { intros j Hj. unfold obj. cbn. destruct (Nat.ltb j (length (dw_objs w))) eqn:L.
      - apply Nat.ltb_lt in L. rewrite app_nth1 by exact L. reflexivity.
      - apply Nat.ltb_ge in L. rewrite !nth_overflow; [reflexivity|exact L|rewrite app_length; cbn; lia]. }
    assert (EMP : do_runs (obj (length (dw_objs w)) w) = []) by (unfold obj; rewrite nth_overflow by lia; reflexivity).
    destruct H as [J1 J2 J3 J4 JP J5 J6 J7 J8]. constructor.
    + cbn. apply (Permutation_NoDup (l := length (dw_objs w) :: dw_members w)); [apply Permutation_cons_append|]. constructor; [|exact J1].
      intros X. apply J2 in X. lia.
    + intros j X. cbn in *. rewrite app_length. cbn. apply in_app_or in X. destruct X as [X|[<- |[]]]; [apply J2 in X; lia|lia].
    + intros j1 j2 X1 X2. cbn [demit dset_members dw_members] in X1, X2. change (obj ?x (demit ?e (dset_members ?m ?y))) with (obj x y).
      apply in_app_or in X1. apply in_app_or in X2.
      assert (FRESH : forall j, In j (dw_members w) -> do_name (obj j w) <> n) by (apply by_name_none; exact B).
      destruct X1 as [X1|[<- |[]]], X2 as [X2|[<- |[]]]; try reflexivity.
      * rewrite !OLD by (apply J2 in X1, X2; lia). apply J3; assumption.
      * rewrite NEW, OLD by (apply J2 in X1; lia). cbn. intros X. destruct (FRESH j1 X1 X).
      * rewrite NEW, OLD by (apply J2 in X2; lia). cbn. intros X. destruct (FRESH j2 X2 (eq_sym X)).
    + intros r Hr. change (obj ?x (demit ?e (dset_members ?m ?y))) with (obj x y). destruct (J4 r Hr) as [A C]. split; [cbn; apply in_or_app; left; exact A|].
      rewrite OLD by (apply J2 in A; lia). exact C.
    + intros r Hr. change (obj ?x (demit ?e (dset_members ?m ?y))) with (obj x y). destruct (J4 r Hr) as [A _].
      rewrite OLD by (apply J2 in A; lia). apply JP. exact Hr.
    + intros j Hj. cbn [demit dset_members dw_members] in Hj. change (obj ?x (demit ?e (dset_members ?m ?y))) with (obj x y).
      rewrite OLD by (intros ->; apply Hj; apply in_or_app; right; left; reflexivity). apply J5. intros X. apply Hj. apply in_or_app. left. exact X.
    + intros j. change (obj ?x (demit ?e (dset_members ?m ?y))) with (obj x y). destruct (Nat.eq_dec j (length (dw_objs w))) as [-> |N]; [rewrite NEW; reflexivity|]. rewrite OLD by exact N. apply J6.
    + intros j. cbn [demit dw_trace dset_members dset_objs]. rewrite live_app. cbn [live_step]. rewrite J7. unfold live_of. change (obj ?x (demit ?e (dset_members ?m ?y))) with (obj x y).
      destruct (Nat.eq_dec j (length (dw_objs w))) as [-> |N]; [|rewrite OLD by exact N; reflexivity]. rewrite NEW, EMP. reflexivity.
    + intros j q X. cbn in X. apply in_app_or in X. destruct X as [X|[X|[]]]; [apply J8; exact X|discriminate].
  - destruct (Nat.ltb i (length (dw_objs w))) eqn:L; [|exact H]. destruct (by_name (do_name (obj i w)) w) eqn:B; [exact H|].
    apply Nat.ltb_lt in L. pose proof (by_name_none _ _ B) as FR. destruct H as [J1 J2 J3 J4 JP J5 J6 J7 J8].
    assert (NI : ~ In i (dw_members w)) by (intros X; exact (FR i X eq_refl)). constructor.
    + cbn. apply (Permutation_NoDup (l := i :: dw_members w)); [apply Permutation_cons_append|]. constructor; [exact NI|exact J1].
    + intros j X. cbn in X. apply in_app_or in X. destruct X as [X|[<- |[]]]; [apply J2; exact X|exact L].
    + intros j1 j2 X1 X2. cbn in X1, X2. change (obj ?x (demit ?e (dset_members ?m ?y))) with (obj x y). apply in_app_or in X1. apply in_app_or in X2.
      destruct X1 as [X1|[<- |[]]], X2 as [X2|[<- |[]]]; try reflexivity.
      * apply J3; assumption.
      * intros X. destruct (FR j1 X1 X).
      * intros X. destruct (FR j2 X2 (eq_sym X)).
    + intros r Hr. destruct (J4 r Hr) as [A C]. split; [cbn; apply in_or_app; left; exact A|exact C].
    + exact JP.
    + intros j Hj. apply J5. intros X. apply Hj. cbn. apply in_or_app. left. exact X.
    + exact J6.
    + intros j. cbn [demit dw_trace dset_members]. rewrite live_app. apply J7.
    + intros j q X. cbn in X. apply in_app_or in X. destruct X as [X|[X|[]]]; [apply J8; exact X|discriminate].
  - destruct (existsb (Nat.eqb i) (dw_members w)); [|exact H]. destruct H as [J1 J2 J3 J4 JP J5 J6 J7 J8]. constructor.
    + cbn. apply NoDup_filter. exact J1.
    + intros j X. apply filter_remove in X. apply J2. apply X.
    + intros j1 j2 X1 X2. apply filter_remove in X1. apply filter_remove in X2. apply J3; [apply X1|apply X2].
    + intros r Hr. destruct (J4 r Hr) as [A C]. split; [|exact C]. apply filter_remove. split; [exact A|]. intros E.
      destruct OR as [OR|(_ & _ & OR)]; [|exact (OR r Hr E)]. apply (JP r Hr). rewrite E. exact OR.
    + exact JP.
    + intros j Hj. destruct (Nat.eq_dec j i) as [-> |N].
      * change (obj ?x (demit ?e (dset_members ?m ?y))) with (obj x y). destruct OR as [OR|(O1 & O2 & _)]; [|split; [exact O2|right; exact O1]].
        split; [|left; exact OR]. rewrite (J6 i OR). intros r [].
      * apply J5. intros X. apply Hj. apply filter_remove. split; assumption.
    + exact J6.
    + intros j. cbn [demit dw_trace dset_members]. rewrite live_app. apply J7.
    + intros j q X. cbn in X. apply in_app_or in X. destruct X as [X|[X|[]]]; [apply J8; exact X|discriminate].
  - (* disabling *)
    assert (OB : forall j, look (obj j (on_obj i (with_disabled b) w)) = look (obj j w) /\ do_runs (obj j (on_obj i (with_disabled b) w)) = do_runs (obj j w) /\
                   (j <> i \/ b = true -> do_disabled (obj j w) = true -> do_disabled (obj j (on_obj i (with_disabled b) w)) = true)).
    { intros j. rewrite obj_on. destruct ((j =? i) && (i <? length (dw_objs w))) eqn:E; [|auto]. apply andb_prop in E. destruct E as [E _]. apply Nat.eqb_eq in E.
      split; [reflexivity|]. split; [reflexivity|]. cbn. intros [X|X]; [contradiction|auto]. }
    assert (N : forall j, do_name (obj j (on_obj i (with_disabled b) w)) = do_name (obj j w)) by (intros j; destruct (OB j) as [E _]; unfold look in E; congruence).
    assert (K : forall j, do_kind (obj j (on_obj i (with_disabled b) w)) = do_kind (obj j w)) by (intros j; destruct (OB j) as [E _]; unfold look in E; congruence).
    destruct H as [J1 J2 J3 J4 JP J5 J6 J7 J8]. constructor.
    + exact J1.
    + intros j. cbn. rewrite update_length. apply J2.
    + intros j1 j2. rewrite !N. apply J3.
    + intros r. rewrite N. apply J4.
    + intros r. rewrite K. apply JP.
    + intros j Hj. destruct (OB j) as (_ & R & D). rewrite K, R. destruct (J5 j Hj) as [A [B|B]]; (split; [exact A|]); [left; exact B|right].
      apply D; [|exact B]. destruct b; [right; reflexivity|left]. intros ->. exact (Hj OR).
    + intros j. destruct (OB j) as (_ & R & _). rewrite K, R. apply J6.
    + intros j. unfold live_of. destruct (OB j) as (_ & R & _). rewrite K, R. apply J7.
    + exact J8.
  - destruct (going i u w) eqn:G; [|exact H]. pose proof (J_over i u w H) as H1.
    destruct (is_process (obj i w)) eqn:P; [|apply J_note; exact H1].
    assert (IN : In i (dw_members w)).
    { destruct (in_dec Nat.eq_dec i (dw_members w)) as [Y|Y]; [exact Y|]. destruct (j_out w H i Y) as [Z _].
      unfold going in G. apply existsb_exists in G. destruct G as (r & R1 & R2). apply andb_prop in R2. rewrite (Z r R1) in R2. destruct R2; discriminate. }
    assert (LK : look (obj i (on_obj i (fun o => with_druns (end_run u (do_runs o)) o) w)) = look (obj i w)) by (rewrite obj_on; destruct (_ && _); reflexivity).
    destruct H1 as [J1 J2 J3 J4 JP J5 J6 J7 J8]. constructor; try assumption.
    + intros r Hr. cbn in Hr. apply in_app_or in Hr. destruct Hr as [Hr|[<- |[]]]; [apply J4; exact Hr|]. cbn [q_from q_name].
      split; [exact IN|]. change (do_name (obj i w) = do_name (obj i (on_obj i (fun o => with_druns (end_run u (do_runs o)) o) w))). unfold look in LK. congruence.
    + intros r Hr. cbn in Hr. apply in_app_or in Hr. destruct Hr as [Hr|[<- |[]]]; [apply JP; exact Hr|]. cbn [q_from].
      change (do_kind (obj i (on_obj i (fun o => with_druns (end_run u (do_runs o)) o) w)) <> KMain). unfold is_process in P.
      destruct (do_kind (obj i w)) eqn:KK; try discriminate. unfold look in LK. congruence.
  - revert H. apply J_like. repeat split.
Qed.

(** ** The bound on the processes *)
Definition isp (x : nat * nat * dkind) : bool := match snd x with KProcess => true | _ => false end.
Lemma taken_live w i : J w -> dtaken (obj i w) = length (filter isp (of_ i (live_after (dw_trace w)))).
Proof.
  intros H. rewrite (j_live w H i). unfold live_of, dtaken, is_process. generalize (filter dr_alive (do_runs (obj i w))). intros l.
  destruct (do_kind (obj i w)); induction l as [|r l IH]; cbn; try reflexivity; try exact IH; try (f_equal; exact IH).
Qed.
Lemma sum_of ms l : NoDup ms -> (forall x, In x l -> In (fst (fst x)) ms) ->
  list_sum (map (fun i => length (filter isp (of_ i l))) ms) = length (filter isp l).
Proof.
  intros N. induction l as [|[[a b] k] l IH]; intros H.
  - cbn. clear. induction ms as [|m ms IH]; [reflexivity|exact IH].
  - specialize (IH ltac:(intros x Hx; apply H; right; exact Hx)). specialize (H (a, b, k) (or_introl eq_refl)). cbn in H.
    destruct (isp (a, b, k)) eqn:P.
    + cbn [filter]. rewrite P. cbn [length]. rewrite <- IH. clear IH.
      assert (E : forall i, length (filter isp (of_ i ((a, b, k) :: l))) = (if a =? i then 1 else 0) + length (filter isp (of_ i l))).
      { intros i. unfold of_. cbn [filter fst]. destruct (a =? i); [cbn [filter]; rewrite P; reflexivity|reflexivity]. }
      revert H. induction N as [|m ms NI N IHN]; intros H; [destruct H|]. cbn [map list_sum]. change (list_sum (?x :: ?y)) with (x + list_sum y). rewrite E. destruct H as [-> |H].
      * rewrite Nat.eqb_refl. clear IHN N.
        assert (X : map (fun i => length (filter isp (of_ i ((a, b, k) :: l)))) ms = map (fun i => length (filter isp (of_ i l))) ms).
        { apply map_ext_in. intros i Hi. rewrite E. destruct (a =? i) eqn:F; [apply Nat.eqb_eq in F; subst i; contradiction|reflexivity]. }
        rewrite X. reflexivity.
      * destruct (a =? m) eqn:F; [apply Nat.eqb_eq in F; subst m; contradiction|]. rewrite (IHN H). cbn [map]. change (list_sum (?x :: ?y)) with (x + list_sum y). lia.
    + cbn [filter]. rewrite P, <- IH. f_equal. apply map_ext. intros i. unfold of_. cbn [filter fst]. destruct (a =? i); [cbn [filter]; rewrite P; reflexivity|reflexivity].
Qed.
Lemma live_member w x : J w -> In x (live_after (dw_trace w)) -> In (fst (fst x)) (dw_members w).
Proof.
  intros H X. destruct (in_dec Nat.eq_dec (fst (fst x)) (dw_members w)) as [Y|Y]; [exact Y|]. exfalso.
  destruct (j_out w H _ Y) as [Z _].
  assert (I : In x (of_ (fst (fst x)) (live_after (dw_trace w)))) by (apply filter_In; split; [exact X|apply Nat.eqb_refl]).
  rewrite (j_live w H) in I. unfold live_of in I. apply in_map_iff in I. destruct I as (r & _ & R). apply filter_In in R. rewrite (Z r (proj1 R)) in R. destruct R; discriminate.
Qed.
Lemma count_live w : J w -> dcount w = processes (live_after (dw_trace w)).
Proof.
  intros H. unfold dcount, processes. rewrite <- (sum_of (dw_members w)); [|apply (j_nodup w H)|intros x; apply live_member; exact H].
  f_equal. apply map_ext. intros i. apply taken_live. exact H.
Qed.
Lemma alive_live w : J w -> any_alive w = false -> live_after (dw_trace w) = [].
Proof.
  intros H A. destruct (live_after (dw_trace w)) as [|x l] eqn:E; [reflexivity|]. exfalso.
  assert (X : In x (live_after (dw_trace w))) by (rewrite E; left; reflexivity).
  pose proof (live_member w x H X) as M.
  assert (I : In x (of_ (fst (fst x)) (live_after (dw_trace w)))) by (apply filter_In; split; [exact X|apply Nat.eqb_refl]).
  rewrite (j_live w H) in I. unfold live_of in I. apply in_map_iff in I. destruct I as (r & _ & R). apply filter_In in R.
  assert (T : any_alive w = true); [|congruence].
  unfold any_alive. apply existsb_exists. exists (fst (fst x)). split; [exact M|]. unfold dalive. apply existsb_exists. exists r. exact R.
Qed.

Section Cap.
Context (orc : doracle) (cf : dconfig).
Definition cap (tr : list devent) : Prop := forall p, prefix p tr -> processes (live_after p) <= dc_max cf.
Lemma cap_snoc tr e : cap tr -> processes (live_after (tr ++ [e])) <= dc_max cf -> cap (tr ++ [e]).
Proof using.
  intros C L p [q E]. destruct q as [|x q _] using rev_ind; [rewrite app_nil_r in E; subst p; exact L|].
  rewrite app_assoc in E. apply app_inj_tail in E. apply C. exists q. apply E.
Qed.
Lemma cap_whole tr : cap tr -> processes (live_after tr) <= dc_max cf.
Proof using. intros C. apply C. exists []. rewrite app_nil_r. reflexivity. Qed.
Lemma cap_event tr e : cap tr -> (forall i u k, e = DStart i u k -> k <> KProcess) -> cap (tr ++ [e]).
Proof using.
  intros C N. apply cap_snoc; [exact C|]. rewrite live_app. pose proof (cap_whole tr C) as L.
  assert (F : forall f (l : list (nat * nat * dkind)), length (filter isp (filter f l)) <= length (filter isp l)).
  { clear. intros f l. induction l as [|x l IH]; [reflexivity|]. cbn [filter]. destruct (f x), (isp x) eqn:E; cbn [filter]; rewrite ?E; cbn [length]; lia. }
  destruct e as [| | |i u k|i u| | |]; cbn [live_step]; try exact L.
  - specialize (N i u k eq_refl). destruct k; [exact L| |contradiction]. unfold processes in *. rewrite filter_app, app_length. cbn. lia.
  - etransitivity; [apply F|exact L].
Qed.
Definition OQ (_ : unit) (w : dworld) : Prop := J w /\ cap (dw_trace w).
Notation none := (fun _ : exn => False).
Lemma o_like c w w' : alike w w' -> OQ c w -> OQ c w'.
Proof using. intros A [H C]. split; [exact (J_like _ _ A H)|]. destruct A as (_ & _ & _ & _ & -> & _). exact C. Qed.
Lemma o_pop c w r q i : OQ c w -> dw_queue w = r :: q -> by_name (q_name r) w = Some i -> OQ c (noted i r q w).
Proof using.
  intros [H C] E B. split; [exact (J_pop w r q i H E B)|]. destruct (noted_view i r q w) as (_ & _ & T & _). rewrite T. apply cap_event; [exact C|discriminate].
Qed.
Lemma o_lost c w r q : OQ c w -> dw_queue w = r :: q -> by_name (q_name r) w = None -> OQ c (dset_queue q w) /\ False.
Proof using. intros [H C] E B. rewrite (J_found w r H ltac:(rewrite E; left; reflexivity)) in B. discriminate. Qed.
Lemma o_order c w q : Permutation (dw_queue w) q -> OQ c w -> OQ c (dset_queue q w).
Proof using.
  intros P [H C]. split; [|exact C]. revert H. apply J_same; try reflexivity; [intros i; repeat split| |left; reflexivity].
  intros r Hr. apply (Permutation_in _ (Permutation_sym P)). exact Hr.
Qed.
Lemma o_judge c i w : True -> OQ c w -> OQ c (judged i w).
Proof using. intros _ [H C]. split; [apply J_silent; [exact I|exact H]|]. apply cap_event; [exact C|discriminate]. Qed.
Lemma o_consider c i w : True -> OQ c w -> OQ c (demit (DConsider i) w).
Proof using. intros _ [H C]. split; [apply J_silent; [exact I|exact H]|]. apply cap_event; [exact C|discriminate]. Qed.
Lemma o_start c i w : True -> OQ c w -> drunnable cf i w = true -> OQ c (enqueued i (push_run i w)).
Proof using.
  intros _ [H C] R. split; [exact (J_start_push cf i w H R)|]. destruct (push_view i w) as (_ & _ & T). rewrite T.
  destruct (do_kind (obj i w)) eqn:K; [apply cap_event; [exact C|congruence]|apply cap_event; [exact C|congruence]|].
  apply cap_snoc; [exact C|]. rewrite live_app. cbn [live_step]. unfold processes. rewrite filter_app, app_length. cbn [filter snd length].
  fold (processes (live_after (dw_trace w))). rewrite <- (count_live w H).
  unfold drunnable, is_process in R. rewrite K in R. cbn [negb orb] in R. apply andb_prop in R. destruct R as [R _]. apply andb_prop in R. destruct R as [R _].
  apply andb_prop in R. destruct R as [R _]. apply Nat.ltb_lt in R. lia.
Qed.
Lemma o_note c i a t w : OQ c w -> OQ c (note i a t w).
Proof using. intros [H C]. split; [apply J_note; exact H|]. destruct (note_same i a t w) as (-> & _). exact C. Qed.
Lemma o_kill c i r w : OQ c w -> OQ c (kill_run i w r).
Proof using.
  intros [H C]. split; [apply J_kill; exact H|]. destruct (kill_view i r w) as (_ & _ & [-> | ->]); [exact C|]. apply cap_event; [exact C|discriminate].
Qed.
Lemma o_phase c w : OQ c w -> exists c', OQ c' (demit DPhase w) /\ forall i, In i (dtasks w) -> True.
Proof using. intros [H C]. exists tt. split; [|trivial]. split; [apply J_silent; [exact I|exact H]|]. apply cap_event; [exact C|discriminate]. Qed.
Lemma o_cached c i w : OQ c w -> OQ c (dcached i w).
Proof using.
  intros [H C]. destruct (cached_spec i w) as (st & l & ->). split; [|exact C]. revert H. apply J_same; try reflexivity; auto.
  - cbn. apply update_length.
  - intros j. apply (same_on i (with_dstate st) w j). intros o. repeat split.
Qed.
Context (OR : orderly orc).
Lemma o_move_ c k w : OQ c w -> OQ c (do_move (o_move orc k w) w).
Proof using OR.
  intros [H C]. split; [apply J_move; [exact OR|exact H]|].
  destruct (move_view (o_move orc k w) w) as [_ [[-> _]|(e & ME & _ & -> & _)]]; [exact C|]. apply cap_event; [exact C|]. intros i u k' ->. destruct ME.
Qed.
Lemma o_serve n w : OQ tt w -> at_ (QQ OQ) none (dserve orc cf n w).
Proof using OR.
  intros H. assert (H0 : OQ tt (dset_down false w)) by (apply (o_like tt w); [repeat split|exact H]).
  assert (F : forall e : exn, False -> False) by auto.
  apply (p_serve orc cf OQ (fun _ _ => True) none); eauto using o_like, o_move_, o_pop, o_lost, o_judge, o_start, o_note, o_kill, o_consider, o_order, o_phase.
  - exists tt. exact H.
  - apply (p_startup orc cf OQ (fun _ _ => True) none); eauto using o_like, o_move_, o_pop, o_lost, o_judge, o_start, o_note, o_kill, o_consider, o_order, o_phase, o_cached.
    exists tt. exact H0.
Qed.
Lemma o_shut n b w : OQ tt w -> at_ (QQ OQ) none (dshut_down orc cf n b w).
Proof using OR.
  intros H. apply (p_shut_down orc cf OQ (fun _ _ => True) none); eauto using o_like, o_move_, o_pop, o_lost, o_judge, o_start, o_note, o_kill, o_consider, o_order, o_phase.
  exists tt. exact H.
Qed.
End Cap.

Lemma outset_J w : outset w -> J w.
Proof.
  intros (M & N & R & Q & T).
  assert (E : forall i, do_runs (obj i w) = []).
  { intros i. destruct (Nat.ltb i (length (dw_objs w))) eqn:L.
    - apply R. apply Nat.ltb_lt in L. apply nth_In. exact L.
    - apply Nat.ltb_ge in L. unfold obj. rewrite nth_overflow by exact L. reflexivity. }
  constructor.
  - rewrite M. apply seq_NoDup.
  - intros i. rewrite M, in_seq. lia.
  - intros i j. rewrite M, !in_seq. intros A B. apply N; lia.
  - rewrite Q. intros r [].
  - rewrite Q. intros r [].
  - intros i. rewrite M, in_seq, E. intros L. split; [intros r []|]. left. unfold obj. rewrite nth_overflow by lia. reflexivity.
  - intros i _. apply E.
  - intros i. rewrite T. unfold live_of. rewrite E. reflexivity.
  - rewrite T. intros i q [].
Qed.
Lemma outset_OQ cf w : outset w -> OQ cf tt w.
Proof.
  intros H. split; [apply outset_J; exact H|]. destruct H as (_ & _ & _ & _ & ->). intros p [q E]. destruct p; [cbn; lia|discriminate].
Qed.

Lemma orderly_no_error orc cf n w w' r : outset w -> orderly orc -> dserve orc cf n w = (w', r) -> forall e, r <> Raises e.
Proof. intros O OR E e ->. pose proof (o_serve orc cf OR n w (outset_OQ cf w O)) as [_ H]. rewrite E in H. exact H. Qed.
Lemma orderly_notes orc cf n w w' r i q : outset w -> orderly orc -> dserve orc cf n w = (w', r) -> In (DNote i q) (dw_trace w') -> q_from q = i.
Proof. intros O OR E. pose proof (o_serve orc cf OR n w (outset_OQ cf w O)) as [(c & H & _) _]. rewrite E in H. apply (j_note w' H). Qed.
Lemma orderly_bound orc cf n w w' r p : outset w -> orderly orc -> dserve orc cf n w = (w', r) -> prefix p (dw_trace w') ->
  processes (live_after p) <= dc_max cf.
Proof. intros O OR E. pose proof (o_serve orc cf OR n w (outset_OQ cf w O)) as [(c & _ & H) _]. rewrite E in H. apply H. Qed.
