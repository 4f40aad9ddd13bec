(** How the parts of the scheduler keep what other proofs need kept. *)
From Coq Require Import ZArith List Bool Arith Lia Permutation.
From Verif Require Import Model.Base Model.History Model.Dynamic Spec.DynamicSpec.
Import ListNotations.
Open Scope nat_scope.

(** ** What holds before holds after, and only such errors come out *)
Definition at_ {A} (P : dworld -> Prop) (ok : exn -> Prop) (x : dworld * outcome A) : Prop :=
  P (fst x) /\ match snd x with Raises e => ok e | _ => True end.
Definition hold {A} (P : dworld -> Prop) (ok : exn -> Prop) (m : D A) : Prop := forall w, P w -> at_ P ok (m w).

Section Hold.
Context (P : dworld -> Prop) (ok : exn -> Prop).
Lemma h_ret {A} (a : A) : hold P ok (dret a).
Proof using. intros w H. split; [exact H|exact I]. Qed.
Lemma h_raise {A} e : ok e -> hold P ok (@draise A e).
Proof using. intros K w H. split; [exact H|exact K]. Qed.
Lemma h_bind {A B} (m : D A) (f : A -> D B) : hold P ok m -> (forall a, hold P ok (f a)) -> hold P ok (dbind m f).
Proof using.
  intros M F w H. specialize (M w H). unfold dbind. destruct (m w) as [w1 [a|e|]].
  - exact (F a w1 (proj1 M)).
  - exact M.
  - exact M.
Qed.
Lemma h_get {A B} (g : dworld -> A) (k : A -> D B) :
  (forall w, P w -> at_ P ok (k (g w) w)) -> hold P ok (dbind (dget g) k).
Proof using. intros K w H. exact (K w H). Qed.
Lemma h_mod f : (forall w, P w -> P (f w)) -> hold P ok (dmod f).
Proof using. intros F w H. split; [exact (F w H)|exact I]. Qed.
Lemma h_each f l : (forall i, In i l -> hold P ok (f i)) -> hold P ok (deach f l).
Proof using.
  induction l as [|i l IH]; cbn [deach]; intros F.
  - apply h_ret.
  - apply h_bind; [apply F; left; reflexivity|]. intros _. apply IH. intros j Hj. apply F. right. exact Hj.
Qed.
Lemma h_again {A} (r : result A) : (forall e, r = Err e -> ok e) -> hold P ok (dagain r).
Proof using. intros K. destruct r as [a|e]; cbn [dagain]; [apply h_ret|apply h_raise; apply K; reflexivity]. Qed.
End Hold.
Lemma h_weaken {A} P (ok ok' : exn -> Prop) (m : D A) : (forall e, ok e -> ok' e) -> hold P ok m -> hold P ok' m.
Proof.
  intros K M w H. destruct (M w H) as [M1 M2]. split; [exact M1|]. destruct (snd (m w)); auto.
Qed.
Lemma h_attempt {A} P ok ok' (m : D A) : hold P ok m -> hold P ok' (dattempt m).
Proof.
  intros M w H. destruct (M w H) as [M1 M2]. unfold dattempt. destruct (m w) as [w1 [a|e|]]; split; try exact M1; exact I.
Qed.
(** after an attempt *)
Lemma h_attempt_then {A B} P (ok : exn -> Prop) (m : D A) (f : result A -> D B) :
  hold P ok m -> (forall a, hold P ok (f (Ok a))) -> (forall e, ok e -> hold P ok (f (Err e))) ->
  hold P ok (dbind (dattempt m) f).
Proof.
  intros M F G w H. destruct (M w H) as [M1 M2]. unfold dbind, dattempt. destruct (m w) as [w1 [a|e|]]; cbn in *.
  - exact (F a w1 M1).
  - exact (G e M2 w1 M1).
  - split; [exact M1|exact I].
Qed.
Lemma h_finally P ok m f : hold P ok m -> hold P ok f -> hold P ok (dfinally m f).
Proof.
  intros M F. unfold dfinally. apply h_attempt_then; [exact M| |].
  - intros a. apply h_bind; [exact F|]. intros _. apply h_again. congruence.
  - intros e K. apply h_bind; [exact F|]. intros _. apply h_again. congruence.
Qed.
Lemma h_ex {A C} (Q : C -> dworld -> Prop) ok (m : D A) : (forall c, hold (Q c) ok m) -> hold (fun w => exists c, Q c w) ok m.
Proof. intros M w [c H]. destruct (M c w H) as [M1 M2]. split; [exists c; exact M1|exact M2]. Qed.

(** ** Objects *)
Lemma update_length i f l : length (dupdate i f l) = length l.
Proof. revert i. induction l as [|o l IH]; intros [|i]; cbn; congruence. Qed.
Lemma nth_update i f l j d : nth j (dupdate i f l) d = if (j =? i) && (i <? length l) then f (nth j l d) else nth j l d.
Proof.
  revert i j. induction l as [|o l IH]; intros [|i] [|j]; cbn [dupdate nth length]; try reflexivity.
  all: try (destruct (_ =? _); reflexivity).
  rewrite IH. reflexivity.
Qed.
Lemma obj_on i f w j : obj j (on_obj i f w) = if (j =? i) && (i <? length (dw_objs w)) then f (obj j w) else obj j w.
Proof. apply nth_update. Qed.
Lemma nth_error_obj i w o : nth_error (dw_objs w) i = Some o -> i < length (dw_objs w) /\ obj i w = o.
Proof.
  intros H. split; [apply nth_error_Some; congruence|]. unfold obj. apply nth_error_nth. exact H.
Qed.
Lemma nth_error_no i w : nth_error (dw_objs w) i = None -> length (dw_objs w) <= i /\ obj i w = no_obj.
Proof. intros H. apply nth_error_None in H. split; [exact H|]. unfold obj. apply nth_overflow. exact H. Qed.

(** the attributes given at the making of a task *)
Definition look (o : dobj) : Z * dkind * Z * bool * bool := (do_name o, do_kind o, do_prio o, do_startup o, do_shutdown o).

(** [note] changes the log and what the object remembers, nothing else *)
Lemma note_spec i a t w :
  exists st l, note i a t w = dset_log l (on_obj i (with_dstate st) w).
Proof.
  unfold note. destruct (nth_error (dw_objs w) i) as [o|] eqn:E.
  - cbn. eexists _, _. reflexivity.
  - exists (do_state (obj i w)), (dw_log w). destruct w as [os m q l c d n u k tr]. unfold on_obj, dset_log, dset_objs; cbn in *.
    f_equal. apply nth_error_None in E. clear -E. revert i E. induction os as [|o os IH]; intros [|i] E; cbn in *; try reflexivity; [lia|].
    f_equal. apply IH. lia.
Qed.
Lemma cached_spec i w :
  exists st l, dcached i w = dset_log l (on_obj i (with_dstate st) w).
Proof.
  unfold dcached. destruct (nth_error (dw_objs w) i) as [o|] eqn:E.
  - destruct (set_cached _ _ _ _ _ _) as [[st l] r]. exists st, l. reflexivity.
  - exists (do_state (obj i w)), (dw_log w). destruct w as [os m q l c d n u k tr]. unfold on_obj, dset_log, dset_objs; cbn in *.
    f_equal. apply nth_error_None in E. clear -E. revert i E. induction os as [|o os IH]; intros [|i] E; cbn in *; try reflexivity; [lia|].
    f_equal. apply IH. lia.
Qed.

(** ** The tasks in the order the scheduler takes them *)
Lemma dinsert_perm w i l : Permutation (dinsert w i l) (i :: l).
Proof.
  induction l as [|j l IH]; cbn [dinsert]; [reflexivity|].
  destruct (do_prio (obj j w) <? do_prio (obj i w))%Z; [reflexivity|].
  rewrite IH. apply perm_swap.
Qed.
Lemma dtasks_perm w : Permutation (dtasks w) (dw_members w).
Proof.
  unfold dtasks. enough (E : forall l acc, Permutation (fold_left (fun l i => dinsert w i l) l acc) (acc ++ l)) by apply (E _ []).
  induction l as [|i l IH]; intros acc; cbn [fold_left]; [rewrite app_nil_r; reflexivity|].
  rewrite IH, dinsert_perm. cbn. apply Permutation_middle.
Qed.
Lemma dtasks_like w w' : dw_objs w' = dw_objs w -> dw_members w' = dw_members w -> dtasks w' = dtasks w.
Proof.
  intros O M.
  assert (E : forall i l, dinsert w' i l = dinsert w i l).
  { intros i l. induction l as [|j l IH]; cbn [dinsert]; [reflexivity|]. unfold obj in *. rewrite O, IH. reflexivity. }
  unfold dtasks. rewrite M. clear M. generalize (@nil nat). induction (dw_members w) as [|i l IH]; intros acc; cbn [fold_left]; [reflexivity|].
  rewrite IH, E. reflexivity.
Qed.
Lemma dtasks_in w i : In i (dtasks w) <-> In i (dw_members w).
Proof. split; apply Permutation_in; [|apply Permutation_sym]; apply dtasks_perm. Qed.
Lemma by_name_spec n w i : by_name n w = Some i -> In i (dw_members w) /\ do_name (obj i w) = n.
Proof. intros H. apply find_some in H. rewrite Z.eqb_eq in H. exact H. Qed.
Lemma by_name_none n w : by_name n w = None -> forall i, In i (dw_members w) -> do_name (obj i w) <> n.
Proof. intros H i Hi E. pose proof (find_none _ _ H i Hi) as F. cbn in F. apply Z.eqb_neq in F. exact (F E). Qed.

(** ** The scheduler, part by part *)
(** what is of no concern to what is kept *)
Definition alike (w w' : dworld) : Prop :=
  dw_objs w' = dw_objs w /\ dw_members w' = dw_members w /\ dw_queue w' = dw_queue w /\
  dw_log w' = dw_log w /\ dw_trace w' = dw_trace w /\ dw_uid w' = dw_uid w.
Definition judged (i : nat) (w : dworld) : dworld := demit (DJudge i (do_state (obj i w)) (dw_log w)) w.
Definition enqueued (i : nat) (w : dworld) : dworld :=
  match do_kind (obj i w) with
  | KProcess => dset_queue (dw_queue w ++ [QRec (do_name (obj i w)) i ARun (dw_clock w)]) w
  | _ => w
  end.
Definition noted (i : nat) (r : qrec) (q : list qrec) (w : dworld) : dworld :=
  demit (DNote i r) (note i (q_action r) (q_time r) (dset_queue q w)).

Section Parts.
Context (orc : doracle) (cf : dconfig) {C : Type} (Q : C -> dworld -> Prop) (may : C -> nat -> Prop) (ok : exn -> Prop).
Context (q_like : forall c w w', alike w w' -> Q c w -> Q c w').
Context (q_move : forall c k w, Q c w -> Q c (do_move (o_move orc k w) w)).
Context (q_pop : forall c w r q i, Q c w -> dw_queue w = r :: q -> by_name (q_name r) w = Some i -> Q c (noted i r q w)).
Context (q_lost : forall c w r q, Q c w -> dw_queue w = r :: q -> by_name (q_name r) w = None -> Q c (dset_queue q w) /\ ok KeyError).
Context (q_fatal : forall e, ok e -> ok TaskSetupError).
Context (q_judge : forall c i w, may c i -> Q c w -> Q c (judged i w)).
Context (q_start : forall c i w, may c i -> Q c w -> drunnable cf i w = true -> Q c (enqueued i (push_run i w))).
Context (q_order : forall c w q, Permutation (dw_queue w) q -> Q c w -> Q c (dset_queue q w)).
Context (q_note : forall c i a t w, Q c w -> Q c (note i a t w)).
Context (q_kill : forall c i r w, Q c w -> Q c (kill_run i w r)).
Context (q_consider : forall c i w, may c i -> Q c w -> Q c (demit (DConsider i) w)).

Lemma p_tick c : hold (Q c) ok next_tick.
Proof using q_like.
  unfold next_tick. apply h_get. intros w H. apply h_bind; [|intros _; apply h_ret|exact H].
  apply h_mod. intros w1. apply q_like. repeat split.
Qed.
Lemma p_moves c n : hold (Q c) ok (dmoves orc n).
Proof using q_like q_move.
  induction n as [|n IH]; cbn [dmoves]; [apply h_ret|].
  apply h_bind; [|intros _; exact IH]. apply h_bind; [apply p_tick|].
  intros k. apply h_mod. apply q_move.
Qed.
Lemma p_env c : hold (Q c) ok (denv orc).
Proof using q_like q_move. unfold denv. apply h_bind; [apply p_tick|]. intros k. apply p_moves. Qed.

Lemma p_handle c q : forall w, Q c w -> dw_queue w = q -> at_ (Q c) ok (handle q w).
Proof using q_pop q_lost.
  induction q as [|r q IH]; cbn [handle]; intros w H E; [apply h_ret; exact H|].
  unfold dbind at 1, dmod at 1. unfold dbind at 1, dget. change (by_name (q_name r) (dset_queue q w)) with (by_name (q_name r) w).
  destruct (by_name (q_name r) w) as [i|] eqn:B.
  - unfold dbind at 1, dmod at 1. apply IH; [apply (q_pop c w r q i H E B)|].
    destruct (note_spec i (q_action r) (q_time r) (dset_queue q w)) as (st & l & N). rewrite N. reflexivity.
  - destruct (q_lost c w r q H E B) as [K1 K2]. split; [exact K1|exact K2].
Qed.
Lemma p_handle_logs c : hold (Q c) ok dhandle_logs.
Proof using q_pop q_lost. unfold dhandle_logs. apply h_get. intros w H. apply p_handle; [exact H|reflexivity]. Qed.

Definition has_run (q : list qrec) : Prop := exists r, In r q /\ q_action r = ARun.
Lemma p_lock c q : forall w, Q c w -> dw_queue w = q -> has_run q -> at_ (Q c) ok (lock q w).
Proof using q_pop q_lost.
  induction q as [|r q IH]; cbn [lock]; intros w H E U; [destruct U as (? & [] & _)|].
  unfold dbind at 1, dmod at 1. unfold dbind at 1, dget. change (by_name (q_name r) (dset_queue q w)) with (by_name (q_name r) w).
  destruct (by_name (q_name r) w) as [i|] eqn:B.
  - unfold dbind at 1, dmod at 1.
    pose proof (q_pop c w r q i H E B) as H1.
    destruct (action_eqb (q_action r) ARun) eqn:A; [apply h_ret; exact H1|].
    apply IH; [exact H1| |].
    + destruct (note_spec i (q_action r) (q_time r) (dset_queue q w)) as (st & l & N). rewrite N. reflexivity.
    + destruct U as (r' & [<-|I] & U); [rewrite U in A; discriminate|]. exists r'. split; assumption.
  - destruct (q_lost c w r q H E B) as [K1 K2]. split; [exact K1|exact K2].
Qed.
Lemma move_queue m w : exists s, dw_queue (do_move m w) = dw_queue w ++ s.
Proof using.
  assert (Z : exists s, dw_queue w = dw_queue w ++ s) by (exists []; rewrite app_nil_r; reflexivity).
  destruct m as [d|n k p u d|i|i|i b|i u e|]; cbn [do_move].
  - exact Z.
  - destruct (by_name n w); exact Z.
  - destruct (Nat.ltb i (length (dw_objs w))); [|exact Z]. destruct (by_name _ w); exact Z.
  - destruct (existsb (Nat.eqb i) (dw_members w)); exact Z.
  - exact Z.
  - destruct (going i u w); [|exact Z]. destruct (is_process (obj i w)).
    + eexists. reflexivity.
    + match goal with |- context [note i ?a ?t ?x] => destruct (note_spec i a t x) as (st & l & N); rewrite N end. exact Z.
  - exact Z.
Qed.
Lemma env_queue w w1 : denv orc w = (w1, Returns tt) -> exists s, dw_queue w1 = dw_queue w ++ s.
Proof using.
  unfold denv, next_tick, dbind, dget, dmod, dret. cbn. set (n := o_count orc (dw_tick w)). clearbody n.
  assert (G : forall n w w1, dmoves orc n w = (w1, Returns tt) -> exists s, dw_queue w1 = dw_queue w ++ s).
  { clear. induction n as [|n IH]; intros w w1; cbn [dmoves].
    - intros [= <-]. exists []. rewrite app_nil_r. reflexivity.
    - unfold dbind, next_tick, dget, dmod, dret. cbn. intros H. destruct (IH _ _ H) as [s E]. rewrite E.
      destruct (move_queue (o_move orc (dw_tick w) (dset_tick (S (dw_tick w)) w)) (dset_tick (S (dw_tick w)) w)) as [s' E'].
      rewrite E'. exists (s' ++ s). rewrite <- app_assoc. reflexivity. }
  intros H. destruct (G n _ _ H) as [s E]. exists s. exact E.
Qed.
Lemma env_returns w : exists w1, denv orc w = (w1, Returns tt).
Proof using.
  unfold denv, next_tick, dbind, dget, dmod, dret. cbn. set (n := o_count orc (dw_tick w)). clearbody n.
  assert (G : forall n w, exists w1, dmoves orc n w = (w1, Returns tt)).
  { clear. induction n as [|n IH]; intros w; cbn [dmoves]; [exists w; reflexivity|].
    unfold dbind, next_tick, dget, dmod, dret. cbn. apply IH. }
  apply G.
Qed.

Lemma push_kind i w j : do_kind (obj j (push_run i w)) = do_kind (obj j w) /\ do_name (obj j (push_run i w)) = do_name (obj j w).
Proof using.
  unfold push_run. destruct (do_kind (obj i w)) eqn:K; cbn [demit dset_uid].
  - split; reflexivity.
  - change (obj j (demit ?e (dset_uid ?u ?x))) with (obj j x). rewrite obj_on. destruct (_ && _); split; reflexivity.
  - change (obj j (demit ?e (dset_uid ?u ?x))) with (obj j x). rewrite obj_on. destruct (_ && _); split; reflexivity.
Qed.
Lemma late_perm k m q : Permutation q (late k m q).
Proof using.
  unfold late. rewrite <- (firstn_skipn m q) at 1. apply Permutation_app_head.
  replace (skipn (S m) q) with (skipn 1 (skipn m q)) by (clear; revert m; induction q as [|x q IH]; intros [|m]; [reflexivity|reflexivity|reflexivity|apply IH]).
  generalize (skipn m q). clear. intros [|x l]; [destruct k; reflexivity|]. cbn [skipn firstn].
  rewrite <- (firstn_skipn k l) at 1. rewrite app_assoc. change (x :: firstn k l ++ skipn k l) with ((x :: firstn k l) ++ skipn k l). apply Permutation_app_tail.
  apply Permutation_cons_append.
Qed.
Lemma p_run_task c i : may c i -> forall w, Q c w -> drunnable cf i w = true -> at_ (Q c) ok (drun_task orc cf i w).
Proof using q_like q_move q_pop q_lost q_fatal q_order q_start q_note.
  intros M w H R. pose proof (q_start c i w M H R) as S1. unfold enqueued in S1.
  destruct (push_kind i w i) as [K N]. rewrite K, N in S1.
  unfold drun_task. unfold dbind at 1, dget at 1. unfold dbind at 1, dmod at 1.
  destruct (do_kind (obj i w)) eqn:E.
  - apply h_bind; [apply h_mod; intros; apply q_note; assumption| |exact S1]. intros _.
    apply h_bind; [apply p_env|]. intros _. apply h_bind; [apply p_tick|]. intros k. apply h_mod. intros; apply q_note; assumption.
  - apply h_mod; [intros; apply q_note; assumption|exact S1].
  - unfold dbind at 1, dget at 1. unfold dbind at 1, dmod at 1. unfold dbind at 1.
    match goal with |- context [denv orc ?x] => destruct (env_returns x) as [w1 E1]; rewrite E1; pose proof (p_env c x S1) as [S2 _]; rewrite E1 in S2; cbn [fst] in S2 end.
    destruct (env_queue _ _ E1) as [s Es].
    unfold dbind at 1. unfold next_tick at 1. unfold dbind at 1, dget at 1. unfold dbind at 1, dmod at 1, dret at 1.
    unfold dbind at 1, dmod at 1. unfold dbind at 1, dget at 1.
    match goal with |- at_ _ _ (_ ?x) => set (w2 := x) end.
    pose proof (late_perm (o_late orc (dw_tick w1)) (length (dw_queue (push_run i w))) (dw_queue w1)) as LP.
    assert (S3 : Q c w2).
    { unfold w2. cbn [dset_tick dw_queue]. apply q_order; [exact LP|]. apply (q_like c w1); [repeat split|exact S2]. }
    pose proof (p_lock c (dw_queue w2) w2 S3 eq_refl) as L.
    assert (HR : has_run (dw_queue w2)).
    { eexists. split; [unfold w2; cbn [dset_tick dset_queue dw_queue]; apply (Permutation_in _ LP); rewrite Es; apply in_or_app; left; apply in_or_app; right; left; reflexivity|reflexivity]. }
    specialize (L HR).
    unfold dbind at 1, dattempt. destruct (lock (dw_queue w2) w2) as [w3 [[]|e|]]; destruct L as [L1 L2]; cbn [fst snd] in *.
    + apply h_ret. exact L1.
    + pose proof (q_fatal e L2) as KE.
      apply h_get; [|exact L1]. intros w4 H3. apply h_bind; [| |exact H3].
      * destruct (ts_status _) as [[]|]; try apply h_ret; apply h_mod; intros; apply q_note; assumption.
      * intros _. apply h_bind; [apply h_mod; intros; apply q_note; assumption|]. intros _.
        destruct (dc_silence cf); [apply h_ret|apply h_raise; exact KE].
    + split; [exact L1|exact I].
Qed.
Lemma p_guarded c i : may c i -> hold (Q c) ok (dguarded orc cf i).
Proof using q_like q_move q_pop q_lost q_fatal q_order q_start q_note q_judge.
  intros M. unfold dguarded. apply h_bind; [apply h_mod; intros w H; apply (q_judge c i w M H)|]. intros _.
  apply h_get. intros w H. destruct (drunnable cf i w) eqn:R; [apply p_run_task; assumption|apply h_ret; exact H].
Qed.
Lemma p_kill_all c i w : Q c w -> Q c (kill_all i w).
Proof using q_kill.
  unfold kill_all. generalize (do_runs (obj i w)). intros l. revert w.
  induction l as [|r l IH]; intros w H; cbn [fold_left]; [exact H|]. apply IH. apply q_kill. exact H.
Qed.
Lemma p_check c i : hold (Q c) ok (dcheck orc i).
Proof using q_like q_kill.
  unfold dcheck. apply h_bind; [apply p_tick|]. intros k. destruct (o_stop orc k); [|apply h_ret].
  apply h_mod. intros w. apply p_kill_all.
Qed.
Lemma p_turn c i : may c i -> hold (Q c) ok (dturn orc cf i).
Proof using q_like q_move q_pop q_lost q_fatal q_order q_start q_note q_judge q_kill q_consider.
  intros M. unfold dturn. apply h_bind; [apply p_env|]. intros _. apply h_bind; [apply p_handle_logs|]. intros _.
  apply h_get. intros w H. apply h_bind; [|intros _; apply p_check|exact H].
  destruct (_ || _); [apply h_ret|]. apply h_bind; [|intros _; apply p_guarded; exact M].
  apply h_mod. intros w1. apply q_consider. exact M.
Qed.
Lemma p_kill c : hold (Q c) ok dkill.
Proof using q_kill. unfold dkill. apply h_get. intros w H. apply h_each; [|exact H]. intros i _. apply h_mod. intros w1. apply p_kill_all. Qed.
Lemma p_wait c n b : hold (Q c) ok (dwait orc n b).
Proof using q_like q_move q_pop q_lost q_kill.
  induction n as [|n IH]; cbn [dwait]; [intros w H; split; [exact H|exact I]|].
  apply h_get. intros w H. destruct (any_alive w); [|apply h_ret; exact H].
  apply h_bind; [apply p_env| |exact H]. intros _. apply h_bind; [|intros _; exact IH].
  destruct b; [|apply h_ret]. apply h_bind; [apply p_handle_logs|]. intros _. apply h_get. intros w1 H1.
  apply h_each; [|exact H1]. intros i _. apply p_check.
Qed.
Lemma p_end_tasks c n b : hold (Q c) ok (dend_tasks orc cf n b).
Proof using q_like q_move q_pop q_lost q_kill.
  unfold dend_tasks. destruct (_ || _); [apply p_kill|].
  apply h_attempt_then; [apply p_wait|intros _; apply h_ret|].
  intros e K. apply h_bind; [apply p_kill|]. intros _. apply h_raise. exact K.
Qed.

(** ** From one phase to the next *)
Definition QQ (w : dworld) : Prop := exists c, Q c w.
Context (q_phase : forall c w, Q c w -> exists c', Q c' (demit DPhase w) /\ forall i, In i (dtasks w) -> may c' i).
Lemma p_last : hold QQ ok (dlast orc cf).
Proof using q_like q_move q_pop q_lost q_fatal q_order q_start q_note q_judge q_phase.
  intros w [c H]. destruct (q_phase c w H) as (c' & H' & M). unfold dlast, dbind at 1, dmod. unfold dbind at 1, dget at 1.
  rewrite (dtasks_like w (demit DPhase w) eq_refl eq_refl).
  match goal with |- at_ QQ ok ?x => enough (A : at_ (Q c') ok x) by (destruct A as [A1 A2]; split; [exists c'; exact A1|exact A2]) end.
  apply h_each; [|exact H']. intros i Hi. apply h_get. intros w1 H1. destruct (do_shutdown _); [apply p_guarded; [apply M; exact Hi|exact H1]|apply h_ret; exact H1].
Qed.
Lemma p_cycle : hold QQ ok (dcycle orc cf).
Proof using q_like q_move q_pop q_lost q_fatal q_order q_start q_note q_judge q_kill q_consider q_phase.
  intros w [c H]. destruct (q_phase c w H) as (c' & H' & M). unfold dcycle, dbind at 1, dmod at 1. unfold dbind at 1, dget at 1.
  rewrite (dtasks_like w (demit DPhase w) eq_refl eq_refl).
  match goal with |- at_ QQ ok ?x => enough (A : at_ (Q c') ok x) by (destruct A as [A1 A2]; split; [exists c'; exact A1|exact A2]) end.
  apply h_bind; [apply h_each; intros i Hi; apply p_turn; apply M; exact Hi| |exact H']. intros _.
  apply h_bind; [apply p_handle_logs|]. intros _. apply h_mod. intros w1. apply q_like. repeat split.
Qed.
Lemma p_shut_down n b : hold QQ ok (dshut_down orc cf n b).
Proof using q_like q_move q_pop q_lost q_fatal q_order q_start q_note q_judge q_kill q_phase.
  unfold dshut_down. apply h_finally.
  - apply h_finally; [apply p_last|]. apply (h_ex Q). intros c. apply p_end_tasks.
  - apply h_bind; [apply (h_ex Q); intros c; apply p_wait|]. intros _. apply (h_ex Q). intros c. apply p_handle_logs.
Qed.
Lemma p_loop n : hold QQ ok (dloop orc cf n).
Proof using q_like q_move q_pop q_lost q_fatal q_order q_start q_note q_judge q_kill q_consider q_phase.
  induction n as [|n IH]; cbn [dloop]; [intros w H; split; [exact H|exact I]|].
  apply h_get. intros w H. destruct (Nat.leb _ _); [apply h_ret; exact H|].
  apply h_bind; [apply (h_ex Q); intros c; apply p_env| |exact H]. intros _.
  apply h_get. intros w1 H1. destruct (dw_down w1); [apply h_ret; exact H1|].
  apply h_bind; [apply p_cycle|intros _; exact IH|exact H1].
Qed.
Lemma p_serve n w : QQ w -> at_ QQ ok (dstartup orc cf (dset_down false w)) -> at_ QQ ok (dserve orc cf n w).
Proof using q_like q_move q_pop q_lost q_fatal q_order q_start q_note q_judge q_kill q_consider q_phase.
  intros H S1. unfold dserve, dbind at 1, dmod.
  assert (A : at_ QQ ok (dbind (dstartup orc cf) (fun _ => dloop orc cf n) (dset_down false w))).
  { unfold dbind. destruct (dstartup orc cf (dset_down false w)) as [w1 [[]|e|]]; [|exact S1|exact S1]. apply p_loop. exact (proj1 S1). }
  destruct A as [A1 A2]. unfold dbind at 1, dattempt. destruct (dbind (dstartup orc cf) _ _) as [w1 [[]|e|]]; cbn [fst snd] in *.
  - apply h_bind; [apply p_shut_down|intros _; apply h_ret|exact A1].
  - apply h_bind; [apply p_shut_down|intros _; apply h_raise; exact A2|exact A1].
  - split; [exact A1|exact I].
Qed.
(** the startup, when reading the history from the log keeps it too *)
Lemma p_startup : (forall c i w, Q c w -> Q c (dcached i w)) -> hold QQ ok (dstartup orc cf).
Proof using q_like q_move q_pop q_lost q_fatal q_order q_start q_note q_judge q_phase.
  intros KC w [c H]. destruct (q_phase c w H) as (c' & H' & M). unfold dstartup, dbind at 1, dmod at 1. unfold dbind at 1, dmod at 1. unfold dbind at 1, dget at 1.
  rewrite (dtasks_like w (dset_cycles 0 (demit DPhase w)) eq_refl eq_refl).
  match goal with |- at_ QQ ok ?x => enough (A : at_ (Q c') ok x) by (destruct A as [A1 A2]; split; [exists c'; exact A1|exact A2]) end.
  apply h_each; [|apply (q_like c' (demit DPhase w)); [repeat split|exact H']].
  intros i Hi. apply h_bind; [apply p_env|]. intros _. apply h_bind; [apply h_mod; apply KC|]. intros _.
  apply h_get. intros w1 H1. destruct (do_startup _); [apply p_guarded; [apply M; exact Hi|exact H1]|apply h_ret; exact H1].
Qed.
End Parts.
