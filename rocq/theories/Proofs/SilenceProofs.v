(** Start conditions that raise (C46). *)
From Coq Require Import Bool Arith Lia ZifyBool.
From Verif Require Import Model.Base Model.History Model.World Model.Run Model.Scheduler.
From Verif Require Import Spec.SchedulerSpec Proofs.WorldProofs Proofs.LimitProofs Proofs.EventProofs.
Open Scope Z_scope.

(** * Silenced: as if the condition did not hold *)
Definition same {A} (m m' : M A) : Prop := forall w, m w = m' w.
Lemma same_refl {A} (m : M A) : same m m.
Proof. intro w. reflexivity. Qed.
Lemma same_bind {A B} (m m' : M A) (f f' : A -> M B) : same m m' -> (forall a, same (f a) (f' a)) -> same (mbind m f) (mbind m' f').
Proof. intros H K w. unfold mbind. rewrite (H w). destruct (m' w) as [w' [a|e|]]; [apply K|reflexivity..]. Qed.
Lemma same_attempt {A} (m m' : M A) : same m m' -> same (attempt m) (attempt m').
Proof. intros H w. unfold attempt. now rewrite (H w). Qed.
Lemma same_finally {A} (m m' : M A) f f' : same m m' -> same f f' -> same (finally m f) (finally m' f').
Proof. intros H K. apply same_bind; [now apply same_attempt|]. intros r. apply same_bind; [exact K|]. intros _. apply same_refl. Qed.
Lemma same_each f f' ns : (forall n, same (f n) (f' n)) -> same (for_each f ns) (for_each f' ns).
Proof. intros H. induction ns; cbn [for_each]; [apply same_refl|]. apply same_bind; auto. Qed.
Section Hush.
Context (orc : oracle) (cf : config) (S0 : cf_silence_cond cf = true).
Lemma hush_cond n : same (check_task_cond orc cf n) (check_task_cond (hushed orc) cf n).
Proof.
  intros w. unfold check_task_cond, attempt, is_runnable, mbind, get_task, get, ask, ret, raise.
  destruct (find_task n w) as [t|]; [|reflexivity]. destruct (t_batches t); [|reflexivity].
  destruct (t_disabled t); [reflexivity|]. destruct (tc_always_false _); [reflexivity|].
  cbn. destruct (o_cond orc (w_tick w) n w) as [b|e]; [reflexivity|].
  destruct (is_exception e) eqn:X; cbn; rewrite ?X, ?S0; reflexivity.
Qed.
Lemma hush_runnable n : same (is_task_runnable orc cf n) (is_task_runnable (hushed orc) cf n).
Proof using S0.
  unfold is_task_runnable. do 2 (apply same_bind; [apply same_refl|intro]). destruct (negb a0); [apply same_refl|].
  do 2 (apply same_bind; [apply same_refl|intro]). destruct (_ && _); [apply same_refl|].
  apply same_bind; [apply same_refl|intros _; apply hush_cond].
Qed.
Lemma hush_guarded fuel n : same (guarded orc cf fuel n) (guarded (hushed orc) cf fuel n).
Proof using S0. unfold guarded. apply same_bind; [apply hush_runnable|intros b; apply same_refl]. Qed.
Lemma hush_special fuel n : same (run_special orc cf fuel n) (run_special (hushed orc) cf fuel n).
Proof using S0. unfold run_special. apply same_bind; [apply same_refl|intros t]. apply same_bind; [apply same_refl|intros _]. apply hush_guarded. Qed.
Lemma hush_cycle_task fuel n : same (cycle_task orc cf fuel n) (cycle_task (hushed orc) cf fuel n).
Proof using S0.
  unfold cycle_task. do 5 (apply same_bind; [apply same_refl|intro]). apply same_bind; [|intro; apply same_refl].
  destruct (_ || _); [apply same_refl|]. do 2 (apply same_bind; [apply same_refl|intro]). destruct a4; [|apply same_refl]. apply hush_guarded.
Qed.
Lemma hush_cycle fuel : same (run_cycle orc cf fuel) (run_cycle (hushed orc) cf fuel).
Proof using S0. unfold run_cycle. do 3 (apply same_bind; [apply same_refl|intro]). apply same_bind; [apply same_each, hush_cycle_task|intro]. apply same_refl. Qed.
Lemma hush_startup fuel : same (startup orc cf fuel) (startup (hushed orc) cf fuel).
Proof using S0.
  unfold startup. do 4 (apply same_bind; [apply same_refl|intro]). apply same_bind; [|intro; apply same_refl].
  apply same_each. intros n. unfold startup_task. do 4 (apply same_bind; [apply same_refl|intro]).
  destruct (tc_startup _); [apply hush_special|apply same_refl].
Qed.
Lemma hush_main fuel : same (main_loop orc cf fuel) (main_loop (hushed orc) cf fuel).
Proof using S0.
  induction fuel as [|fuel IH]; cbn [main_loop]; [apply same_refl|]. apply same_bind; [apply same_refl|intros stop].
  destruct stop; [apply same_refl|]. do 2 (apply same_bind; [apply same_refl|intro]). destruct a0; [apply same_refl|].
  apply same_bind; [apply same_refl|intros [|]]; [apply same_refl|]. apply same_bind; [apply hush_cycle|intros _; exact IH].
Qed.
Lemma hush_shut_down fuel e : same (shut_down orc cf fuel e) (shut_down (hushed orc) cf fuel e).
Proof using S0.
  unfold shut_down. do 2 (apply same_bind; [apply same_refl|intro]). apply same_finally; [|apply same_refl].
  apply same_finally; [|apply same_refl]. apply same_finally; [|apply same_refl].
  unfold run_shutdown_tasks. apply same_bind; [apply same_refl|intros ns]. apply same_each. intros n. unfold shutdown_task.
  apply same_bind; [apply same_refl|intros t]. destruct (tc_shutdown _); [apply hush_special|apply same_refl].
Qed.
Lemma hush_serve fuel w : serve orc cf fuel w = serve (hushed orc) cf fuel w.
Proof using S0.
  revert w. change (same (serve orc cf fuel) (serve (hushed orc) cf fuel)). unfold serve. apply same_bind; [apply same_refl|intros _].
  apply same_bind; [apply same_attempt, same_bind; [apply hush_startup|intros _; apply hush_main]|intros r].
  apply same_bind; [apply hush_shut_down|intros _; apply same_refl].
Qed.
End Hush.

(** * Not silenced: the exception leaves the cycle *)
Definition same_or (e : exn) {A} (m m' : M A) : Prop := forall w, m w = m' w \/ exists w', m w = (w', Raises e).
Lemma so_same e {A} (m m' : M A) : same m m' -> same_or e m m'.
Proof. intros H w. left. apply H. Qed.
Lemma so_bind e {A B} (m m' : M A) (f f' : A -> M B) :
  same_or e m m' -> (forall a, same_or e (f a) (f' a)) -> same_or e (mbind m f) (mbind m' f').
Proof.
  intros H K w. unfold mbind. destruct (H w) as [-> | (w' & ->)]; [|right; now exists w'].
  destruct (m' w) as [w' [a|x|]]; [apply K|now left..].
Qed.
Lemma so_each e f f' ns : (forall n, same_or e (f n) (f' n)) -> same_or e (for_each f ns) (for_each f' ns).
Proof. intros H. induction ns; cbn [for_each]; [now apply so_same, same_refl|]. apply so_bind; auto. Qed.
(** The same, or no normal return *)
Definition same_not {A} (m m' : M A) : Prop := forall w, m w = m' w \/ forall a, snd (m w) <> Returns a.
Lemma sn_same {A} (m m' : M A) : same m m' -> same_not m m'.
Proof. intros H w. left. apply H. Qed.
Lemma sn_so e {A} (m m' : M A) : same_or e m m' -> same_not m m'.
Proof. intros H w. destruct (H w) as [E|(w' & E)]; [now left|]. right. rewrite E. discriminate. Qed.
Lemma sn_bind {A B} (m m' : M A) (f f' : A -> M B) :
  same_not m m' -> (forall a, same_not (f a) (f' a)) -> same_not (mbind m f) (mbind m' f').
Proof.
  intros H K w. unfold mbind. destruct (H w) as [-> | N].
  - destruct (m' w) as [w' [a|x|]]; [apply K|now left..].
  - right. destruct (m w) as [w' [a|x|]]; cbn in *; [destruct (N a eq_refl)|discriminate..].
Qed.
Lemma sn_finally {A} (m m' : M A) f f' : same_not m m' -> same f f' -> same_not (finally m f) (finally m' f').
Proof.
  intros H K w. unfold finally, mbind, attempt. destruct (H w) as [-> | N].
  - left. destruct (m' w) as [w' [a|x|]]; rewrite ?(K w'); reflexivity.
  - right. destruct (m w) as [w' [a|x|]]; cbn in *; [destruct (N a eq_refl)| |discriminate].
    destruct (f w') as [w'' [?|?|]]; cbn; discriminate.
Qed.

Section Loud.
Context (orc : oracle) (cf : config) (S0 : cf_silence_cond cf = false) (k : nat) (e : exn) (b : bool).
Let oe := answering orc k (Err e).
Let ob := answering orc k (Ok b).
Lemma loud_cond n : same_or e (check_task_cond oe cf n) (check_task_cond ob cf n).
Proof using S0.
  intros w. unfold check_task_cond, attempt, is_runnable, mbind, get_task, get, ask, ret, raise.
  destruct (find_task n w) as [t|]; [|now left]. destruct (t_batches t); [|now left].
  destruct (t_disabled t); [now left|]. destruct (tc_always_false _); [now left|].
  cbn. destruct (Nat.eqb (w_tick w) k); [|now left]. rewrite S0. cbn. right. eexists. reflexivity.
Qed.
Lemma loud_guarded fuel n : same_or e (guarded oe cf fuel n) (guarded ob cf fuel n).
Proof using S0.
  unfold guarded. apply so_bind; [|intros r; apply so_same, same_refl]. unfold is_task_runnable.
  apply so_bind; [apply so_same, same_refl|intros t]. apply so_bind; [apply so_same, same_refl|intros free].
  destruct (negb free); [apply so_same, same_refl|]. do 2 (apply so_bind; [apply so_same, same_refl|intro]).
  destruct (_ && _); [apply so_same, same_refl|]. apply so_bind; [apply so_same, same_refl|intros _; apply loud_cond].
Qed.
Lemma loud_special fuel n : same_or e (run_special oe cf fuel n) (run_special ob cf fuel n).
Proof using S0.
  unfold run_special. do 2 (apply so_bind; [apply so_same, same_refl|intro]). apply loud_guarded.
Qed.
Lemma loud_cycle_task fuel n : same_or e (cycle_task oe cf fuel n) (cycle_task ob cf fuel n).
Proof using S0.
  unfold cycle_task. do 5 (apply so_bind; [apply so_same, same_refl|intro]). apply so_bind; [|intro; apply so_same, same_refl].
  destruct (_ || _); [apply so_same, same_refl|]. do 2 (apply so_bind; [apply so_same, same_refl|intro]).
  destruct a4; [|apply so_same, same_refl]. apply loud_guarded.
Qed.
Lemma loud_cycle fuel : same_or e (run_cycle oe cf fuel) (run_cycle ob cf fuel).
Proof using S0.
  unfold run_cycle. do 3 (apply so_bind; [apply so_same, same_refl|intro]).
  apply so_bind; [apply so_each, loud_cycle_task|intro]. apply so_same, same_refl.
Qed.
Lemma loud_startup fuel : same_or e (startup oe cf fuel) (startup ob cf fuel).
Proof using S0.
  unfold startup. do 4 (apply so_bind; [apply so_same, same_refl|intro]). apply so_bind; [|intro; apply so_same, same_refl].
  apply so_each. intros n. unfold startup_task. do 4 (apply so_bind; [apply so_same, same_refl|intro]).
  destruct (tc_startup _); [apply loud_special|apply so_same, same_refl].
Qed.
Lemma loud_main fuel : same_or e (main_loop oe cf fuel) (main_loop ob cf fuel).
Proof using S0.
  induction fuel as [|fuel IH]; cbn [main_loop]; [apply so_same, same_refl|]. apply so_bind; [apply so_same, same_refl|intros stop].
  destruct stop; [apply so_same, same_refl|]. do 2 (apply so_bind; [apply so_same, same_refl|intro]). destruct a0; [apply so_same, same_refl|].
  apply so_bind; [apply so_same, same_refl|intros [|]]; [apply so_same, same_refl|]. apply so_bind; [apply loud_cycle|intros _; exact IH].
Qed.
Lemma loud_shut_down fuel x : same_not (shut_down oe cf fuel x) (shut_down ob cf fuel x).
Proof using S0.
  unfold shut_down. do 2 (apply sn_bind; [apply sn_same, same_refl|intro]). apply sn_finally; [|apply same_refl].
  apply sn_finally; [|apply same_refl]. apply sn_finally; [|apply same_refl]. apply (sn_so e).
  unfold run_shutdown_tasks. apply so_bind; [apply so_same, same_refl|intros ns]. apply so_each. intros n. unfold shutdown_task.
  apply so_bind; [apply so_same, same_refl|intros t]. destruct (tc_shutdown _); [apply loud_special|apply so_same, same_refl].
Qed.
Lemma loud_serve fuel w : e <> SchedulerExit -> e <> SchedulerRestart ->
  serve oe cf fuel w = serve ob cf fuel w \/ snd (serve oe cf fuel w) <> Returns tt.
Proof using S0.
  intros N1 N2. set (w1 := set_flags true false false (w_force w) w).
  pose (tail := fun orc (r : result unit) => (shut_down orc cf fuel (match r with Ok _ | Err CancelledError => None | Err e => Some e end) ;;
    match r with Ok _ | Err SchedulerExit | Err SchedulerRestart => ret tt | Err e => raise e end)).
  assert (E : forall orc, serve orc cf fuel w = mbind (attempt (startup orc cf fuel ;; main_loop orc cf fuel)) (tail orc) w1) by reflexivity.
  rewrite !E. assert (T : forall r, same_not (tail oe r) (tail ob r)).
  { intros r. unfold tail. apply sn_bind; [apply loud_shut_down|intros _; apply sn_same, same_refl]. }
  assert (SM : same_or e (startup oe cf fuel ;; main_loop oe cf fuel) (startup ob cf fuel ;; main_loop ob cf fuel))
    by (apply so_bind; [apply loud_startup|intros _; apply loud_main]).
  assert (EB : forall (m : M unit) (f : result unit -> M unit), mbind (attempt m) f w1 = match m w1 with
    | (w', Returns a) => f (Ok a) w' | (w', Raises e) => f (Err e) w' | (w', OutOfFuel) => (w', OutOfFuel) end).
  { intros m f. unfold mbind, attempt. destruct (m w1) as [w' [a|x|]]; reflexivity. }
  rewrite !EB. destruct (SM w1) as [-> | (w' & ->)].
  - destruct ((startup ob cf fuel ;; main_loop ob cf fuel) w1) as [w2 [[]|x|]]; [destruct (T (Ok tt) w2)|destruct (T (Err x) w2)|]; auto.
  - right. unfold tail, mbind. destruct (shut_down _ _ _ _ w') as [w3 [?|?|]]; try discriminate.
    destruct e; cbn; congruence.
Qed.
End Loud.

Lemma loud_cycle_spec orc cf fuel w k e b : cf_silence_cond cf = false ->
  run_cycle (answering orc k (Err e)) cf fuel w = run_cycle (answering orc k (Ok b)) cf fuel w \/
  snd (run_cycle (answering orc k (Err e)) cf fuel w) = Raises e.
Proof.
  intros S0. destruct (loud_cycle orc cf S0 k e b fuel w) as [H|(w' & H)]; [now left|right]. now rewrite H.
Qed.
Lemma loud_serve_spec orc cf fuel w k e b : cf_silence_cond cf = false -> e <> SchedulerExit -> e <> SchedulerRestart ->
  serve (answering orc k (Err e)) cf fuel w = serve (answering orc k (Ok b)) cf fuel w \/
  snd (serve (answering orc k (Err e)) cf fuel w) <> Returns tt.
Proof. intros S0. now apply loud_serve. Qed.
