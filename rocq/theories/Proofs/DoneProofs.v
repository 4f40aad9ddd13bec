(** The run records of a coroutine or thread that is started by its condition
    alone, one at a time (C75): each was decided when its condition held,
    knowing every earlier record of the task. *)
From Coq Require Import Bool Arith Lia ZifyBool.
From Verif Require Import Model.Base Model.History Spec.HistorySpec Spec.SchedulerSpec Model.World Model.Run Model.Scheduler.
From Verif Require Import Spec.OnceSpec Spec.DoneSpec Proofs.WorldProofs.
From Verif Require Proofs.OnceProofs.
Open Scope Z_scope.

Section Done.
Context (orc : oracle) (cf : config) (me : Z) (gate : HistorySpec.world -> Z -> bool) (time : nat -> Z) (l0 : log) (N0 : list Z).
Notation names := OnceProofs.names.
Notation writing := (OnceProofs.writing orc).

Definition noted (st : tstate) (l : log) (d : Z) : Prop :=
  forall x, In x l -> r_task x = me -> exists c, ts_last st (r_action x) = Some c /\ r_created x <= c <= d.
Definition cached (st : tstate) (d : Z) : Prop := forall a c, ts_last st a = Some c -> c <= d.
Definition license (l : log) (d : Z) : Prop := exists st seen unseen, l = seen ++ unseen /\
  (forall x, In x unseen -> r_task x <> me) /\ noted st seen d /\ own_in_order me seen /\ gate (st, seen) d = true.
Definition justified (l : log) (r : record) : Prop := exists d, license l d /\ d <= r_created r.
Definition W (w : world) : Prop := every_new_run me l0 (w_log w) justified.
Definition live (w : world) : Prop := exists t r, In t (w_tasks w) /\ t_name t = me /\ In r (t_stack t) /\ run_alive r = true.

Record good (w : world) : Prop := Good {
  g_noted : forall t, In t (w_tasks w) -> t_name t = me -> noted (t_state t) (w_log w) (w_clock w);
  g_cached : forall t, In t (w_tasks w) -> t_name t = me -> cached (t_state t) (w_clock w);
  g_order : own_in_order me (w_log w);
  g_all : names w = N0;
  g_queue : forall q, In q (w_queue w) -> r_task (q_rec q) <> me;
  g_orphans : forall n r, In (n, r) (w_orphans w) -> n <> me;
  g_kinds : forall t r, In t (w_tasks w) -> t_name t = me -> In r (t_stack t) -> rn_kind r <> XProcess;
  g_task : forall t, In t (w_tasks w) -> t_name t = me -> t_batches t = [] /\ tc_always_false (t_cfg t) = false /\
    (get_execution cf t = XAsync \/ get_execution cf t = XThread) /\ allow_multilaunch cf t = false }.

Context (FD : In me N0) (ND : NoDup N0).

(** * Steps that start nothing of [me].  With [b = false], records of [me] are
    written only while a run of it goes on. *)
Record calm (b : bool) (w w' : world) : Prop := Calm {
  cs_log : exists rs, w_log w' = w_log w ++ rs /\ forall x, In x rs -> r_task x = me -> r_action x <> ARun /\ (b = true \/ live w);
  cs_clock : w_clock w' = w_clock w;
  cs_tick : (w_tick w <= w_tick w')%nat;
  cs_live : live w' -> live w;
  cs_good : good w' }.

Lemma calm_refl b w : good w -> calm b w w.
Proof using Type. intros G. constructor; auto. exists []. split; [now rewrite app_nil_r|intros x []]. Qed.
Lemma calm_trans b w1 w2 w3 : calm b w1 w2 -> calm b w2 w3 -> calm b w1 w3.
Proof using Type.
  intros [(r1 & L1 & N1) C1 T1 V1 G1] [(r2 & L2 & N2) C2 T2 V2 G2]. constructor; auto; try congruence; try lia.
  exists (r1 ++ r2). split; [rewrite L2, L1; symmetry; apply app_assoc|]. intros x H E. apply in_app_or in H as [H|H]; [auto|].
  destruct (N2 x H E) as [A [B|B]]; split; auto.
Qed.
Lemma calm_mono b w w' : calm false w w' -> calm b w w'.
Proof using Type.
  intros [(rs & L & N) C T V G]. constructor; auto. exists rs. split; [exact L|]. intros x H E. destruct (N x H E) as [A [B|B]]; [discriminate B|auto].
Qed.
Lemma calm_during b w w' : live w -> calm true w w' -> calm b w w'.
Proof using Type.
  intros A [(rs & L & N) C T V G]. constructor; auto. exists rs. split; [exact L|]. intros x H E. destruct (N x H E). auto.
Qed.
Lemma calm_frame b w w' : good w -> w_log w' = w_log w -> w_clock w' = w_clock w -> (w_tick w <= w_tick w')%nat ->
  w_tasks w' = w_tasks w -> (forall q, In q (w_queue w') -> In q (w_queue w) \/ r_task (q_rec q) <> me) ->
  (forall n r, In (n, r) (w_orphans w') -> In (n, r) (w_orphans w) \/ n <> me) -> calm b w w'.
Proof using Type.
  intros [X1 X2 X3 X4 X5 X6 X7 X8] L C T K Q O. constructor; auto.
  - exists []. split; [now rewrite app_nil_r|intros x []].
  - unfold live. now rewrite K.
  - constructor; try (rewrite ?L, ?C, ?K; assumption).
    + unfold OnceProofs.names. now rewrite K.
    + intros q H. destruct (Q q H); auto.
    + intros n r H. destruct (O n r H) as [H'|H']; [exact (X6 _ _ H')|exact H'].
Qed.
Ltac frame := apply calm_frame; [assumption|reflexivity|reflexivity|cbn; lia|reflexivity|auto|auto].

Lemma named_in w : names w = N0 -> exists t, In t (w_tasks w) /\ t_name t = me.
Proof using FD. intros E. rewrite <- E in FD. apply in_map_iff in FD as (t & A & B). now exists t. Qed.
Lemma past w x : good w -> In x (w_log w) -> r_task x = me -> r_created x <= w_clock w.
Proof using FD.
  intros G H E. destruct (named_in w (g_all w G)) as (t & Ht & Et). destruct (g_noted w G t Ht Et x H E) as (c & _ & B). lia.
Qed.

(** The tasks change, one by one *)
Definition tame (f : task -> task) (clock : Z) (t : task) : Prop :=
  t_cfg (f t) = t_cfg t /\ t_batches (f t) = t_batches t /\
  (forall a, ts_last (t_state (f t)) a = ts_last (t_state t) a \/ ts_last (t_state (f t)) a = Some clock).
Lemma good_map f w : good w -> (forall t, t_name (f t) = t_name t) ->
  (forall t, In t (w_tasks w) -> t_name t = me -> tame f (w_clock w) t /\ forall r, In r (t_stack (f t)) -> rn_kind r <> XProcess) ->
  good (set_tasks (map f (w_tasks w)) w).
Proof using FD.
  intros G FN FM. pose proof G as [X1 X2 X3 X4 X5 X6 X7 X8]. constructor; cbn; auto.
  - intros t' H N x Hx Ex. apply in_map_iff in H as (t & <- & H). rewrite FN in N. destruct (FM t H N) as ((_ & _ & A) & _).
    destruct (A (r_action x)) as [-> | ->]; [exact (X1 t H N x Hx Ex)|]. exists (w_clock w). split; [reflexivity|]. pose proof (past w x G Hx Ex). lia.
  - intros t' H N a c E. apply in_map_iff in H as (t & <- & H). rewrite FN in N. destruct (FM t H N) as ((_ & _ & A) & _).
    destruct (A a) as [E1|E1]; rewrite E1 in E; [exact (X2 t H N a c E)|]. injection E as <-. lia.
  - unfold OnceProofs.names. cbn. rewrite map_map. rewrite <- X4. apply map_ext. exact FN.
  - intros t' r H N Hr. apply in_map_iff in H as (t & <- & H). rewrite FN in N. exact (proj2 (FM t H N) r Hr).
  - intros t' H N. apply in_map_iff in H as (t & <- & H). rewrite FN in N. destruct (FM t H N) as ((A & B & _) & _).
    unfold get_execution, allow_multilaunch in *. rewrite A, B. exact (X8 t H N).
Qed.
Definition fading (s s' : list run) : Prop := forall r', In r' s' -> exists r, In r s /\ rn_kind r' = rn_kind r /\ (run_alive r' = true -> run_alive r = true).
Lemma fading_same s : fading s s.
Proof using Type. intros r H. now exists r. Qed.
Lemma fading_filter f s : fading s (filter f s).
Proof using Type. intros r H. apply filter_In in H as [H _]. now exists r. Qed.
Lemma calm_map b f w : good w -> (forall t, t_name (f t) = t_name t) ->
  (forall t, In t (w_tasks w) -> t_name t = me -> tame f (w_clock w) t /\ fading (t_stack t) (t_stack (f t))) ->
  calm b w (set_tasks (map f (w_tasks w)) w).
Proof using FD.
  intros G FN FM. constructor; auto.
  - exists []. split; [symmetry; apply app_nil_r|intros x []].
  - intros (t' & r' & H & N & Hr & A). cbn in H. apply in_map_iff in H as (t & <- & H). rewrite FN in N.
    destruct (proj2 (FM t H N) r' Hr) as (r & Hr' & _ & L). exists t, r. auto.
  - apply good_map; [exact G|exact FN|]. intros t H N. destruct (FM t H N) as [A B]. split; [exact A|]. intros r' Hr.
    destruct (B r' Hr) as (r & Hr' & K & _). rewrite K. exact (g_kinds w G t r H N Hr').
Qed.
Lemma calm_on_task b n f w : good w -> (forall t, t_name (f t) = t_name t) ->
  (forall t, In t (w_tasks w) -> t_name t = me -> n = me -> tame f (w_clock w) t /\ fading (t_stack t) (t_stack (f t))) ->
  calm b w (on_task n f w).
Proof using FD.
  intros G FN FM. apply calm_map; [exact G| |].
  - intros t. destruct (_ =? _); auto.
  - intros t H N. unfold tame. destruct (Z.eqb_spec (t_name t) n) as [E|E]; [apply (FM t H N); congruence|].
    split; [|apply fading_same]. repeat split. now left.
Qed.
Lemma tame_same (f : task -> task) c t : t_cfg (f t) = t_cfg t -> t_batches (f t) = t_batches t -> t_state (f t) = t_state t -> tame f c t.
Proof using Type. intros A B C. repeat split; auto. intros a. left. now rewrite C. Qed.
Definition fades (g : run -> run) : Prop := forall r, rn_kind (g r) = rn_kind r /\ (run_alive (g r) = true -> run_alive r = true).
Lemma calm_on_run b u g w : fades g -> good w -> calm b w (on_run u g w).
Proof using FD.
  intros F G. apply calm_map; [exact G|reflexivity|]. intros t _ _. split; [now apply tame_same|].
  intros r' H. cbn in H. unfold on_stack in H. apply in_map_iff in H as (r & <- & H). exists r. split; [exact H|].
  destruct (Nat.eqb _ _); [apply F|auto].
Qed.
Lemma fades_over e : fades (with_phase (Over e)).
Proof using Type. intros r. split; [reflexivity|discriminate]. Qed.
Lemma fades_exc b : fades (with_exc b).
Proof using Type. intros r. split; auto. Qed.
Lemma fades_stop b : fades (with_stop b).
Proof using Type. intros r. split; auto. Qed.
Lemma fades_begin : fades begin_run.
Proof using Type. intros r. unfold begin_run, is_pending, run_alive. destruct (rn_phase r) eqn:E; cbn; rewrite ?E; auto. Qed.

(** * Statuses *)
Lemma in_order_more l rs c : own_in_order me l -> (forall x, In x l -> r_task x = me -> r_created x <= c) ->
  (forall x, In x rs -> r_task x = me -> r_created x = c) -> own_in_order me (l ++ rs).
Proof using Type.
  intros O B N l1 a l2 b l3 E Ra Rb. symmetry in E. change (l1 ++ a :: l2 ++ b :: l3) with (l1 ++ (a :: l2) ++ b :: l3) in E.
  rewrite app_assoc in E. apply OnceProofs.app_eq_split in E as [(x & E1 & E2)|(x & E1 & E2)].
  - destruct x as [|y x].
    + rewrite app_nil_r in E1. cbn in E2. subst rs. rewrite (N b (or_introl eq_refl) Rb). apply B; [|exact Ra].
      rewrite E1. apply in_or_app. right. now left.
    + injection E2 as <- E2. apply (O l1 a l2 b x); [|exact Ra|exact Rb]. rewrite E1. now rewrite <- app_assoc.
  - assert (Hb : r_created b = c) by (apply N; [rewrite E2; apply in_or_app; right; now left|exact Rb]). rewrite Hb.
    assert (Ha : In a (l ++ x)) by (rewrite <- E1; apply in_or_app; right; now left). apply in_app_or in Ha as [Ha|Ha]; [now apply B|].
    rewrite (N a); [lia| |exact Ra]. rewrite E2. apply in_or_app. now left.
Qed.
Lemma last_noted l clock : own_in_order me l -> (forall r, In r l -> r_task r = me -> r_created r <= clock) ->
  (forall x, In x l -> r_task x = me -> exists c, last_from_log l me (r_action x) = Some c /\ r_created x <= c <= clock) /\
  (forall a c, last_from_log l me a = Some c -> c <= clock).
Proof using Type.
  induction l as [|y l IH] using rev_ind; intros O B; [split; [intros x []|discriminate]|].
  assert (HL : forall a, last_from_log (l ++ [y]) me a = if (r_task y =? me) && action_in [a] y then Some (r_created y) else last_from_log l me a).
  { intros a. unfold last_from_log, get_latest, filter_by, last_of. rewrite filter_app. cbn [filter].
    destruct ((r_task y =? me) && action_in [a] y); [now rewrite rev_app_distr|now rewrite app_nil_r]. }
  assert (O' : own_in_order me l).
  { intros l1 a l2 b l3 El Ra Rb. apply (O l1 a l2 b (l3 ++ [y])); [|exact Ra|exact Rb]. rewrite El. rewrite <- app_assoc. cbn. now rewrite <- app_assoc. }
  destruct (IH O') as [IH1 IH2]; [intros r H R; apply B; [apply in_or_app; now left|exact R]|].
  assert (By : r_task y = me -> r_created y <= clock) by (apply B; apply in_or_app; right; now left). split.
  - intros x Hx Rx. rewrite HL. destruct ((r_task y =? me) && action_in [r_action x] y) eqn:E.
    + exists (r_created y). assert (Ey : r_task y = me) by lia. split; [reflexivity|]. split; [|now apply By].
      apply in_app_or in Hx as [Hx|[-> |[]]]; [|lia]. apply in_split in Hx as (l1 & l2 & ->).
      apply (O l1 x l2 y []); [now rewrite <- app_assoc|exact Rx|exact Ey].
    + apply in_app_or in Hx as [Hx|[<- |[]]]; [now apply IH1|]. unfold action_in in E. cbn in E. rewrite Rx in E. destruct (r_action y); cbn in E; lia.
  - intros a c. rewrite HL. destruct ((r_task y =? me) && action_in [a] y) eqn:E; [|apply IH2]. intros H. injection H as <-. apply By. lia.
Qed.
Lemma good_write n t st' rs w : good w -> find_task n w = Some t -> (forall x, In x rs -> r_task x = n) ->
  (n = me -> (forall x, In x rs -> r_created x = w_clock w) /\ noted st' (w_log w ++ rs) (w_clock w) /\ cached st' (w_clock w)) ->
  good (on_task n (with_state st') (set_log (w_log w ++ rs) (bump w))).
Proof using FD.
  intros G F N S. pose proof G as [X1 X2 X3 X4 X5 X6 X7 X8]. constructor; cbn; auto.
  - intros t' H K x Hx Ex. apply in_map_iff in H as (u & <- & H). destruct (Z.eqb_spec (t_name u) n) as [E|E].
    + change (t_name u = me) in K. destruct (S ltac:(congruence)) as (_ & A & _). exact (A x Hx Ex).
    + apply in_app_or in Hx as [Hx|Hx]; [exact (X1 u H K x Hx Ex)|]. rewrite (N x Hx) in Ex. congruence.
  - intros t' H K a c Ec. apply in_map_iff in H as (u & <- & H). destruct (Z.eqb_spec (t_name u) n) as [E|E].
    + change (t_name u = me) in K. destruct (S ltac:(congruence)) as (_ & _ & A). exact (A a c Ec).
    + exact (X2 u H K a c Ec).
  - apply (in_order_more _ _ (w_clock w)); [exact X3|intros x; now apply past|]. intros x Hx Ex. apply S; [|exact Hx]. now rewrite <- (N x Hx).
  - unfold OnceProofs.names. cbn. rewrite map_map. rewrite <- X4. apply map_ext. intros u. destruct (t_name u =? n); reflexivity.
  - intros t' r H K Hr. apply in_map_iff in H as (u & <- & H). destruct (t_name u =? n); exact (X7 u r H K Hr).
  - intros t' H K. apply in_map_iff in H as (u & <- & H). destruct (t_name u =? n); exact (X8 u H K).
Qed.
Lemma live_write n st' l w : live (on_task n (with_state st') (set_log l (bump w))) -> live w.
Proof using Type.
  intros (t' & r & H & N & Hr & A). cbn in H. apply in_map_iff in H as (u & <- & H). exists u, r. destruct (t_name u =? n); auto.
Qed.
(** What the status functions write when it is no run of [me] *)
Definition mild (n : Z) (f : tstate -> log -> Z -> bool -> tstate * log * result unit) : Prop :=
  forall st l c ok st' l' r, f st l c ok = (st', l', r) -> exists rs, l' = l ++ rs /\ (forall x, In x rs -> r_task x = n) /\
    (n = me -> (forall x, In x rs -> r_action x <> ARun /\ r_created x = c) /\
      (noted st l c -> cached st c -> own_in_order me l -> noted st' l' c /\ cached st' c)).
Definition walk (b : bool) {A} (m : M A) : Prop := forall w, good w -> calm b w (fst (m w)).
Lemma calm_bump b w : good w -> calm b w (bump w).
Proof using Type. intros G. frame. Qed.
Lemma walk_writing b n f : mild n f -> (n = me -> b = true) -> walk b (writing n f).
Proof using FD.
  intros H HB w G. destruct (find_task n w) as [t|] eqn:F; [|rewrite OnceProofs.writing_none by exact F; now apply calm_bump].
  destruct (f (t_state t) (w_log w) (w_clock w) (o_write orc (w_tick w))) as [[st l] r] eqn:E. rewrite (OnceProofs.writing_eq orc n f w t st l r F E).
  destruct (H _ _ _ _ _ _ _ E) as (rs & -> & N & S). cbn [fst]. pose proof (OnceProofs.find_in _ _ _ F) as [Fi Fn].
  assert (S' : n = me -> noted st (w_log w ++ rs) (w_clock w) /\ cached st (w_clock w)).
  { intros En. apply S; [exact En|apply (g_noted w G)|apply (g_cached w G)|apply (g_order w G)]; congruence. }
  constructor; try reflexivity.
  - exists rs. split; [reflexivity|]. intros x Hx Ex. rewrite (N x Hx) in Ex. split; [apply (S Ex); exact Hx|left; now apply HB].
  - cbn. lia.
  - apply live_write.
  - apply good_write with t; auto. intros En. destruct (S' En). split; [intros x Hx; now apply (S En)|now split].
Qed.
Lemma noted_set st l a c i : noted st l c -> cached st c ->
  noted (TState (set_last (ts_last st) a (Some c)) i) l c /\ cached (TState (set_last (ts_last st) a (Some c)) i) c.
Proof using Type.
  intros N C. split.
  - intros x Hx Ex. destruct (N x Hx Ex) as (d & Ed & B). cbn. unfold set_last. destruct (action_eqb a (r_action x)).
    + exists c. split; [reflexivity|lia].
    + exists d. now split.
  - intros b d. cbn. unfold set_last. destruct (action_eqb a b); [intros E; injection E as <-; lia|apply C].
Qed.
Lemma action_eqb_same a : action_eqb a a = true.
Proof using Type. now destruct a. Qed.
Lemma noted_new st l a c i rid n : noted st l c -> cached st c ->
  noted (TState (set_last (ts_last st) a (Some c)) i) (l ++ [Rec n a c rid]) c.
Proof using Type.
  intros N C x Hx Ex. apply in_app_or in Hx as [Hx|[<- |[]]]; [exact (proj1 (noted_set st l a c i N C) x Hx Ex)|].
  exists c. cbn. unfold set_last. rewrite action_eqb_same. split; [reflexivity|lia].
Qed.
Lemma mild_status n a rid : (n = me -> a <> ARun) -> mild n (fun st l t ok => set_status st l n a t t rid ok).
Proof using Type.
  intros H st l t ok st' l' r E. unfold set_status in E. destruct ok; [|destruct (action_eqb a ARun) eqn:Ea]; inversion E; subst; clear E.
  - eexists. split; [reflexivity|]. split; [intros x [<- |[]]; reflexivity|]. intros En. split; [intros x [<- |[]]; cbn; auto|].
    intros N C O. split; [now apply noted_new|]. exact (proj2 (noted_set st l a t (Some a) N C)).
  - exists []. split; [now rewrite app_nil_r|]. split; [intros x []|]. intros En. split; [intros x []|]. intros N C O. now apply noted_set.
  - exists []. split; [now rewrite app_nil_r|]. split; [intros x []|]. intros En. split; [intros x []|]. intros N C O. now apply noted_set.
Qed.
Lemma mild_other n a c rid : n <> me -> mild n (fun st l t ok => set_status st l n a c c rid ok).
Proof using Type.
  intros H st l t ok st' l' r E. unfold set_status in E. destruct ok; [|destruct (action_eqb a ARun) eqn:Ea]; inversion E; subst; clear E.
  - eexists. split; [reflexivity|]. split; [intros x [<- |[]]; reflexivity|]. intros En. now destruct H.
  - exists []. split; [now rewrite app_nil_r|]. split; [intros x []|]. intros En. now destruct H.
  - exists []. split; [now rewrite app_nil_r|]. split; [intros x []|]. intros En. now destruct H.
Qed.
Lemma mild_cached n : mild n (fun st l t ok => set_cached st l n t t ok).
Proof using Type.
  intros st l t ok st' l' r E. unfold set_cached in E.
  assert (K : n = me -> noted st l t -> own_in_order me l -> forall i, noted (TState (fun a => last_from_log l n a) i) l t /\ cached (TState (fun a => last_from_log l n a) i) t).
  { intros -> N O i. destruct (last_noted l t O) as [A B]; [|now split]. intros x Hx Ex. destruct (N x Hx Ex) as (c & _ & B). lia. }
  destruct (max_action (fun a => last_from_log l n a) cached_order None) as [[[] m]|] eqn:Em; try (inversion E; subst; clear E;
    exists []; split; [now rewrite app_nil_r|]; split; [intros x []|]; intros En; split; [intros x []|]; intros N C O; apply (K En N O)).
  destruct (mild_status n ACrash None ltac:(discriminate) _ _ _ _ _ _ _ E) as (rs & A & B & C). exists rs. split; [exact A|]. split; [exact B|].
  intros En. destruct (C En) as [C1 C2]. split; [exact C1|]. intros N D O. apply C2; [apply (K En N O)|apply (K En N O)|exact O].
Qed.

(** * Functions made of such steps *)
Lemma walk_ret b {A} (a : A) : walk b (ret a).
Proof using Type. intros w. apply calm_refl. Qed.
Lemma walk_raise b {A} e : walk b (@raise A e).
Proof using Type. intros w. apply calm_refl. Qed.
Lemma walk_get b {A} (f : world -> A) : walk b (get f).
Proof using Type. intros w. apply calm_refl. Qed.
Lemma walk_get_task b n : walk b (get_task n).
Proof using Type. intros w G. unfold get_task. destruct (find_task n w); now apply calm_refl. Qed.
Lemma walk_raise_if b e : walk b (raise_if e).
Proof using Type. destruct e; [apply walk_raise|apply walk_ret]. Qed.
Lemma walk_ask b {A} (f : nat -> A) : walk b (ask f).
Proof using Type. intros w G. now apply (calm_bump b w). Qed.
Lemma walk_bind b {A B} (m : M A) (f : A -> M B) : walk b m -> (forall a, walk b (f a)) -> walk b (mbind m f).
Proof using Type.
  intros Hm Hf w G. specialize (Hm w G). unfold mbind. destruct (m w) as [w' [a|e|]]; cbn [fst] in *; auto.
  apply (calm_trans _ _ _ _ Hm). apply Hf. apply Hm.
Qed.
Lemma walk_attempt b {A} (m : M A) : walk b m -> walk b (attempt m).
Proof using Type. intros Hm w G. specialize (Hm w G). unfold attempt. destruct (m w) as [w' [a|e|]]; exact Hm. Qed.
Lemma walk_finally b {A} (m : M A) f : walk b m -> walk b f -> walk b (finally m f).
Proof using Type.
  intros Hm Hf. apply walk_bind; [apply walk_attempt, Hm|]. intros r. apply walk_bind; [exact Hf|].
  intros _. destruct r; [apply walk_ret|apply walk_raise].
Qed.
Lemma walk_modify b f : (forall w, good w -> calm b w (f w)) -> walk b (modify f).
Proof using Type. intros H w G. now apply H. Qed.
Lemma walk_with b {A B} (f : world -> A) (k : A -> M B) :
  (forall w, good w -> calm b w (fst (k (f w) w))) -> walk b (mbind (get f) k).
Proof using Type. intros H w G. unfold mbind, get. now apply H. Qed.
Ltac wk :=
  repeat lazymatch goal with
    | |- walk _ (ret _) => apply walk_ret
    | |- walk _ (raise _) => apply walk_raise
    | |- walk _ (get _) => apply walk_get
    | |- walk _ (get_task _) => apply walk_get_task
    | |- walk _ (raise_if _) => apply walk_raise_if
    | |- walk _ (ask _) => apply walk_ask
    | |- walk _ (mbind _ _) => apply walk_bind; [|intro]
    | |- walk _ (attempt _) => apply walk_attempt
    | |- walk _ (finally _ _) => apply walk_finally
    | |- walk _ (modify _) => apply walk_modify; intros ? ?
    end.
Lemma walk_set_status b n a rid : (n = me -> b = true /\ a <> ARun) -> walk b (set_status_m orc n a rid).
Proof using FD.
  intros H. apply (walk_writing b n (fun st l t ok => set_status st l n a t t rid ok)); [apply mild_status|]; intros E; now apply H.
Qed.
Lemma walk_log_record b q : r_task (q_rec q) <> me -> walk b (log_record_m orc q).
Proof using FD.
  intros H. apply (walk_writing b (r_task (q_rec q))
    (fun st l t ok => log_record st l (r_task (q_rec q)) (r_action (q_rec q)) (r_created (q_rec q)) (r_run_id (q_rec q)) ok)); [|now intros E].
  now apply mild_other.
Qed.
Lemma walk_set_cached n : walk true (set_cached_m orc n).
Proof using FD. apply (walk_writing true n (fun st l t ok => set_cached st l n t t ok)); [apply mild_cached|auto]. Qed.
Lemma walk_child b n a rid v : n <> me -> walk b (set_status_child n a rid v).
Proof using Type.
  intros H. apply walk_with. intros w G. apply calm_frame; auto. cbn. intros q Hq. apply in_app_or in Hq as [Hq|[<- |[]]]; auto.
Qed.
Lemma calm_term b n c w : good w -> calm b w (on_task n (with_term c) w).
Proof using FD. intros G. apply calm_on_task; [exact G|reflexivity|]. intros t _ _ _. split; [now apply tame_same|apply fading_same]. Qed.
Lemma walk_log_action b ch n a rid v : (n = me -> b = true /\ a <> ARun /\ ch = false) -> walk b (log_action orc ch n a rid v).
Proof using FD.
  intros H. unfold log_action. wk.
  - destruct ch; [apply walk_child; intros E; now apply H in E|apply walk_set_status; intros E; apply H in E; tauto].
  - destruct (_ && _); wk. now apply calm_term.
Qed.
Lemma walk_return b n v : walk b (handle_return n v).
Proof using Type. unfold handle_return. wk. frame. Qed.
Lemma walk_run_body b ch x n rid s : (n = me -> b = true /\ ch = false) -> walk b (run_body orc ch x n rid s).
Proof using FD.
  intros H. assert (LG : forall a i v, a <> ARun -> walk b (log_action orc ch n a i v)).
  { intros a i v N. apply walk_log_action. intros E. apply H in E. tauto. }
  unfold run_body. apply walk_finally; [|wk].
  destruct (s_exec s) as [e|].
  - assert (F : walk b (match s_failure s with
             | Some CancelledError => raise CancelledError
             | _ => log_action orc ch n AFail rid 0 ;; match x with None => raise e | Some _ => ret tt end
             end)).
    { destruct (s_failure s) as [[]|]; wk; try (apply LG; discriminate); destruct x; wk. }
    destruct e; try exact F; wk; apply LG; discriminate.
  - wk; [destruct ch; wk; apply walk_return|]. apply LG; discriminate.
Qed.
Lemma walk_run_as_async b ch x n rid s : (n = me -> b = true /\ ch = false) -> walk b (run_as_async orc ch x n rid s).
Proof using FD. intros H. unfold run_as_async, run_setup. wk. now apply walk_run_body. Qed.
Lemma walk_thread_code b n u rid s : (n = me -> b = true) -> walk b (thread_code orc n u rid s).
Proof using FD.
  intros H. unfold thread_code. wk; [apply walk_run_as_async; intros E; split; auto|]. destruct a as [[]|e]; wk. destruct (is_exception e); wk.
  - apply walk_log_action. intros E. split; [auto|]. split; [discriminate|reflexivity].
  - destruct a as [[]|[]]; wk. apply calm_on_run; [apply fades_exc|assumption].
Qed.
Lemma walk_process_code b n rid s : n <> me -> walk b (process_code orc n rid s).
Proof using FD.
  intros H. unfold process_code. wk; [now apply walk_run_as_async|]. destruct a as [[]|e]; wk. destruct (is_exception e); wk.
  now apply walk_log_action.
Qed.
Lemma walk_end_coroutine b u m : walk b m -> walk b (end_coroutine u m).
Proof using FD. intros H. unfold end_coroutine. wk; [exact H|]. apply calm_on_run; [apply fades_over|assumption]. Qed.
Lemma walk_enter b u s : walk b (enter u s).
Proof using FD. unfold enter, run_setup. wk. destruct a; wk; apply calm_on_run; auto; [apply fades_begin|apply fades_over]. Qed.
Lemma found_run u w t r : find_run u w = Some (t, r) -> In t (w_tasks w) /\ In r (t_stack t).
Proof using Type.
  unfold find_run, task_of_run. destruct (find _ (w_tasks w)) as [t0|] eqn:E; [|discriminate]. cbn.
  destruct (find _ (t_stack t0)) as [r0|] eqn:E0; [|discriminate]. intros H. injection H as <- <-. apply find_some in E as [E _]. apply find_some in E0 as [E0 _]. now split.
Qed.
Lemma busy_live w t r : In t (w_tasks w) -> In r (t_stack t) -> is_busy r = true -> t_name t = me -> live w.
Proof using Type. intros A B C D. exists t, r. repeat split; auto. unfold is_busy in C. unfold run_alive. now destruct (rn_phase r). Qed.

(** * The outside *)
Lemma walk_move m : (forall t, m <> MClock t) -> (forall p, m <> MRequest me p) -> walk false (do_move orc m).
Proof using FD.
  intros HC HR. destruct m; cbn [do_move].
  - now destruct (HC t).
  - wk; [frame|]. apply calm_on_task; [assumption|reflexivity|]. intros t _ _ E. destruct (HR p). now rewrite E.
  - wk. now apply calm_term.
  - wk. apply calm_on_task; [assumption|reflexivity|]. intros t _ _ _. split; [now apply tame_same|apply fading_same].
  - wk. frame.
  - wk. frame.
  - wk. frame.
  - wk. destruct (find_run uid a) as [[t r]|]; wk. destruct (_ && _); wk. apply walk_enter.
  - apply walk_with. intros w G. destruct (find_run uid w) as [[t r]|] eqn:F; [|now apply calm_refl].
    destruct (exec_eqb (rn_kind r) XAsync && is_busy r) eqn:E; [|now apply calm_refl]. destruct (found_run _ _ _ _ F) as [F1 F2].
    destruct (Z.eq_dec (t_name t) me) as [Em|Em].
    + apply calm_during; [now apply (busy_live w t r F1 F2); [lia|]|]. apply walk_end_coroutine; [|exact G]. now apply walk_run_body.
    + apply walk_end_coroutine; [|exact G]. now apply walk_run_body.
  - apply walk_with. intros w G. destruct (w_orphans w) as [|[n r] o] eqn:E; [now apply calm_refl|].
    assert (Hn : n <> me) by (apply (g_orphans w G n r); rewrite E; now left).
    unfold mbind at 1, modify. apply (calm_trans _ _ (set_orphans o w)).
    + apply calm_frame; auto. intros n' r' H. left. rewrite E. now right.
    + apply (walk_bind false (attempt (run_as_async orc false (Some XMain) n (rn_id r) s)) (fun _ => ret tt)); [wk; now apply walk_run_as_async|intros u; wk|].
      destruct G as [X1 X2 X3 X4 X5 X6 X7 X8]. constructor; auto. intros n' r' H. apply (X6 n' r'). rewrite E. now right.
  - apply walk_with. intros w G. destruct (find_run uid w) as [[t r]|] eqn:F; [|now apply calm_refl].
    destruct (exec_eqb (rn_kind r) XThread && is_busy r) eqn:E; [|now apply calm_refl]. destruct (found_run _ _ _ _ F) as [F1 F2].
    destruct (Z.eq_dec (t_name t) me) as [Em|Em].
    + apply calm_during; [now apply (busy_live w t r F1 F2); [lia|]|]. apply walk_end_coroutine; [|exact G]. now apply walk_thread_code.
    + apply walk_end_coroutine; [|exact G]. now apply walk_thread_code.
  - apply walk_with. intros w G. destruct (find_run uid w) as [[t r]|] eqn:F; [|now apply calm_refl].
    destruct (exec_eqb (rn_kind r) XProcess && is_busy r) eqn:E; [|now apply calm_refl]. destruct (found_run _ _ _ _ F) as [F1 F2].
    apply walk_end_coroutine; [|exact G]. apply walk_process_code. intros Em. apply (g_kinds w G t r F1 Em F2). destruct (rn_kind r); try discriminate E. reflexivity.
  - wk. destruct (find_run uid a) as [[t r]|]; wk. destruct (_ && _); wk. apply calm_on_run; [apply fades_over|assumption].
Qed.

(** [Idle]: no run of [me] goes on; [Decided]: moreover its condition held *)
Inductive mode : Type := Free | Idle | Decided.
Definition Inv (m : mode) (K : Z) (w : world) : Prop :=
  good w /\ W w /\ w_clock w <= K /\ K <= time (w_tick w) /\ (m <> Free -> ~ live w) /\
  (m = Decided -> exists d, license (w_log w) d /\ d <= w_clock w).
Definition P (m : mode) (w : world) : Prop := exists K, Inv m K w.
Definition free (m : mode) : bool := match m with Free => true | _ => false end.
Context (TG : time_goes_on orc time).
Lemma W_more w w' rs : W w -> w_log w' = w_log w ++ rs -> (forall x, In x rs -> ~ run_record me x) -> W w'.
Proof using Type.
  intros (new & E & H) L N. exists (new ++ rs). split; [rewrite L, E; symmetry; apply app_assoc|].
  intros pre r post Ep R. symmetry in Ep. apply OnceProofs.app_eq_split in Ep as [(x & E1 & E2)|(x & E1 & E2)].
  - destruct x as [|y x].
    + rewrite app_nil_r in E1. apply (H pre r []); [|exact R]. subst new. cbn in E2. subst rs.
      destruct (N r); [now left|exact R].
    + injection E2 as <- E2. apply (H pre r x E1 R).
  - destruct (N r); [|exact R]. rewrite E2. apply in_or_app. right. now left.
Qed.
Lemma license_more l rs d : license l d -> (forall x, In x rs -> r_task x <> me) -> license (l ++ rs) d.
Proof using Type.
  intros (st & seen & un & -> & U & N) H. exists st, seen, (un ++ rs). split; [symmetry; apply app_assoc|]. split; [|exact N].
  intros x Hx. apply in_app_or in Hx as [Hx|Hx]; auto.
Qed.
Lemma calm_inv m K w w' : calm (free m) w w' -> Inv m K w -> Inv m K w'.
Proof using TG.
  intros [(rs & L & N) C T V G'] (G & HW & B1 & B2 & I & D). split; [exact G'|]. split.
  { apply (W_more w w' rs HW L). intros x Hx [E1 E2]. now destruct (N x Hx E1). }
  rewrite C. split; [exact B1|]. split; [pose proof (proj1 TG _ _ T); lia|]. split; [intros E A; exact (I E (V A))|].
  intros E. destruct (D E) as (d & Ld & Bd). exists d. split; [|exact Bd]. rewrite L. apply license_more; [exact Ld|].
  intros x Hx Ex. subst m. destruct (N x Hx Ex) as [_ [A|A]]; [discriminate A|]. apply (I ltac:(discriminate) A).
Qed.
Lemma calm_P m w w' : calm (free m) w w' -> P m w -> P m w'.
Proof using TG. intros S (K & H). exists K. exact (calm_inv _ _ _ _ S H). Qed.
Lemma P_good m w : P m w -> good w.
Proof using Type. now intros (K & G & _). Qed.
Lemma P_W m w : P m w -> W w.
Proof using Type. now intros (K & _ & H & _). Qed.
Lemma weaken m w : P m w -> P Free w.
Proof using Type. intros (K & G & HW & B1 & B2 & _). exists K. split; [exact G|]. split; [exact HW|]. split; [exact B1|]. split; [exact B2|]. split; [now intros []|discriminate]. Qed.

Definition keeps (Q : world -> Prop) {A} (m : M A) : Prop := forall w, Q w ->
  match m w with (w', OutOfFuel) => W w' | (w', _) => Q w' end.
Lemma walk_keeps m {A} (x : M A) : walk (free m) x -> keeps (P m) x.
Proof using TG.
  intros H w Hw. specialize (H w (P_good _ _ Hw)). destruct (x w) as [w' [a|e|]]; cbn [fst] in H; pose proof (calm_P _ _ _ H Hw) as H'; auto.
  exact (P_W _ _ H').
Qed.
Lemma walk_inv m K {A} (x : M A) : walk (free m) x -> keeps (Inv m K) x.
Proof using TG.
  intros H w Hw. specialize (H w (proj1 Hw)). destruct (x w) as [w' [a|e|]]; cbn [fst] in H; pose proof (calm_inv _ _ _ _ H Hw) as H'; auto.
  exact (proj1 (proj2 H')).
Qed.
Lemma keeps_bind Q {A B} (m : M A) (f : A -> M B) : keeps Q m -> (forall a, keeps Q (f a)) -> keeps Q (mbind m f).
Proof using Type. intros Hm Hf w Hw. specialize (Hm w Hw). unfold mbind. destruct (m w) as [w' [a|e|]]; auto. now apply Hf. Qed.
Lemma keeps_attempt Q {A} (m : M A) : keeps Q m -> keeps Q (attempt m).
Proof using Type. intros Hm w Hw. specialize (Hm w Hw). unfold attempt. destruct (m w) as [w' [a|e|]]; exact Hm. Qed.
Lemma keeps_finally Q {A} (m : M A) f : keeps Q m -> keeps Q f -> keeps Q (finally m f).
Proof using Type.
  intros Hm Hf. apply keeps_bind; [apply keeps_attempt, Hm|]. intros r. apply keeps_bind; [exact Hf|].
  intros _ w Hw. destruct r; exact Hw.
Qed.
Lemma keeps_with (Q : world -> Prop) {A B} (f : world -> A) (k : A -> M B) :
  (forall w, Q w -> match k (f w) w with (w', OutOfFuel) => W w' | (w', _) => Q w' end) -> keeps Q (mbind (get f) k).
Proof using Type. intros H w Hw. unfold mbind, get. now apply H. Qed.

Context (NM : forall k p, ~ In (MRequest me p) (o_env orc k)).
Lemma keeps_move m K x : (forall t, x = MClock t -> t = K) -> (forall p, x <> MRequest me p) -> keeps (Inv m K) (do_move orc x).
Proof using TG FD.
  intros HC HR. assert (D : (exists t, x = MClock t) \/ forall t, x <> MClock t) by (destruct x; eauto; right; intros; discriminate).
  destruct D as [(t & ->)|D].
  - cbn [do_move]. rewrite (HC t eq_refl). intros w (G & HW & B1 & B2 & I & L). cbn. split; [|split; [exact HW|split; [cbn; lia|split; [exact B2|split; [exact I|]]]]].
    + destruct G as [X1 X2 X3 X4 X5 X6 X7 X8]. constructor; auto.
      * intros t0 Ht Et y Hy Ey. destruct (X1 t0 Ht Et y Hy Ey) as (c & Ec & Bc). exists c. split; [exact Ec|]. cbn. lia.
      * intros t0 Ht Et a c Ec. pose proof (X2 t0 Ht Et a c Ec). cbn. lia.
    + intros E. destruct (L E) as (d & Ld & Bd). exists d. split; [exact Ld|]. cbn. lia.
  - apply walk_inv. intros w G. pose proof (walk_move x D HR w G) as H. now apply calm_mono.
Qed.
Lemma keeps_moves m K ms : (forall x, In x ms -> (forall t, x = MClock t -> t = K) /\ (forall p, x <> MRequest me p)) ->
  keeps (Inv m K) (do_moves orc ms).
Proof using TG FD.
  induction ms as [|x ms IH]; intros H; cbn [do_moves]; [apply walk_inv; wk|].
  apply keeps_bind; [apply keeps_attempt|intros _; apply IH; intros m' Hm'; apply H; now right].
  destruct (H x (or_introl eq_refl)) as [H1 H2]. now apply keeps_move.
Qed.
Lemma keeps_env m : keeps (P m) (env orc).
Proof using TG NM FD.
  intros w (K & H). unfold env, mbind, ask. fold (bump w).
  assert (HI : Inv m (time (w_tick w)) (bump w)).
  { destruct (calm_inv _ _ _ _ (calm_bump (free m) w (proj1 H)) H) as (G & HW & B1 & B2 & R). split; [exact G|]. split; [exact HW|].
    destruct H as (_ & _ & _ & B3 & _). split; [lia|]. split; [|exact R]. apply (proj1 TG). cbn. lia. }
  pose proof (keeps_moves m (time (w_tick w)) (o_env orc (w_tick w))) as KM.
  assert (HM : forall x, In x (o_env orc (w_tick w)) -> (forall t, x = MClock t -> t = time (w_tick w)) /\ (forall p, x <> MRequest me p)).
  { intros x Hx. split; [intros t ->; exact (proj2 TG _ _ Hx)|]. intros p ->. exact (NM _ _ Hx). }
  specialize (KM HM (bump w) HI). destruct (do_moves orc _ (bump w)) as [w' [a|e|]]; [exists (time (w_tick w)); exact KM|exists (time (w_tick w)); exact KM|exact KM].
Qed.

(** * Triples *)
Definition tri (Q : world -> Prop) {A} (m : M A) (R : A -> world -> Prop) (E : exn -> world -> Prop) : Prop :=
  forall w, Q w -> match m w with (w', Returns a) => R a w' | (w', Raises e) => E e w' | (w', OutOfFuel) => W w' end.
Lemma tri_bind Q {A B} (m : M A) (f : A -> M B) R E R' : tri Q m R E -> (forall a, tri (R a) (f a) R' E) -> tri Q (mbind m f) R' E.
Proof using Type. intros Hm Hf w Hw. specialize (Hm w Hw). unfold mbind. destruct (m w) as [w' [a|e|]]; auto. now apply Hf. Qed.
Lemma tri_attempt Q {A} (m : M A) R E E' : tri Q m R E ->
  tri Q (attempt m) (fun r w => match r with Ok a => R a w | Err e => E e w end) E'.
Proof using Type. intros Hm w Hw. specialize (Hm w Hw). unfold attempt. destruct (m w) as [w' [a|e|]]; exact Hm. Qed.
Lemma tri_keeps Q {A} (m : M A) : keeps Q m -> tri Q m (fun _ => Q) (fun _ => Q).
Proof using Type. intros H w Hw. specialize (H w Hw). now destruct (m w) as [w' [a|e|]]. Qed.
Lemma keeps_tri Q {A} (m : M A) : tri Q m (fun _ => Q) (fun _ => Q) -> keeps Q m.
Proof using Type. intros H w Hw. specialize (H w Hw). now destruct (m w) as [w' [a|e|]]. Qed.
Lemma tri_post Q {A} (m : M A) (R R' : A -> world -> Prop) (E E' : exn -> world -> Prop) :
  tri Q m R E -> (forall a w, R a w -> R' a w) -> (forall e w, E e w -> E' e w) -> tri Q m R' E'.
Proof using Type. intros H HR HE w Hw. specialize (H w Hw). destruct (m w) as [w' [a|e|]]; auto. Qed.
Lemma tri_pre (Q Q' : world -> Prop) {A} (m : M A) R E : (forall w, Q' w -> Q w) -> tri Q m R E -> tri Q' m R E.
Proof using Type. intros HQ H w Hw. apply H. auto. Qed.
Lemma tri_env m E : tri (P m) (env orc) (fun _ => P m) E.
Proof using TG NM FD.
  intros w Hw. pose proof (keeps_env m w Hw) as H. destruct (env orc w) as [w' [a|e|]] eqn:X; try exact H.
  destruct (OnceProofs.env_returns _ _ _ _ X).
Qed.
Ltac kp :=
  repeat lazymatch goal with
    | |- keeps _ (mbind _ _) => apply keeps_bind; [|intro]
    | |- keeps _ (attempt _) => apply keeps_attempt
    | |- keeps _ (finally _ _) => apply keeps_finally
    | |- keeps _ (env orc) => apply keeps_env
    | |- keeps _ (fun w => (w, OutOfFuel)) => exact (P_W Free)
    | |- keeps _ (ret _) => apply walk_keeps, walk_ret
    | |- keeps _ (raise _) => apply walk_keeps, walk_raise
    | |- keeps _ (get _) => apply walk_keeps, walk_get
    | |- keeps _ (get_task _) => apply walk_keeps, walk_get_task
    | |- keeps _ (raise_if _) => apply walk_keeps, walk_raise_if
    | |- keeps _ (ask _) => apply walk_keeps, walk_ask
    | |- keeps _ (modify _) => apply walk_keeps, walk_modify; intros ? ?
    end.

(** * Writing a run of [me] *)
Let P0 := P Free.
(** A run was decided and its object exists *)
Definition Started (w : world) : Prop := P0 w /\ exists d, license (w_log w) d /\ d <= w_clock w.
Lemma run_logged rid v : tri Started (log_action orc false me ARun rid v) (fun _ => P0) (fun e w => e = TaskLoggingError /\ P0 w).
Proof using TG FD.
  intros w [(K & G & HW & B1 & B2 & _ & _) (d & Ld & Bd)]. destruct (OnceProofs.found me w) as (t & F); [rewrite (g_all w G); exact FD|].
  unfold log_action. cbn [action_eqb andb]. unfold mbind. unfold set_status_m.
  destruct (set_status (t_state t) (w_log w) me ARun (w_clock w) (w_clock w) rid (o_write orc (w_tick w))) as [[st l] r] eqn:E.
  match goal with |- context [match ?m with _ => _ end] => match m with context [ask (o_write orc)] => change m with
    (writing me (fun st l t ok => set_status st l me ARun t t rid ok) w) end end.
  rewrite (OnceProofs.writing_eq orc me (fun st l t ok => set_status st l me ARun t t rid ok) w t st l r F E).
  destruct (OnceProofs.find_in _ _ _ F) as [Fi Fn]. pose proof (g_noted w G t Fi Fn) as N. pose proof (g_cached w G t Fi Fn) as C.
  assert (X : exists rs, l = w_log w ++ rs /\ (forall x, In x rs -> r_task x = me) /\ (forall x, In x rs -> r_created x = w_clock w) /\
    noted st (w_log w ++ rs) (w_clock w) /\ cached st (w_clock w) /\ (rs = [] \/ exists x, rs = [x]) /\ (r = Ok tt \/ r = Err TaskLoggingError)).
  { unfold set_status in E. destruct (o_write orc (w_tick w)); cbn [action_eqb] in E; inversion E; subst; clear E.
    - eexists. split; [reflexivity|]. split; [now intros x [<- |[]]|]. split; [now intros x [<- |[]]|]. split; [now apply noted_new|].
      split; [exact (proj2 (noted_set _ (w_log w) ARun _ (Some ARun) N C))|]. split; [right; eexists; reflexivity|now left].
    - exists []. rewrite app_nil_r. split; [reflexivity|]. split; [intros x []|]. split; [intros x []|].
      destruct (noted_set _ _ ARun _ (Some ARun) N C) as [A B]. split; [exact A|]. split; [exact B|]. split; [now left|now right]. }
  destruct X as (rs & -> & X1 & X2 & X3 & X4 & X5 & X6).
  assert (H' : P0 (on_task me (with_state st) (set_log (w_log w ++ rs) (bump w)))).
  { exists K. split; [apply good_write with t; auto|]. split; [|split; [exact B1|split; [|split; [now intros []|discriminate]]]].
    - destruct X5 as [-> |(y & ->)]; [now apply (W_more w _ [])|]. destruct HW as (new & EN & HN).
      exists (new ++ [y]). cbn. split; [rewrite EN; symmetry; apply app_assoc|]. intros pre z post Ep R.
      destruct post as [|z' post].
      + apply app_inj_tail in Ep as [<- <-]. rewrite <- EN. exists d. split; [exact Ld|]. rewrite (X2 y); [lia|now left].
      + destruct (exists_last (l := z' :: post) ltac:(discriminate)) as (post' & z2 & Ez). rewrite Ez in Ep.
        change (pre ++ z :: post' ++ [z2]) with (pre ++ (z :: post') ++ [z2]) in Ep. rewrite app_assoc in Ep. apply app_inj_tail in Ep as [Ep _].
        exact (HN pre z post' Ep R).
    - pose proof (proj1 TG (w_tick w) (S (w_tick w)) ltac:(lia)). cbn. lia. }
  destruct X6 as [-> | ->]; [exact H'|]. now split.
Qed.
Lemma decided_started w : P Decided w -> Started w.
Proof using Type. intros H. split; [exact (weaken _ _ H)|]. destruct H as (K & _ & _ & _ & _ & _ & D). exact (D eq_refl). Qed.

(** * The queue: nothing of [me] comes through it *)
Lemma pop m w q rest : P m w -> w_queue w = q :: rest -> r_task (q_rec q) <> me /\ P m (set_queue rest w).
Proof using TG.
  intros H E. pose proof (P_good _ _ H) as G. split; [apply (g_queue w G); rewrite E; now left|].
  apply (calm_P m w); [|exact H]. apply calm_frame; auto. cbn. intros q' H'. left. rewrite E. now right.
Qed.
Lemma keeps_lock fuel n u err : n <> me -> keeps P0 (lock_to_run_log orc fuel n u err).
Proof using TG NM FD.
  intros HN. revert err. induction fuel as [|fuel IH]; intros err; cbn [lock_to_run_log]; [exact (P_W Free)|].
  apply keeps_bind; [apply keeps_env|intros _]. apply keeps_with. intros w Hw. destruct (w_queue w) as [|q rest] eqn:Eq.
  - revert w Hw Eq. enough (HK : keeps P0 (t <- get_task n ;; if is_alive t then lock_to_run_log orc fuel n u err
      else (modify (fun w => set_log (w_log w ++ [Rec n AFail (w_clock w) None]) w) ;; raise TaskSetupError))) by (intros w Hw _; exact (HK w Hw)).
    kp. destruct (is_alive a); [apply IH|]. kp. rename w into w1.
    match goal with H : good w1 |- _ => rename H into G end.
    constructor; try reflexivity; auto.
    + eexists. split; [reflexivity|]. intros x [<- |[]] E. now destruct HN.
    + destruct G as [X1 X2 X3 X4 X5 X6 X7 X8]. constructor; auto.
      * intros t Ht Et x Hx Ex. cbn in Hx. apply in_app_or in Hx as [Hx|[<- |[]]]; [exact (X1 t Ht Et x Hx Ex)|now destruct HN].
      * cbn. apply (in_order_more _ _ (w_clock w1)); [exact X3| |].
        -- intros x Hx Ex. destruct (named_in w1 X4) as (t & Ht & Et). destruct (X1 t Ht Et x Hx Ex) as (c & _ & B). lia.
        -- intros x [<- |[]] E. now destruct HN.
  - destruct (pop Free w q rest Hw Eq) as [NR H]. unfold mbind at 1, modify. revert H. generalize (set_queue rest w). clear w Hw Eq.
    change (keeps P0 (get_task (r_task (q_rec q)) ;; r <- attempt (log_record_m orc q) ;;
      let err := match r with Err e => Some e | Ok _ => err end in
      if action_eqb (r_action (q_rec q)) ARun then raise_if err else lock_to_run_log orc fuel n u err)).
    kp; [apply walk_keeps; now apply walk_log_record|]. cbv zeta. destruct (action_eqb _ _); [kp|apply IH].
Qed.

(** * Starting *)
Definition soft (e : exn) : bool :=
  match e with TaskLoggingError | SchedulerRestart | SchedulerExit | CancelledError => true | _ => false end.
Lemma calm_push b n r w : good w -> (n = me -> rn_kind r <> XProcess /\ run_alive r = false) ->
  calm b w (on_task n (fun t => with_stack (t_stack t ++ [r]) t) w).
Proof using FD.
  intros G H. destruct (Z.eq_dec n me) as [E|E].
  2: { apply calm_on_task; auto. intros t _ _ E'. now destruct E. }
  destruct (H E) as [H1 H2]. constructor; auto; try reflexivity.
  - exists []. split; [symmetry; apply app_nil_r|intros x []].
  - intros (t' & r' & Ht & N & Hr & A). cbn in Ht. apply in_map_iff in Ht as (t & <- & Ht). exists t.
    destruct (t_name t =? n); [|now exists r']. cbn in *. apply in_app_or in Hr as [Hr|[<- |[]]]; [now exists r'|congruence].
  - apply good_map; [exact G|intros t; destruct (_ =? _); reflexivity|]. intros t Ht N. unfold tame.
    split; [destruct (t_name t =? n); repeat split; now left|]. intros r' Hr. destruct (t_name t =? n).
    + cbn in Hr. apply in_app_or in Hr as [Hr|[<- |[]]]; [exact (g_kinds w G t r' Ht N Hr)|exact H1].
    + exact (g_kinds w G t r' Ht N Hr).
Qed.
Lemma started_map f w : (forall t, t_name (f t) = t_name t) ->
  (forall t, In t (w_tasks w) -> t_name t = me -> tame f (w_clock w) t /\ forall r, In r (t_stack (f t)) -> rn_kind r <> XProcess) ->
  Started w -> Started (set_tasks (map f (w_tasks w)) w).
Proof using FD.
  intros FN FM [(K & G & HW & B1 & B2 & _) L]. split; [|exact L]. exists K. split; [now apply good_map|]. split; [exact HW|].
  split; [exact B1|]. split; [exact B2|]. split; [now intros []|discriminate].
Qed.
Lemma started_push r w : rn_kind r <> XProcess -> Started w -> Started (on_task me (fun t => with_stack (t_stack t ++ [r]) t) w).
Proof using FD.
  intros H S. pose proof (P_good _ _ (proj1 S)) as G. apply started_map; [intros t; destruct (_ =? _); reflexivity| |exact S].
  intros t Ht N. unfold tame. split; [destruct (t_name t =? me); repeat split; now left|]. intros r' Hr. destruct (t_name t =? me).
  - cbn in Hr. apply in_app_or in Hr as [Hr|[<- |[]]]; [exact (g_kinds w G t r' Ht N Hr)|exact H].
  - exact (g_kinds w G t r' Ht N Hr).
Qed.
Definition preset (n : Z) (w : world) : world := on_task n (fun t =>
  with_state (TState (set_last (ts_last (t_state t)) ARun (Some (w_clock w))) (ts_status (t_state t))) t) w.
Lemma started_preset w : Started w -> Started (preset me w).
Proof using FD.
  intros S. pose proof (P_good _ _ (proj1 S)) as G. apply started_map; [intros t; destruct (_ =? _); reflexivity| |exact S].
  intros t Ht N. split.
  - unfold tame. destruct (t_name t =? me); (split; [reflexivity|]; split; [reflexivity|]); intros a; [|now left]. cbn. unfold set_last. destruct (action_eqb ARun a); auto.
  - intros r Hr. apply (g_kinds w G t r Ht N). destruct (t_name t =? me); exact Hr.
Qed.
Lemma tri_calm m f E : (forall w, good w -> calm (free m) w (f w)) -> tri (P m) (modify f) (fun _ => P m) E.
Proof using TG. intros H w Hw. exact (calm_P _ _ _ (H w (P_good _ _ Hw)) Hw). Qed.
Lemma tri_ask m {A} (f : nat -> A) E : tri (P m) (ask f) (fun _ => P m) E.
Proof using TG. intros w Hw. exact (calm_P _ _ _ (calm_bump _ w (P_good _ _ Hw)) Hw). Qed.
Lemma tri_raise_if (Q : world -> Prop) e (E : exn -> world -> Prop) : (forall e' w, Q w -> E e' w) -> tri Q (raise_if e) (fun _ => Q) E.
Proof using Type. intros H w Hw. destruct e; cbn; auto. Qed.
Lemma tri_raise (Q : world -> Prop) {A} e (R : A -> world -> Prop) (E : exn -> world -> Prop) : (forall w, Q w -> E e w) -> tri Q (raise e) R E.
Proof using Type. intros H w Hw. cbn. auto. Qed.
Lemma tri_ret (Q : world -> Prop) {A} (a : A) (R : A -> world -> Prop) (E : exn -> world -> Prop) : (forall w, Q w -> R a w) -> tri Q (ret a) R E.
Proof using Type. intros H w Hw. cbn. auto. Qed.
Lemma keeps_own a rid v : a <> ARun -> keeps P0 (log_action orc false me a rid v).
Proof using TG FD. intros N. apply walk_keeps, walk_log_action. auto. Qed.

Definition after (e : exn) (w : world) : Prop := if soft e then P0 w else P Decided w.
Lemma to_after e w : P Decided w -> after e w.
Proof using Type. intros H. unfold after. destruct (soft e); [exact (weaken _ _ H)|exact H]. Qed.
Lemma tri_pure (Q : world -> Prop) (F : Prop) {A} (m : M A) R E : (F -> tri Q m R E) -> tri (fun w => Q w /\ F) m R E.
Proof using Type. intros H w [Hw HF]. exact (H HF w Hw). Qed.
Lemma tri_finally (Q : world -> Prop) (m f : M unit) : tri Q m (fun _ => P0) (fun _ => P0) -> keeps P0 f ->
  tri Q (finally m f) (fun _ => P0) (fun _ => P0).
Proof using Type.
  intros Hm Hf w Hw. specialize (Hm w Hw). unfold finally, attempt. unfold mbind at 1. destruct (m w) as [w' [u|e|]]; [| |exact Hm]; unfold mbind;
  specialize (Hf w' Hm); destruct (f w') as [w2 [u2|e2|]]; exact Hf.
Qed.
Lemma run_logged_after rid v : tri Started (log_action orc false me ARun rid v) (fun _ => P0) after.
Proof using TG FD. eapply tri_post; [apply run_logged|auto|]. intros e w [-> H]. exact H. Qed.
Lemma launch_me fuel x uid start rid : x = XAsync \/ x = XThread ->
  tri (P Decided) (launch orc fuel x me uid start rid) (fun _ => P0) after.
Proof using TG NM FD.
  intros [-> | ->]; cbn [launch].
  - (* async *)
    eapply (tri_bind _ _ _ (fun _ => Started)); [intros w Hw; apply started_push; [discriminate|exact (decided_started w Hw)]|intros u2]. apply run_logged_after.
  - (* thread *)
    eapply (tri_bind _ _ _ (fun _ => P Decided)); [apply tri_ask|intros e1]. eapply (tri_bind _ _ _ (fun _ => P Decided)); [apply tri_raise_if, to_after|intros u1].
    eapply (tri_bind _ _ _ (fun _ => P Decided)); [apply tri_ask|intros [e2|]].
    + eapply (tri_bind _ _ _ (fun _ => P Decided)); [apply tri_calm; intros w G; apply calm_push; [exact G|]; split; [discriminate|reflexivity]|intros u2]. apply tri_raise, to_after.
    + eapply (tri_bind _ _ _ (fun _ => Started)); [intros w Hw; apply started_push; [discriminate|exact (decided_started w Hw)]|intros u2].
      eapply (tri_bind _ _ _ (fun _ => Started)); [intros w Hw; exact (started_preset w Hw)|intros u3].
      eapply (tri_bind _ _ _ (fun _ => P0)).
      { eapply tri_post; [eapply (tri_attempt _ _ _ _ after); apply run_logged| |auto]. intros [u|e] w; [auto|]. now intros [_ H]. }
      intros [u4|e4]; [now apply tri_ret|]. eapply (tri_bind _ _ _ (fun _ => P0)); [apply tri_calm; intros w; apply calm_on_run, fades_exc|intros u5].
      eapply (tri_bind _ _ _ (fun _ => P0)).
      { eapply tri_post; [eapply (tri_attempt _ _ _ _ after), tri_keeps; now apply keeps_own| |auto]. intros [u|e] w H; exact H. }
      intros a6. apply tri_calm. intros w. apply calm_on_run, fades_over.
Qed.
Lemma keeps_push n r : n <> me -> keeps P0 (push_run n r).
Proof using TG FD. intros N. unfold push_run. kp. now apply calm_push. Qed.
Lemma keeps_log_other ch n a rid v : n <> me -> keeps P0 (log_action orc ch n a rid v).
Proof using TG FD. intros N. apply walk_keeps. now apply walk_log_action. Qed.
Lemma calm_preset n w : n <> me -> good w -> calm true w (preset n w).
Proof using FD. intros N G. apply calm_on_task; [exact G|reflexivity|]. intros t _ _ E. now destruct N. Qed.
Lemma launch_other fuel x n uid start rid : n <> me -> keeps P0 (launch orc fuel x n uid start rid).
Proof using TG NM FD.
  intros N. destruct x; cbn [launch].
  - (* main *)
    kp.
    + apply calm_frame; auto. cbn. intros n' r' Hr. apply in_app_or in Hr as [Hr|[E|[]]]; [now left|right; congruence].
    + now apply keeps_push.
    + now apply keeps_log_other.
    + apply calm_frame; auto. cbn. intros n' r' Hr. left. revert Hr. generalize (w_orphans w). clear. intros o. induction o as [|y o IH]; [intros []|].
      destruct o as [|z o]; [intros []|]. intros [E|Hr]; [now left|right; apply IH; exact Hr].
    + unfold run_setup. kp.
    + apply walk_keeps. now apply walk_run_body.
  - (* async *)
    kp; [now apply keeps_push|now apply keeps_log_other].
  - (* thread *)
    kp. destruct a1 as [e|]; kp; try (now apply keeps_push); try (now apply keeps_log_other); [now apply calm_preset|].
    destruct a3 as [u|e]; kp; try (apply calm_on_run; [apply fades_exc|assumption]); try (apply calm_on_run; [apply fades_over|assumption]). now apply keeps_log_other.
  - (* process *)
    kp. destruct a1 as [e|]; kp; try (now apply keeps_push). { destruct a1; [now apply keeps_log_other|kp]. } now apply keeps_lock.
Qed.
Lemma walk_status b n : walk b (status_is_run n).
Proof using Type. unfold status_is_run. wk. Qed.
Lemma walk_run_id b : walk b (get_run_id orc).
Proof using Type. unfold get_run_id. wk. destruct a; wk. Qed.
Lemma tri_walk m {A} (x : M A) : walk (free m) x -> tri (P m) x (fun _ => P m) (fun _ => P m).
Proof using TG. intros H. now apply tri_keeps, walk_keeps. Qed.
Lemma failed_me x rid e : tri (after e) (start_failed orc x me rid e) (fun _ => P0) (fun _ => P0).
Proof using TG FD.
  assert (G : tri (P Decided) (rid <- match rid with Some i => ret i | None => get_run_id orc end ;;
      b <- status_is_run me ;; (if b then ret tt else log_action orc false me ARun (Some rid) 0) ;;
      log_action orc false me AFail (Some rid) 0 ;; @raise unit TaskSetupError) (fun _ => P0) (fun _ => P0)).
  { assert (WK : forall (e : exn) w, P Decided w -> P0 w) by (intros _ w; apply weaken).
    eapply (tri_bind _ _ _ (fun _ => P Decided)); [|intros i].
    - eapply tri_post; [apply tri_walk; destruct rid; [wk|apply walk_run_id]|auto|exact WK].
    - eapply (tri_bind _ _ _ (fun _ => P Decided)); [eapply tri_post; [apply tri_walk, walk_status|auto|exact WK]|intros b].
      eapply (tri_bind _ _ _ (fun _ => P0)).
      + destruct b; [apply tri_ret; apply weaken|]. eapply tri_pre; [exact decided_started|]. eapply tri_post; [apply run_logged|auto|now intros ? ? [_ H]].
      + intros u. eapply (tri_bind _ _ _ (fun _ => P0)); [|intros u'; now apply tri_raise]. apply tri_keeps. now apply keeps_own. }
  destruct e; try exact G; unfold after; cbn [soft start_failed]; try (now apply tri_raise).
  apply tri_keeps. kp; [apply walk_keeps, walk_status|]. destruct (_ && _); kp. now apply keeps_own.
Qed.
Lemma failed_other x n rid e : n <> me -> keeps P0 (start_failed orc x n rid e).
Proof using TG FD.
  intros N. assert (G : keeps P0 (rid <- match rid with Some i => ret i | None => get_run_id orc end ;;
      b <- status_is_run n ;; (if b then ret tt else log_action orc false n ARun (Some rid) 0) ;;
      log_action orc false n AFail (Some rid) 0 ;; @raise unit TaskSetupError)).
  { kp; [destruct rid; [kp|apply walk_keeps, walk_run_id]|apply walk_keeps, walk_status|destruct a0; [kp|now apply keeps_log_other]|now apply keeps_log_other]. }
  destruct e; try exact G; cbn [start_failed]; kp; try (apply walk_keeps, walk_status).
  destruct (_ && _); kp. now apply keeps_log_other.
Qed.
Lemma keeps_params m n : keeps (P m) (get_direct_params n).
Proof using TG FD.
  intros w Hw. pose proof (P_good _ _ Hw) as G. unfold get_direct_params, mbind at 1, get_task.
  destruct (find_task n w) as [t|] eqn:F; [|exact Hw]. destruct (t_batches t) as [|p rest] eqn:B.
  - cbn. apply (calm_P _ w); [frame|exact Hw].
  - cbn. apply (calm_P _ w); [|exact Hw].
    assert (C : calm (free m) w (on_task n (with_batches rest) w)).
    { apply calm_on_task; [exact G|reflexivity|].
      intros t' _ _ ->. destruct (OnceProofs.find_in _ _ _ F) as [Fi Fn]. destruct (g_task w G t Fi Fn) as [X _]. congruence. }
    eapply calm_trans; [exact C|]. pose proof (cs_good _ _ _ C). frame.
Qed.
Lemma calm_filter b n f w : good w -> calm b w (on_task n (fun t => with_stack (filter f (t_stack t)) t) w).
Proof using FD. intros G. apply calm_on_task; [exact G|reflexivity|]. intros t _ _ _. split; [now apply tame_same|apply fading_filter]. Qed.
Lemma start_me fuel : tri (P Decided) (start_async orc cf fuel me) (fun _ => P0) (fun _ => P0).
Proof using TG NM FD.
  unfold start_async. eapply (tri_bind _ _ _ (fun t w => P Decided w /\ (get_execution cf t = XAsync \/ get_execution cf t = XThread))).
  { intros w Hw. unfold get_task. destruct (find_task me w) as [t|] eqn:F; [|exact (weaken _ _ Hw)]. split; [exact Hw|].
    destruct (OnceProofs.find_in _ _ _ F) as [Fi Fn]. apply (g_task w (P_good _ _ Hw) t Fi Fn). }
  intros t. apply tri_pure. intros HX.
  eapply (tri_bind _ _ _ (fun _ => P Decided)); [intros w Hw; exact Hw|intros start].
  eapply (tri_bind _ _ _ (fun _ => P Decided)); [intros w Hw; exact Hw|intros uid].
  eapply (tri_bind _ _ _ (fun _ => P Decided)); [apply tri_calm; intros w G; frame|intros u1].
  eapply (tri_bind _ _ _ (fun _ => P Decided)); [apply tri_calm; intros w G; frame|intros u2].
  apply tri_finally; [|kp; now apply calm_filter].
  eapply (tri_bind _ _ _ (fun _ => P Decided)).
  { eapply tri_post; [eapply tri_attempt, tri_keeps; kp; [apply keeps_params|apply walk_keeps, walk_run_id]| |].
    - intros [i|e] w H; exact H.
    - intros e w H. exact H. }
  intros [rid|e].
  - eapply (tri_bind _ _ _ (fun r w => match r with Ok _ => P0 w | Err e => after e w end)); [eapply tri_attempt; now apply launch_me|].
    intros [u|e]; [now apply tri_ret|apply failed_me].
  - eapply tri_pre; [|apply failed_me]. intros w. apply to_after.
Qed.
Lemma start_other fuel n : n <> me -> keeps P0 (start_async orc cf fuel n).
Proof using TG NM FD.
  intros N. unfold start_async. kp; try frame; [apply keeps_params|apply walk_keeps, walk_run_id| |now apply calm_filter].
  match goal with |- context [match ?a with Ok _ => _ | Err _ => _ end] => destruct a as [rid|e] end; [|now apply failed_other].
  kp; [now apply launch_other|]. match goal with |- context [match ?a with Ok _ => _ | Err _ => _ end] => destruct a as [u|e] end; [kp|now apply failed_other].
Qed.

(** * The scheduler *)
Context (RQ : requires orc me gate).
Lemma cond_me : tri (P Idle) (check_task_cond orc cf me) (fun b => P (if b then Decided else Free)) (fun _ => P0).
Proof using TG RQ FD.
  intros w Hw. pose proof (P_good _ _ Hw) as G. pose proof (weaken _ _ Hw) as Hf. unfold check_task_cond, mbind at 1, attempt, is_runnable. unfold mbind at 1, get_task.
  destruct (find_task me w) as [t|] eqn:F.
  2: { destruct (negb _ || negb _); exact Hf. }
  destruct (OnceProofs.find_in _ _ _ F) as [Fi Fn]. destruct (g_task w G t Fi Fn) as (X1 & X2 & _). rewrite X1, X2.
  destruct (t_disabled t); [exact Hf|]. unfold mbind at 1, get. unfold mbind at 1, ask. fold (bump w).
  assert (HB : P Idle (bump w)) by exact (calm_P _ _ _ (calm_bump _ w G) Hw).
  destruct (o_cond orc (w_tick w) me w) as [[]|e] eqn:O; cbn [ret raise].
  - destruct HB as (K & G' & HW & B1 & B2 & I & _). exists K. split; [exact G'|]. split; [exact HW|]. split; [exact B1|]. split; [exact B2|].
    split; [intros _; apply I; discriminate|]. intros _. exists (w_clock w). split; [|cbn; lia]. exists (t_state t), (w_log w), [].
    split; [symmetry; apply app_nil_r|]. split; [intros x []|]. split; [exact (g_noted w G t Fi Fn)|]. split; [exact (g_order w G)|]. exact (RQ _ _ _ F O).
  - exact (weaken _ _ HB).
  - destruct (negb (cf_silence_cond cf) || negb (is_exception e)); exact (weaken _ _ HB).
Qed.
Lemma keeps_cond n : keeps P0 (check_task_cond orc cf n).
Proof using TG RQ.
  unfold check_task_cond, is_runnable. kp.
  - destruct (t_batches a); kp. destruct (t_disabled a); kp. destruct (tc_always_false _); kp. destruct a1; kp.
  - destruct a as [b|e]; kp. destruct (negb _ || negb _); kp.
Qed.
Lemma not_alive w t : good w -> find_task me w = Some t -> is_alive t = false -> ~ live w.
Proof using ND.
  intros G F A (t' & r & Ht & N & Hr & L). destruct (OnceProofs.find_in _ _ _ F) as [Fi Fn].
  assert (E : t' = t).
  { pose proof (g_all w G) as EN. unfold OnceProofs.names in EN. pose proof ND as D0. rewrite <- EN in D0. assert (EE : t_name t' = t_name t) by congruence.
    revert Ht Fi D0. generalize (w_tasks w). clear - EE.
    intros ts. induction ts as [|u ts IH]; [intros []|]. cbn. intros H1 H2 D. inversion D as [|? ? D1 D2]. destruct H1 as [H1|H1], H2 as [H2|H2]; [congruence| | |auto].
    - destruct D1. rewrite H1, EE. now apply in_map.
    - destruct D1. rewrite H2, <- EE. now apply in_map. }
  subst t'. unfold is_alive in A. rewrite (proj2 (existsb_exists _ _)) in A; [discriminate A|]. now exists r.
Qed.
Lemma runnable_me : tri P0 (is_task_runnable orc cf me) (fun b => P (if b then Decided else Free)) (fun _ => P0).
Proof using TG NM RQ FD ND.
  unfold is_task_runnable, has_free_processors.
  eapply (tri_bind _ _ _ (fun t w => P0 w /\ exec_eqb (get_execution cf t) XMain = false)).
  { intros w Hw. unfold get_task. destruct (find_task me w) as [t|] eqn:F; [|exact Hw]. split; [exact Hw|].
    destruct (OnceProofs.find_in _ _ _ F) as [Fi Fn]. destruct (g_task w (P_good _ _ Hw) t Fi Fn) as (_ & _ & [-> | ->] & _); reflexivity. }
  intros t. apply tri_pure. intros HX. cbv zeta.
  eapply (tri_bind _ _ _ (fun _ => P0)); [apply tri_keeps; destruct (exec_eqb _ XProcess); kp|intros fr].
  destruct (negb fr); [now apply tri_ret|]. eapply (tri_bind _ _ _ (fun _ => P0)); [apply tri_env|intros u].
  eapply (tri_bind _ _ _ (fun t w => P0 w /\ find_task me w = Some t)).
  { intros w Hw. unfold get_task. destruct (find_task me w) as [t'|] eqn:F; [|exact Hw]. now split. }
  intros t'. rewrite HX. cbn [negb andb]. intros w [Hw F]. destruct (OnceProofs.find_in _ _ _ F) as [Fi Fn].
  destruct (g_task w (P_good _ _ Hw) t' Fi Fn) as (_ & _ & _ & ML). rewrite ML. cbn [negb andb].
  destruct (is_alive t') eqn:A; [exact Hw|].
  assert (HI : P Idle w).
  { pose proof (not_alive w t' (P_good _ _ Hw) F A) as NL. destruct Hw as (K & G & HW & B1 & B2 & _). exists K. split; [exact G|]. split; [exact HW|].
    split; [exact B1|]. split; [exact B2|]. split; [intros _; exact NL|discriminate]. }
  revert w HI Hw F Fi A. intros w HI _ _ _ _. revert w HI.
  change (tri (P Idle) (env orc ;; check_task_cond orc cf me) (fun b => P (if b then Decided else Free)) (fun _ => P0)).
  eapply (tri_bind _ _ _ (fun _ => P Idle)); [apply tri_env|intros u']. apply cond_me.
Qed.
Lemma keeps_runnable n : keeps P0 (is_task_runnable orc cf n).
Proof using TG NM RQ FD.
  unfold is_task_runnable, has_free_processors. kp.
  - destruct (exec_eqb _ _); kp.
  - destruct (negb a0); kp. destruct (_ && _); kp. apply keeps_cond.
Qed.
Lemma keeps_run_task fuel n : n <> me -> keeps P0 (run_task orc cf fuel n).
Proof using TG NM FD. intros N. unfold run_task. kp; [now apply start_other|]. destruct a as [[]|[]]; kp; destruct (_ cf); kp. Qed.
Lemma run_task_me fuel : tri (P Decided) (run_task orc cf fuel me) (fun _ => P0) (fun _ => P0).
Proof using TG NM FD.
  unfold run_task. eapply (tri_bind _ _ _ (fun _ => P0)).
  - eapply tri_post; [eapply (tri_attempt _ _ _ _ (fun _ => P0)); apply start_me| |auto]. intros [u|e] w H; exact H.
  - intros a. apply tri_keeps. destruct a as [[]|[]]; kp; destruct (_ cf); kp.
Qed.
(** A task is checked and started if it may *)
Lemma keeps_turn fuel n : keeps P0 (b <- is_task_runnable orc cf n ;; env orc ;; if b then run_task orc cf fuel n else ret tt).
Proof using TG NM RQ FD ND.
  destruct (Z.eq_dec n me) as [->|N].
  - apply keeps_tri. eapply tri_bind; [apply runnable_me|]. intros b. eapply (tri_bind _ _ _ (fun _ => P (if b then Decided else Free))); [apply tri_env|]. intros u.
    destruct b; [apply run_task_me|now apply tri_ret].
  - kp; [apply keeps_runnable|]. destruct a; [now apply keeps_run_task|kp].
Qed.
Lemma keeps_handle_logs fuel : keeps P0 (handle_logs orc cf fuel).
Proof using TG NM FD.
  induction fuel as [|fuel IH]; cbn [handle_logs]; [exact (P_W Free)|]. apply keeps_bind; [apply keeps_env|]. intros _.
  apply keeps_with. intros w Hw. destruct (w_queue w) as [|q rest] eqn:Eq; [exact Hw|].
  destruct (pop Free w q rest Hw Eq) as (NR & H). unfold mbind at 1, modify. revert H. generalize (set_queue rest w). clear w Hw Eq.
  change (keeps P0 (get_task (r_task (q_rec q)) ;;
    (match q_return q with Some v => if action_eqb (r_action (q_rec q)) ASuccess then handle_return (r_task (q_rec q)) v else ret tt | None => ret tt end) ;;
    r <- attempt (log_record_m orc q) ;;
    (match r with Err e => if negb (cf_silence_logging cf) || negb (is_exception e) then raise e else ret tt | Ok _ => ret tt end) ;;
    handle_logs orc cf fuel)).
  kp; try exact IH.
  - destruct (q_return q); kp. destruct (action_eqb _ _); kp. apply walk_keeps, walk_return.
  - now apply walk_keeps, walk_log_record.
  - destruct a1 as [u|e]; kp. destruct (negb _ || negb _); kp.
Qed.
Lemma keeps_clean n : keeps P0 (clean_run_stack cf n).
Proof using TG FD. unfold clean_run_stack. kp. now apply calm_filter. Qed.
Lemma keeps_log n a rid v : a <> ARun -> keeps P0 (log_action orc false n a rid v).
Proof using TG FD. intros N. apply walk_keeps, walk_log_action. auto. Qed.
Lemma keeps_on_run u g : fades g -> keeps P0 (modify (on_run u g)).
Proof using TG FD. intros F. kp. now apply calm_on_run. Qed.
Lemma keeps_terminate_obj u : keeps P0 (terminate_run_obj orc u).
Proof using TG NM FD.
  unfold terminate_run_obj. apply keeps_bind; [kp|intro a]. destruct (find_run u a) as [[t r]|]; [|kp].
  destruct (rn_kind r); [kp| |apply keeps_on_run, fades_stop|destruct (run_alive r); [apply keeps_on_run, fades_over|kp]].
  destruct (rn_phase r) as [| |[e|]]; [apply keeps_bind; [apply keeps_on_run, fades_over|intro; kp]| |kp|kp].
  kp. destruct (find_run u _) as [[t' r']|]; kp.
  destruct (rn_phase r') as [| |[e|]]; kp; try (apply walk_keeps, walk_end_coroutine; now apply walk_run_body);
    destruct (find_run u _) as [[t2 r2]|]; kp; destruct (rn_phase r2) as [| |[e|]]; kp.
Qed.
Lemma keeps_terminate_run n r : keeps P0 (terminate_run orc n r).
Proof using TG NM FD.
  unfold terminate_run. kp; [frame|apply keeps_terminate_obj|]. destruct a0 as [u|[]]; kp; try (now apply keeps_log).
  destruct (exec_eqb _ _); [now apply keeps_log|kp].
Qed.
Lemma keeps_terminate_each n rs : keeps P0 (terminate_each orc n rs).
Proof using TG NM FD. induction rs as [|r rs IH]; cbn [terminate_each]; kp; [apply keeps_terminate_run|exact IH]. Qed.
Lemma keeps_terminate_all n : keeps P0 (terminate_all_runs orc cf n).
Proof using TG NM FD. unfold terminate_all_runs. kp; [apply keeps_terminate_each|apply keeps_clean|now apply calm_term]. Qed.
Lemma keeps_late n now d rs : keeps P0 (terminate_late orc n now d rs).
Proof using TG NM FD. induction rs as [|r rs IH]; cbn [terminate_late]; kp; [|exact IH]. destruct (_ && _); kp. apply keeps_terminate_run. Qed.
Lemma keeps_termination n : keeps P0 (check_termination orc cf n).
Proof using TG NM FD.
  unfold check_termination. kp.
  - destruct a as [b|e]; kp. destruct (negb _ || negb _); kp.
  - destruct (t_term a1); [apply keeps_terminate_all|]. destruct a0; [apply keeps_terminate_all|]. kp. destruct (tc_permanent _); [kp|apply keeps_late].
Qed.
Lemma keeps_each f ns : (forall n, keeps P0 (f n)) -> keeps P0 (for_each f ns).
Proof using TG. intros H. induction ns as [|n ns IH]; cbn [for_each]; kp; auto. Qed.
Lemma fading_drop s : match drop_first_exc s with Some s' => fading s s' | None => True end.
Proof using Type.
  induction s as [|r s IH]; cbn; [exact I|]. destruct (rn_exc r).
  - intros r' H. exists r'. split; [now right|auto].
  - destruct (drop_first_exc s) as [s'|]; cbn; [|exact I]. intros r' [<- |H]; [exists r; split; [now left|auto]|].
    destruct (IH r' H) as (r0 & H0 & A). exists r0. split; [now right|exact A].
Qed.
Lemma keeps_thread_errors : keeps P0 (check_thread_errors cf).
Proof using TG FD.
  unfold check_thread_errors, tasks. destruct (cf_silence_logging cf); kp. apply keeps_each. intros n. unfold check_exceptions. kp.
  destruct (drop_first_exc _); kp. apply calm_on_task; [assumption|intros t; unfold drop_exc; destruct (drop_first_exc _); reflexivity|].
  intros t _ _ _. pose proof (fading_drop (t_stack t)) as FD'. split.
  - apply tame_same; unfold drop_exc; destruct (drop_first_exc _); reflexivity.
  - unfold drop_exc. destruct (drop_first_exc (t_stack t)); [exact FD'|apply fading_same].
Qed.
Lemma keeps_hook : keeps P0 (hook orc).
Proof using TG. unfold hook. kp. Qed.
Lemma keeps_cycle_task fuel n : keeps P0 (cycle_task orc cf fuel n).
Proof using TG NM RQ FD ND.
  unfold cycle_task. kp; [apply keeps_handle_logs|apply keeps_clean| |apply keeps_termination].
  destruct (_ || _); kp; [frame|]. match goal with |- context [if ?b then _ else _] => destruct b end; [apply keeps_turn|kp].
Qed.
Lemma keeps_cycle fuel : keeps P0 (run_cycle orc cf fuel).
Proof using TG NM RQ FD ND.
  unfold run_cycle, tasks. kp; try apply keeps_hook; try frame; [apply keeps_each; intros n; apply keeps_cycle_task|apply keeps_handle_logs|apply keeps_thread_errors].
Qed.
Lemma keeps_special fuel n : keeps P0 (run_special orc cf fuel n).
Proof using TG NM RQ FD ND.
  unfold run_special. intros w Hw. unfold mbind at 1, get_task. destruct (find_task n w) as [t|] eqn:F; [|exact Hw].
  assert (X : n = me -> tc_always_false (t_cfg t) = false).
  { intros ->. destruct (OnceProofs.find_in _ _ _ F) as [Fi Fn]. exact (proj1 (proj2 (g_task w (P_good _ _ Hw) t Fi Fn))). }
  clear F. revert w Hw. match goal with |- forall w, P0 w -> match ?m w with _ => _ end => change (keeps P0 m) end.
  apply keeps_bind; [|intros _; apply keeps_turn]. destruct (tc_always_false (t_cfg t)) eqn:E; cbn [andb]; [|kp].
  destruct (negb _); kp; [frame|]. apply calm_on_task; [assumption|reflexivity|]. intros t' _ _ EN. discriminate (X EN).
Qed.
Lemma keeps_startup fuel : keeps P0 (startup orc cf fuel).
Proof using TG NM RQ FD ND.
  unfold startup, tasks. kp; try apply keeps_hook; try frame. apply keeps_each. intros n. unfold startup_task. kp.
  - apply walk_keeps, walk_set_cached.
  - match goal with |- context [match ?a with Ok _ => _ | Err _ => _ end] => destruct a as [u|[]] end; kp; destruct (cf_silence_logging cf); kp.
  - destruct (tc_startup _); [apply keeps_special|kp].
Qed.
Lemma keeps_wait fuel : keeps P0 (wait_for_finish orc cf fuel).
Proof using TG NM FD.
  induction fuel as [|fuel IH]; cbn [wait_for_finish]; [exact (P_W Free)|]. unfold tasks. kp. destruct (_ =? 0); kp; [apply keeps_handle_logs| |exact IH].
  apply keeps_each. intros n. unfold wait_turn. kp. destruct (tc_permanent _); [apply keeps_terminate_all|apply keeps_termination].
Qed.
Lemma keeps_shut_down_tasks fuel e : keeps P0 (shut_down_tasks orc cf fuel e).
Proof using TG NM FD.
  revert e. induction fuel as [|fuel IH]; intros e; cbn [shut_down_tasks]; [exact (P_W Free)|]. kp. destruct (_ && _); kp.
  - apply keeps_wait.
  - match goal with |- context [match ?a with Ok _ => _ | Err _ => _ end] => destruct a as [u|e'] end; kp. destruct (is_exception e'); kp. apply IH.
  - unfold terminate_everything, tasks. kp. apply keeps_each. intros n. unfold terminate_if_alive. kp. destruct (is_alive _); [apply keeps_terminate_all|kp].
Qed.
Lemma keeps_alive fuel : keeps P0 (wait_task_alive orc fuel).
Proof using TG NM FD. induction fuel as [|fuel IH]; cbn [wait_task_alive]; [exact (P_W Free)|]. kp. destruct (_ <? _); kp. exact IH. Qed.
Lemma keeps_shut_down fuel e : keeps P0 (shut_down orc cf fuel e).
Proof using TG NM RQ FD ND.
  unfold shut_down, run_shutdown_tasks, tasks. kp; try apply keeps_hook; try frame;
  [|apply keeps_shut_down_tasks|apply keeps_alive|apply keeps_handle_logs|apply keeps_thread_errors].
  apply keeps_each. intros n. unfold shutdown_task. kp. destruct (tc_shutdown _); [apply keeps_special|kp].
Qed.
Lemma keeps_loop fuel : keeps P0 (main_loop orc cf fuel).
Proof using TG NM RQ FD ND.
  induction fuel as [|fuel IH]; cbn [main_loop]; [exact (P_W Free)|]. kp.
  - unfold check_shut_cond. kp. destruct a; kp. destruct a; kp.
  - destruct a; kp. destruct a0; kp. destruct a0; kp; [apply keeps_cycle|exact IH].
Qed.
Lemma keeps_serve fuel : keeps P0 (serve orc cf fuel).
Proof using TG NM RQ FD ND.
  unfold serve. kp; [frame|apply keeps_startup|apply keeps_loop|apply keeps_shut_down|]. destruct a0 as [u|[]]; kp.
Qed.
End Done.

(** * A served session *)
Lemma begins orc cf me gate time w : by_condition orc me w -> one_at_a_time_here cf me w -> complete_history me w -> w_clock w <= time (w_tick w) ->
  P cf me gate time (w_log w) (OnceProofs.names w) Free w.
Proof.
  intros [F _ B A] O [H1 H2 H3 H4 H5 H6 H7 H8] CK. exists (w_clock w). split; [|split; [|split; [lia|split; [exact CK|split; [now intros []|discriminate]]]]].
  - constructor; auto.
    + intros t Ht Et x Hx Ex. destruct (H3 t x Ht Et Hx Ex) as (c & E & L). exists c. split; [exact E|]. split; [exact L|]. exact (H4 t _ c Ht Et E).
    + intros t Ht Et a c E. exact (H4 t a c Ht Et E).
    + intros t Ht Et. split; [now apply B|]. split; [now apply A|]. destruct (O t Ht Et) as [X M]. split.
      * unfold executes in X. unfold get_execution. destruct (tc_exec (t_cfg t)); destruct X; auto.
      * unfold multilaunch in M. unfold allow_multilaunch. destruct (tc_multi (t_cfg t)) as [b|]; [destruct b|destruct (cf_multi cf)]; auto; now destruct M.
  - exists []. split; [symmetry; apply app_nil_r|]. intros [|] ? ? E; discriminate E.
Qed.
Lemma served_justified orc cf me gate time fuel w :
  time_goes_on orc time -> w_clock w <= time (w_tick w) -> by_condition orc me w -> one_at_a_time_here cf me w -> complete_history me w -> requires orc me gate ->
  every_new_run me (w_log w) (w_log (fst (serve orc cf fuel w))) (justified me gate).
Proof.
  intros TG CK BC OA CH RQ. assert (FD : In me (OnceProofs.names w)).
  { destruct (bc_found _ _ _ BC) as (t & F). destruct (OnceProofs.find_in _ _ _ F) as [Fi <-]. now apply in_map. }
  pose proof (keeps_serve orc cf me gate time (w_log w) (OnceProofs.names w) FD (ch_names _ _ CH) TG (bc_request _ _ _ BC) RQ fuel w (begins _ _ _ _ _ _ BC OA CH CK)) as H.
  destruct (serve orc cf fuel w) as [w' [u|e|]]; cbn [fst]; [| |exact H]; exact (P_W _ _ _ _ _ _ _ _ H).
Qed.
