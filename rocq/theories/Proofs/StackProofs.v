(** The tracked runs: identities stay distinct, what is over stays over. *)
From Coq Require Import Bool Arith Lia ZifyBool.
From Verif Require Import Model.Base Model.History Model.World Model.Run Model.Scheduler.
From Verif Require Import Spec.SchedulerSpec Proofs.WorldProofs Proofs.LimitProofs Proofs.EventProofs.
Open Scope Z_scope.

Definition later (r r' : run) : Prop :=
  rn_uid r' = rn_uid r /\ rn_kind r' = rn_kind r /\ rn_start r' = rn_start r /\ rn_id r' = rn_id r /\
  (live r' = true -> live r = true) /\ (rn_stop r = true -> rn_stop r' = true).
Lemma later_refl r : later r r.
Proof. repeat split; auto. Qed.
Lemma later_trans a b c : later a b -> later b c -> later a c.
Proof. intros (A1 & A2 & A3 & A4 & A5 & A6) (B1 & B2 & B3 & B4 & B5 & B6). repeat split; try congruence; auto. Qed.
Inductive less : list run -> list run -> Prop :=
| less_nil : less [] []
| less_drop : forall r l l', less l l' -> less (r :: l) l'
| less_keep : forall r r' l l', later r r' -> less l l' -> less (r :: l) (r' :: l').
Lemma less_refl l : less l l.
Proof. induction l; [constructor|apply less_keep; auto using later_refl]. Qed.
Lemma less_trans a b c : less a b -> less b c -> less a c.
Proof.
  intros H; revert c; induction H as [|r l l' H IH|r r' l l' L H IH]; intros c Hc; auto.
  - constructor. auto.
  - inversion Hc; subst; [apply less_drop; auto|]. apply less_keep; [eapply later_trans; eassumption|auto].
Qed.
Lemma less_filter p l : less l (filter p l).
Proof. induction l as [|r l IH]; cbn; [constructor|]. destruct (p r); [apply less_keep|apply less_drop]; auto using later_refl. Qed.
Lemma less_map g l : (forall r, later r (g r)) -> less l (map g l).
Proof. intros H. induction l; [constructor|apply less_keep; auto]. Qed.
Lemma less_app a a' b b' : less a a' -> less b b' -> less (a ++ b) (a' ++ b').
Proof. intros H Hb. induction H; cbn; [exact Hb|apply less_drop; auto|apply less_keep; auto]. Qed.
Lemma less_in l l' r' : less l l' -> In r' l' -> exists r, In r l /\ later r r'.
Proof.
  intros H; induction H as [|r l l' H IH|r r0 l l' L H IH]; intros Hin; [destruct Hin| |].
  - destruct (IH Hin) as (x & Hx & Lx). exists x. split; [now right|exact Lx].
  - destruct Hin as [-> | Hin]; [exists r; split; [now left|exact L]|]. destruct (IH Hin) as (x & Hx & Lx). exists x. split; [now right|exact Lx].
Qed.
Lemma less_nodup l l' : less l l' -> NoDup (map rn_uid l) -> NoDup (map rn_uid l').
Proof.
  intros H; induction H as [|r l l' H IH|r r0 l l' L H IH]; intros N; auto; inversion N as [|? ? N1 N2]; subst; auto.
  cbn. constructor; [|auto]. intros Hin. apply N1. apply in_map_iff in Hin as (x & Ex & Hx).
  destruct (less_in _ _ _ H Hx) as (y & Hy & Ly). apply in_map_iff. exists y. split; [|exact Hy].
  destruct Ly as (E & _), L as (E' & _). congruence.
Qed.

Definition less_task (t t' : task) : Prop := t_cfg t' = t_cfg t /\ less (t_stack t) (t_stack t').
Definition shrinks (w w' : world) : Prop :=
  Forall2 less_task (w_tasks w) (w_tasks w') /\ (w_uid w <= w_uid w')%nat.
Lemma less_task_refl t : less_task t t.
Proof. split; [reflexivity|apply less_refl]. Qed.
Lemma shrinks_frame w w' : w_tasks w' = w_tasks w -> (w_uid w <= w_uid w')%nat -> shrinks w w'.
Proof. intros E U. split; [rewrite E; clear E|exact U]. induction (w_tasks w); constructor; auto using less_task_refl. Qed.
Lemma shrinks_trans a b c : shrinks a b -> shrinks b c -> shrinks a c.
Proof.
  intros [H1 U1] [H2 U2]. split; [|lia]. revert H2. generalize (w_tasks c). induction H1 as [|t u ts us [E L] _ IH]; intros cs H2; inversion H2 as [|? x ? xs H3 H4]; subst; constructor; [|auto].
  destruct H3 as [E' L']. split; [congruence|eapply less_trans; eassumption].
Qed.
Lemma shrinks_map g w : (forall t, less_task t (g t)) -> shrinks w (set_tasks (map g (w_tasks w)) w).
Proof. intros H. split; [cbn|cbn; lia]. induction (w_tasks w); constructor; auto. Qed.
Lemma shrinks_on_task n g w : (forall t, less_task t (g t)) -> shrinks w (on_task n g w).
Proof. intros H. apply shrinks_map. intros t. destruct (_ =? _)%Z; auto using less_task_refl. Qed.
Lemma shrinks_on_run u g w : (forall r, later r (g r)) -> shrinks w (on_run u g w).
Proof.
  intros H. apply shrinks_map. intros t. split; [reflexivity|]. apply less_map. intros r. destruct (Nat.eqb _ _); auto using later_refl.
Qed.
Lemma less_same t t' : t_cfg t' = t_cfg t -> t_stack t' = t_stack t -> less_task t t'.
Proof. intros E S. split; [exact E|]. rewrite S. apply less_refl. Qed.
Lemma drop_first_less l l' : drop_first_exc l = Some l' -> less l l'.
Proof.
  revert l'; induction l as [|r l IH]; intros l' H; cbn in H; [discriminate|]. destruct (rn_exc r).
  - injection H as <-. apply less_drop. apply less_refl.
  - destruct (drop_first_exc l) as [l1|]; [|discriminate]. injection H as <-. apply less_keep; auto using later_refl.
Qed.
Lemma shrinks_calm A : calm A shrinks.
Proof.
  constructor; [constructor|]; intros; try (apply shrinks_frame; [reflexivity|cbn; lia]); try (apply shrinks_on_task; intros; apply less_same; reflexivity).
  - eapply shrinks_trans; eassumption.
  - apply shrinks_trans with (emit (EvRequest n p) w); [apply shrinks_frame; [reflexivity|cbn; lia]|].
    apply shrinks_on_task; intros; apply less_same; reflexivity.
  - apply shrinks_on_run. intros r. unfold begin_run, is_pending. destruct (rn_phase r) eqn:P; try apply later_refl.
    repeat split; auto. unfold live. now rewrite P.
  - apply shrinks_on_run. intros r. repeat split; auto. discriminate.
  - apply shrinks_on_run. intros r. repeat split; auto.
  - apply shrinks_on_run. intros r. repeat split; auto.
  - apply shrinks_on_task. intros t. split; [reflexivity|apply less_filter].
  - apply shrinks_on_task. intros t. unfold drop_exc. destruct (drop_first_exc (t_stack t)) eqn:D; [|apply less_task_refl].
    split; [reflexivity|]. now apply drop_first_less.
Qed.
Lemma shrinks_tracked w w' : shrinks w w' -> less (tracked w) (tracked w').
Proof.
  intros [H _]. unfold tracked. induction H as [|t u ts us [_ L] _ IH]; cbn; [constructor|]. now apply less_app.
Qed.
Lemma shrinks_names w w' : shrinks w w' -> map t_name (w_tasks w') = map t_name (w_tasks w).
Proof.
  intros [H _]. induction H as [|t u ts us [E _] _ IH]; cbn; [reflexivity|]. rewrite IH. unfold t_name. now rewrite E.
Qed.
Lemma shrinks_find n w w' t : shrinks w w' -> find_task n w = Some t -> exists t', find_task n w' = Some t' /\ less_task t t'.
Proof.
  intros [H _] F. unfold find_task in *. induction H as [|u u' ts us [E L] _ IH]; cbn in *; [discriminate|].
  replace (t_name u') with (t_name u) by (unfold t_name; now rewrite E). destruct (t_name u =? n)%Z; [|auto].
  injection F as <-. exists u'. split; [reflexivity|now split].
Qed.
Lemma shrinks_distinct w w' : shrinks w w' -> distinct_runs w -> distinct_runs w'.
Proof. intros H. apply less_nodup. now apply shrinks_tracked. Qed.
Lemma shrinks_live w w' u : shrinks w w' -> live_in w' u -> live_in w u.
Proof.
  intros H (r' & Hin & E & L). destruct (less_in _ _ _ (shrinks_tracked _ _ H) Hin) as (r & Hr & (E1 & _ & _ & _ & L1 & _)).
  exists r. split; [exact Hr|]. split; [congruence|auto].
Qed.
Lemma shrinks_stopped w w' u : shrinks w w' -> stopped w u -> stopped w' u.
Proof.
  intros H S r' Hin E. destruct (less_in _ _ _ (shrinks_tracked _ _ H) Hin) as (r & Hr & (E1 & E2 & _ & _ & L1 & L2)).
  destruct (S r Hr) as [D|[K P]]; [congruence| |].
  - left. destruct (live r') eqn:L; [|reflexivity]. rewrite L1 in D; [discriminate|reflexivity].
  - right. split; [congruence|auto].
Qed.

(** * Identities over a session *)
Definition fit_ids (w : world) : Prop :=
  distinct_names w /\ distinct_runs w /\ forall r, In r (tracked w) -> (rn_uid r < w_uid w)%nat.
Lemma shrinks_fit w w' : shrinks w w' -> fit_ids w -> fit_ids w'.
Proof.
  intros H (N & D & B). split; [unfold distinct_names; now rewrite (shrinks_names _ _ H)|]. split; [eapply shrinks_distinct; eassumption|].
  intros r' Hr'. destruct (less_in _ _ _ (shrinks_tracked _ _ H) Hr') as (r & Hr & (E & _)). specialize (B r Hr). destruct H as [_ U]. lia.
Qed.
Definition fresh_id (u : nat) (w : world) : Prop := (u < w_uid w)%nat /\ forall r, In r (tracked w) -> rn_uid r <> u.
Lemma shrinks_fresh u w w' : shrinks w w' -> fresh_id u w -> fresh_id u w'.
Proof.
  intros H (U & N). split; [destruct H as [_ H]; lia|]. intros r' Hr'.
  destruct (less_in _ _ _ (shrinks_tracked _ _ H) Hr') as (r & Hr & (E & _)). rewrite E. auto.
Qed.
Definition keeps_fit (w w' : world) : Prop := fit_ids w -> fit_ids w'.
Definition pushes_fit (u : nat) (w w' : world) : Prop := fresh_id u w -> fit_ids w -> fit_ids w'.
Lemma tracked_push n r w : distinct_names w -> forall t, find_task n w = Some t ->
  exists l1 l2, tracked w = l1 ++ l2 /\ tracked (on_task n (fun t => with_stack (t_stack t ++ [r]) t) w) = l1 ++ r :: l2.
Proof.
  unfold distinct_names, find_task, tracked, on_task. cbn [w_tasks set_tasks]. induction (w_tasks w) as [|a ts IH]; intros N t F; [discriminate|].
  cbn [map find] in *. inversion N as [|? ? N1 N2]; subst. destruct (Z.eqb_spec (t_name a) n) as [E|E].
  - exists (t_stack a), (concat (map t_stack ts)). split; [reflexivity|]. cbn. rewrite <- app_assoc. cbn. do 3 f_equal.
    rewrite map_map. apply map_ext_in. intros b Hb. destruct (Z.eqb_spec (t_name b) n) as [E'|]; [|reflexivity].
    destruct N1. rewrite E, <- E'. now apply in_map.
  - destruct (IH N2 t F) as (l1 & l2 & E1 & E2). exists (t_stack a ++ l1), l2. cbn. rewrite E1, E2. now rewrite !app_assoc.
Qed.
Lemma on_task_none n g w : find_task n w = None -> w_tasks (on_task n g w) = w_tasks w.
Proof.
  intros F. unfold on_task. cbn. rewrite <- (map_id (w_tasks w)) at 2. apply map_ext_in. intros t Ht.
  apply (find_none _ _ F) in Ht. cbn in Ht. now rewrite Ht.
Qed.
Lemma push_fit n u : push_rel shrinks (pushes_fit u) n (fun r => rn_uid r = u).
Proof.
  constructor.
  - intros a b H _. now apply shrinks_fit.
  - intros a b c H H1 Fr Fi. apply H1; [eapply shrinks_fresh|eapply shrinks_fit]; eassumption.
  - intros a b c H H1 Fr Fi. eapply shrinks_fit; [exact H1|auto].
  - intros w. apply shrinks_on_task. intros t. split; [reflexivity|apply less_filter].
  - intros r w E (U & Fr) (N & D & B). split; [|split].
    + unfold distinct_names, on_task. cbn. rewrite map_map. erewrite map_ext; [exact N|]. intros t. now destruct (_ =? _)%Z.
    + destruct (find_task n w) as [t|] eqn:F.
      * destruct (tracked_push n r w N t F) as (l1 & l2 & E1 & E2). unfold distinct_runs in *. rewrite E2. rewrite E1 in *.
        rewrite map_app in *. cbn. apply NoDup_Add with (a := rn_uid r) (l := map rn_uid l1 ++ map rn_uid l2); [apply Add_app|].
        split; [exact D|]. rewrite <- map_app. intros Hin. apply in_map_iff in Hin as (x & Ex & Hx). apply (Fr x Hx). congruence.
      * unfold distinct_runs, tracked. now rewrite (on_task_none n _ w F).
    + intros x Hx. change (w_uid (on_task n (fun t => with_stack (t_stack t ++ [r]) t) w)) with (w_uid w).
      unfold tracked, on_task in Hx. cbn in Hx. rewrite map_map in Hx. apply in_concat in Hx as (l & Hl & Hx).
      apply in_map_iff in Hl as (t & <- & Ht). assert (K : In x (t_stack t) \/ x = r).
      { destruct (_ =? _)%Z; [|now left]. cbn in Hx. apply in_app_or in Hx as [Hx|[<-|[]]]; auto. }
      destruct K as [K | ->]; [|lia]. apply B. apply in_concat. exists (t_stack t). split; [now apply in_map|exact K].
Qed.
Section Fit.
Context (orc : oracle) (cf : config).
Let HT : forall k m, In m (o_env orc k) -> all_moves m := fun _ _ _ => I.
Let C := shrinks_calm all_moves.
Lemma fit_start_rest fuel n x start uid : steps (pushes_fit uid) (start_rest orc fuel n x start uid).
Proof.
  pose proof (push_fit n uid) as P. unfold start_rest, finally. apply (steps_bind_r P).
  - apply steps_attempt. apply (steps_bind_l P).
    + st C; [|apply (steps_get_run_id C)]. unfold get_direct_params. st C. destruct (t_batches a1); st C; try (apply shrinks_frame; [reflexivity|cbn; lia]).
      apply shrinks_on_task; intros; now apply less_same.
    + intros [rid|e]; [|apply (steps_sub P), (steps_start_failed C)].
      apply (steps_bind_r P); [apply steps_attempt, (steps_launch C P _ HT); auto|].
      intros [?|e]; [st C|apply (steps_start_failed C)].
  - intros r. st C; [apply (sr_main _ _ _ _ P)|]. destruct r; st C.
Qed.
Lemma fit_guarded fuel n : steps keeps_fit (guarded orc cf fuel n).
Proof.
  assert (Cf : calm all_moves keeps_fit).
  { eapply calm_sub; [exact C| | |]; [intros w H; exact H|intros a b c H1 H2 H; auto|intros a b H; exact (shrinks_fit a b H)]. }
  unfold guarded. st Cf; [apply (steps_is_task_runnable Cf _ _ HT)|apply (steps_env Cf _ HT)|]. destruct a; st Cf.
  assert (S : steps keeps_fit (start_async orc cf fuel n)).
  { intros w. rewrite start_async_eq. destruct (find_task n w) as [t|]; [|intros H; exact H].
    intros H. apply (fit_start_rest fuel n (get_execution cf t) (w_clock w) (w_uid w)).
    - destruct H as (_ & _ & B). split; [cbn; lia|]. intros r Hr E. specialize (B r Hr). lia.
    - eapply shrinks_fit; [|exact H]. apply shrinks_frame; [reflexivity|cbn; lia]. }
  unfold run_task. st Cf; [exact S|]. destruct a as [?|[]]; st Cf; [destruct (cf_silence_prerun cf)|destruct (cf_silence_logging cf)]; st Cf.
Qed.
Lemma fit_respects : respects all_moves keeps_fit.
Proof.
  constructor; [eapply calm_sub; [exact C| | |]; [intros w H; exact H|intros a b c H1 H2 H; auto|intros a b H; exact (shrinks_fit a b H)]|intros..];
    match goal with |- keeps_fit ?a ?b => refine (shrinks_fit a b _) end; try (apply shrinks_frame; [reflexivity|cbn; lia]).
  exact (c_request _ _ C n [] w I).
Qed.
Lemma fit_serve fuel : steps keeps_fit (serve orc cf fuel).
Proof. apply (steps_serve fit_respects orc cf HT). intros; apply fit_guarded. Qed.
(** Runs begun in a session are told apart by their identity. *)
Lemma runs_distinct fuel w : distinct_names w -> no_runs w -> distinct_runs (fst (serve orc cf fuel w)).
Proof.
  intros N R. apply (fit_serve fuel w). unfold no_runs in R. split; [exact N|]. unfold distinct_runs. rewrite R.
  split; [constructor|]. intros r [].
Qed.
End Fit.
