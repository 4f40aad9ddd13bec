(** A task whose condition holds when the scheduler comes to it is run (C76). *)
From Coq Require Import Bool Arith Lia ZifyBool.
From Verif Require Import Model.Base Model.History Spec.HistorySpec Spec.SchedulerSpec Model.World Model.Run Model.Scheduler.
From Verif Require Import Spec.OnceSpec Spec.LiveSpec Proofs.WorldProofs Proofs.LimitProofs Proofs.EventProofs Proofs.PriorityProofs.
From Verif Require Import Proofs.DependProofs Proofs.StartProofs Proofs.CycleProofs Proofs.LiveSteps.
Open Scope Z_scope.

Lemma last_from_recorded l n a c : last_from_log l n a = Some c -> exists r, In r l /\ about n [a] r /\ r_created r = c.
Proof.
  unfold last_from_log. destruct (get_latest l n [a]) as [r|] eqn:E; [|discriminate]. intros H. injection H as <-.
  apply latest_spec in E. exists r. destruct E as (l1 & l2 & -> & A & _). split; [apply in_or_app; right; now left|]. now split.
Qed.

Section Live.
Context (orc : oracle) (cf : config) (me : Z) (time : nat -> Z).
Context (TG : time_goes_on orc time) (HW : always_written orc) (ND : never orc (MDisable me true)) (NH : never orc (MHold true)).

Record ext (w w' : world) : Prop := Ext {
  e_log : exists x, w_log w' = w_log w ++ x;
  e_clock : w_clock w <= w_clock w';
  e_tick : (w_tick w <= w_tick w')%nat;
  e_names : map t_name (w_tasks w') = map t_name (w_tasks w);
  e_task : forall t', In t' (w_tasks w') -> t_name t' = me -> exists t, In t (w_tasks w) /\ t_name t = me /\
    t_cfg t' = t_cfg t /\ (t_disabled t = false -> t_disabled t' = false);
  e_enabled : w_enabled w = true -> w_enabled w' = true;
  e_queue : In me (map t_name (w_tasks w)) -> forall q, In q (w_queue w) -> r_task (q_rec q) = me ->
    In q (w_queue w') \/ recorded_since w w' (q_rec q);
  e_trace : exists evs, happened w w' evs /\ w_tasks w' = tasks_after (w_tasks w) evs }.
Lemma tasks_after_app a b : forall ts, tasks_after ts (a ++ b) = tasks_after (tasks_after ts a) b.
Proof using Type. induction a as [|e a IH]; intros ts; [reflexivity|]. destruct e; apply IH. Qed.
Lemma quiet w w' : w_trace w' = w_trace w -> w_tasks w' = w_tasks w -> exists evs, happened w w' evs /\ w_tasks w' = tasks_after (w_tasks w) evs.
Proof using Type. intros T K. exists []. split; [exact T|exact K]. Qed.
Lemma told w w' evs : w_trace w' = EvState (w_tasks w') :: evs ++ w_trace w -> exists evs, happened w w' evs /\ w_tasks w' = tasks_after (w_tasks w) evs.
Proof using Type.
  intros T. exists (rev evs ++ [EvState (w_tasks w')]). split.
  - unfold happened. rewrite rev_app_distr, rev_involutive. exact T.
  - now rewrite tasks_after_app.
Qed.
Lemma ext_refl w : ext w w.
Proof using Type. constructor; auto; try lia; [exists []; now rewrite app_nil_r| |now apply quiet]. intros t H N. now exists t. Qed.
Lemma ext_trans a b c : ext a b -> ext b c -> ext a c.
Proof using Type.
  intros [(x & L1) C1 T1 N1 K1 E1 Q1 (u & V1 & S1)] [(y & L2) C2 T2 N2 K2 E2 Q2 (v & V2 & S2)]. constructor; auto; try lia; try congruence.
  - exists (x ++ y). now rewrite L2, L1, app_assoc.
  - intros t H N. destruct (K2 t H N) as (t1 & H1 & M1 & A1 & B1). destruct (K1 t1 H1 M1) as (t2 & H2 & M2 & A2 & B2).
    exists t2. repeat split; auto. congruence.
  - intros F q I M. destruct (Q1 F q I M) as [H|(n & E & H)].
    + rewrite <- N1 in F. destruct (Q2 F q H M) as [H'|(n & E & H')]; [now left|right]. exists (x ++ n). rewrite E, L1, app_assoc. split; [reflexivity|]. apply in_or_app. now right.
    + right. exists (n ++ y). rewrite L2, E, app_assoc. split; [reflexivity|]. apply in_or_app. now left.
  - exists (u ++ v). split; [|now rewrite tasks_after_app, <- S1]. unfold happened in *. rewrite V2, V1, rev_app_distr. now rewrite app_assoc.
Qed.

Definition timely (K : option Z) (w : world) : Prop :=
  match K with None => w_clock w <= time (w_tick w) | Some k => w_clock w <= k <= time (w_tick w) end.
Definition good (K : option Z) (w : world) : Prop := timely K w /\ cache_recorded me w.
Definition rel (K : option Z) (w w' : world) : Prop := good K w -> good K w' /\ ext w w'.

Lemma timely_more K w w' : w_clock w' = w_clock w -> (w_tick w <= w_tick w')%nat -> timely K w -> timely K w'.
Proof using TG. intros E T. destruct TG as [M _]. specialize (M _ _ T). unfold timely. destruct K; lia. Qed.
(** The tasks change one by one *)
Lemma rel_map K g w w' x : w_log w' = w_log w ++ x -> w_clock w' = w_clock w -> (w_tick w <= w_tick w')%nat -> w_tasks w' = map g (w_tasks w) ->
  (w_enabled w = true -> w_enabled w' = true) -> (forall t, t_name (g t) = t_name t) ->
  (forall t, t_name t = me -> t_cfg (g t) = t_cfg t /\ (t_disabled t = false -> t_disabled (g t) = false)) ->
  (forall t, In t (w_tasks w) -> t_name t = me -> forall a c, ts_last (t_state (g t)) a = Some c ->
     (exists u, In u (w_tasks w) /\ t_name u = me /\ ts_last (t_state u) a = Some c) \/
     exists r, In r (w_log w') /\ about me [a] r /\ r_created r = c) ->
  (In me (map t_name (w_tasks w)) -> forall q, In q (w_queue w) -> r_task (q_rec q) = me -> In q (w_queue w') \/ In (q_rec q) x) ->
  (exists evs, happened w w' evs /\ w_tasks w' = tasks_after (w_tasks w) evs) -> rel K w w'.
Proof using TG.
  intros L C T M E GN GC GS GQ GV [Gt Gc]. split; [split|].
  - now apply (timely_more K w).
  - intros t a c H N S. rewrite M in H. apply in_map_iff in H as (u & <- & H). rewrite GN in N.
    destruct (GS u H N a c S) as [(v & Hv & Nv & Sv)|R]; [|exact R]. destruct (Gc v a c Hv Nv Sv) as (r & Hr & A & B).
    exists r. split; [|now split]. rewrite L. apply in_or_app. now left.
  - constructor; auto; try lia.
    + now exists x.
    + rewrite M, map_map. now apply map_ext.
    + intros t H N. rewrite M in H. apply in_map_iff in H as (u & <- & H). rewrite GN in N. destruct (GC u N) as [A B]. now exists u.
    + intros F q I N. destruct (GQ F q I N) as [H|H]; [now left|right]. now exists x.
Qed.
Lemma rel_frame K w w' x : w_log w' = w_log w ++ x -> w_clock w' = w_clock w -> (w_tick w <= w_tick w')%nat -> w_tasks w' = w_tasks w ->
  (w_enabled w = true -> w_enabled w' = true) ->
  (In me (map t_name (w_tasks w)) -> forall q, In q (w_queue w) -> r_task (q_rec q) = me -> In q (w_queue w') \/ In (q_rec q) x) ->
  (exists evs, happened w w' evs /\ w_tasks w' = tasks_after (w_tasks w) evs) -> rel K w w'.
Proof using TG.
  intros L C T M E Q V. apply (rel_map K (fun t => t) w w' x); auto.
  - now rewrite map_id.
  - intros t H N a c S. left. now exists t.
Qed.
Lemma rel_still K w w' : w_log w' = w_log w -> w_clock w' = w_clock w -> (w_tick w <= w_tick w')%nat -> w_tasks w' = w_tasks w ->
  (w_enabled w = true -> w_enabled w' = true) -> (forall q, In q (w_queue w) -> In q (w_queue w')) -> w_trace w' = w_trace w -> rel K w w'.
Proof using TG.
  intros L C T M E Q V. apply (rel_frame K w w' []); auto; [now rewrite app_nil_r|now apply quiet].
Qed.
Lemma rel_on K n g w : (forall t, t_name (g t) = t_name t) -> (forall t, t_name t = me -> t_name t = n -> t_cfg (g t) = t_cfg t /\ (t_disabled t = false -> t_disabled (g t) = false)) ->
  (forall t, t_state (g t) = t_state t) -> rel K w (on_task n g w).
Proof using TG.
  intros GN GC GS. apply (rel_map K (fun t => if t_name t =? n then g t else t) w _ []); auto; try reflexivity.
  - cbn. now rewrite app_nil_r.
  - intros t. now destruct (t_name t =? n).
  - intros t N. destruct (Z.eqb_spec (t_name t) n); auto.
  - intros t H N a c S. left. exists t. split; [exact H|]. split; [exact N|]. destruct (t_name t =? n); [now rewrite GS in S|exact S].
  - now apply (told _ _ []).
Qed.
Lemma rel_run K u g w : rel K w (on_run u g w).
Proof using TG.
  unfold on_run. eapply (rel_map K _ w _ []); try reflexivity; auto.
  - cbn. now rewrite app_nil_r.
  - intros t H N a c S. left. exists t. auto.
  - now apply (told _ _ []).
Qed.
Lemma rel_write K n t st rs w w' : find_task n w = Some t -> writes n t st rs w w' ->
  (In me (map t_name (w_tasks w)) -> forall q, In q (w_queue w) -> r_task (q_rec q) = me -> In q (w_queue w') \/ In (q_rec q) rs) -> rel K w w'.
Proof using TG.
  intros F [Ll L M (evs & V) Ck Tk En] Q. apply find_some in F as [Ht Nt]. eapply (rel_map K _ w w' _ L Ck Tk M); [congruence| | | |exact Q|exact (told _ _ _ V)].
  - intros u. cbv beta. destruct (t_name u =? n); reflexivity.
  - intros u N. cbv beta. destruct (t_name u =? n); now split.
  - intros u Hu N a c S. cbv beta in S. destruct (Z.eqb_spec (t_name u) n) as [E|E]; [|left; now exists u].
    destruct (Ll a c S) as [S'|(r & I & A & B & D)]; [left; exists t; split; [exact Ht|]; split; [lia|exact S']|right].
    exists r. split; [exact I|]. split; [|exact D]. split; [congruence|now left].
Qed.
Lemma rel_base K : base (rel K).
Proof using TG.
  constructor; intros; try (apply rel_run); try (apply rel_on; [reflexivity|auto|reflexivity]);
    try (apply rel_still; cbn; auto; fail).
  - intros G. destruct (H G) as [G1 E1]. destruct (H0 G1) as [G2 E2]. split; [exact G2|now apply (ext_trans a b)].
  - apply (rel_write K n t st rs w w' H H0). rewrite H1. auto.
  - apply (rel_write K _ t st _ w w' H0 H1). rewrite H, H2. intros _ x [<- |I] _; [right; now left|now left].
  - apply (rel_frame K w _ []); [now rewrite app_nil_r|reflexivity|reflexivity|reflexivity|auto| |now apply quiet]. change (w_queue (set_queue rest w)) with rest. rewrite H. intros I x [<- |J] N; [|now left]. exfalso.
    rewrite N in H0. apply in_map_iff in I as (t & E & I). unfold find_task in H0. apply (find_none _ _ H0) in I. lia.
  - eapply (rel_frame K w _ [Rec n AFail (w_clock w) None]); [reflexivity|reflexivity|reflexivity|reflexivity|auto|auto|now apply quiet].
  - apply rel_still; cbn; auto. intros x I. apply in_or_app. now left.
  - apply rel_on; intros t; unfold drop_exc; destruct (drop_first_exc (t_stack t)); auto.
  - apply (rel_frame K w _ []); [now rewrite app_nil_r|reflexivity|reflexivity|reflexivity|auto|auto|]. exists [e]. split; [reflexivity|]. destruct e; try reflexivity. symmetry. now apply H.
Qed.

(** What others do meanwhile *)
Lemma rel_changes k m : In m (o_env orc k) -> changes m -> steps (rel (Some (time k))) (do_move orc m).
Proof using TG ND NH.
  intros I C w. destruct m; cbn [changes] in C; try contradiction; cbn [do_move].
  - unfold modify. cbn [fst]. intros [Gt Gc]. destruct TG as [_ TT]. pose proof (TT k t I) as ->. cbn [timely] in *. split; [split|].
    + cbn. lia.
    + exact Gc.
    + constructor; cbn; auto; try lia; [exists []; now rewrite app_nil_r| |exists []; split; reflexivity]. intros t H N. now exists t.
  - apply (b_trans _ (rel_base (Some (time k))) _ (emit (EvRequest name p) w)); [apply (b_ev _ (rel_base _)); discriminate|].
    apply (b_batches _ (rel_base (Some (time k))) name (fun t => t_batches t ++ [p])).
  - apply rel_on; auto.
  - apply rel_on; auto. intros t N E. split; [reflexivity|]. cbn. destruct b; [|auto]. exfalso. rewrite <- E, N in I. now apply (ND k).
  - destruct b; [now apply NH in I|]. apply rel_still; cbn; auto.
  - apply rel_still; cbn; auto.
  - apply rel_still; cbn; auto.
Qed.
Lemma rel_env : steps (rel None) (env orc).
Proof using TG HW ND NH.
  intros w. unfold env, mbind, ask. intros [Gt Gc]. destruct TG as [M _].
  pose proof (M (w_tick w) (S (w_tick w)) ltac:(lia)) as T. unfold timely in Gt.
  match goal with |- context [do_moves orc _ ?v] => set (w1 := v) end.
  assert (E1 : ext w w1). { constructor; cbn; auto; try lia; [exists []; now rewrite app_nil_r| |exists []; split; reflexivity]. intros t H N. now exists t. }
  assert (G1 : good (Some (time (w_tick w))) w1) by (split; [cbn; lia|exact Gc]).
  destruct (go_moves (rel_base (Some (time (w_tick w)))) orc HW (o_env orc (w_tick w)) (fun m I C => rel_changes (w_tick w) m I C) w1 G1) as [[G2 B2] E2].
  split; [split; [cbn in *; lia|exact B2]|]. exact (ext_trans _ _ _ E1 E2).
Qed.
Let C := rel_base None.
Let HE := rel_env.

(** * Starting is recorded *)
Context (HM : always_made orc).
Definition found (w : world) : Prop := exists t, find_task me w = Some t.
Lemma found_names w : found w <-> In me (map t_name (w_tasks w)).
Proof using Type.
  unfold found, find_task. split.
  - intros (t & H). apply find_some in H as [H E]. apply in_map_iff. exists t. split; [lia|exact H].
  - intros H. apply in_map_iff in H as (t & E & H). destruct (find _ (w_tasks w)) as [u|] eqn:F; [now exists u|].
    apply (find_none _ _ F) in H. lia.
Qed.
Lemma ext_found w w' : ext w w' -> found w -> found w'.
Proof using Type. intros E. rewrite !found_names. now rewrite (e_names _ _ E). Qed.
(** A run of [me] is recorded, or will be once the records of child processes are taken. *)
Definition coming (w w' : world) : Prop := exists r, (recorded_since w w' r \/ exists q, In q (w_queue w') /\ q_rec q = r) /\ run_record me r /\ w_clock w <= r_created r <= w_clock w'.
Lemma since_more a b c r : ext a b -> recorded_since b c r -> recorded_since a c r.
Proof using Type. intros E (new & L & I). destruct (e_log _ _ E) as (x & L'). exists (x ++ new). rewrite L, L', app_assoc. split; [reflexivity|]. apply in_or_app. now right. Qed.
Lemma since_on a b c r : recorded_since a b r -> ext b c -> recorded_since a c r.
Proof using Type. intros (new & L & I) E. destruct (e_log _ _ E) as (x & L'). exists (new ++ x). rewrite L', L, app_assoc. split; [reflexivity|]. apply in_or_app. now left. Qed.
Lemma coming_before a b c : ext a b -> coming b c -> coming a c.
Proof using Type. intros E (r & S & R & B). exists r. split; [destruct S as [S|S]; [left; eapply since_more; eassumption|now right]|]. split; [exact R|]. pose proof (e_clock _ _ E). lia. Qed.
Lemma coming_after a b c : ext a b -> found a -> coming a b -> ext b c -> coming a c.
Proof using Type.
  intros X F (r & S & R & B) E. exists r. split; [|split; [exact R|pose proof (e_clock _ _ E); lia]].
  destruct S as [S|(q & I & <-)]; [left; eapply since_on; eassumption|].
  apply (ext_found _ _ X), found_names in F. destruct (e_queue _ _ E F q I (proj1 R)) as [H|H]; [right; now exists q|left]. eapply since_more; eassumption.
Qed.

Definition notes {A} (m : M A) : Prop := forall w, good None w -> found w -> coming w (fst (m w)).
Definition gives {A} (Q : A -> Prop) (m : M A) : Prop := forall w, found w -> exists w' a, m w = (w', Returns a) /\ Q a.
Lemma notes_later {A B} Q (m : M A) (f : A -> M B) : steps (rel None) m -> gives Q m -> (forall a, Q a -> notes (f a)) -> notes (mbind m f).
Proof using Type.
  intros Hm Hg Hf w G F. destruct (Hg w F) as (w1 & a & E & Ha). specialize (Hm w G). unfold mbind. rewrite E in *. cbn [fst] in Hm.
  destruct Hm as [G1 E1]. apply (coming_before w w1); [exact E1|]. apply (Hf a Ha w1 G1). now apply (ext_found w).
Qed.
Lemma notes_first {A B} (m : M A) (f : A -> M B) : steps (rel None) m -> notes m -> (forall a, steps (rel None) (f a)) -> notes (mbind m f).
Proof using Type.
  intros Hs Hm Hf w G F. specialize (Hm w G F). specialize (Hs w G). unfold mbind. destruct (m w) as [w1 [a|e|]]; cbn [fst] in *; auto.
  destruct Hs as [G1 E1]. destruct (Hf a w1 G1) as [_ E2]. now apply (coming_after w w1).
Qed.
Lemma notes_attempt {A} (m : M A) : notes m -> notes (attempt m).
Proof using Type. intros H w G F. specialize (H w G F). unfold attempt. destruct (m w) as [w1 [a|e|]]; exact H. Qed.
Lemma notes_finally {A} (m : M A) f : steps (rel None) m -> notes m -> steps (rel None) f -> notes (finally m f).
Proof using TG.
  intros Hs Hm Hf. apply notes_first; [now apply go_attempt|now apply notes_attempt|]. intros r.
  apply (go_bind C); [exact Hf|]. intros _. destruct r; [apply (go_ret C)|apply (go_raise C)].
Qed.
Lemma notes_log rid v : notes (log_action orc false me ARun (Some rid) v).
Proof using HW.
  intros w G (t & F). unfold log_action. cbn [action_eqb andb]. unfold mbind at 1, set_status_m, mbind at 1, ask. fold (bump w). rewrite HW.
  unfold mbind at 1, get_task. change (find_task me (bump w)) with (find_task me w). rewrite F.
  exists (Rec me ARun (w_clock w) (Some rid)). split; [|split; [now split|cbn; lia]]. left. eexists. split; [reflexivity|now left].
Qed.
Lemma gives_modify f : gives (fun _ => True) (modify f).
Proof using Type. intros w _. now exists (f w), tt. Qed.
Lemma gives_get {A} (f : world -> A) : gives (fun _ => True) (get f).
Proof using Type. intros w _. now exists w, (f w). Qed.
Lemma notes_child rid v : notes (log_action orc true me ARun (Some rid) v).
Proof using Type.
  intros w _ _. unfold log_action. cbn [action_eqb andb]. unfold mbind, set_status_child, mbind, get, modify. cbn [fst].
  exists (Rec me ARun (w_clock w) (Some rid)). split; [right|split; [now split|cbn; lia]]. eexists. split; [apply in_or_app; right; left; reflexivity|reflexivity].
Qed.
Lemma notes_launch fuel x u s rid : notes (launch orc fuel x me u s rid).
Proof using TG HW ND NH HM.
  destruct x; cbn [launch].
  - apply (notes_later (fun _ => True)); [apply go_modify; intro; apply (b_orphans _ C)|apply gives_modify|intros _ _].
    apply (notes_later (fun _ => True)); [apply (go_push C)|apply gives_modify|intros _ _].
    apply notes_first; [apply (go_log_action C _ HW)|apply notes_log|intros _]. unfold run_setup.
    go C; [apply (b_orphans _ C)|exact HE|exact HE|apply (go_run_body C _ HW)].
  - apply (notes_later (fun _ => True)); [apply (go_push C)|apply gives_modify|intros _ _]. apply notes_log.
  - apply (notes_later (fun a => a = None)); [apply (go_ask C)| |intros ? ->].
    { intros w _. eexists _, _. split; [reflexivity|]. now destruct (HM (w_tick w)) as (-> & _). }
    apply (notes_later (fun _ => True)); [apply (go_ret C)|intros w _; now exists w, tt|intros _ _].
    apply (notes_later (fun a => a = None)); [apply (go_ask C)| |intros ? ->].
    { intros w _. eexists _, _. split; [reflexivity|]. now destruct (HM (w_tick w)) as (_ & _ & -> & _). }
    apply (notes_later (fun _ => True)); [apply (go_push C)|apply gives_modify|intros _ _]. intros w G F.
    match goal with |- coming w (fst ((modify ?f ;; r <- attempt ?m ;; @?k r) w)) =>
      replace ((modify f ;; r <- attempt m ;; k r) w) with ((r <- (modify f ;; attempt m) ;; k r) w); [apply (notes_first (modify f ;; attempt m) k)|] end.
    + intros w1. apply (thread_noted C _ HW).
    + intros w1 G1 (t1 & F1). unfold mbind at 1, modify. cbv beta iota. set (g := fun t : task => with_state _ t). unfold attempt, log_action. cbn [action_eqb andb].
      unfold mbind at 1, set_status_m, mbind at 1, ask. rewrite HW. unfold mbind at 1, get_task.
      match goal with |- context [find_task me ?v] => destruct (find_task me v) as [t2|] eqn:F2 end.
      2:{ exfalso. apply find_some in F1 as [I1 E1]. unfold find_task in F2. pose proof (find_none _ _ F2 (g t1)) as Z0. cbv beta in Z0.
          change (t_name (g t1)) with (t_name t1) in Z0. rewrite E1 in Z0. enough (true = false) by discriminate. apply Z0.
          change (In (g t1) (map (fun t => if t_name t =? me then g t else t) (w_tasks w1))). apply in_map_iff. exists t1. now rewrite E1. }
      exists (Rec me ARun (w_clock w1) (Some rid)). split; [|split; [now split|cbn; lia]]. left. eexists. split; [reflexivity|now left].
    + intros r. destruct r; go C; [apply (b_exc _ C)|apply (go_log_action C _ HW)|apply (b_over _ C)].
    + exact G.
    + exact F.
    + unfold mbind, modify. destruct (attempt _ _) as [? []]; reflexivity.
  - apply (notes_later (fun a => a = None)); [apply (go_ask C)| |intros ? ->].
    { intros w _. eexists _, _. split; [reflexivity|]. now destruct (HM (w_tick w)) as (-> & _). }
    apply (notes_later (fun _ => True)); [apply (go_ret C)|intros w _; now exists w, tt|intros _ _].
    apply (notes_later (fun a => a = None)); [apply (go_ask C)| |intros ? ->].
    { intros w _. eexists _, _. split; [reflexivity|]. now destruct (HM (w_tick w)) as (_ & _ & -> & _). }
    apply (notes_later (fun a => a = true)); [apply (go_ask C)| |intros ? ->].
    { intros w _. eexists _, _. split; [reflexivity|]. now destruct (HM (w_tick w)) as (_ & _ & _ & ->). }
    apply (notes_later (fun _ => True)); [apply (go_push C)|apply gives_modify|intros _ _].
    apply notes_first; [apply (go_log_action C _ HW)|apply notes_child|intros _]. apply (go_lock C _ HW HE).
Qed.
Lemma gives_made : gives (fun r => exists i, r = Ok i)
  (attempt (e <- ask (o_prep orc) ;; raise_if e ;; get_direct_params me ;; get_run_id orc)).
Proof using HM.
  intros w (t & F). unfold attempt, mbind at 1, ask. destruct (HM (w_tick w)) as (-> & _). cbn [raise_if]. unfold mbind at 1, ret.
  match goal with |- context [get_direct_params me] => idtac end. unfold mbind at 1, get_direct_params, mbind at 1, get_task.
  match goal with |- context [find_task me ?v] => change (find_task me v) with (find_task me w) end. rewrite F.
  unfold get_run_id, ask. destruct (t_batches t); unfold mbind, modify, ret; cbv beta iota zeta;
    match goal with |- context [o_run_id orc ?k] => destruct (HM k) as (_ & (i & ->) & _) end; eexists _, _; (split; [reflexivity|now exists i]).
Qed.
Lemma notes_start fuel w t : find_task me w = Some t -> good None w -> coming w (fst (start_async orc cf fuel me w)).
Proof using TG HW ND NH HM.
  intros F G. unfold start_async. unfold mbind at 1, get_task. rewrite F. cbv zeta. set (x := get_execution cf t) in *.
  match goal with |- coming w (fst (?m w)) => enough (notes m) as N by (apply N; [exact G|now exists t]) end.
  apply (notes_later (fun _ => True)); [apply (go_get C)|apply gives_get|intros s _].
  apply (notes_later (fun _ => True)); [apply (go_get C)|apply gives_get|intros u _].
  apply (notes_later (fun _ => True)); [apply go_modify; intros; apply (b_uid _ C)|apply gives_modify|intros _ _].
  apply (notes_later (fun _ => True)); [apply go_modify; intro; apply (b_ev _ C); discriminate|apply gives_modify|intros _ _].
  assert (S : forall rid, steps (rel None) (r <- attempt (launch orc fuel x me u s rid) ;; match r with Ok _ => ret tt | Err e => start_failed orc x me (Some rid) e end)).
  { intros rid. apply (go_bind C); [apply go_attempt, (go_launch C _ HW HE)|]. intros [?|e]; [go C|apply (go_start_failed C _ HW)]. }
  assert (S0 : steps (rel None) (attempt (e <- ask (o_prep orc) ;; raise_if e ;; get_direct_params me ;; get_run_id orc))).
  { go C; [apply (go_direct C)|apply (go_get_run_id C)]. }
  apply notes_finally; [apply (go_bind C); [exact S0|]; intros [rid|e]; [apply S|apply (go_start_failed C _ HW)]| |apply go_modify; intro; apply (b_main _ C)].
  apply (notes_later (fun r => exists i, r = Ok i)); [exact S0|apply gives_made|]. intros r (rid & ->).
  apply notes_first; [apply go_attempt, (go_launch C _ HW HE)|apply notes_attempt, notes_launch|]. intros [?|e]; [go C|apply (go_start_failed C _ HW)].
Qed.
Lemma notes_run_task fuel w t : find_task me w = Some t -> good None w -> coming w (fst (run_task orc cf fuel me w)).
Proof using TG HW ND NH HM.
  intros F G. pose proof (notes_start fuel w t F G) as N. unfold run_task, mbind, attempt.
  destruct (start_async orc cf fuel me w) as [w1 [a|e|]]; cbn [fst] in *; auto.
  destruct e; try exact N; [destruct (cf_silence_prerun cf)|destruct (cf_silence_logging cf)]; exact N.
Qed.

(** * The task's turn *)
Context (gate : HistorySpec.world -> Z -> bool) (FO : follows orc me gate).
Let HT : forall k m, In m (o_env orc k) -> all_moves m := fun _ _ _ => I.
Let CK := keeps_calm all_moves me.
Definition able (t : task) : Prop := cyclic_task t /\ tc_always_false (t_cfg t) = false /\
  (get_execution cf t = XMain \/ allow_multilaunch cf t = true \/ n_alive t = 0%nat).
Definition allowed (w : world) : Prop := (forall t, In t (w_tasks w) -> t_name t = me -> t_disabled t = false) /\ w_enabled w = true.
Lemma keeps_able t evs t' : keeps_task t evs t' -> able t -> able t'.
Proof using Type.
  intros [[Ec L] _] (Cy & A & F). unfold able, cyclic_task, get_execution, allow_multilaunch in *. rewrite Ec.
  split; [exact Cy|]. split; [exact A|]. destruct F as [F|[F|F]]; auto.
  right; right. unfold n_alive, cnt in *. destruct (t_name t =? 0); lia.
Qed.
Lemma allowed_on w w' : ext w w' -> allowed w -> allowed w'.
Proof using Type.
  intros E [D En]. split; [|now apply (e_enabled _ _ E)]. intros t H N. destruct (e_task _ _ E t H N) as (t0 & H0 & N0 & _ & K). auto.
Qed.
(** Both at once *)
Definition state (w : world) : Prop := good None w /\ allowed w /\ exists t, find_task me w = Some t /\ able t.
Definition moves_on (w w' : world) : Prop := state w -> state w' /\ ext w w'.
Lemma both {A} (m : M A) w w' r : steps (rel None) m -> steps (keeps me) m -> m w = (w', r) -> moves_on w w'.
Proof using Type.
  intros Hr Hk E (G & Al & t & F & T). specialize (Hr w G). specialize (Hk w). rewrite E in *. cbn [fst] in *. destruct Hr as [G1 E1].
  destruct Hk as (evs & _ & K). destruct (K t F) as (t1 & F1 & T1). split; [|exact E1]. split; [exact G1|]. split; [now apply (allowed_on w)|].
  exists t1. split; [exact F1|now apply (keeps_able t evs)].
Qed.
Lemma env_both w w' r : env orc w = (w', r) -> moves_on w w'.
Proof using TG HW ND NH. apply both; [exact HE|apply (steps_env CK _ HT)]. Qed.

Definition decided (w w' : world) (b : bool) : Prop := exists v tv, ext w v /\ good None v /\ find_task me v = Some tv /\ ext v w' /\
  (gate (t_state tv, w_log v) (w_clock v) = false \/ b = true).
(** No slot is free for another process. *)
Definition no_slot (w : world) : Prop := (exists t, find_task me w = Some t /\ get_execution cf t = XProcess) /\ cf_max_process cf <= total_processes (w_tasks w).
Lemma runnable_turn w w' b : state w -> is_task_runnable orc cf me w = (w', Returns b) -> (no_slot w \/ decided w w' b) /\ state w'.
Proof using TG HW ND NH FO.
  intros St H. assert (St' : state w').
  { refine (proj1 (both (is_task_runnable orc cf me) w w' _ _ _ H St)); [apply (go_is_task_runnable C _ _ HE)|apply (steps_is_task_runnable CK _ _ HT)]. }
  split; [|exact St']. pose proof St as (G & Al & t & F & T).
  unfold is_task_runnable in H. unfold mbind at 1, get_task in H. rewrite F in H. pose proof T as (Cy & Af & Idle).
  apply bind_returns in H as (w0 & free & E0 & H).
  assert (SL : no_slot w \/ w0 = w /\ free = true).
  { destruct (exec_eqb (get_execution cf t) XProcess) eqn:Ex.
    - unfold has_free_processors, mbind, get, ret in E0. injection E0 as <- <-. destruct (total_processes (w_tasks w) <? cf_max_process cf) eqn:Et; [now right|left].
      split; [|lia]. exists t. split; [exact F|]. now destruct (get_execution cf t).
    - unfold ret in E0. injection E0 as <- <-. now right. }
  destruct SL as [SL|[-> ->]]; [now left|right]. cbn [negb] in H.
  apply bind_returns in H as (w1 & [] & E1 & H). destruct (env_both w w1 _ E1 St) as [St1 X1].
  pose proof (steps_env CK orc HT w) as K1. rewrite E1 in K1. cbn [fst] in K1. destruct K1 as (ev1 & _ & K1). destruct (K1 t F) as (t1 & F1 & T1).
  unfold mbind at 1, get_task in H. rewrite F1 in H. rewrite <- (keeps_exec cf _ _ _ T1) in H.
  destruct (keeps_able t ev1 t1 T1 T) as (_ & _ & Idle1).
  assert (AL : negb (exec_eqb (get_execution cf t1) XMain) && negb (allow_multilaunch cf t1) && is_alive t1 = false).
  { destruct Idle1 as [->|[->|I1]]; [reflexivity|now rewrite andb_false_r|]. replace (is_alive t1) with false; [apply andb_false_r|].
    unfold is_alive, n_alive in *. symmetry. clear -I1. induction (t_stack t1) as [|r l IH]; [reflexivity|]. cbn in *. destruct (run_alive r); [discriminate|auto]. }
  rewrite AL in H. apply bind_returns in H as (w2 & [] & E2 & H). destruct (env_both w1 w2 _ E2 St1) as [St2 X2].
  destruct St2 as (G2 & Al2 & t2 & F2 & T2). exists w2, t2. split; [now apply (ext_trans w w1)|]. split; [exact G2|]. split; [exact F2|].
  split. { pose proof (go_check_task_cond C orc cf me w2 G2) as [_ X3]. rewrite H in X3. exact X3. }
  destruct (gate (t_state t2, w_log w2) (w_clock w2)) eqn:Eg; [right|now left].
  unfold check_task_cond, mbind at 1, attempt, is_runnable in H. unfold mbind at 1, get_task in H. rewrite F2 in H.
  destruct (t_batches t2) as [|x l]; [|cbn in H; unfold ret in H; now injection H].
  apply find_some in F2 as F2'. destruct F2' as [I2 N2]. rewrite (proj1 Al2 t2 I2 ltac:(lia)) in H. destruct T2 as (_ & Af2 & _). rewrite Af2 in H.
  unfold mbind, get, ask, ret in H. rewrite (FO _ _ _ F2 Eg) in H. now injection H.
Qed.
(** What the turn amounts to *)
Definition full_when_considered (w w' : world) : Prop := (exists t, In t (w_tasks w) /\ t_name t = me /\ executes cf t XProcess) /\
  exists before after, happened w w' (before ++ EvConsider me false :: after) /\
    cf_max_process cf <= Z.of_nat (length (live_process_runs (tasks_after (w_tasks w) before))).
Definition served_or_not (w w' : world) : Prop := full_when_considered w w' \/
  exists v tv, ext w v /\ good None v /\ find_task me v = Some tv /\ ext v w' /\
  (gate (t_state tv, w_log v) (w_clock v) = false \/ coming v w').
Lemma full_more w w0 w1 w' : ext w w0 -> full_when_considered w0 w1 -> ext w1 w' -> full_when_considered w w'.
Proof using Type.
  intros E1 ((t & I & N & X) & bf & af & H & L) E2. destruct (e_trace _ _ E1) as (u & U & S). destruct (e_trace _ _ E2) as (v & V & _). split.
  - destruct (e_task _ _ E1 t I N) as (t0 & I0 & N0 & K & _). exists t0. split; [exact I0|]. split; [exact N0|]. unfold executes in *. now rewrite <- K.
  - exists (u ++ bf), (af ++ v). split; [|now rewrite tasks_after_app, <- S]. unfold happened in *. rewrite V, H, U.
    rewrite <- !app_assoc. cbn [app]. rewrite !rev_app_distr. cbn [rev]. rewrite !rev_app_distr. repeat (rewrite <- ?app_assoc; cbn [app]). reflexivity.
Qed.
Lemma served_more w w0 w1 w' : ext w w0 -> served_or_not w0 w1 -> ext w1 w' -> served_or_not w w'.
Proof using Type.
  intros E1 [R|(v & tv & X1 & G & F & X2 & R)] E2; [left; now apply (full_more w w0 w1)|right].
  exists v, tv. split; [now apply (ext_trans w w0)|]. split; [exact G|]. split; [exact F|].
  split; [now apply (ext_trans v w1)|]. destruct R as [R|R]; [now left|right]. apply (coming_after v w1); auto. now exists tv.
Qed.
Lemma guarded_turn fuel w w' : state w -> guarded orc cf fuel me w = (w', Returns tt) -> no_slot w \/ served_or_not w w'.
Proof using TG HW ND NH FO HM.
  intros St H. unfold guarded in H. apply bind_returns in H as (w1 & b & E1 & H). destruct (runnable_turn w w1 b St E1) as [[SL|(v & tv & X1 & Gv & Fv & X2 & R)] St1]; [now left|right].
  apply bind_returns in H as (w2 & [] & E2 & H). destruct (env_both w1 w2 _ E2 St1) as [(G2 & Al2 & t2 & F2 & T2) X3].
  right. exists v, tv. split; [exact X1|]. split; [exact Gv|]. split; [exact Fv|].
  assert (X4 : ext v w2) by now apply (ext_trans v w1). destruct b.
  - pose proof (go_run_task C orc cf HW HE fuel me w2 G2) as [_ X5]. pose proof (notes_run_task fuel w2 t2 F2 G2) as N. rewrite H in *. cbn [fst] in *.
    split; [now apply (ext_trans v w2)|]. right. now apply (coming_before v w2).
  - unfold ret in H. injection H as <-. split; [exact X4|]. destruct R as [R|R]; [now left|discriminate R].
Qed.
Lemma cycle_task_turn fuel w w' : state w -> cycle_task orc cf fuel me w = (w', Returns tt) -> served_or_not w w'.
Proof using TG HW ND NH FO HM.
  intros St H. unfold cycle_task in H.
  apply bind_returns in H as (w1 & [] & E1 & H). destruct (env_both w w1 _ E1 St) as [St1 X1].
  apply bind_returns in H as (w2 & [] & E2 & H). destruct (both _ w1 w2 _ (go_handle_logs C orc cf HW HE fuel) (steps_handle_logs CK _ _ HT _) E2 St1) as [St2 X2].
  apply bind_returns in H as (w3 & [] & E3 & H). destruct (both _ w2 w3 _ (go_clean C cf me) (steps_clean CK _ _) E3 St2) as [St3 X3].
  apply bind_returns in H as (w4 & [] & E4 & H). destruct (env_both w3 w4 _ E4 St3) as [(G4 & Al4 & t4 & F4 & T4) X4].
  apply bind_returns in H as (w5 & t5 & E5 & H). apply get_task_returns in E5 as [-> F5]. rewrite F4 in F5. injection F5 as <-.
  destruct T4 as ([Cy1 Cy2] & T4'). rewrite Cy1, Cy2 in H. cbn [orb] in H.
  apply bind_returns in H as (w6 & [] & E6 & H).
  apply bind_returns in E6 as (w7 & en & E7 & E6). unfold get in E7. injection E7 as <- <-. rewrite (proj2 Al4) in E6. cbn [negb] in E6.
  apply bind_returns in E6 as (w8 & [] & E8 & E6). unfold modify in E8. injection E8 as <-.
  change (guarded orc cf fuel me (emit (EvConsider me false) w4) = (w6, Returns tt)) in E6.
  destruct (b_ev _ C (EvConsider me false) w4 ltac:(discriminate) G4) as [G5 X5].
  assert (St5 : state (emit (EvConsider me false) w4)) by (split; [exact G5|split; [exact Al4|exists t4; split; [exact F4|split; [now split|exact T4']]]]).
  assert (X6 : ext w (emit (EvConsider me false) w4)) by (repeat (eapply ext_trans; [eassumption|]); apply ext_refl).
  pose proof (go_guarded C orc cf HW HE fuel me _ G5) as [G6 _]. rewrite E6 in G6. cbn [fst] in G6.
  assert (X7 : ext w6 w').
  { enough (steps (rel None) (env orc ;; check_termination orc cf me)) as S by (specialize (S w6 G6); rewrite H in S; apply S).
    go C; [exact HE|apply (go_check_termination C _ _ HW HE)]. }
  destruct (guarded_turn fuel _ _ St5 E6) as [[(t & Ft & Xt) SL]|SV]; [left|exact (served_more w _ w6 w' X6 SV X7)].
  assert (X8 : ext w w4) by exact (ext_trans _ _ _ X1 (ext_trans _ _ _ X2 (ext_trans _ _ _ X3 X4))).
  pose proof (go_guarded C orc cf HW HE fuel me _ G5) as [_ X9]. rewrite E6 in X9. cbn [fst] in X9.
  apply (full_more w w4 w6 w' X8); [|exact X7]. destruct (e_trace _ _ X9) as (evs & V & _). split.
  - apply find_some in Ft as [It Nt]. exists t. split; [exact It|]. split; [lia|]. now apply exec_spec.
  - exists [], evs. split; [|cbn [tasks_after]; rewrite live_process_spec; exact SL]. unfold happened in *. rewrite V. cbn [app rev emit w_trace]. now rewrite <- app_assoc.
Qed.
Lemma for_each_turn fuel ns w w' : In me ns -> NoDup ns -> state w -> for_each (cycle_task orc cf fuel) ns w = (w', Returns tt) -> served_or_not w w'.
Proof using TG HW ND NH FO HM.
  revert w; induction ns as [|m ns IH]; intros w Hin U St H; [destruct Hin|]. cbn [for_each] in H.
  apply bind_returns in H as (w1 & [] & E1 & H). inversion U as [|? ? Hm U']; subst.
  assert (S1 := go_cycle_task C orc cf HW HE fuel m). destruct (Z.eq_dec m me) as [->|N].
  - pose proof (S1 w (proj1 St)) as [G1 _]. rewrite E1 in G1. cbn [fst] in G1.
    pose proof (go_for_each C (cycle_task orc cf fuel) ns (go_cycle_task C orc cf HW HE fuel) w1 G1) as [_ X2]. rewrite H in X2.
    exact (served_more w w w1 w' (ext_refl w) (cycle_task_turn fuel w w1 St E1) X2).
  - destruct Hin as [->|Hin]; [congruence|].
    destruct (both _ w w1 _ S1 (keeps_cycle_task orc cf me fuel m N) E1 St) as [St1 X1].
    exact (served_more w w1 w' w' X1 (IH w1 Hin U' St1 H) (ext_refl w')).
Qed.
(** All records of child processes are taken *)
Lemma logs_taken fuel w w' : handle_logs orc cf fuel w = (w', Returns tt) -> w_queue w' = [].
Proof using Type.
  revert w. induction fuel as [|fuel IH]; intros w H; cbn [handle_logs] in H; [discriminate H|].
  apply bind_returns in H as (w1 & [] & _ & H). apply bind_returns in H as (w2 & v & E & H). unfold get in E. injection E as <- <-.
  destruct (w_queue w1) as [|q rest] eqn:Q; [unfold ret in H; injection H as <-; exact Q|].
  apply bind_returns in H as (w3 & [] & _ & H). apply bind_returns in H as (w4 & t & _ & H). apply bind_returns in H as (w5 & [] & _ & H).
  apply bind_returns in H as (w6 & r & _ & H). apply bind_returns in H as (w7 & [] & _ & H). exact (IH w7 H).
Qed.
Definition settled (w w' : world) : Prop := full_when_considered w w' \/
  exists v tv, ext w v /\ good None v /\ find_task me v = Some tv /\ ext v w' /\
  (gate (t_state tv, w_log v) (w_clock v) = false \/ exists r, recorded_since v w' r /\ run_record me r /\ w_clock v <= r_created r <= w_clock w').
Lemma served_settled w w1 w' : served_or_not w w1 -> w_queue w1 = [] -> ext w1 w' -> settled w w'.
Proof using Type.
  intros [R|(v & tv & X1 & G & F & X2 & R)] Q E; [left; exact (full_more w w w1 w' (ext_refl w) R E)|right].
  exists v, tv. split; [exact X1|]. split; [exact G|]. split; [exact F|]. split; [now apply (ext_trans v w1)|].
  destruct R as [R|(r & [S|(q & I & _)] & Rr & B)]; [now left|right|rewrite Q in I; destruct I].
  exists r. split; [exact (since_on _ _ _ _ S E)|]. split; [exact Rr|]. pose proof (e_clock _ _ E). lia.
Qed.
Lemma cycle_turn fuel w w' : distinct_names w -> state w -> run_cycle orc cf fuel w = (w', Returns tt) -> settled w w'.
Proof using TG HW ND NH FO HM.
  intros U St H. unfold run_cycle in H.
  apply bind_returns in H as (w0 & ns & E0 & H). unfold tasks, get in E0. injection E0 as <- <-.
  apply bind_returns in H as (w1 & [] & E1 & H). unfold modify in E1. injection E1 as <-.
  apply bind_returns in H as (w2 & [] & E2 & H). apply bind_returns in H as (w3 & [] & E3 & H).
  destruct (b_ev _ C EvCycle w ltac:(discriminate) (proj1 St)) as [G1 X1].
  assert (St1 : state (emit EvCycle w)) by (destruct St as (_ & Al & t & F & T); split; [exact G1|split; [exact Al|now exists t]]).
  destruct (both _ _ w2 _ (go_hook C orc) (steps_hook CK orc) E2 St1) as [St2 X2].
  destruct (by_priority_spec (w_tasks w)) as [P _].
  assert (T3 : served_or_not w2 w3).
  { apply (for_each_turn fuel (map t_name (by_priority (w_tasks w)))).
    - rewrite <- P. destruct St as (_ & _ & t & F & _). apply find_some in F as [F E]. apply in_map_iff. exists t. split; [lia|exact F].
    - rewrite <- P. exact U.
    - exact St2.
    - exact E3. }
  pose proof (go_for_each C (cycle_task orc cf fuel) (map t_name (by_priority (w_tasks w))) (go_cycle_task C orc cf HW HE fuel) w2 (proj1 St2)) as [G3 _].
  rewrite E3 in G3. cbn [fst] in G3.
  apply bind_returns in H as (w4 & [] & E4 & H). pose proof (go_handle_logs C orc cf HW HE fuel w3 G3) as [G4 X4]. rewrite E4 in G4, X4. cbn [fst] in G4, X4.
  assert (X5 : ext w4 w').
  { match type of H with ?m w4 = _ => enough (steps (rel None) m) as S by (specialize (S w4 G4); rewrite H in S; apply S) end.
    go C; [apply (go_check_thread_errors C)|apply (go_hook C)|apply (b_cycles _ C)]. }
  exact (served_settled w w4 w' (served_more w w2 w3 w4 (ext_trans _ _ _ X1 X2) T3 X4) (logs_taken fuel w3 w4 E4) X5).
Qed.

(** * Cycles of a session *)
Lemma ready_state w : distinct_names w -> ready cf me w -> good None w -> state w.
Proof using Type.
  intros U (En & t & Ht & Nt & Cy & D & Af & Ms) G. pose proof (find_unique w me t U Ht Nt) as F.
  split; [exact G|]. split.
  - split; [|exact En]. intros u Hu Nu. pose proof (find_unique w me u U Hu Nu) as Fu. congruence.
  - exists t. split; [exact F|]. split; [exact Cy|]. split; [exact Af|]. now apply may_spec.
Qed.
Lemma cycle_of_good fuel w w1 w2 : good None w -> cycle_of orc cf fuel w w1 w2 ->
  good None w1 /\ ext w w1 /\ exists fuel', run_cycle orc cf fuel' w1 = (w2, Returns tt).
Proof using TG HW ND NH.
  intros G H. revert G. induction H as [fuel w wa w1 w2 E1 E2 _ _ E3|fuel w wa wb wc w1 w2 E1 E2 _ _ E3 _ IH]; intros G.
  - pose proof (go_check_shut_cond C orc w G) as [Ga Xa]. rewrite E1 in *. cbn [fst] in *. pose proof (HE wa Ga) as [G1 X1]. rewrite E2 in *. cbn [fst] in *.
    split; [exact G1|]. split; [now apply (ext_trans w wa)|]. now exists fuel.
  - pose proof (go_check_shut_cond C orc w G) as [Ga Xa]. rewrite E1 in *. cbn [fst] in *. pose proof (HE wa Ga) as [G1 X1]. rewrite E2 in *. cbn [fst] in *.
    pose proof (go_run_cycle C orc cf HW HE fuel wb G1) as [Gc Xc]. rewrite E3 in *. cbn [fst] in *. destruct (IH Gc) as (G2 & X2 & F).
    split; [exact G2|]. split; [|exact F]. repeat (eapply ext_trans; [eassumption|]). apply ext_refl.
Qed.
Lemma session_turn fuel w w1 w2 : distinct_names w -> w_clock w <= time (w_tick w) -> cache_recorded me w ->
  session_cycle orc cf fuel w w1 w2 -> ready cf me w1 -> ext w w1 /\ settled w1 w2.
Proof using TG HW ND NH FO HM.
  intros U T B (w0 & E0 & H) R. set (wf := set_flags true false false (w_force w) w) in *.
  assert (Gf : good None wf /\ ext w wf) by (apply (b_start _ C w); split; assumption). destruct Gf as [Gf Xf].
  pose proof (go_startup C orc cf HW HE fuel wf Gf) as [G0 X0]. rewrite E0 in *. cbn [fst] in *.
  destruct (cycle_of_good fuel w0 w1 w2 G0 H) as (G1 & X1 & fuel' & E1).
  assert (X : ext w w1) by (repeat (eapply ext_trans; [eassumption|]); apply ext_refl).
  split; [exact X|]. assert (U1 : distinct_names w1) by (unfold distinct_names; rewrite (e_names _ _ X); exact U).
  exact (cycle_turn fuel' w1 w2 U1 (ready_state w1 U1 R G1) E1).
Qed.
(** The rest of the session *)
Lemma rest_kept fuel w w1 w2 : good None w -> cycle_of orc cf fuel w w1 w2 -> ext w2 (fst (main_loop orc cf fuel w)).
Proof using TG HW ND NH.
  intros G H. revert G. induction H as [fuel w wa w1 w2 E1 E2 D1 D2 E3|fuel w wa wb wc w1 w2 E1 E2 D1 D2 E3 _ IH]; intros G.
  - pose proof (go_check_shut_cond C orc w G) as [Ga Xa]. rewrite E1 in *. cbn [fst] in *. pose proof (HE wa Ga) as [G1 X1]. rewrite E2 in *. cbn [fst] in *.
    pose proof (go_run_cycle C orc cf HW HE fuel w1 G1) as [Gc Xc]. rewrite E3 in *. cbn [fst] in *.
    cbn [main_loop]. unfold mbind, get. rewrite E1, E2, D1, D2, E3. apply (go_main_loop C orc cf HW HE fuel w2 Gc).
  - pose proof (go_check_shut_cond C orc w G) as [Ga Xa]. rewrite E1 in *. cbn [fst] in *. pose proof (HE wa Ga) as [G1 X1]. rewrite E2 in *. cbn [fst] in *.
    pose proof (go_run_cycle C orc cf HW HE fuel wb G1) as [Gc Xc]. rewrite E3 in *. cbn [fst] in *.
    cbn [main_loop]. unfold mbind, get. rewrite E1, E2, D1, D2, E3. exact (IH Gc).
Qed.
Lemma session_rest fuel w w1 w2 : w_clock w <= time (w_tick w) -> cache_recorded me w ->
  session_cycle orc cf fuel w w1 w2 -> ext w2 (fst (serve orc cf fuel w)).
Proof using TG HW ND NH.
  intros T B (w0 & E0 & H). unfold serve. unfold mbind at 1, modify. set (wf := set_flags true false false (w_force w) w) in *.
  assert (Gf : good None wf /\ ext w wf) by (apply (b_start _ C w); split; assumption). destruct Gf as [Gf Xf].
  pose proof (go_startup C orc cf HW HE fuel wf Gf) as [G0 X0]. rewrite E0 in *. cbn [fst] in *.
  pose proof (rest_kept fuel w0 w1 w2 G0 H) as X1. pose proof (go_main_loop C orc cf HW HE fuel w0 G0) as [G1 _].
  unfold mbind at 1, attempt. unfold mbind at 1. rewrite E0. destruct (main_loop orc cf fuel w0) as [w3 [a|e|]]; cbn [fst] in *; try exact X1.
  - match goal with |- ext w2 (fst (?m w3)) => enough (steps (rel None) m) as S by (apply (ext_trans _ _ _ X1), (S w3 G1)) end.
    go C. apply (go_shut_down C orc cf HW HE).
  - match goal with |- ext w2 (fst (?m w3)) => enough (steps (rel None) m) as S by (apply (ext_trans _ _ _ X1), (S w3 G1)) end.
    go C; [apply (go_shut_down C orc cf HW HE)|]. destruct e; go C.
Qed.
End Live.
