(** The run records of a task that is started by its condition alone (C75): each
    was decided when its condition held, knowing every earlier run. *)
From Coq Require Import Bool Arith Lia ZifyBool.
From Verif Require Import Model.Base Model.History Spec.HistorySpec Spec.SchedulerSpec Model.World Model.Run Model.Scheduler.
From Verif Require Import Spec.OnceSpec Proofs.WorldProofs.
Open Scope Z_scope.

Lemma app_eq_split {A} (a b c d : list A) : a ++ b = c ++ d ->
  (exists x, c = a ++ x /\ b = x ++ d) \/ (exists x, a = c ++ x /\ d = x ++ b).
Proof.
  revert c. induction a as [|h a IH]; intros c E; [left; now exists c|]. destruct c as [|h' c].
  - right. exists (h :: a). now split.
  - injection E as -> E. destruct (IH c E) as [(x & -> & ->)|(x & -> & ->)]; [left|right]; now exists x.
Qed.

Section Once.
Context (orc : oracle) (cf : config) (me : Z) (gate : HistorySpec.world -> Z -> bool) (time : nat -> Z) (l0 : log) (N0 : list Z).

Definition noted (st : tstate) (l : log) (d : Z) : Prop :=
  forall x, In x l -> run_record me x -> exists c, ts_last st ARun = Some c /\ r_created x <= c <= d.
Definition license (l : log) (d : Z) : Prop := exists st seen unseen, l = seen ++ unseen /\
  (forall x, In x unseen -> ~ run_record me x) /\ noted st seen d /\ runs_in_order me seen /\ gate (st, seen) d = true.
Definition justified (l : log) (r : record) : Prop := exists d, license l d /\ d <= r_created r.
Definition W (w : world) : Prop := every_new_run me l0 (w_log w) justified.
Definition names (w : world) : list Z := map t_name (w_tasks w).

Record core (w : world) : Prop := Core {
  co_W : W w;
  co_noted : forall t, In t (w_tasks w) -> t_name t = me -> noted (t_state t) (w_log w) (w_clock w);
  co_cached : forall t c, In t (w_tasks w) -> t_name t = me -> ts_last (t_state t) ARun = Some c -> c <= w_clock w;
  co_order : runs_in_order me (w_log w);
  co_found : In me (names w);
  co_all : names w = N0;
  co_names : forall q, In q (w_queue w) -> In (r_task (q_rec q)) (names w);
  co_task : forall t, In t (w_tasks w) -> t_name t = me -> t_batches t = [] /\ tc_always_false (t_cfg t) = false /\
    (get_execution cf t = XMain -> forall k, s_setup (o_script orc k) = None /\ tidy (o_script orc k)) }.

Definition no_run (q : qrec) : Prop := r_action (q_rec q) <> ARun.
(** The child that is starting, if any *)
Definition queue_is (pend : option record) (w : world) : Prop :=
  match pend with
  | None => Forall no_run (w_queue w)
  | Some r => r_action r = ARun /\ r_created r <= w_clock w /\ (r_task r = me -> justified (w_log w) r) /\
      exists q1 v q2, w_queue w = q1 ++ QRec r v :: q2 /\ Forall no_run q1 /\ Forall no_run q2
  end.
Definition Inv (lic : bool) (pend : option record) (K : Z) (w : world) : Prop :=
  core w /\ w_clock w <= K /\ K <= time (w_tick w) /\
  (lic = true -> exists d, license (w_log w) d /\ d <= w_clock w) /\ queue_is pend w.
Definition P (lic : bool) (pend : option record) (w : world) : Prop := exists K, Inv lic pend K w.

(** * Steps that start nothing of [me] *)
Record calm_step (w w' : world) : Prop := CalmStep {
  cs_log : exists rs, w_log w' = w_log w ++ rs /\ forall x, In x rs -> ~ run_record me x;
  cs_clock : w_clock w' = w_clock w;
  cs_tick : (w_tick w <= w_tick w')%nat;
  cs_names : names w' = names w;
  cs_task : forall t', In t' (w_tasks w') -> t_name t' = me -> exists t, In t (w_tasks w) /\ t_name t = me /\
    t_cfg t' = t_cfg t /\ t_batches t' = t_batches t;
  cs_state : forall t', In t' (w_tasks w') -> t_name t' = me ->
    ts_last (t_state t') ARun = Some (w_clock w) \/ ts_last (t_state t') ARun = last_from_log (w_log w) me ARun \/
    exists t, In t (w_tasks w) /\ t_name t = me /\ ts_last (t_state t') ARun = ts_last (t_state t) ARun;
  cs_queue : exists lq, w_queue w' = w_queue w ++ lq /\ Forall no_run lq /\ forall q, In q lq -> In (r_task (q_rec q)) (names w) }.

Lemma last_from_more l rs : (forall x, In x rs -> ~ run_record me x) -> last_from_log (l ++ rs) me ARun = last_from_log l me ARun.
Proof using Type.
  intros H. unfold last_from_log, get_latest, filter_by. rewrite filter_app.
  replace (filter _ rs) with (@nil record); [now rewrite app_nil_r|]. symmetry. induction rs as [|x rs IH]; [reflexivity|]. cbn [filter].
  destruct ((r_task x =? me) && action_in [ARun] x) eqn:E; [|apply IH; intros y Hy; apply H; now right].
  destruct (H x); [now left|]. apply andb_prop in E as [E1 E2]. split; [lia|]. unfold action_in in E2. cbn in E2.
  now destruct (r_action x).
Qed.
Lemma calm_refl w : calm_step w w.
Proof using Type.
  constructor; auto.
  - exists []. split; [now rewrite app_nil_r|intros x []].
  - intros t H N. now exists t.
  - intros t H N. right; right. now exists t.
  - exists []. split; [now rewrite app_nil_r|]. split; [constructor|intros q []].
Qed.
Lemma calm_trans a b c : calm_step a b -> calm_step b c -> calm_step a c.
Proof using Type.
  intros [(r1 & L1 & N1) C1 T1 M1 K1 S1 (q1 & Q1 & F1 & G1)] [(r2 & L2 & N2) C2 T2 M2 K2 S2 (q2 & Q2 & F2 & G2)]. constructor.
  - exists (r1 ++ r2). split; [rewrite L2, L1; symmetry; apply app_assoc|]. intros x H. apply in_app_or in H as [H|H]; auto.
  - congruence.
  - lia.
  - congruence.
  - intros t H N. destruct (K2 t H N) as (t1 & H1 & E1 & A1 & B1). destruct (K1 t1 H1 E1) as (t2 & H2 & E2 & A2 & B2).
    exists t2. split; [exact H2|]. split; [exact E2|]. split; congruence.
  - intros t H N. destruct (S2 t H N) as [E|[E|(t1 & H1 & E1 & A1)]].
    + left. congruence.
    + right; left. rewrite E, L1. now apply last_from_more.
    + rewrite A1. exact (S1 t1 H1 E1).
  - exists (q1 ++ q2). split; [rewrite Q2, Q1; symmetry; apply app_assoc|]. split; [now apply Forall_app|].
    intros q H. apply in_app_or in H as [H|H]; [auto|]. rewrite <- M1. auto.
Qed.
Lemma calm_frame w w' : w_log w' = w_log w -> w_clock w' = w_clock w -> (w_tick w <= w_tick w')%nat ->
  w_tasks w' = w_tasks w -> w_queue w' = w_queue w -> calm_step w w'.
Proof using Type.
  intros L C T K Q. constructor; auto.
  - exists []. split; [now rewrite app_nil_r|intros x []].
  - unfold names. now rewrite K.
  - rewrite K. intros t H N. now exists t.
  - rewrite K. intros t H N. right; right. now exists t.
  - exists []. split; [now rewrite app_nil_r|]. split; [constructor|intros q []].
Qed.
(** The tasks change, one by one *)
Lemma calm_map f w : (forall t, t_name (f t) = t_name t) ->
  (forall t, t_name t = me -> t_cfg (f t) = t_cfg t /\ t_batches (f t) = t_batches t /\
     (ts_last (t_state (f t)) ARun = ts_last (t_state t) ARun \/ ts_last (t_state (f t)) ARun = Some (w_clock w))) ->
  calm_step w (set_tasks (map f (w_tasks w)) w).
Proof using Type.
  intros FN FM. constructor; auto; try reflexivity.
  - exists []. split; [symmetry; apply app_nil_r|intros x []].
  - unfold names. cbn. rewrite map_map. apply map_ext. exact FN.
  - cbn. intros t' H N. apply in_map_iff in H as (t & <- & H). rewrite FN in N. exists t. destruct (FM t N) as (A & B & _). now repeat split.
  - cbn. intros t' H N. apply in_map_iff in H as (t & <- & H). rewrite FN in N. destruct (FM t N) as (_ & _ & [E|E]); [|now left].
    right; right. now exists t.
  - exists []. split; [symmetry; apply app_nil_r|]. split; [constructor|intros q []].
Qed.
Lemma calm_on_task n f w : (forall t, t_name (f t) = t_name t) ->
  (forall t, t_name t = me -> n = me -> t_cfg (f t) = t_cfg t /\ t_batches (f t) = t_batches t /\
     (ts_last (t_state (f t)) ARun = ts_last (t_state t) ARun \/ ts_last (t_state (f t)) ARun = Some (w_clock w))) ->
  calm_step w (on_task n f w).
Proof using Type.
  intros FN FM. apply calm_map.
  - intros t. destruct (_ =? _); auto.
  - intros t N. destruct (Z.eqb_spec (t_name t) n) as [E|E]; [apply FM; congruence|]. auto.
Qed.
Lemma calm_on_run u g w : calm_step w (on_run u g w).
Proof using Type. apply calm_map; [reflexivity|]. intros t _. repeat split. now left. Qed.
(** A status is written that is no run of [me] *)
Lemma calm_write n t st' rs w : find_task n w = Some t ->
  (n = me -> ts_last st' ARun = ts_last (t_state t) ARun \/ ts_last st' ARun = last_from_log (w_log w) me ARun) ->
  (forall x, In x rs -> ~ run_record me x) -> calm_step w (on_task n (with_state st') (set_log (w_log w ++ rs) (bump w))).
Proof using Type.
  intros F S N. apply find_some in F as [F E]. constructor; auto; try reflexivity.
  - exists rs. now split.
  - cbn. lia.
  - unfold names. cbn. rewrite map_map. apply map_ext. intros u. destruct (t_name u =? n); reflexivity.
  - cbn. intros t' H K. apply in_map_iff in H as (u & <- & H). exists u. split; [exact H|]. destruct (t_name u =? n); now repeat split.
  - cbn. intros t' H K. apply in_map_iff in H as (u & <- & H). destruct (Z.eqb_spec (t_name u) n) as [E1|E1].
    + change (t_name u = me) in K. assert (E2 : n = me) by congruence. right. destruct (S E2) as [S1|S1]; [|now left].
      right. exists t. split; [exact F|]. split; [lia|exact S1].
    + right; right. now exists u.
  - exists []. split; [symmetry; apply app_nil_r|]. split; [constructor|intros q []].
Qed.

(** * What calm steps keep *)
Lemma W_more w w' rs : W w -> w_log w' = w_log w ++ rs -> (forall x, In x rs -> ~ run_record me x) -> W w'.
Proof using Type.
  intros (new & E & H) L N. exists (new ++ rs). split; [rewrite L, E; symmetry; apply app_assoc|].
  intros pre r post Ep R. symmetry in Ep. apply app_eq_split in Ep as [(x & E1 & E2)|(x & E1 & E2)].
  - destruct x as [|y x].
    + rewrite app_nil_r in E1. apply (H pre r []); [|exact R]. subst new. cbn in E2. subst rs.
      destruct (N r); [now left|exact R].
    + injection E2 as <- E2. apply (H pre r x E1 R).
  - destruct (N r); [|exact R]. rewrite E2. apply in_or_app. right. now left.
Qed.
Lemma in_order_more l rs : runs_in_order me l -> (forall x, In x rs -> ~ run_record me x) -> runs_in_order me (l ++ rs).
Proof using Type.
  intros O N l1 a l2 b l3 E Ra Rb. symmetry in E. change (l1 ++ a :: l2 ++ b :: l3) with (l1 ++ (a :: l2) ++ b :: l3) in E.
  rewrite app_assoc in E. apply app_eq_split in E as [(x & E1 & E2)|(x & E1 & E2)].
  - destruct x as [|y x].
    + rewrite app_nil_r in E1. cbn in E2. subst rs. destruct (N b); [now left|exact Rb].
    + injection E2 as <- E2. apply (O l1 a l2 b x); [|exact Ra|exact Rb]. rewrite E1. rewrite <- app_assoc. reflexivity.
  - destruct (N b); [|exact Rb]. rewrite E2. apply in_or_app. right. now left.
Qed.
Lemma license_more l rs d : license l d -> (forall x, In x rs -> ~ run_record me x) -> license (l ++ rs) d.
Proof using Type.
  intros (st & seen & un & -> & U & N) H. exists st, seen, (un ++ rs). split; [symmetry; apply app_assoc|]. split; [|exact N].
  intros x Hx. apply in_app_or in Hx as [Hx|Hx]; auto.
Qed.
Lemma past w r : core w -> In r (w_log w) -> run_record me r -> r_created r <= w_clock w.
Proof using Type.
  intros C H R. pose proof (co_found w C) as F. apply in_map_iff in F as (t & E & Ht).
  destruct (co_noted w C t Ht E r H R) as (c & _ & B). lia.
Qed.
Lemma last_noted l clock : runs_in_order me l -> (forall r, In r l -> run_record me r -> r_created r <= clock) ->
  (forall x, In x l -> run_record me x -> exists c, last_from_log l me ARun = Some c /\ r_created x <= c <= clock) /\
  (forall c, last_from_log l me ARun = Some c -> c <= clock).
Proof using Type.
  revert clock. induction l as [|y l IH] using rev_ind; intros clock O B; [split; [intros x []|discriminate]|].
  assert (HL : last_from_log (l ++ [y]) me ARun = if (r_task y =? me) && action_in [ARun] y then Some (r_created y) else last_from_log l me ARun).
  { unfold last_from_log, get_latest, filter_by, last_of. rewrite filter_app. cbn [filter].
    destruct ((r_task y =? me) && action_in [ARun] y); [now rewrite rev_app_distr|now rewrite app_nil_r]. }
  rewrite HL. destruct ((r_task y =? me) && action_in [ARun] y) eqn:E.
  - assert (R : run_record me y).
    { apply andb_prop in E as [E1 E2]. split; [lia|]. unfold action_in in E2. cbn in E2. now destruct (r_action y). }
    assert (By : r_created y <= clock) by (apply B; [apply in_or_app; right; now left|exact R]).
    split; [|intros c H; injection H as <-; exact By]. intros x Hx Rx. exists (r_created y). split; [reflexivity|]. split; [|exact By].
    apply in_app_or in Hx as [Hx|[-> |[]]]; [|lia]. apply in_split in Hx as (l1 & l2 & ->).
    apply (O l1 x l2 y []); [now rewrite <- app_assoc|exact Rx|exact R].
  - assert (NR : forall x, In x [y] -> ~ run_record me x).
    { intros x [<- |[]] [R1 R2]. unfold action_in in E. rewrite R1, R2 in E. cbn in E. lia. }
    assert (O' : runs_in_order me l).
    { intros l1 a l2 b l3 El Ra Rb. apply (O l1 a l2 b (l3 ++ [y])); [|exact Ra|exact Rb]. rewrite El. rewrite <- app_assoc. cbn. now rewrite <- app_assoc. }
    destruct (IH clock O') as [IH1 IH2]; [intros r H R; apply B; [apply in_or_app; now left|exact R]|]. split; [|exact IH2].
    intros x Hx Rx. apply in_app_or in Hx as [Hx|[<- |[]]]; [now apply IH1|]. destruct (NR y); [now left|exact Rx].
Qed.
Lemma in_more l rs x : (forall x, In x rs -> ~ run_record me x) -> In x (l ++ rs) -> run_record me x -> In x l.
Proof using Type. intros N H R. apply in_app_or in H as [H|H]; [exact H|]. now destruct (N x H). Qed.
Lemma calm_core w w' : calm_step w w' -> core w -> core w'.
Proof using Type.
  intros [(rs & L & N) CK TK MK TT TS (lq & Q & FQ & GQ)] C.
  destruct (last_noted (w_log w) (w_clock w) (co_order w C) (fun r => past w r C)) as [LN LC]. constructor.
  - exact (W_more _ _ _ (co_W w C) L N).
  - intros t Ht Et x Hx Rx. rewrite L in Hx. apply in_more in Hx; [|exact N|exact Rx]. rewrite CK.
    destruct (TS t Ht Et) as [E|[E|(t0 & H0 & E0 & E)]]; rewrite E.
    + exists (w_clock w). split; [reflexivity|]. pose proof (past w x C Hx Rx). lia.
    + now apply LN.
    + exact (co_noted w C t0 H0 E0 x Hx Rx).
  - intros t c Ht Et Ec. rewrite CK. destruct (TS t Ht Et) as [E|[E|(t0 & H0 & E0 & E)]]; rewrite E in Ec.
    + injection Ec as <-. lia.
    + now apply LC.
    + exact (co_cached w C t0 c H0 E0 Ec).
  - rewrite L. apply in_order_more; [apply (co_order w C)|exact N].
  - rewrite MK. apply (co_found w C).
  - rewrite MK. apply (co_all w C).
  - intros q Hq. rewrite Q in Hq. rewrite MK. apply in_app_or in Hq as [Hq|Hq]; [apply (co_names w C q Hq)|auto].
  - intros t Ht Et. destruct (TT t Ht Et) as (t0 & H0 & E0 & A & B). destruct (co_task w C t0 H0 E0) as (X & Y & Z).
    rewrite A, B. split; [exact X|]. split; [exact Y|]. unfold get_execution in *. now rewrite A.
Qed.
Context (TG : time_goes_on orc time).
Lemma calm_inv lic pend K w w' : calm_step w w' -> Inv lic pend K w -> Inv lic pend K w'.
Proof using TG.
  intros S (C & B1 & B2 & L & Q). split; [exact (calm_core _ _ S C)|]. destruct S as [(rs & EL & N) CK TK MK _ _ (lq & EQ & FQ & GQ)].
  rewrite CK. split; [exact B1|]. split; [pose proof (proj1 TG _ _ TK); lia|]. split.
  - intros E. destruct (L E) as (d & Ld & Bd). exists d. split; [|exact Bd]. rewrite EL. now apply license_more.
  - destruct pend as [r|]; cbn in *.
    + destruct Q as (A & B & J & q1 & v & q2 & E & F1 & F2). rewrite CK. split; [exact A|]. split; [exact B|]. split.
      * intros Er. destruct (J Er) as (d & Ld & Bd). exists d. split; [|exact Bd]. rewrite EL. now apply license_more.
      * exists q1, v, (q2 ++ lq). rewrite EQ, E. split; [now rewrite <- app_assoc|]. split; [exact F1|]. now apply Forall_app.
    + rewrite EQ. now apply Forall_app.
Qed.
Lemma calm_P lic pend w w' : calm_step w w' -> P lic pend w -> P lic pend w'.
Proof using TG. intros S (K & H). exists K. exact (calm_inv _ _ _ _ _ S H). Qed.

(** * Functions made of calm steps.  [V]: tasks that exist *)
Definition walk (V : Z -> Prop) {A} (m : M A) : Prop := forall w, (forall n, V n -> In n (names w)) -> calm_step w (fst (m w)).
Lemma walk_ret V {A} (a : A) : walk V (ret a).
Proof using Type. intros w _. apply calm_refl. Qed.
Lemma walk_raise V {A} e : walk V (@raise A e).
Proof using Type. intros w _. apply calm_refl. Qed.
Lemma walk_get V {A} (f : world -> A) : walk V (get f).
Proof using Type. intros w _. apply calm_refl. Qed.
Lemma walk_get_task V n : walk V (get_task n).
Proof using Type. intros w _. unfold get_task. destruct (find_task n w); apply calm_refl. Qed.
Lemma walk_raise_if V e : walk V (raise_if e).
Proof using Type. destruct e; [apply walk_raise|apply walk_ret]. Qed.
Lemma walk_ask V {A} (f : nat -> A) : walk V (ask f).
Proof using Type. intros w _. apply calm_frame; try reflexivity. cbn. lia. Qed.
Lemma walk_bind V {A B} (m : M A) (f : A -> M B) : walk V m -> (forall a, walk V (f a)) -> walk V (mbind m f).
Proof using Type.
  intros Hm Hf w HV. specialize (Hm w HV). unfold mbind. destruct (m w) as [w' [a|e|]]; cbn [fst] in *; auto.
  apply (calm_trans _ _ _ Hm). apply Hf. intros n Hn. rewrite (cs_names _ _ Hm). auto.
Qed.
Lemma walk_attempt V {A} (m : M A) : walk V m -> walk V (attempt m).
Proof using Type. intros Hm w HV. specialize (Hm w HV). unfold attempt. destruct (m w) as [w' [a|e|]]; exact Hm. Qed.
Lemma walk_finally V {A} (m : M A) f : walk V m -> walk V f -> walk V (finally m f).
Proof using Type.
  intros Hm Hf. apply walk_bind; [apply walk_attempt, Hm|]. intros r. apply walk_bind; [exact Hf|].
  intros _. destruct r; [apply walk_ret|apply walk_raise].
Qed.
Lemma walk_modify V f : (forall w, calm_step w (f w)) -> walk V (modify f).
Proof using Type. intros H w _; apply H. Qed.
Lemma walk_with (V : Z -> Prop) {A B} (f : world -> A) (k : A -> M B) :
  (forall w, (forall n, V n -> In n (names w)) -> calm_step w (fst (k (f w) w))) -> walk V (mbind (get f) k).
Proof using Type. intros H w HV. unfold mbind, get. now apply H. Qed.
Lemma walk_weaken (V V' : Z -> Prop) {A} (m : M A) : (forall n, V n -> V' n) -> walk V m -> walk V' m.
Proof using Type. intros H K w HV. apply K. auto. Qed.
Ltac frame := apply calm_frame; [reflexivity|reflexivity|cbn; lia|reflexivity|reflexivity].
Ltac wk :=
  repeat lazymatch goal with
    | |- walk _ (ret _) => apply walk_ret
    | |- walk _ (raise _) => apply walk_raise
    | |- walk _ (get _) => apply walk_get
    | |- walk _ (get_task _) => apply walk_get_task
    | |- walk _ (raise_if _) => apply walk_raise_if
    | |- walk _ (ask _) => apply walk_ask
    | |- walk _ (mbind _ _) => apply walk_bind; [|intro]
    | |- walk _ (attempt _) => apply walk_attempt
    | |- walk _ (finally _ _) => apply walk_finally
    | |- walk _ (modify _) => apply walk_modify; intro
    end.

(** Writing a status *)
Definition writing (n : Z) (f : tstate -> log -> Z -> bool -> tstate * log * result unit) : M unit :=
  ok <- ask (o_write orc) ;; t <- get_task n ;; w <- get (fun w => w) ;;
    let '(st, l, r) := f (t_state t) (w_log w) (w_clock w) ok in
    modify (set_log l) ;; modify (on_task n (with_state st)) ;;
    match r with Ok tt => ret tt | Err e => raise e end.
Lemma writing_eq n f w t st l r : find_task n w = Some t ->
  f (t_state t) (w_log w) (w_clock w) (o_write orc (w_tick w)) = (st, l, r) ->
  writing n f w = (on_task n (with_state st) (set_log l (bump w)), match r with Ok _ => Returns tt | Err e => Raises e end).
Proof using Type.
  intros F E. unfold writing, mbind at 1, ask. fold (bump w). unfold mbind at 1, get_task. change (find_task n (bump w)) with (find_task n w).
  rewrite F. unfold mbind at 1, get. change (w_log (bump w)) with (w_log w). change (w_clock (bump w)) with (w_clock w). rewrite E.
  unfold mbind, modify. destruct r as [[]|e]; reflexivity.
Qed.
Lemma writing_none n f w : find_task n w = None -> writing n f w = (bump w, Raises KeyError).
Proof using Type.
  intros F. unfold writing, mbind at 1, ask. fold (bump w). unfold mbind at 1, get_task. change (find_task n (bump w)) with (find_task n w). now rewrite F.
Qed.
Lemma calm_bump w : calm_step w (bump w).
Proof using Type. frame. Qed.
(** What the status functions write when it is no run of [me] *)
Definition mild (n : Z) (f : tstate -> log -> Z -> bool -> tstate * log * result unit) : Prop :=
  forall st l c ok st' l' r, f st l c ok = (st', l', r) -> exists rs, l' = l ++ rs /\ (forall x, In x rs -> ~ run_record me x) /\
    (n = me -> ts_last st' ARun = ts_last st ARun \/ ts_last st' ARun = last_from_log l me ARun).
Lemma walk_writing V n f : mild n f -> walk V (writing n f).
Proof using Type.
  intros H w _. destruct (find_task n w) as [t|] eqn:F; [|rewrite writing_none by exact F; apply calm_bump].
  destruct (f (t_state t) (w_log w) (w_clock w) (o_write orc (w_tick w))) as [[st l] r] eqn:E. rewrite (writing_eq n f w t st l r F E).
  destruct (H _ _ _ _ _ _ _ E) as (rs & -> & N & S). now apply calm_write with t.
Qed.
Lemma mild_status n a c rid : (a = ARun -> n <> me) -> mild n (fun st l t ok => set_status st l n a (c t) (c t) rid ok).
Proof using Type.
  intros H st l t ok st' l' r E. unfold set_status in E. destruct ok; [|destruct (action_eqb a ARun) eqn:Ea]; inversion E; subst; clear E.
  - eexists. split; [reflexivity|]. split.
    + intros x [<- |[]] [R1 R2]. cbn in *. now apply H.
    + intros ->. left. destruct a; try reflexivity. now destruct H.
  - exists []. split; [now rewrite app_nil_r|]. split; [intros x []|]. intros ->. destruct a; try discriminate. now destruct H.
  - exists []. split; [now rewrite app_nil_r|]. split; [intros x []|]. intros _. now left.
Qed.
Lemma mild_cached n : mild n (fun st l t ok => set_cached st l n t t ok).
Proof using Type.
  intros st l t ok st' l' r E. unfold set_cached in E.
  destruct (max_action (fun a => last_from_log l n a) cached_order None) as [[[] m]|] eqn:Em; try (inversion E; subst; clear E;
    exists []; split; [now rewrite app_nil_r|]; split; [intros x []|]; intros ->; right; reflexivity).
  unfold set_status in E. destruct ok; cbn [action_eqb] in E; inversion E; subst; clear E.
  - eexists. split; [reflexivity|]. split; [intros x [<- |[]] [_ R]; discriminate R|]. intros ->. now right.
  - exists []. split; [now rewrite app_nil_r|]. split; [intros x []|]. intros ->. now right.
Qed.
Lemma walk_set_status V n a rid : (a = ARun -> n <> me) -> walk V (set_status_m orc n a rid).
Proof using Type. intros H. apply (walk_writing V n (fun st l t ok => set_status st l n a t t rid ok)). now apply (mild_status n a (fun t => t) rid). Qed.
Lemma walk_log_record V q : (r_action (q_rec q) = ARun -> r_task (q_rec q) <> me) -> walk V (log_record_m orc q).
Proof using Type.
  intros H. apply (walk_writing V (r_task (q_rec q))
    (fun st l t ok => log_record st l (r_task (q_rec q)) (r_action (q_rec q)) (r_created (q_rec q)) (r_run_id (q_rec q)) ok)).
  exact (mild_status (r_task (q_rec q)) (r_action (q_rec q)) (fun _ => r_created (q_rec q)) (r_run_id (q_rec q)) H).
Qed.
Lemma walk_set_cached V n : walk V (set_cached_m orc n).
Proof using Type. apply (walk_writing V n (fun st l t ok => set_cached st l n t t ok)). apply mild_cached. Qed.
Lemma calm_send n a c rid v w : In n (names w) -> a <> ARun -> calm_step w (set_queue (w_queue w ++ [QRec (Rec n a c rid) v]) w).
Proof using Type.
  intros H N. constructor; auto; try reflexivity.
  - exists []. split; [symmetry; apply app_nil_r|intros x []].
  - intros t Ht Et. now exists t.
  - intros t Ht Et. right; right. now exists t.
  - eexists. split; [reflexivity|]. split; [constructor; [exact N|constructor]|]. intros q [<- |[]]. exact H.
Qed.
Lemma walk_child (V : Z -> Prop) n a rid v : V n -> a <> ARun -> walk V (set_status_child n a rid v).
Proof using Type. intros H N. apply walk_with. intros w HV. apply calm_send; auto. Qed.
Lemma calm_term n b w : calm_step w (on_task n (with_term b) w).
Proof using Type. apply calm_on_task; [reflexivity|]. intros t _ _. repeat split. now left. Qed.
Lemma walk_log_action (V : Z -> Prop) ch n a rid v : (ch = true -> V n) -> a <> ARun -> walk V (log_action orc ch n a rid v).
Proof using Type.
  intros H N. unfold log_action. wk.
  - destruct ch; [apply walk_child; auto|apply walk_set_status; congruence].
  - destruct (_ && _); wk. apply calm_term.
Qed.
Lemma walk_log_other V n a rid v : n <> me -> walk V (log_action orc false n a rid v).
Proof using Type.
  intros H. unfold log_action. wk; [now apply walk_set_status|]. destruct (_ && _); wk. apply calm_term.
Qed.
Lemma walk_return V n v : walk V (handle_return n v).
Proof using Type. unfold handle_return. wk. frame. Qed.
Lemma walk_run_body (V : Z -> Prop) ch x n rid s : (ch = true -> V n) -> walk V (run_body orc ch x n rid s).
Proof using Type.
  intros H. unfold run_body. apply walk_finally; [|wk].
  destruct (s_exec s) as [e|].
  - assert (F : walk V (match s_failure s with
             | Some CancelledError => raise CancelledError
             | _ => log_action orc ch n AFail rid 0 ;; match x with None => raise e | Some _ => ret tt end
             end)).
    { destruct (s_failure s) as [[]|]; wk; try (apply walk_log_action; [exact H|discriminate]); destruct x; wk. }
    destruct e; try exact F; wk; apply walk_log_action; first [exact H|discriminate].
  - wk; [destruct ch; wk; apply walk_return|]. apply walk_log_action; [exact H|discriminate].
Qed.
Lemma walk_run_as_async (V : Z -> Prop) ch x n rid s : (ch = true -> V n) -> walk V (run_as_async orc ch x n rid s).
Proof using Type. intros H. unfold run_as_async, run_setup. wk. now apply walk_run_body. Qed.
Lemma walk_thread_code V n u rid s : walk V (thread_code orc n u rid s).
Proof using Type.
  unfold thread_code. wk; [now apply walk_run_as_async|]. destruct a as [[]|e]; wk. destruct (is_exception e); wk.
  - apply walk_log_action; discriminate.
  - destruct a as [[]|[]]; wk. apply calm_on_run.
Qed.
Lemma walk_process_code (V : Z -> Prop) n rid s : V n -> walk V (process_code orc n rid s).
Proof using Type.
  intros H. unfold process_code. wk; [now apply walk_run_as_async|]. destruct a as [[]|e]; wk. destruct (is_exception e); wk.
  now apply walk_log_action.
Qed.
Lemma walk_end_coroutine V u m : walk V m -> walk V (end_coroutine u m).
Proof using Type. intros H. unfold end_coroutine. wk; [exact H|apply calm_on_run]. Qed.
Lemma walk_enter V u s : walk V (enter u s).
Proof using Type. unfold enter, run_setup. wk. destruct a; wk; apply calm_on_run. Qed.
Lemma found_named u w t r : find_run u w = Some (t, r) -> In (t_name t) (names w).
Proof using Type.
  unfold find_run, task_of_run. destruct (find _ (w_tasks w)) as [t0|] eqn:E; [|discriminate]. cbn.
  destruct (find _ (t_stack t0)) as [r0|]; [|discriminate]. intros H. injection H as <- _. apply find_some in E as [E _]. now apply in_map.
Qed.

(** * The outside *)
Definition keeps (Q : world -> Prop) {A} (m : M A) : Prop := forall w, Q w ->
  match m w with (w', OutOfFuel) => W w' | (w', _) => Q w' end.
Definition closed (Q : world -> Prop) : Prop := (forall w, Q w -> W w) /\ (forall w w', calm_step w w' -> Q w -> Q w').
Lemma closed_inv lic pend K : closed (Inv lic pend K).
Proof using TG. split; [intros w (C & _); apply (co_W w C)|]. intros w w'. apply calm_inv. Qed.
Lemma closed_P lic pend : closed (P lic pend).
Proof using TG. split; [intros w (K & C & _); apply (co_W w C)|]. intros w w'. apply calm_P. Qed.
Lemma walk_keeps Q {A} (m : M A) : closed Q -> walk (fun _ => False) m -> keeps Q m.
Proof using Type.
  intros [C1 C2] H w Hw. specialize (H w ltac:(intros n [])). destruct (m w) as [w' [a|e|]]; cbn [fst] in H; [| |apply C1]; now apply (C2 w).
Qed.
Lemma keeps_bind Q {A B} (m : M A) (f : A -> M B) : keeps Q m -> (forall a, keeps Q (f a)) -> keeps Q (mbind m f).
Proof using Type. intros Hm Hf w Hw. specialize (Hm w Hw). unfold mbind. destruct (m w) as [w' [a|e|]]; auto. now apply Hf. Qed.
Lemma keeps_attempt Q {A} (m : M A) : keeps Q m -> keeps Q (attempt m).
Proof using Type. intros Hm w Hw. specialize (Hm w Hw). unfold attempt. destruct (m w) as [w' [a|e|]]; exact Hm. Qed.
Lemma keeps_finally Q {A} (m : M A) f : closed Q -> keeps Q m -> keeps Q f -> keeps Q (finally m f).
Proof using Type.
  intros C Hm Hf. apply keeps_bind; [apply keeps_attempt, Hm|]. intros r. apply keeps_bind; [exact Hf|].
  intros _. destruct r; apply walk_keeps; auto; wk.
Qed.
Lemma keeps_with (Q : world -> Prop) {A B} (f : world -> A) (k : A -> M B) :
  (forall w, Q w -> match k (f w) w with (w', OutOfFuel) => W w' | (w', _) => Q w' end) -> keeps Q (mbind (get f) k).
Proof using Type. intros H w Hw. unfold mbind, get. now apply H. Qed.

Context (NM : forall k p, ~ In (MRequest me p) (o_env orc k)).
Lemma keeps_move lic pend K m : (forall t, m = MClock t -> t = K) -> (forall p, m <> MRequest me p) -> keeps (Inv lic pend K) (do_move orc m).
Proof using TG.
  intros HC HR. pose proof (closed_inv lic pend K) as CL.
  destruct m; cbn [do_move]; [|apply walk_keeps; [exact CL|]..].
  - rewrite (HC t eq_refl). intros w (C & B1 & B2 & L & Q). cbn. split; [|split; [cbn; lia|split; [exact B2|split]]].
    + destruct C as [X1 X2 X3 X4 X5 X6 X7 X8]. constructor; auto.
      * intros t0 Ht Et x Hx Rx. destruct (X2 t0 Ht Et x Hx Rx) as (c & Ec & Bc). exists c. split; [exact Ec|]. cbn. lia.
      * intros t0 c Ht Et Ec. pose proof (X3 t0 c Ht Et Ec). cbn. lia.
    + intros E. destruct (L E) as (d & Ld & Bd). exists d. split; [exact Ld|]. cbn. lia.
    + destruct pend as [r|]; [|exact Q]. destruct Q as (A & B & J). split; [exact A|]. split; [cbn; lia|exact J].
  - wk; [frame|]. apply calm_on_task; [reflexivity|]. intros t _ E. destruct (HR p). now rewrite E.
  - wk. apply calm_term.
  - wk. apply calm_on_task; [reflexivity|]. intros t _ _. repeat split. now left.
  - wk. frame.
  - wk. frame.
  - wk. frame.
  - wk. destruct (find_run uid a) as [[t r]|]; wk. destruct (_ && _); wk. apply walk_enter.
  - wk. destruct (find_run uid a) as [[t r]|]; wk. destruct (_ && _); wk. apply walk_end_coroutine. now apply walk_run_body.
  - wk. destruct (w_orphans a) as [|[n r] o]; wk; [frame|]. now apply walk_run_as_async.
  - wk. destruct (find_run uid a) as [[t r]|]; wk. destruct (_ && _); wk. apply walk_end_coroutine, walk_thread_code.
  - apply walk_with. intros w _. destruct (find_run uid w) as [[t r]|] eqn:F; [|apply calm_refl]. destruct (_ && _); [|apply calm_refl].
    apply (walk_end_coroutine (fun n => n = t_name t)); [now apply walk_process_code|]. intros n ->. exact (found_named _ _ _ _ F).
  - wk. destruct (find_run uid a) as [[t r]|]; wk. destruct (_ && _); wk. apply calm_on_run.
Qed.
Lemma keeps_moves lic pend K ms : (forall m, In m ms -> (forall t, m = MClock t -> t = K) /\ (forall p, m <> MRequest me p)) ->
  keeps (Inv lic pend K) (do_moves orc ms).
Proof using TG.
  induction ms as [|m ms IH]; intros H; cbn [do_moves]; [apply walk_keeps; [apply closed_inv|wk]|].
  apply keeps_bind; [apply keeps_attempt|intros _; apply IH; intros m' Hm'; apply H; now right].
  destruct (H m (or_introl eq_refl)) as [H1 H2]. now apply keeps_move.
Qed.
Lemma keeps_env lic pend : keeps (P lic pend) (env orc).
Proof using TG NM.
  intros w (K & H). unfold env, mbind, ask. fold (bump w).
  assert (HI : Inv lic pend (time (w_tick w)) (bump w)).
  { destruct (calm_inv _ _ _ _ _ (calm_bump w) H) as (C & B1 & B2 & R). split; [exact C|].
    destruct H as (_ & _ & B3 & _). split; [lia|]. split; [|exact R]. apply (proj1 TG). cbn. lia. }
  pose proof (keeps_moves lic pend (time (w_tick w)) (o_env orc (w_tick w))) as KM.
  assert (HM : forall m, In m (o_env orc (w_tick w)) -> (forall t, m = MClock t -> t = time (w_tick w)) /\ (forall p, m <> MRequest me p)).
  { intros m Hm. split; [intros t ->; exact (proj2 TG _ _ Hm)|]. intros p ->. exact (NM _ _ Hm). }
  specialize (KM HM (bump w) HI). destruct (do_moves orc _ (bump w)) as [w' [a|e|]]; [exists (time (w_tick w)); exact KM|exists (time (w_tick w)); exact KM|exact KM].
Qed.
Lemma env_returns w w' e : env orc w = (w', Raises e) -> False.
Proof using Type.
  unfold env, mbind, ask. generalize (o_env orc (w_tick w)). intros ms. fold (bump w). generalize (bump w). clear w.
  induction ms as [|m ms IH]; intros w; cbn [do_moves]; [discriminate|]. unfold mbind at 1, attempt.
  destruct (do_move orc m w) as [w1 [a|x|]]; [apply IH|apply IH|discriminate].
Qed.

(** * Triples *)
Definition tri (Q : world -> Prop) {A} (m : M A) (R : A -> world -> Prop) (E : exn -> world -> Prop) : Prop :=
  forall w, Q w -> match m w with (w', Returns a) => R a w' | (w', Raises e) => E e w' | (w', OutOfFuel) => W w' end.
Lemma tri_bind Q {A B} (m : M A) (f : A -> M B) R E R' : tri Q m R E -> (forall a, tri (R a) (f a) R' E) -> tri Q (mbind m f) R' E.
Proof using Type. intros Hm Hf w Hw. specialize (Hm w Hw). unfold mbind. destruct (m w) as [w' [a|e|]]; auto. now apply Hf. Qed.
Lemma tri_attempt Q {A} (m : M A) R E E' : tri Q m R E ->
  tri Q (attempt m) (fun r w => match r with Ok a => R a w | Err e => E e w end) E'.
Proof using Type. intros Hm w Hw. specialize (Hm w Hw). unfold attempt. destruct (m w) as [w' [a|e|]]; exact Hm. Qed.
Lemma tri_keeps Q {A} (m : M A) : keeps Q m -> tri Q m (fun _ => Q) (fun _ => Q).
Proof using Type. intros H w Hw. specialize (H w Hw). now destruct (m w) as [w' [a|e|]]. Qed.
Lemma keeps_tri Q {A} (m : M A) : tri Q m (fun _ => Q) (fun _ => Q) -> keeps Q m.
Proof using Type. intros H w Hw. specialize (H w Hw). now destruct (m w) as [w' [a|e|]]. Qed.
Lemma tri_post Q {A} (m : M A) (R R' : A -> world -> Prop) (E E' : exn -> world -> Prop) :
  tri Q m R E -> (forall a w, R a w -> R' a w) -> (forall e w, E e w -> E' e w) -> tri Q m R' E'.
Proof using Type. intros H HR HE w Hw. specialize (H w Hw). destruct (m w) as [w' [a|e|]]; auto. Qed.
Lemma tri_pre (Q Q' : world -> Prop) {A} (m : M A) R E : (forall w, Q' w -> Q w) -> tri Q m R E -> tri Q' m R E.
Proof using Type. intros HQ H w Hw. apply H. auto. Qed.
Lemma tri_env lic pend E : tri (P lic pend) (env orc) (fun _ => P lic pend) E.
Proof using TG NM.
  intros w Hw. pose proof (keeps_env lic pend w Hw) as H. destruct (env orc w) as [w' [a|e|]] eqn:X; try exact H.
  destruct (env_returns _ _ _ X).
Qed.
Lemma weaken lic pend w : P lic pend w -> P false pend w.
Proof using Type. intros (K & C & B1 & B2 & L & Q). exists K. split; [exact C|]. split; [exact B1|]. split; [exact B2|]. split; [discriminate|exact Q]. Qed.
Lemma found n w : In n (names w) -> exists t, find_task n w = Some t.
Proof using Type.
  unfold names, find_task. induction (w_tasks w) as [|t ts IH]; intros H; [destruct H|]. cbn. destruct (Z.eqb_spec (t_name t) n) as [E|E]; [now exists t|].
  apply IH. destruct H as [H|H]; [now destruct E|exact H].
Qed.
Lemma P_core lic pend w : P lic pend w -> core w.
Proof using Type. now intros (K & C & _). Qed.
Lemma P_found lic pend n w : P lic pend w -> In n N0 -> exists t, find_task n w = Some t.
Proof using Type. intros H N. apply found. now rewrite (co_all w (P_core _ _ _ H)). Qed.
Lemma find_in n w t : find_task n w = Some t -> In t (w_tasks w) /\ t_name t = n.
Proof using Type. intros F. apply find_some in F as [F E]. split; [exact F|lia]. Qed.
Lemma find_names n w t lic pend : P lic pend w -> find_task n w = Some t -> In n N0.
Proof using Type. intros H F. rewrite <- (co_all w (P_core _ _ _ H)). apply find_in in F as [F <-]. now apply in_map. Qed.

Ltac kp CL :=
  repeat lazymatch goal with
    | |- keeps _ (mbind _ _) => apply keeps_bind; [|intro]
    | |- keeps _ (attempt _) => apply keeps_attempt
    | |- keeps _ (finally _ _) => apply (keeps_finally _ _ _ CL)
    | |- keeps _ (env orc) => apply keeps_env
    | |- keeps _ (fun w => (w, OutOfFuel)) => exact (proj1 CL)
    | |- keeps _ (ret _) => apply (walk_keeps _ _ CL), walk_ret
    | |- keeps _ (raise _) => apply (walk_keeps _ _ CL), walk_raise
    | |- keeps _ (get _) => apply (walk_keeps _ _ CL), walk_get
    | |- keeps _ (get_task _) => apply (walk_keeps _ _ CL), walk_get_task
    | |- keeps _ (raise_if _) => apply (walk_keeps _ _ CL), walk_raise_if
    | |- keeps _ (ask _) => apply (walk_keeps _ _ CL), walk_ask
    | |- keeps _ (modify _) => apply (walk_keeps _ _ CL), walk_modify; intro
    end.

(** * Writing a run of [me] *)
Lemma license_past l d x : license l d -> In x l -> run_record me x -> r_created x <= d.
Proof using Type.
  intros (st & seen & un & -> & U & N & _) H R. apply (in_more _ _ _ U) in H; [|exact R]. destruct (N x H R) as (c & _ & B). lia.
Qed.
Lemma write_run w t c d rid ok st l r : core w -> license (w_log w) d -> d <= c <= w_clock w -> find_task me w = Some t ->
  set_status (t_state t) (w_log w) me ARun c c rid ok = (st, l, r) ->
  core (on_task me (with_state st) (set_log l (bump w))) /\ (r = Ok tt \/ r = Err TaskLoggingError).
Proof using Type.
  intros C L B F E.
  assert (X : ts_last st ARun = Some c /\ (l = w_log w \/ l = w_log w ++ [Rec me ARun c rid]) /\ (r = Ok tt \/ r = Err TaskLoggingError)).
  { unfold set_status in E. destruct ok; cbn [action_eqb] in E; inversion E; subst; cbn; auto. }
  destruct X as (X1 & X2 & X3). split; [|exact X3].
  assert (T : forall t', In t' (w_tasks (on_task me (with_state st) (set_log l (bump w)))) -> t_name t' = me ->
    ts_last (t_state t') ARun = Some c /\ exists t0, In t0 (w_tasks w) /\ t_name t0 = me /\ t_cfg t' = t_cfg t0 /\ t_batches t' = t_batches t0).
  { cbn. intros t' H N. apply in_map_iff in H as (u & <- & H). destruct (Z.eqb_spec (t_name u) me) as [E1|E1]; [|now destruct E1].
    split; [exact X1|]. now exists u. }
  assert (OLD : forall x, In x l -> run_record me x -> In x (w_log w) \/ r_created x = c).
  { intros x H R. destruct X2 as [-> | ->]; [now left|]. apply in_app_or in H as [H|[<- |[]]]; auto. }
  constructor.
  - destruct X2 as [-> | ->]; [exact (co_W w C)|]. destruct (co_W w C) as (new & EN & HN).
    exists (new ++ [Rec me ARun c rid]). cbn. split; [rewrite EN; symmetry; apply app_assoc|]. intros pre y post Ep R.
    destruct post as [|z post].
    + apply app_inj_tail in Ep as [<- <-]. rewrite <- EN. exists d. split; [exact L|]. cbn. lia.
    + destruct (exists_last (l := z :: post) ltac:(discriminate)) as (post' & z' & Ez). rewrite Ez in Ep.
      change (pre ++ y :: post' ++ [z']) with (pre ++ (y :: post') ++ [z']) in Ep. rewrite app_assoc in Ep. apply app_inj_tail in Ep as [Ep _].
      exact (HN pre y post' Ep R).
  - intros t' H N x Hx Rx. destruct (T t' H N) as [Ec _]. exists c. split; [exact Ec|]. cbn in *. split; [|lia].
    destruct (OLD x Hx Rx) as [O|O]; [|lia]. pose proof (license_past _ _ _ L O Rx). lia.
  - intros t' c' H N Ec. destruct (T t' H N) as [Ec' _]. rewrite Ec' in Ec. injection Ec as <-. cbn. lia.
  - destruct X2 as [-> | ->]; [exact (co_order w C)|]. cbn. intros l1 a l2 b l3 El Ra Rb. destruct l3 as [|z l3].
    + change (l1 ++ a :: l2 ++ [b]) with (l1 ++ (a :: l2) ++ [b]) in El. rewrite app_assoc in El. apply app_inj_tail in El as [El <-]. cbn.
      assert (Ha : In a (w_log w)) by (rewrite El; apply in_or_app; right; now left). pose proof (license_past _ _ _ L Ha Ra). lia.
    + destruct (exists_last (l := z :: l3) ltac:(discriminate)) as (l3' & z' & Ez). rewrite Ez in El.
      replace (l1 ++ a :: l2 ++ b :: l3' ++ [z']) with ((l1 ++ a :: l2 ++ b :: l3') ++ [z']) in El by (rewrite <- app_assoc; cbn; now rewrite <- app_assoc).
      apply app_inj_tail in El as [El _]. exact (co_order w C l1 a l2 b l3' El Ra Rb).
  - unfold names. cbn. rewrite map_map. replace (map _ (w_tasks w)) with (names w); [exact (co_found w C)|].
    apply map_ext. intros u. destruct (t_name u =? me); reflexivity.
  - rewrite <- (co_all w C). unfold names. cbn. rewrite map_map. apply map_ext. intros u. destruct (t_name u =? me); reflexivity.
  - intros q Hq. apply (co_names w C) in Hq. unfold names in *. cbn. rewrite map_map. replace (map _ (w_tasks w)) with (map t_name (w_tasks w)); [exact Hq|].
    apply map_ext. intros u. destruct (t_name u =? me); reflexivity.
  - intros t' H N. destruct (T t' H N) as (_ & t0 & H0 & N0' & A & B0). destruct (co_task w C t0 H0 N0') as (Y1 & Y2 & Y3).
    rewrite A, B0. split; [exact Y1|]. split; [exact Y2|]. unfold get_execution in *. now rewrite A.
Qed.
Let P0 := P false None.
Let CL0 : closed P0 := closed_P false None.

Lemma run_logged rid v : tri (P true None) (log_action orc false me ARun rid v) (fun _ => P0) (fun e w => e = TaskLoggingError /\ P0 w).
Proof using TG.
  intros w H. pose proof H as (K & C & B1 & B2 & L & Q). destruct (L eq_refl) as (d & Ld & Bd). destruct (found me w (co_found w C)) as (t & F).
  unfold log_action. cbn [action_eqb andb]. unfold mbind. unfold set_status_m.
  destruct (set_status (t_state t) (w_log w) me ARun (w_clock w) (w_clock w) rid (o_write orc (w_tick w))) as [[st l] r] eqn:E.
  pose proof (writing_eq me (fun st l t ok => set_status st l me ARun t t rid ok) w t st l r F E) as WE. unfold writing in WE.
  match goal with |- context [match ?m with _ => _ end] => match m with context [ask (o_write orc)] => change m with
    (writing me (fun st l t ok => set_status st l me ARun t t rid ok) w) end end.
  rewrite (writing_eq me (fun st l t ok => set_status st l me ARun t t rid ok) w t st l r F E).
  destruct (write_run w t (w_clock w) d rid _ st l r C Ld ltac:(lia) F E) as [C' R].
  assert (H' : P0 (on_task me (with_state st) (set_log l (bump w)))).
  { exists K. split; [exact C'|]. split; [exact B1|]. split; [pose proof (proj1 TG (w_tick w) (S (w_tick w)) ltac:(lia)); cbn; lia|].
    split; [discriminate|exact Q]. }
  destruct R as [-> | ->]; [exact H'|]. now split.
Qed.

(** * The queue *)
Lemma pop_none lic w q rest : P lic None w -> w_queue w = q :: rest -> no_run q /\ In (r_task (q_rec q)) N0 /\ P lic None (set_queue rest w).
Proof using Type.
  intros (K & C & B1 & B2 & L & Q) E. cbn in Q. rewrite E in Q. inversion Q as [|? ? Q1 Q2]; subst. split; [exact Q1|].
  assert (HN : forall q', In q' (q :: rest) -> In (r_task (q_rec q')) (names w)) by (rewrite <- E; apply (co_names w C)).
  split; [rewrite <- (co_all w C); apply HN; now left|].
  exists K. split; [|split; [exact B1|split; [exact B2|split; [exact L|exact Q2]]]].
  destruct C as [X1 X2 X3 X4 X5 X6 X7 X8]. constructor; auto. cbn. intros q' H'. apply HN. now right.
Qed.
Lemma pop_some r w q rest : P false (Some r) w -> w_queue w = q :: rest -> In (r_task (q_rec q)) N0 /\
  ((no_run q /\ P false (Some r) (set_queue rest w)) \/
   (q_rec q = r /\ r_action r = ARun /\ P0 (set_queue rest w) /\ r_created r <= w_clock w /\ (r_task r = me -> justified (w_log w) r))).
Proof using Type.
  intros (K & C & B1 & B2 & L & A & B & J & q1 & v & q2 & Eq & F1 & F2) E.
  assert (HN : forall q', In q' (q :: rest) -> In (r_task (q_rec q')) (names w)) by (rewrite <- E; apply (co_names w C)).
  split; [rewrite <- (co_all w C); apply HN; now left|].
  assert (C' : core (set_queue rest w)).
  { destruct C as [X1 X2 X3 X4 X5 X6 X7 X8]. constructor; auto. cbn. intros q' H'. apply HN. now right. }
  rewrite E in Eq. destruct q1 as [|q' q1]; injection Eq as -> ->.
  - right. split; [reflexivity|]. split; [exact A|]. split; [|split; [exact B|exact J]].
    exists K. split; [exact C'|]. split; [exact B1|]. split; [exact B2|]. split; [discriminate|exact F2].
  - left. inversion F1 as [|? ? G1 G2]; subst. split; [exact G1|]. exists K. split; [exact C'|]. split; [exact B1|]. split; [exact B2|].
    split; [discriminate|]. split; [exact A|]. split; [exact B|]. split; [exact J|]. now exists q1, v, q2.
Qed.
Lemma record_eq q w t : find_task (r_task (q_rec q)) w = Some t -> exists w' o, log_record_m orc q w = (w', o) /\
  (o = Returns tt \/ o = Raises TaskLoggingError).
Proof using Type.
  intros F. set (f := fun st l (t : Z) ok => log_record st l (r_task (q_rec q)) (r_action (q_rec q)) (r_created (q_rec q)) (r_run_id (q_rec q)) ok).
  destruct (f (t_state t) (w_log w) (w_clock w) (o_write orc (w_tick w))) as [[st l] r] eqn:E.
  change (log_record_m orc q w) with (writing (r_task (q_rec q)) f w). rewrite (writing_eq _ f w t st l r F E). eexists. eexists. split; [reflexivity|].
  unfold f, log_record, set_status in E. destruct (o_write orc (w_tick w)); [|destruct (action_eqb _ _)]; inversion E; subst; auto.
Qed.
(** A record that is no run of [me] is received *)
Lemma receive Q q : closed Q -> (forall w, Q w -> In (r_task (q_rec q)) N0 -> exists t, find_task (r_task (q_rec q)) w = Some t) ->
  In (r_task (q_rec q)) N0 -> (r_action (q_rec q) = ARun -> r_task (q_rec q) <> me) ->
  tri Q (log_record_m orc q) (fun _ => Q) (fun e w => e = TaskLoggingError /\ Q w).
Proof using Type.
  intros CL HF HN HR w Hw. destruct (HF w Hw HN) as (t & F). destruct (record_eq q w t F) as (w' & o & E & O).
  pose proof (walk_keeps Q _ CL (walk_log_record _ q HR) w Hw) as H. rewrite E in *. destruct O as [-> | ->]; [exact H|now split].
Qed.
(** The run of the starting child is received *)
Lemma receive_run q w : In (r_task (q_rec q)) N0 -> r_action (q_rec q) = ARun -> P0 w -> r_created (q_rec q) <= w_clock w ->
  (r_task (q_rec q) = me -> justified (w_log w) (q_rec q)) ->
  exists w' o, log_record_m orc q w = (w', o) /\ P0 w' /\ (o = Returns tt \/ o = Raises TaskLoggingError).
Proof using TG.
  intros HN HA Hw B J. destruct (P_found _ _ _ _ Hw HN) as (t & F). destruct (Z.eq_dec (r_task (q_rec q)) me) as [E|E].
  - destruct (J E) as (d & Ld & Bd). pose proof Hw as (K & C & B1 & B2 & L & Q).
    set (f := fun st l (t : Z) ok => log_record st l (r_task (q_rec q)) (r_action (q_rec q)) (r_created (q_rec q)) (r_run_id (q_rec q)) ok).
    destruct (f (t_state t) (w_log w) (w_clock w) (o_write orc (w_tick w))) as [[st l] r] eqn:Ef.
    change (log_record_m orc q w) with (writing (r_task (q_rec q)) f w). rewrite (writing_eq _ f w t st l r F Ef). eexists. eexists. split; [reflexivity|].
    unfold f, log_record in Ef. rewrite HA, E in Ef. rewrite E in *.
    destruct (write_run w t (r_created (q_rec q)) d _ _ st l r C Ld ltac:(lia) F Ef) as [C' R]. split.
    + exists K. split; [exact C'|]. split; [exact B1|]. split; [pose proof (proj1 TG (w_tick w) (S (w_tick w)) ltac:(lia)); cbn; lia|].
      split; [discriminate|exact Q].
    + destruct R as [-> | ->]; auto.
  - pose proof (receive P0 q CL0 (fun w H => P_found _ _ _ w H) HN (fun _ => E) w Hw) as H. destruct (record_eq q w t F) as (w' & o & E' & O).
    rewrite E' in *. exists w', o. split; [reflexivity|]. split; [|exact O]. destruct O as [-> | ->]; [exact H|exact (proj2 H)].
Qed.
Lemma lock_pend fuel n u err r : err = None \/ err = Some TaskLoggingError ->
  tri (P false (Some r)) (lock_to_run_log orc fuel n u err) (fun _ => P0) (fun e w => e = TaskLoggingError /\ P0 w).
Proof using TG NM.
  revert err. induction fuel as [|fuel IH]; intros err He; cbn [lock_to_run_log]; [intros w H; exact (proj1 (closed_P false (Some r)) w H)|].
  eapply tri_bind; [apply tri_env|]. intros _ w Hw. unfold mbind at 1, get. destruct (w_queue w) as [|q rest] eqn:Eq.
  { destruct Hw as (K & _ & _ & _ & _ & _ & _ & _ & q1 & v & q2 & E & _). rewrite Eq in E. destruct q1; discriminate. }
  destruct (pop_some r w q rest Hw Eq) as (HN & [[NR H]|(Er & Ea & H & B & J)]).
  - unfold mbind at 1, modify. unfold mbind at 1, get_task. destruct (P_found _ _ _ _ H HN) as (t & F). rewrite F.
    pose proof (receive (P false (Some r)) q (closed_P _ _) (fun w H => P_found _ _ _ w H) HN ltac:(intros Z; now destruct NR) _ H) as HR.
    destruct (record_eq q (set_queue rest w) t F) as (w' & o & E & O). unfold mbind at 1, attempt. rewrite E in *.
    assert (EA : action_eqb (r_action (q_rec q)) ARun = false) by (unfold no_run in NR; destruct (r_action (q_rec q)); try reflexivity; now destruct NR).
    destruct O as [-> | ->]; rewrite EA; [exact (IH err He w' HR)|exact (IH (Some TaskLoggingError) (or_intror eq_refl) w' (proj2 HR))].
  - unfold mbind at 1, modify. unfold mbind at 1, get_task. destruct (P_found _ _ _ _ H HN) as (t & F). rewrite F.
    subst r. destruct (receive_run q (set_queue rest w) HN Ea H B J) as (w' & o & E & H' & O). unfold mbind at 1, attempt. rewrite E, Ea. cbn [action_eqb].
    destruct O as [-> | ->]; [|now split]. destruct He as [-> | ->]; [exact H'|now split].
Qed.
Lemma lock_none lic fuel n u err :
  tri (P lic None) (lock_to_run_log orc fuel n u err) (fun _ => P lic None) (fun _ => P lic None).
Proof using TG NM.
  pose proof (closed_P lic None) as CL. revert err. induction fuel as [|fuel IH]; intros err; cbn [lock_to_run_log]; [intros w H; exact (proj1 CL w H)|].
  eapply tri_bind; [apply tri_env|]. intros _ w Hw. unfold mbind at 1, get. destruct (w_queue w) as [|q rest] eqn:Eq.
  - unfold mbind at 1, get_task. destruct (find_task n w) as [t|]; [|exact Hw]. destruct (is_alive t); [exact (IH err w Hw)|].
    unfold mbind, modify, raise. apply (proj2 CL w); [|exact Hw]. constructor; auto; try reflexivity.
    + eexists. split; [reflexivity|]. intros x [<- |[]] [_ R]. discriminate R.
    + intros t0 H0 E0. now exists t0.
    + intros t0 H0 E0. right; right. now exists t0.
    + exists []. split; [symmetry; apply app_nil_r|]. split; [constructor|intros q []].
  - destruct (pop_none lic w q rest Hw Eq) as (NR & HN & H).
    unfold mbind at 1, modify. unfold mbind at 1, get_task. destruct (P_found _ _ _ _ H HN) as (t & F). rewrite F.
    pose proof (receive (P lic None) q CL (fun w H => P_found _ _ _ w H) HN ltac:(intros Z; now destruct NR) _ H) as HR.
    destruct (record_eq q (set_queue rest w) t F) as (w' & o & E & O). unfold mbind at 1, attempt. rewrite E in *.
    assert (EA : action_eqb (r_action (q_rec q)) ARun = false) by (unfold no_run in NR; destruct (r_action (q_rec q)); try reflexivity; now destruct NR).
    destruct O as [-> | ->]; rewrite EA; [exact (IH err w' HR)|exact (IH _ w' (proj2 HR))].
Qed.
(** A child process says that it runs *)
Definition starting (w : world) : Prop := exists r, P false (Some r) w.
Lemma send_run lic n rid v E : In n N0 -> (n = me -> lic = true) ->
  tri (P lic None) (log_action orc true n ARun rid v) (fun _ => starting) E.
Proof using Type.
  intros HN HL w (K & C & B1 & B2 & L & Q). unfold log_action, set_status_child. cbn.
  exists (Rec n ARun (w_clock w) rid), K. split; [|split; [exact B1|split; [exact B2|split; [discriminate|]]]].
  - destruct C as [X1 X2 X3 X4 X5 X6 X7 X8]. constructor; auto. cbn. intros q H. apply in_app_or in H as [H|[<- |[]]]; [now apply X7|]. cbn.
    exact (eq_ind_r (In n) HN X6).
  - split; [reflexivity|]. split; [cbn; lia|]. split.
    + cbn. intros ->. destruct (L (HL eq_refl)) as (d & Ld & Bd). exists d. split; [exact Ld|exact Bd].
    + exists (w_queue w), None, []. split; [reflexivity|]. split; [exact Q|constructor].
Qed.

(** * Starting *)
Definition soft (e : exn) : bool :=
  match e with TaskLoggingError | SchedulerRestart | SchedulerExit | CancelledError => true | _ => false end.
Lemma calm_push n r w : calm_step w (on_task n (fun t => with_stack (t_stack t ++ [r]) t) w).
Proof using Type. apply calm_on_task; auto. Qed.
Lemma walk_push V n r : walk V (push_run n r).
Proof using Type. unfold push_run. apply walk_modify. intros w. apply calm_push. Qed.
Lemma tri_walk lic pend {A} (m : M A) : walk (fun _ => False) m -> tri (P lic pend) m (fun _ => P lic pend) (fun _ => P lic pend).
Proof using TG. intros H. apply tri_keeps, walk_keeps; [apply closed_P|exact H]. Qed.
Lemma tri_calm lic pend f E : (forall w, calm_step w (f w)) -> tri (P lic pend) (modify f) (fun _ => P lic pend) E.
Proof using TG. intros H w Hw. exact (calm_P _ _ _ _ (H w) Hw). Qed.
Lemma tri_ask lic pend {A} (f : nat -> A) E : tri (P lic pend) (ask f) (fun _ => P lic pend) E.
Proof using TG. intros w Hw. exact (calm_P _ _ _ _ (calm_bump w) Hw). Qed.
Lemma tri_raise_if (Q : world -> Prop) e (E : exn -> world -> Prop) : (forall e' w, Q w -> E e' w) -> tri Q (raise_if e) (fun _ => Q) E.
Proof using Type. intros H w Hw. destruct e; cbn; auto. Qed.
Lemma tri_raise (Q : world -> Prop) {A} e (R : A -> world -> Prop) (E : exn -> world -> Prop) : (forall w, Q w -> E e w) -> tri Q (raise e) R E.
Proof using Type. intros H w Hw. cbn. auto. Qed.
Lemma tri_ret (Q : world -> Prop) {A} (a : A) (R : A -> world -> Prop) (E : exn -> world -> Prop) : (forall w, Q w -> R a w) -> tri Q (ret a) R E.
Proof using Type. intros H w Hw. cbn. auto. Qed.
Lemma frame_orphans f w : calm_step w (set_orphans f w).
Proof using Type. frame. Qed.

(** A status of [me] other than run is written *)
Lemma log_soft ch a rid v : a <> ARun -> tri P0 (log_action orc ch me a rid v) (fun _ => P0) (fun e w => e = TaskLoggingError /\ P0 w).
Proof using TG.
  intros N w Hw. destruct (found me w (co_found w (P_core _ _ _ Hw))) as (t & F).
  assert (HK : match log_action orc ch me a rid v w with (w', OutOfFuel) => W w' | (w', _) => P0 w' end).
  { pose proof (walk_log_action (fun n => n = me) ch me a rid v (fun _ => eq_refl) N w ltac:(intros n ->; exact (co_found w (P_core _ _ _ Hw)))) as CS.
    destruct (log_action orc ch me a rid v w) as [w' [u|e|]]; cbn [fst] in CS; [exact (calm_P _ _ _ _ CS Hw)|exact (calm_P _ _ _ _ CS Hw)|].
    exact (proj1 CL0 _ (calm_P _ _ _ _ CS Hw)). }
  destruct (log_action orc ch me a rid v w) as [w' [u|e|]] eqn:E; [exact HK| |exact HK]. split; [|exact HK].
  unfold log_action in E. destruct ch.
  - unfold mbind at 1, set_status_child in E. cbn in E. destruct (action_eqb a ATerminate && false) in E; discriminate E.
  - unfold mbind at 1 in E.
    change (set_status_m orc me a rid) with (writing me (fun st l t ok => set_status st l me a t t rid ok)) in E.
    destruct (set_status (t_state t) (w_log w) me a (w_clock w) (w_clock w) rid (o_write orc (w_tick w))) as [[st l] r] eqn:Es.
    rewrite (writing_eq me (fun st l t ok => set_status st l me a t t rid ok) w t st l r F Es) in E.
    destruct r as [[]|e']; [destruct (_ && _) in E; discriminate E|]. injection E as _ <-.
    unfold set_status in Es. destruct (o_write orc (w_tick w)); [|destruct (action_eqb a ARun)]; congruence.
Qed.
Lemma tri_finally_none Q (m : M unit) R E : tri Q m R E -> tri Q (finally m (raise_if None ;; raise_if None)) R E.
Proof using Type. intros H w Hw. specialize (H w Hw). unfold finally, attempt, mbind, raise_if. destruct (m w) as [w' [u|e|]]; exact H. Qed.
Lemma body_soft rid s : tidy s ->
  tri P0 (run_body orc false (Some XMain) me rid s) (fun _ => P0) (fun e w => soft e = true /\ P0 w).
Proof using TG.
  intros (T1 & T2 & T3 & T4 & T5). unfold run_body. rewrite T1, T3, T4, T5.
  assert (LG : forall a i v, a <> ARun -> tri P0 (log_action orc false me a i v) (fun _ => P0) (fun e w => soft e = true /\ P0 w)).
  { intros a i v N. eapply tri_post; [exact (log_soft false a i v N)|auto|]. intros e w [-> H]. now split. }
  assert (HM : tri P0 (match s_exec s with
      | None => (if false then ret tt else (raise_if None ;; handle_return me (s_value s))) ;; log_action orc false me ASuccess rid (s_value s)
      | Some e => match e with
         | SchedulerRestart | SchedulerExit => log_action orc false me ASuccess None 0 ;; raise_if None ;; raise e
         | TaskInaction => log_action orc false me AInaction rid 0
         | TaskTermination | CancelledError => log_action orc false me ATerminate rid 0
         | _ => match s_failure s with
             | Some CancelledError => raise CancelledError
             | _ => log_action orc false me AFail rid 0 ;; ret tt end end end) (fun _ => P0) (fun e w => soft e = true /\ P0 w)).
  { destruct (s_exec s) as [e|].
    - destruct e; try (apply LG; discriminate);
      try (eapply tri_bind; [apply LG; discriminate|intros u; unfold raise_if; eapply (tri_bind _ _ _ (fun _ => P0)); [now apply tri_ret|intros u'; now apply tri_raise]]);
      (destruct (s_failure s) as [[]|]; try (now apply tri_raise); (eapply tri_bind; [apply LG; discriminate|intros u; now apply tri_ret])).
    - eapply tri_bind; [|intros u; apply LG; discriminate]. eapply (tri_bind _ _ _ (fun _ => P0)); [now apply tri_ret|]. intros u w Hw. cbn.
      apply (calm_P _ _ w); [frame|exact Hw]. }
  exact (tri_finally_none _ _ _ _ HM).
Qed.

Definition after (e : exn) (w : world) : Prop := if soft e then P0 w else P true None w.
Lemma to_after e w : P true None w -> after e w.
Proof using Type. intros H. unfold after. destruct (soft e); [exact (weaken _ _ _ H)|exact H]. Qed.
Lemma soft_after e w : soft e = true -> P0 w -> after e w.
Proof using Type. intros H. unfold after. now rewrite H. Qed.
Lemma tri_pure (Q : world -> Prop) (F : Prop) {A} (m : M A) R E : (F -> tri Q m R E) -> tri (fun w => Q w /\ F) m R E.
Proof using Type. intros H w [Hw HF]. exact (H HF w Hw). Qed.
Lemma tri_finally (Q : world -> Prop) (m f : M unit) : tri Q m (fun _ => P0) (fun _ => P0) -> keeps P0 f ->
  tri Q (finally m f) (fun _ => P0) (fun _ => P0).
Proof using Type.
  intros Hm Hf w Hw. specialize (Hm w Hw). unfold finally, attempt. unfold mbind at 1. destruct (m w) as [w' [u|e|]]; [| |exact Hm]; unfold mbind;
  specialize (Hf w' Hm); destruct (f w') as [w2 [u2|e2|]]; exact Hf.
Qed.
Lemma calm_preset n w : calm_step w (on_task n (fun t =>
  with_state (TState (set_last (ts_last (t_state t)) ARun (Some (w_clock w))) (ts_status (t_state t))) t) w).
Proof using Type. apply calm_on_task; [reflexivity|]. intros t _ _. split; [reflexivity|]. split; [reflexivity|]. right. reflexivity. Qed.
Lemma run_logged_after rid v : tri (P true None) (log_action orc false me ARun rid v) (fun _ => P0) after.
Proof using TG. eapply tri_post; [apply run_logged|auto|]. intros e w [-> H]. exact H. Qed.
Lemma lock_starting fuel n u (E : exn -> world -> Prop) : (forall w, P0 w -> E TaskLoggingError w) ->
  tri starting (lock_to_run_log orc fuel n u None) (fun _ => P0) E.
Proof using TG NM.
  intros H w (r & Hr). apply (tri_post _ _ _ _ _ _ (lock_pend fuel n u None r (or_introl eq_refl))); [auto| |exact Hr].
  intros e w' [-> Hw']. auto.
Qed.
Lemma launch_me fuel x uid start rid : In me N0 -> (x = XMain -> forall k, s_setup (o_script orc k) = None /\ tidy (o_script orc k)) ->
  tri (P true None) (launch orc fuel x me uid start rid) (fun _ => P0) after.
Proof using TG NM.
  intros HN HX. destruct x; cbn [launch].
  - (* main *)
    eapply (tri_bind _ _ _ (fun _ => P true None)); [apply tri_calm; intros w; apply frame_orphans|intros u1].
    eapply (tri_bind _ _ _ (fun _ => P true None)); [apply tri_calm, calm_push|intros u2].
    eapply (tri_bind _ _ _ (fun _ => P0)); [apply run_logged_after|intros u3].
    eapply (tri_bind _ _ _ (fun _ => P0)); [apply tri_calm; intros w; apply frame_orphans|intros u4].
    eapply (tri_bind _ _ _ (fun _ => P0)); [apply tri_env|intros u5].
    eapply (tri_bind _ _ _ (fun s w => P0 w /\ exists k, s = o_script orc k)).
    { intros w Hw. split; [exact (calm_P _ _ _ _ (calm_bump w) Hw)|now exists (w_tick w)]. }
    intros s. apply tri_pure. intros (k & ->). destruct (HX eq_refl k) as [S0 T]. unfold run_setup. rewrite S0.
    eapply (tri_bind _ _ _ (fun _ => P0)); [now apply tri_ret|intros u6]. eapply (tri_bind _ _ _ (fun _ => P0)); [apply tri_env|intros u7].
    eapply tri_post; [now apply body_soft|auto|]. intros e w [Hs Hw]. now apply soft_after.
  - (* async *)
    eapply (tri_bind _ _ _ (fun _ => P true None)); [apply tri_calm, calm_push|intros u2]. apply run_logged_after.
  - (* thread *)
    eapply (tri_bind _ _ _ (fun _ => P true None)); [apply tri_ask|intros e1]. eapply (tri_bind _ _ _ (fun _ => P true None)); [apply tri_raise_if, to_after|intros u1].
    eapply (tri_bind _ _ _ (fun _ => P true None)); [apply tri_ask|intros [e2|]].
    + eapply (tri_bind _ _ _ (fun _ => P true None)); [apply tri_calm, calm_push|intros u2]. apply tri_raise, to_after.
    + eapply (tri_bind _ _ _ (fun _ => P true None)); [apply tri_calm, calm_push|intros u2].
      eapply (tri_bind _ _ _ (fun _ => P true None)); [apply tri_calm; intros w; apply calm_preset|intros u3].
      eapply (tri_bind _ _ _ (fun _ => P0)).
      { eapply tri_post; [eapply (tri_attempt _ _ _ _ after); apply run_logged| |auto]. intros [u|e] w; [auto|]. now intros [_ H]. }
      intros [u4|e4]; [now apply tri_ret|]. eapply (tri_bind _ _ _ (fun _ => P0)); [apply tri_calm; intros w; apply calm_on_run|intros u5].
      eapply (tri_bind _ _ _ (fun _ => P0)).
      { eapply tri_post; [eapply (tri_attempt _ _ _ _ after); now apply log_soft| |auto]. intros [u|e] w; [auto|]. now intros [_ H]. }
      intros a6. apply tri_calm. intros w. apply calm_on_run.
  - (* process *)
    eapply (tri_bind _ _ _ (fun _ => P true None)); [apply tri_ask|intros e1]. eapply (tri_bind _ _ _ (fun _ => P true None)); [apply tri_raise_if, to_after|intros u1].
    eapply (tri_bind _ _ _ (fun _ => P true None)); [apply tri_ask|intros [e2|]].
    + eapply (tri_bind _ _ _ (fun _ => P true None)); [apply tri_calm, calm_push|intros u2]. apply tri_raise, to_after.
    + eapply (tri_bind _ _ _ (fun _ => P true None)); [apply tri_ask|intros boots].
      eapply (tri_bind _ _ _ (fun _ => P true None)); [apply tri_calm, calm_push|intros u2]. destruct boots.
      * eapply (tri_bind _ _ _ (fun _ => starting)); [now apply send_run|intros u3]. apply lock_starting. auto.
      * eapply (tri_bind _ _ _ (fun _ => P true None)); [now apply tri_ret|intros u3].
        eapply tri_post; [apply lock_none|intros ? w; apply weaken|intros e w; apply to_after].
Qed.
Lemma launch_other fuel x n uid start rid : In n N0 -> n <> me ->
  tri P0 (launch orc fuel x n uid start rid) (fun _ => P0) (fun _ => P0).
Proof using TG NM.
  intros HN HX. destruct x; cbn [launch].
  - (* main *)
    apply tri_keeps. kp CL0; try (apply frame_orphans); try (apply (walk_keeps _ _ CL0)); try apply walk_push; try (now apply walk_log_other).
    + unfold run_setup. wk.
    + now apply walk_run_body.
  - (* async *)
    apply tri_keeps. kp CL0; apply (walk_keeps _ _ CL0); [apply walk_push|now apply walk_log_other].
  - (* thread *)
    apply tri_keeps. kp CL0. destruct a1 as [e|].
    + kp CL0. apply (walk_keeps _ _ CL0), walk_push.
    + kp CL0; [apply (walk_keeps _ _ CL0), walk_push|apply calm_preset|apply (walk_keeps _ _ CL0); now apply walk_log_other|].
      destruct a3 as [u|e]; kp CL0; try apply calm_on_run. apply (walk_keeps _ _ CL0). now apply walk_log_other.
  - (* process *)
    eapply (tri_bind _ _ _ (fun _ => P0)); [apply tri_ask|intros e1]. eapply (tri_bind _ _ _ (fun _ => P0)); [now apply tri_raise_if|intros u1].
    eapply (tri_bind _ _ _ (fun _ => P0)); [apply tri_ask|intros [e2|]].
    + eapply (tri_bind _ _ _ (fun _ => P0)); [apply tri_calm, calm_push|intros u2]. now apply tri_raise.
    + eapply (tri_bind _ _ _ (fun _ => P0)); [apply tri_ask|intros boots].
      eapply (tri_bind _ _ _ (fun _ => P0)); [apply tri_calm, calm_push|intros u2]. destruct boots.
      * eapply (tri_bind _ _ _ (fun _ => starting)); [now apply send_run|intros u3]. apply lock_starting. auto.
      * eapply (tri_bind _ _ _ (fun _ => P0)); [now apply tri_ret|intros u3]. apply lock_none.
Qed.

Lemma walk_status V n : walk V (status_is_run n).
Proof using Type. unfold status_is_run. wk. Qed.
Lemma walk_run_id V : walk V (get_run_id orc).
Proof using Type. unfold get_run_id. wk. destruct a; wk. Qed.
Lemma failed_me x rid e : tri (after e) (start_failed orc x me rid e) (fun _ => P0) (fun _ => P0).
Proof using TG.
  assert (G : tri (P true None) (rid <- match rid with Some i => ret i | None => get_run_id orc end ;;
      b <- status_is_run me ;; (if b then ret tt else log_action orc false me ARun (Some rid) 0) ;;
      log_action orc false me AFail (Some rid) 0 ;; @raise unit TaskSetupError) (fun _ => P0) (fun _ => P0)).
  { assert (WK : forall (e : exn) w, P true None w -> P0 w) by (intros _ w; apply weaken).
    eapply (tri_bind _ _ _ (fun _ => P true None)); [|intros i].
    - eapply tri_post; [apply tri_walk; destruct rid; [wk|apply walk_run_id]|auto|exact WK].
    - eapply (tri_bind _ _ _ (fun _ => P true None)); [eapply tri_post; [apply tri_walk, walk_status|auto|exact WK]|intros b].
      eapply (tri_bind _ _ _ (fun _ => P0)).
      + destruct b; [apply tri_ret; apply weaken|]. eapply tri_post; [apply run_logged|auto|now intros ? ? [_ H]].
      + intros u. eapply (tri_bind _ _ _ (fun _ => P0)); [|intros u'; now apply tri_raise].
        eapply tri_post; [now apply log_soft|auto|now intros ? ? [_ H]]. }
  destruct e; try exact G; unfold after; cbn [soft start_failed]; try (now apply tri_raise).
  apply tri_keeps. kp CL0; [apply (walk_keeps _ _ CL0), walk_status|]. destruct (_ && _); kp CL0.
  apply (walk_keeps _ _ CL0). now apply walk_log_action.
Qed.
Lemma failed_other x n rid e : n <> me -> keeps P0 (start_failed orc x n rid e).
Proof using TG.
  intros N. assert (G : keeps P0 (rid <- match rid with Some i => ret i | None => get_run_id orc end ;;
      b <- status_is_run n ;; (if b then ret tt else log_action orc false n ARun (Some rid) 0) ;;
      log_action orc false n AFail (Some rid) 0 ;; @raise unit TaskSetupError)).
  { kp CL0; apply (walk_keeps _ _ CL0); [destruct rid; [wk|apply walk_run_id]|apply walk_status|destruct a0; [wk|now apply walk_log_other]|now apply walk_log_other]. }
  destruct e; try exact G; cbn [start_failed]; kp CL0; try (apply (walk_keeps _ _ CL0), walk_status).
  destruct (_ && _); kp CL0. apply (walk_keeps _ _ CL0). now apply walk_log_other.
Qed.
Lemma keeps_params lic pend n : keeps (P lic pend) (get_direct_params n).
Proof using TG.
  pose proof (closed_P lic pend) as CL. intros w Hw. unfold get_direct_params, mbind at 1, get_task.
  destruct (find_task n w) as [t|] eqn:F; [|exact Hw]. destruct (t_batches t) as [|p rest] eqn:B.
  - cbn. apply (calm_P _ _ w); [frame|exact Hw].
  - cbn. apply (calm_P _ _ w); [|exact Hw]. eapply calm_trans; [apply (calm_on_task n (with_batches rest))|frame]; [reflexivity|].
    intros t' _ ->. destruct (find_in _ _ _ F) as [Fi Fn]. destruct (co_task w (P_core _ _ _ Hw) t Fi Fn) as [X _]. congruence.
Qed.
Lemma keeps_unstack n : keeps P0 (modify (on_task n (fun t => with_stack (filter (fun r => negb (exec_eqb (rn_kind r) XMain)) (t_stack t)) t))).
Proof using TG. kp CL0. apply calm_on_task; [reflexivity|]. intros; auto. Qed.
Lemma start_me fuel : tri (P true None) (start_async orc cf fuel me) (fun _ => P0) (fun _ => P0).
Proof using TG NM.
  unfold start_async. eapply (tri_bind _ _ _ (fun t w => P true None w /\ In me N0 /\
    (get_execution cf t = XMain -> forall k, s_setup (o_script orc k) = None /\ tidy (o_script orc k)))).
  { intros w Hw. unfold get_task. destruct (find_task me w) as [t|] eqn:F; [|exact (weaken _ _ _ Hw)]. split; [exact Hw|].
    split; [exact (find_names _ _ _ _ _ Hw F)|]. destruct (find_in _ _ _ F) as [Fi Fn]. exact (proj2 (proj2 (co_task w (P_core _ _ _ Hw) t Fi Fn))). }
  intros t. apply tri_pure. intros [HN HX].
  eapply (tri_bind _ _ _ (fun _ => P true None)); [intros w Hw; exact Hw|intros start].
  eapply (tri_bind _ _ _ (fun _ => P true None)); [intros w Hw; exact Hw|intros uid].
  eapply (tri_bind _ _ _ (fun _ => P true None)); [apply tri_calm; intros w; frame|intros u1].
  eapply (tri_bind _ _ _ (fun _ => P true None)); [apply tri_calm; intros w; frame|intros u2].
  apply tri_finally; [|apply keeps_unstack].
  pose proof (closed_P true None) as CL.
  eapply (tri_bind _ _ _ (fun _ => P true None)).
  { eapply tri_post; [eapply tri_attempt, tri_keeps; kp CL; [apply keeps_params|apply (walk_keeps _ _ CL), walk_run_id]| |].
    - intros [i|e] w H; exact H.
    - intros e w H. exact H. }
  intros [rid|e].
  - eapply (tri_bind _ _ _ (fun r w => match r with Ok _ => P0 w | Err e => after e w end)); [eapply tri_attempt; now apply launch_me|].
    intros [u|e]; [now apply tri_ret|apply failed_me].
  - eapply tri_pre; [|apply failed_me]. intros w. apply to_after.
Qed.
Lemma start_other fuel n : n <> me -> keeps P0 (start_async orc cf fuel n).
Proof using TG NM.
  intros N. apply keeps_tri. unfold start_async. eapply (tri_bind _ _ _ (fun t w => P0 w /\ In n N0)).
  { intros w Hw. unfold get_task. destruct (find_task n w) as [t|] eqn:F; [|exact Hw]. split; [exact Hw|exact (find_names _ _ _ _ _ Hw F)]. }
  intros t. apply tri_pure. intros HN. apply tri_keeps. kp CL0; try frame; [apply keeps_params|apply (walk_keeps _ _ CL0), walk_run_id| |apply calm_on_task; auto].
  match goal with |- context [match ?a with Ok _ => _ | Err _ => _ end] => destruct a as [rid|e] end; [|now apply failed_other].
  kp CL0; [apply keeps_tri; now apply launch_other|]. match goal with |- context [match ?a with Ok _ => _ | Err _ => _ end] => destruct a as [u|e] end; [kp CL0|now apply failed_other].
Qed.

(** * The scheduler *)
Context (RQ : requires orc me gate).
Lemma cond_me : tri P0 (check_task_cond orc cf me) (fun b => P b None) (fun _ => P0).
Proof using TG RQ.
  intros w Hw. unfold check_task_cond, mbind at 1, attempt, is_runnable. unfold mbind at 1, get_task.
  destruct (find_task me w) as [t|] eqn:F.
  2: { destruct (negb _ || negb _); exact Hw. }
  destruct (find_in _ _ _ F) as [Fi Fn]. destruct (co_task w (P_core _ _ _ Hw) t Fi Fn) as (X1 & X2 & _). rewrite X1, X2.
  destruct (t_disabled t); [exact Hw|]. unfold mbind at 1, get. unfold mbind at 1, ask. fold (bump w).
  assert (HB : P0 (bump w)) by exact (calm_P _ _ _ _ (calm_bump w) Hw).
  destruct (o_cond orc (w_tick w) me w) as [[]|e] eqn:O; cbn [ret raise].
  - destruct HB as (K & C & B1 & B2 & L & Q). exists K. split; [exact C|]. split; [exact B1|]. split; [exact B2|]. split; [|exact Q]. intros _.
    exists (w_clock w). split; [|cbn; lia]. exists (t_state t), (w_log w), []. split; [symmetry; apply app_nil_r|]. split; [intros x []|].
    pose proof (P_core _ _ _ Hw) as C0. split; [exact (co_noted w C0 t Fi Fn)|]. split; [exact (co_order w C0)|]. exact (RQ _ _ _ F O).
  - exact HB.
  - destruct (negb (cf_silence_cond cf) || negb (is_exception e)); exact HB.
Qed.
Lemma keeps_cond n : keeps P0 (check_task_cond orc cf n).
Proof using TG RQ.
  unfold check_task_cond, is_runnable. kp CL0.
  - destruct (t_batches a); kp CL0. destruct (t_disabled a); kp CL0. destruct (tc_always_false _); kp CL0. destruct a1; kp CL0.
  - destruct a as [b|e]; kp CL0. destruct (negb _ || negb _); kp CL0.
Qed.
Lemma runnable_me : tri P0 (is_task_runnable orc cf me) (fun b => P b None) (fun _ => P0).
Proof using TG NM RQ.
  unfold is_task_runnable, has_free_processors.
  eapply (tri_bind _ _ _ (fun _ => P0)); [apply tri_keeps; kp CL0|intros t].
  eapply (tri_bind _ _ _ (fun _ => P0)); [apply tri_keeps; destruct (exec_eqb _ _); kp CL0|intros free].
  destruct (negb free); [now apply tri_ret|]. eapply (tri_bind _ _ _ (fun _ => P0)); [apply tri_env|intros u].
  eapply (tri_bind _ _ _ (fun _ => P0)); [apply tri_keeps; kp CL0|intros t']. destruct (_ && _); [now apply tri_ret|].
  eapply (tri_bind _ _ _ (fun _ => P0)); [apply tri_env|intros u']. apply cond_me.
Qed.
Lemma keeps_runnable n : keeps P0 (is_task_runnable orc cf n).
Proof using TG NM RQ.
  unfold is_task_runnable, has_free_processors. kp CL0.
  - destruct (exec_eqb _ _); kp CL0.
  - destruct (negb a0); kp CL0. destruct (_ && _); kp CL0. apply keeps_cond.
Qed.
Lemma keeps_run_task fuel n : n <> me -> keeps P0 (run_task orc cf fuel n).
Proof using TG NM. intros N. unfold run_task. kp CL0; [now apply start_other|]. destruct a as [[]|[]]; kp CL0; destruct (_ cf); kp CL0. Qed.
Lemma run_task_me fuel : tri (P true None) (run_task orc cf fuel me) (fun _ => P0) (fun _ => P0).
Proof using TG NM.
  unfold run_task. eapply (tri_bind _ _ _ (fun _ => P0)).
  - eapply tri_post; [eapply (tri_attempt _ _ _ _ (fun _ => P0)); apply start_me| |auto]. intros [u|e] w H; exact H.
  - intros a. apply tri_keeps. destruct a as [[]|[]]; kp CL0; destruct (_ cf); kp CL0.
Qed.
(** A task is checked and started if it may *)
Lemma keeps_turn fuel n : keeps P0 (b <- is_task_runnable orc cf n ;; env orc ;; if b then run_task orc cf fuel n else ret tt).
Proof using TG NM RQ.
  destruct (Z.eq_dec n me) as [->|N].
  - apply keeps_tri. eapply tri_bind; [apply runnable_me|]. intros b. eapply (tri_bind _ _ _ (fun _ => P b None)); [apply tri_env|]. intros u.
    destruct b; [apply run_task_me|now apply tri_ret].
  - kp CL0; [apply keeps_runnable|]. destruct a; [now apply keeps_run_task|kp CL0].
Qed.
Lemma keeps_handle_logs fuel : keeps P0 (handle_logs orc cf fuel).
Proof using TG NM.
  induction fuel as [|fuel IH]; cbn [handle_logs]; [exact (proj1 CL0)|]. apply keeps_bind; [apply keeps_env|]. intros _.
  apply keeps_with. intros w Hw. destruct (w_queue w) as [|q rest] eqn:Eq; [exact Hw|].
  destruct (pop_none false w q rest Hw Eq) as (NR & HN & H). unfold mbind at 1, modify. revert H. generalize (set_queue rest w). clear w Hw Eq.
  change (keeps P0 (get_task (r_task (q_rec q)) ;;
    (match q_return q with Some v => if action_eqb (r_action (q_rec q)) ASuccess then handle_return (r_task (q_rec q)) v else ret tt | None => ret tt end) ;;
    r <- attempt (log_record_m orc q) ;;
    (match r with Err e => if negb (cf_silence_logging cf) || negb (is_exception e) then raise e else ret tt | Ok _ => ret tt end) ;;
    handle_logs orc cf fuel)).
  kp CL0; try exact IH.
  - destruct (q_return q); kp CL0. destruct (action_eqb _ _); kp CL0. apply (walk_keeps _ _ CL0), walk_return.
  - apply (walk_keeps _ _ CL0), walk_log_record. intros E. now destruct NR.
  - destruct a1 as [u|e]; kp CL0. destruct (negb _ || negb _); kp CL0.
Qed.
Lemma calm_clean n w : calm_step w (on_task n (fun t => with_stack (filter (keep_run cf) (t_stack t)) t) w).
Proof using Type. apply calm_on_task; auto. Qed.
Lemma keeps_clean n : keeps P0 (clean_run_stack cf n).
Proof using TG. unfold clean_run_stack. kp CL0. apply calm_clean. Qed.
Lemma keeps_log n a rid v : a <> ARun -> keeps P0 (log_action orc false n a rid v).
Proof using TG. intros N. apply (walk_keeps _ _ CL0). now apply walk_log_action. Qed.
Lemma keeps_terminate_obj u : keeps P0 (terminate_run_obj orc u).
Proof using TG NM.
  unfold terminate_run_obj. kp CL0. destruct (find_run u a) as [[t r]|]; kp CL0.
  destruct (rn_kind r); kp CL0; try apply calm_on_run.
  - destruct (rn_phase r) as [| |[e|]]; kp CL0; try apply calm_on_run. destruct (find_run u _) as [[t' r']|]; kp CL0.
    destruct (rn_phase r') as [| |[e|]]; kp CL0; try (apply (walk_keeps _ _ CL0), walk_end_coroutine; now apply walk_run_body);
    destruct (find_run u _) as [[t2 r2]|]; kp CL0; destruct (rn_phase r2) as [| |[e|]]; kp CL0.
  - destruct (run_alive r); kp CL0. apply calm_on_run.
Qed.
Lemma keeps_terminate_run n r : keeps P0 (terminate_run orc n r).
Proof using TG NM.
  unfold terminate_run. kp CL0; [frame|apply keeps_terminate_obj|]. destruct a0 as [u|[]]; kp CL0; try (now apply keeps_log).
  destruct (exec_eqb _ _); [now apply keeps_log|kp CL0].
Qed.
Lemma keeps_terminate_each n rs : keeps P0 (terminate_each orc n rs).
Proof using TG NM. induction rs as [|r rs IH]; cbn [terminate_each]; kp CL0; [apply keeps_terminate_run|exact IH]. Qed.
Lemma keeps_terminate_all n : keeps P0 (terminate_all_runs orc cf n).
Proof using TG NM. unfold terminate_all_runs. kp CL0; [apply keeps_terminate_each|apply keeps_clean|apply calm_term]. Qed.
Lemma keeps_late n now d rs : keeps P0 (terminate_late orc n now d rs).
Proof using TG NM. induction rs as [|r rs IH]; cbn [terminate_late]; kp CL0; [|exact IH]. destruct (_ && _); kp CL0. apply keeps_terminate_run. Qed.
Lemma keeps_termination n : keeps P0 (check_termination orc cf n).
Proof using TG NM.
  unfold check_termination. kp CL0.
  - destruct a as [b|e]; kp CL0. destruct (negb _ || negb _); kp CL0.
  - destruct (t_term a1); [apply keeps_terminate_all|]. destruct a0; [apply keeps_terminate_all|]. kp CL0. destruct (tc_permanent _); [kp CL0|apply keeps_late].
Qed.
Lemma keeps_each f ns : (forall n, keeps P0 (f n)) -> keeps P0 (for_each f ns).
Proof using TG. intros H. induction ns as [|n ns IH]; cbn [for_each]; kp CL0; auto. Qed.
Lemma keeps_thread_errors : keeps P0 (check_thread_errors cf).
Proof using TG.
  unfold check_thread_errors, tasks. destruct (cf_silence_logging cf); kp CL0. apply keeps_each. intros n. unfold check_exceptions. kp CL0.
  destruct (drop_first_exc _); kp CL0. apply calm_on_task; [intros t; unfold drop_exc; destruct (drop_first_exc _); reflexivity|].
  intros t _ _. unfold drop_exc. destruct (drop_first_exc _); auto.
Qed.
Lemma keeps_hook : keeps P0 (hook orc).
Proof using TG. unfold hook. kp CL0. Qed.
Lemma keeps_cycle_task fuel n : keeps P0 (cycle_task orc cf fuel n).
Proof using TG NM RQ.
  unfold cycle_task. kp CL0; [apply keeps_handle_logs|apply keeps_clean| |apply keeps_termination].
  destruct (_ || _); kp CL0; [frame|]. match goal with |- context [if ?b then _ else _] => destruct b end; [apply keeps_turn|kp CL0].
Qed.
Lemma keeps_cycle fuel : keeps P0 (run_cycle orc cf fuel).
Proof using TG NM RQ.
  unfold run_cycle, tasks. kp CL0; try apply keeps_hook; try frame; [apply keeps_each; intros n; apply keeps_cycle_task|apply keeps_handle_logs|apply keeps_thread_errors].
Qed.
Lemma keeps_special fuel n : keeps P0 (run_special orc cf fuel n).
Proof using TG NM RQ.
  unfold run_special. intros w Hw. unfold mbind at 1, get_task. destruct (find_task n w) as [t|] eqn:F; [|exact Hw].
  assert (X : n = me -> tc_always_false (t_cfg t) = false).
  { intros ->. destruct (find_in _ _ _ F) as [Fi Fn]. exact (proj1 (proj2 (co_task w (P_core _ _ _ Hw) t Fi Fn))). }
  clear F. revert w Hw. match goal with |- forall w, P0 w -> match ?m w with _ => _ end => change (keeps P0 m) end.
  apply keeps_bind; [|intros _; apply keeps_turn]. destruct (tc_always_false (t_cfg t)) eqn:E; cbn [andb]; [|kp CL0].
  destruct (negb _); kp CL0; [frame|]. apply calm_on_task; [reflexivity|]. intros t' _ EN. discriminate (X EN).
Qed.
Lemma keeps_startup fuel : keeps P0 (startup orc cf fuel).
Proof using TG NM RQ.
  unfold startup, tasks. kp CL0; try apply keeps_hook; try frame. apply keeps_each. intros n. unfold startup_task. kp CL0.
  - apply (walk_keeps _ _ CL0), walk_set_cached.
  - match goal with |- context [match ?a with Ok _ => _ | Err _ => _ end] => destruct a as [u|[]] end; kp CL0; destruct (cf_silence_logging cf); kp CL0.
  - destruct (tc_startup _); [apply keeps_special|kp CL0].
Qed.
Lemma keeps_wait fuel : keeps P0 (wait_for_finish orc cf fuel).
Proof using TG NM.
  induction fuel as [|fuel IH]; cbn [wait_for_finish]; [exact (proj1 CL0)|]. unfold tasks. kp CL0. destruct (_ =? 0); kp CL0; [apply keeps_handle_logs| |exact IH].
  apply keeps_each. intros n. unfold wait_turn. kp CL0. destruct (tc_permanent _); [apply keeps_terminate_all|apply keeps_termination].
Qed.
Lemma keeps_shut_down_tasks fuel e : keeps P0 (shut_down_tasks orc cf fuel e).
Proof using TG NM.
  revert e. induction fuel as [|fuel IH]; intros e; cbn [shut_down_tasks]; [exact (proj1 CL0)|]. kp CL0. destruct (_ && _); kp CL0.
  - apply keeps_wait.
  - match goal with |- context [match ?a with Ok _ => _ | Err _ => _ end] => destruct a as [u|e'] end; kp CL0. destruct (is_exception e'); kp CL0. apply IH.
  - unfold terminate_everything, tasks. kp CL0. apply keeps_each. intros n. unfold terminate_if_alive. kp CL0. destruct (is_alive _); [apply keeps_terminate_all|kp CL0].
Qed.
Lemma keeps_alive fuel : keeps P0 (wait_task_alive orc fuel).
Proof using TG NM. induction fuel as [|fuel IH]; cbn [wait_task_alive]; [exact (proj1 CL0)|]. kp CL0. destruct (_ <? _); kp CL0. exact IH. Qed.
Lemma keeps_shut_down fuel e : keeps P0 (shut_down orc cf fuel e).
Proof using TG NM RQ.
  unfold shut_down, run_shutdown_tasks, tasks. kp CL0; try apply keeps_hook; try frame;
  [|apply keeps_shut_down_tasks|apply keeps_alive|apply keeps_handle_logs|apply keeps_thread_errors].
  apply keeps_each. intros n. unfold shutdown_task. kp CL0. destruct (tc_shutdown _); [apply keeps_special|kp CL0].
Qed.
Lemma keeps_loop fuel : keeps P0 (main_loop orc cf fuel).
Proof using TG NM RQ.
  induction fuel as [|fuel IH]; cbn [main_loop]; [exact (proj1 CL0)|]. kp CL0.
  - unfold check_shut_cond. kp CL0. destruct a; kp CL0. destruct a; kp CL0.
  - destruct a; kp CL0. destruct a0; kp CL0. destruct a0; kp CL0; [apply keeps_cycle|exact IH].
Qed.
Lemma keeps_serve fuel : keeps P0 (serve orc cf fuel).
Proof using TG NM RQ.
  unfold serve. kp CL0; [frame|apply keeps_startup|apply keeps_loop|apply keeps_shut_down|]. destruct a0 as [u|[]]; kp CL0.
Qed.
End Once.

(** * A served session *)
Lemma begins orc cf me gate time w : by_condition orc me w -> undisturbed orc cf me w -> known_history me w -> w_clock w <= time (w_tick w) ->
  P orc cf me gate time (w_log w) (names w) false None w.
Proof.
  intros [F _ B A] M [O PA NO CA QU] CK. exists (w_clock w). split; [|split; [lia|split; [exact CK|split; [discriminate|]]]].
  - constructor.
    + exists []. split; [symmetry; apply app_nil_r|]. intros [|] ? ? E; discriminate E.
    + intros t H N x Hx Rx. destruct (NO t x H N Hx Rx) as (c & E & L). exists c. split; [exact E|]. split; [exact L|]. exact (CA t c H N E).
    + exact CA.
    + exact O.
    + destruct F as (t & F). apply find_some in F as [F E]. apply Z.eqb_eq in E. rewrite <- E. now apply in_map.
    + reflexivity.
    + intros q H. destruct (QU q H) as (_ & t & Ft). apply find_some in Ft as [Ft E]. apply Z.eqb_eq in E. rewrite <- E. now apply in_map.
    + intros t H N. split; [now apply B|]. split; [now apply A|]. intros E. apply (M t H N). unfold executes. unfold get_execution in E. destruct (tc_exec (t_cfg t)); congruence.
  - apply Forall_forall. intros q H. exact (proj1 (QU q H)).
Qed.
Lemma served_justified orc cf me gate time fuel w :
  time_goes_on orc time -> w_clock w <= time (w_tick w) -> by_condition orc me w -> undisturbed orc cf me w -> known_history me w -> requires orc me gate ->
  every_new_run me (w_log w) (w_log (fst (serve orc cf fuel w))) (justified me gate).
Proof.
  intros TG CK BC UD KH RQ. pose proof (keeps_serve orc cf me gate time (w_log w) (names w) TG (bc_request _ _ _ BC) RQ fuel w (begins _ _ _ _ _ _ BC UD KH CK)) as H.
  destruct (serve orc cf fuel w) as [w' [u|e|]]; cbn [fst]; [| |exact H]; exact (co_W _ _ _ _ _ _ _ (P_core _ _ _ _ _ _ _ _ _ _ H)).
Qed.
