From Coq Require Import Bool Arith Lia ZifyBool.
From Verif Require Import Model.Base Model.Interval Model.Period Model.Condition Model.History
  Spec.ConditionSpec Spec.HistorySpec Proofs.ConditionProofs Proofs.HistoryProofs Proofs.HistoryRunProofs.
Open Scope Z_scope.

Lemma last_of_snoc : forall A (l : list A) a, last_of (l ++ [a]) = Some a.
Proof. intros A l a. unfold last_of. rewrite rev_unit. reflexivity. Qed.

Lemma filter_by_snoc : forall l r name f,
  filter_by (l ++ [r]) name f = filter_by l name f ++ (if (r_task r =? name) && f r then [r] else []).
Proof. intros l r name f. unfold filter_by. rewrite filter_app. cbn. destruct (_ && _); reflexivity. Qed.

Lemma latest_snoc : forall l r name acts,
  get_latest (l ++ [r]) name acts =
  if (r_task r =? name) && action_in acts r then Some r else get_latest l name acts.
Proof.
  intros l r name acts. unfold get_latest. rewrite filter_by_snoc.
  destruct ((r_task r =? name) && action_in acts r); [apply last_of_snoc|rewrite app_nil_r; reflexivity].
Qed.
Lemma latest_any_snoc : forall l r name,
  get_latest_any (l ++ [r]) name = if r_task r =? name then Some r else get_latest_any l name.
Proof.
  intros l r name. unfold get_latest_any. rewrite filter_by_snoc, andb_true_r.
  destruct (r_task r =? name); [apply last_of_snoc|rewrite app_nil_r; reflexivity].
Qed.

Lemma latest_spec : forall l name acts r, get_latest l name acts = Some r <-> last_such (about name acts) l r.
Proof.
  intros l name acts r. induction l as [|x l IH] using rev_ind.
  - split; [discriminate|]. intros (l1 & l2 & E & _). destruct l1; discriminate.
  - rewrite latest_snoc. destruct ((r_task x =? name) && action_in acts x) eqn:E.
    + apply about_iff in E. split.
      * intros H. injection H as <-. exists l, []. split; [reflexivity|]. split; [exact E|intros b []].
      * intros (l1 & l2 & El & Hr & Hno). destruct l2 as [|y l2] using rev_ind.
        -- apply app_inj_tail in El. destruct El as [_ <-]. reflexivity.
        -- exfalso. rewrite app_comm_cons, app_assoc in El. apply app_inj_tail in El. destruct El as [_ <-].
           apply (Hno x); [apply in_or_app; right; left; reflexivity|exact E].
    + rewrite IH. split.
      * intros (l1 & l2 & -> & Hr & Hno). exists l1, (l2 ++ [x]). split; [rewrite <- app_assoc; reflexivity|].
        split; [exact Hr|]. intros b Hb. apply in_app_or in Hb. destruct Hb as [Hb|[<- | []]]; [exact (Hno b Hb)|].
        intros Ha. apply about_iff in Ha. congruence.
      * intros (l1 & l2 & El & Hr & Hno). destruct l2 as [|y l2] using rev_ind.
        -- apply app_inj_tail in El. destruct El as [_ ->]. apply about_iff in Hr. congruence.
        -- rewrite app_comm_cons, app_assoc in El. apply app_inj_tail in El. destruct El as [-> _].
           exists l1, l2. split; [reflexivity|]. split; [exact Hr|]. intros b Hb. apply Hno. apply in_or_app. left. exact Hb.
Qed.

Lemma latest_none : forall l name acts, get_latest l name acts = None <-> forall r, In r l -> ~ about name acts r.
Proof.
  intros l name acts. induction l as [|x l IH] using rev_ind.
  - split; [intros _ r []|reflexivity].
  - rewrite latest_snoc. destruct ((r_task x =? name) && action_in acts x) eqn:E.
    + split; [discriminate|]. intros H. exfalso. apply (H x); [apply in_or_app; right; left; reflexivity|].
      apply about_iff. exact E.
    + rewrite IH. split.
      * intros H r Hr. apply in_app_or in Hr. destruct Hr as [Hr|[<- | []]]; [exact (H r Hr)|].
        intros Ha. apply about_iff in Ha. congruence.
      * intros H r Hr. apply H. apply in_or_app. left. exact Hr.
Qed.

(** In a chronological log the latest is the latest in time. *)
Lemma latest_max : forall l name acts r, chronological l -> get_latest l name acts = Some r ->
  forall r', In r' l -> about name acts r' -> r_created r' <= r_created r.
Proof.
  intros l name acts r C H r' Hi Ha. apply latest_spec in H. destruct H as (l1 & l2 & -> & Hr & Hno).
  apply in_app_or in Hi. destruct Hi as [Hi|[<- | Hi]].
  - apply in_split in Hi. destruct Hi as (a & b & ->). apply (C a r' b r l2). rewrite <- app_assoc. reflexivity.
  - lia.
  - exfalso. exact (Hno r' Hi Ha).
Qed.

Lemma depend_iff : forall l me dep acts, chronological l ->
  (depend_state l me dep acts = true <->
   exists r, In r l /\ about dep acts r /\
     forall r', In r' l -> about me [ARun] r' -> r_created r' < r_created r).
Proof.
  intros l me dep acts C. unfold depend_state. split.
  - intros H. destruct (get_latest l dep acts) as [d|] eqn:E1; [|discriminate].
    assert (E1' := E1). apply latest_spec in E1'. destruct E1' as (l1 & l2 & El & Hd & _).
    exists d. split; [rewrite El; apply in_or_app; right; left; reflexivity|]. split; [exact Hd|].
    intros r' Hi Ha. destruct (get_latest l me [ARun]) as [u|] eqn:E2.
    + assert (M := latest_max l me [ARun] u C E2 r' Hi Ha). lia.
    + exfalso. exact (proj1 (latest_none l me [ARun]) E2 r' Hi Ha).
  - intros (r & Hi & Ha & Hall). destruct (get_latest l dep acts) as [d|] eqn:E1.
    + destruct (get_latest l me [ARun]) as [u|] eqn:E2; [|reflexivity].
      assert (M := latest_max l dep acts d C E1 r Hi Ha).
      apply latest_spec in E2. destruct E2 as (l1 & l2 & El & Hu & _).
      assert (X : r_created u < r_created r) by (apply Hall; [rewrite El; apply in_or_app; right; left; reflexivity|exact Hu]). lia.
    + exfalso. exact (proj1 (latest_none l dep acts) E1 r Hi Ha).
Qed.

(** Started after the outcome, nothing new since: false. *)
Lemma depend_consumed : forall l1 r l2 me dep acts, chronological (l1 ++ r :: l2) ->
  about me [ARun] r -> (forall r', In r' l2 -> ~ about dep acts r') -> ~ about dep acts r ->
  depend_state (l1 ++ r :: l2) me dep acts = false.
Proof.
  intros l1 r l2 me dep acts C Hr Hno Hr'.
  destruct (depend_state _ me dep acts) eqn:E; [exfalso|reflexivity].
  apply depend_iff in E; [|exact C]. destruct E as (d & Hi & Hd & Hall).
  assert (X : r_created r < r_created d)
    by (apply Hall; [apply in_or_app; right; left; reflexivity|exact Hr]).
  apply in_app_or in Hi. destruct Hi as [Hi|[<- | Hi]].
  - apply in_split in Hi. destruct Hi as (a & b & ->).
    assert (r_created d <= r_created r); [|lia]. apply (C a d b r l2). rewrite <- app_assoc. reflexivity.
  - exact (Hr' Hd).
  - exact (Hno d Hi Hd).
Qed.

(** A new, later outcome makes it true. *)
Lemma depend_triggered : forall l r me dep acts, about dep acts r -> dep <> me \/ ~ In ARun acts ->
  (forall r', In r' l -> about me [ARun] r' -> r_created r' < r_created r) ->
  depend_state (l ++ [r]) me dep acts = true.
Proof.
  intros l r me dep acts Hr Hne Hall. unfold depend_state.
  rewrite !latest_snoc. rewrite (proj2 (about_iff dep acts r) Hr).
  destruct ((r_task r =? me) && action_in [ARun] r) eqn:E.
  - exfalso. apply about_iff in E. destruct E as [E1 [E2|[]]]. destruct Hr as [H1 H2].
    destruct Hne as [Hne|Hne]; [congruence|]. rewrite <- E2 in H2. contradiction.
  - destruct (get_latest l me [ARun]) as [u|] eqn:E2; [|reflexivity].
    apply latest_spec in E2. destruct E2 as (l1 & l2 & El & Hu & _).
    assert (r_created u < r_created r) by (apply Hall; [rewrite El; apply in_or_app; right; left; reflexivity|exact Hu]). lia.
Qed.

Lemma depend_same_time : exists l me dep r,
  depend_state l me dep dep_success = false /\
  (exists l1 l2, l = l1 ++ r :: l2 /\ about me [ARun] r /\
     exists d, In d l2 /\ about dep dep_success d).
Proof.
  exists [Rec 1 ARun 10 None; Rec 2 ASuccess 10 None], 1, 2, (Rec 1 ARun 10 None).
  split; [reflexivity|]. exists [], [Rec 2 ASuccess 10 None]. split; [reflexivity|].
  split; [split; [reflexivity|left; reflexivity]|].
  exists (Rec 2 ASuccess 10 None). split; [left; reflexivity|]. split; [reflexivity|left; reflexivity].
Qed.

Lemma depend_finish_ignores_termination : exists l me dep,
  (exists r, In r l /\ about dep [ASuccess; AFail; ATerminate] r /\
     forall r', In r' l -> about me [ARun] r' -> r_created r' < r_created r) /\
  depend_state l me dep dep_finish = false.
Proof.
  exists [Rec 1 ARun 10 None; Rec 2 ATerminate 20 None], 1, 2. split; [|reflexivity].
  exists (Rec 2 ATerminate 20 None). split; [right; left; reflexivity|].
  split; [split; [reflexivity|right; right; left; reflexivity]|].
  intros r' [<- | [<- | []]] [H1 [H2|[]]]; cbn in *; try lia; discriminate.
Qed.

(** * At most one start per outcome *)

(** There was an outcome since the last start. *)
Definition fresh (dep : Z) (acts : list action) (evs : list hevent) : bool :=
  fold_left (fun b ev => match ev with
    | HStart _ _ _ _ => false
    | HOther r => if (r_task r =? dep) && action_in acts r then true else b
    | HOutcome _ _ _ _ => b end) evs false.
Lemma fresh_snoc : forall dep acts evs ev, fresh dep acts (evs ++ [ev]) =
  match ev with
  | HStart _ _ _ _ => false
  | HOther r => if (r_task r =? dep) && action_in acts r then true else fresh dep acts evs
  | HOutcome _ _ _ _ => fresh dep acts evs end.
Proof. intros dep acts evs ev. unfold fresh. rewrite fold_left_app. destruct ev; reflexivity. Qed.

Lemma all_starts_app : forall a b, all_starts (a ++ b) = all_starts a + all_starts b.
Proof. intros a b. induction a as [|[d t1 t2 id|x t1 t2 id|r] a IH]; cbn [all_starts app]; lia. Qed.
Lemma triggers_app : forall dep acts a b, triggers dep acts (a ++ b) = triggers dep acts a + triggers dep acts b.
Proof. intros dep acts a b. induction a as [|[d t1 t2 id|x t1 t2 id|r] a IH]; cbn [triggers app]; lia. Qed.

Lemma not_fresh_false : forall me dep acts gate evs c, dep <> me ->
  legal me gate evs c -> fresh dep acts evs = false -> depend_state (snd (hrun me evs)) me dep acts = false.
Proof.
  intros me dep acts gate evs c Hne H.
  induction H as [c|evs c d t1 t2 id HL IH H1 H2 H3 HG|evs c a t1 t2 id HL IH H1 H2 Ha|evs c r HL IH H1 Hr];
    rewrite ?fresh_snoc, ?hrun_snoc; cbn [happly set_status fst snd]; intros F.
  - reflexivity.
  - unfold depend_state. rewrite !latest_snoc. cbn [r_task r_action action_in existsb action_eqb].
    rewrite Z.eqb_refl. replace (me =? dep) with false by lia. cbn [andb orb].
    destruct (get_latest (snd (hrun me evs)) dep acts) as [x|] eqn:E; [|reflexivity].
    assert (r_created x <= c).
    { apply (w_created me evs c (legal_world _ _ _ _ HL)). apply latest_spec in E.
      destruct E as (l1 & l2 & -> & _). apply in_or_app. right. left. reflexivity. }
    cbn [r_created]. lia.
  - specialize (IH F). unfold depend_state in *. rewrite !latest_snoc. unfold action_in at 2. cbn [r_task r_action existsb].
    replace (me =? dep) with false by lia. cbn [andb]. replace (action_eqb a ARun) with false by (symmetry; apply action_eqb_neq; exact Ha).
    rewrite andb_false_r. exact IH.
  - destruct ((r_task r =? dep) && action_in acts r) eqn:E; [discriminate|]. specialize (IH F).
    unfold depend_state in *. rewrite !latest_snoc, E. replace (r_task r =? me) with false by lia. exact IH.
Qed.

Lemma one_start_per_trigger : forall me dep acts evs c, dep <> me ->
  legal me (gate_depend me dep acts) evs c ->
  all_starts evs + (if fresh dep acts evs then 1 else 0) <= triggers dep acts evs.
Proof.
  intros me dep acts evs c Hne H.
  remember (gate_depend me dep acts) as gate eqn:Eg.
  induction H as [c|evs c d t1 t2 id HL IH H1 H2 H3 HG|evs c a t1 t2 id HL IH H1 H2 Ha|evs c r HL IH H1 Hr];
    rewrite ?all_starts_app, ?triggers_app, ?fresh_snoc; cbn [all_starts triggers].
  - cbn. lia.
  - assert (F : fresh dep acts evs = true).
    { destruct (fresh dep acts evs) eqn:F; [reflexivity|exfalso].
      rewrite Eg in HG. unfold gate_depend in HG.
      rewrite (not_fresh_false me dep acts gate evs c Hne HL F) in HG. discriminate. }
    rewrite F in IH. lia.
  - lia.
  - change (existsb (action_eqb (r_action r)) acts) with (action_in acts r).
    destruct (fresh dep acts evs), ((r_task r =? dep) && action_in acts r); lia.
Qed.

Lemma starts_at_most_triggers : forall me dep acts evs c, dep <> me ->
  legal me (gate_depend me dep acts) evs c -> all_starts evs <= triggers dep acts evs.
Proof.
  intros me dep acts evs c Hne H. assert (X := one_start_per_trigger me dep acts evs c Hne H).
  destruct (fresh dep acts evs); lia.
Qed.

(** * Retry *)

Lemma retry_zero : forall force st l name, retry_state 0 force st l name = false.
Proof. reflexivity. Qed.

Lemma retry_infinite : forall force st l name,
  retry_state (-1) force st l name = true <-> get_status force st l name = Some AFail.
Proof.
  intros force st l name. unfold retry_state. cbn.
  destruct (get_status force st l name) as [[]|]; cbn; split; intros H; try discriminate; reflexivity.
Qed.

Lemma retry_needs_failure : forall n force st l name,
  retry_state n force st l name = true -> get_status force st l name = Some AFail.
Proof.
  intros n force st l name H. unfold retry_state in H. destruct (n =? 0); [discriminate|].
  destruct (get_status force st l name) as [[]|]; cbn in H; try discriminate. reflexivity.
Qed.

Definition since_of (l : log) (name : Z) : Z :=
  match get_latest l name [ASuccess; ACrash; AInaction; ATerminate] with
  | None => unix_epoch
  | Some r => r_created r
  end.
Definition counted (l : log) (name : Z) : Z :=
  Z.of_nat (length (filter_by l name (fun r => (since_of l name <=? r_created r) && action_in [AFail] r))).

Lemma retry_state_eq : forall n force st l name, 0 < n ->
  retry_state n force st l name =
  match get_status force st l name with Some AFail => counted l name <=? n | _ => false end.
Proof.
  intros n force st l name Hn. unfold retry_state. replace (n =? 0) with false by lia.
  replace (n =? -1) with false by lia.
  destruct (get_status force st l name) as [[]|]; reflexivity.
Qed.

Definition is_final (r : record) : bool := action_in [ASuccess; ACrash; AInaction; ATerminate] r.

Lemma failures_snoc : forall l r name, failures_in_a_row (l ++ [r]) name = fail_step name (failures_in_a_row l name) r.
Proof. intros l r name. unfold failures_in_a_row. rewrite fold_left_app. reflexivity. Qed.

Lemma failures_nonneg : forall l name, 0 <= failures_in_a_row l name.
Proof.
  intros l name. induction l as [|r l IH] using rev_ind; [cbn; lia|].
  rewrite failures_snoc. unfold fail_step. destruct (r_task r =? name); [|exact IH].
  destruct (r_action r); lia.
Qed.

Lemma chronological_snoc : forall l r, chronological (l ++ [r]) ->
  chronological l /\ forall r', In r' l -> r_created r' <= r_created r.
Proof.
  intros l r C. split.
  - intros l1 a l2 b l3 E. apply (C l1 a l2 b (l3 ++ [r])). rewrite E, <- app_assoc. cbn. rewrite <- app_assoc. reflexivity.
  - intros r' Hi. apply in_split in Hi. destruct Hi as (a & b & ->). apply (C a r' b r []).
    rewrite <- app_assoc. reflexivity.
Qed.

Lemma counted_ge_gen : forall l name k, chronological l -> after_epoch l name -> k <= since_of l name ->
  failures_in_a_row l name <= Z.of_nat (length (filter_by l name (fun r => (k <=? r_created r) && action_in [AFail] r))).
Proof.
  intros l name. induction l as [|r l IH] using rev_ind; intros k C A Hk; [cbn; lia|].
  apply chronological_snoc in C. destruct C as [C Cr].
  assert (A' : after_epoch l name) by (intros x Hx; apply A; apply in_or_app; left; exact Hx).
  rewrite failures_snoc, filter_by_snoc, app_length. unfold fail_step.
  unfold since_of in Hk. rewrite latest_snoc in Hk.
  destruct (r_task r =? name) eqn:E; cbn [andb] in *.
  - destruct (r_action r) eqn:Ea; try lia.
    + (* run *)
      assert (Hk' : k <= since_of l name) by (unfold action_in in Hk; rewrite Ea in Hk; exact Hk).
      specialize (IH k C A' Hk'). lia.
    + (* fail *)
      assert (Hk' : k <= since_of l name) by (unfold action_in in Hk; rewrite Ea in Hk; exact Hk).
      specialize (IH k C A' Hk').
      assert (Hkr : k <= r_created r).
      { assert (X : since_of l name <= r_created r); [|lia]. unfold since_of.
        destruct (get_latest l name _) as [x|] eqn:El.
        - apply Cr. apply latest_spec in El. destruct El as (l1 & l2 & -> & _). apply in_or_app. right. left. reflexivity.
        - apply A; [apply in_or_app; right; left; reflexivity|lia]. }
      replace (k <=? r_created r) with true by lia. replace (action_in [AFail] r) with true by (unfold action_in; rewrite Ea; reflexivity).
      cbn [andb length]. lia.
  - specialize (IH k C A' Hk). lia.
Qed.

Lemma counted_ge : forall l name, chronological l -> after_epoch l name -> failures_in_a_row l name <= counted l name.
Proof. intros l name C A. apply counted_ge_gen; [exact C|exact A|lia]. Qed.

(** Never more retries than allowed. *)
Lemma retry_sound : forall n force st l name, 0 < n -> chronological l -> after_epoch l name ->
  retry_state n force st l name = true ->
  get_status force st l name = Some AFail /\ failures_in_a_row l name <= n.
Proof.
  intros n force st l name Hn C A H. split; [exact (retry_needs_failure _ _ _ _ _ H)|].
  rewrite retry_state_eq in H by exact Hn.
  assert (X := counted_ge l name C A).
  destruct (get_status force st l name) as [[]|]; try discriminate. lia.
Qed.

Lemma strict_snoc : forall l r name, strictly_chronological (l ++ [r]) name ->
  strictly_chronological l name /\ (r_task r = name -> forall r', In r' l -> r_task r' = name -> r_created r' < r_created r).
Proof.
  intros l r name C. split.
  - intros l1 a l2 b l3 E. apply (C l1 a l2 b (l3 ++ [r])). rewrite E, <- app_assoc. cbn. rewrite <- app_assoc. reflexivity.
  - intros Hr r' Hi Hr'. apply in_split in Hi. destruct Hi as (a & b & ->). apply (C a r' b r []); try assumption.
    rewrite <- app_assoc. reflexivity.
Qed.

Lemma filter_none : forall l name f, (forall r, In r l -> r_task r = name -> f r = false) -> filter_by l name f = [].
Proof.
  intros l name f. induction l as [|r l IH]; intros H; [reflexivity|].
  change (filter_by (r :: l) name f) with (if (r_task r =? name) && f r then r :: filter_by l name f else filter_by l name f).
  rewrite IH by (intros x Hx; apply H; right; exact Hx).
  destruct (r_task r =? name) eqn:E; cbn [andb]; [|reflexivity].
  rewrite (H r (or_introl eq_refl)) by lia. reflexivity.
Qed.

Lemma counted_le : forall l name, strictly_chronological l name -> counted l name <= failures_in_a_row l name.
Proof.
  intros l name. induction l as [|r l IH] using rev_ind; intros C; [cbn; lia|].
  apply strict_snoc in C. destruct C as [C Cr]. specialize (IH C).
  rewrite failures_snoc. unfold counted, fail_step. rewrite filter_by_snoc, app_length.
  unfold counted in IH. unfold since_of in *. rewrite latest_snoc.
  assert (N := failures_nonneg l name).
  destruct (r_task r =? name) eqn:E; cbn [andb]; [|cbn [length]; lia].
  assert (Hfin : forall b, action_in [ASuccess; ACrash; AInaction; ATerminate] r = b ->
      match r_action r with ARun | AFail => b = false | _ => b = true end)
    by (intros b <-; unfold action_in; destruct (r_action r); reflexivity).
  specialize (Hfin _ eq_refl).
  assert (Hfail : action_in [AFail] r = match r_action r with AFail => true | _ => false end)
    by (unfold action_in; destruct (r_action r); reflexivity).
  rewrite Hfail.
  assert (Hz : length (filter_by l name (fun x => (r_created r <=? r_created x) && action_in [AFail] x)) = O).
  { rewrite filter_none; [reflexivity|]. intros x Hx Ht. specialize (Cr ltac:(lia) x Hx Ht). lia. }
  destruct (r_action r) eqn:Ea; rewrite Hfin, ?andb_false_r, ?andb_true_r; cbn [length]; try lia.
  destruct (_ <=? _); cbn [length]; lia.
Qed.

Lemma retry_exact : forall n force st l name, 0 < n -> chronological l -> strictly_chronological l name -> after_epoch l name ->
  (retry_state n force st l name = true <->
   get_status force st l name = Some AFail /\ failures_in_a_row l name <= n).
Proof.
  intros n force st l name Hn C S A. split; [apply retry_sound; assumption|].
  intros [H1 H2]. rewrite retry_state_eq, H1 by exact Hn. assert (X := counted_le l name S). lia.
Qed.

Lemma retry_same_time : exists l st,
  chronological l /\ get_status false st l 1 = Some AFail /\ failures_in_a_row l 1 = 1 /\
  retry_state 1 false st l 1 = false.
Proof.
  exists [Rec 1 AFail (unix_epoch + 5) None; Rec 1 ASuccess (unix_epoch + 5) None; Rec 1 AFail (unix_epoch + 9) None],
         (TState (fun _ => None) (Some AFail)).
  split; [|repeat split; reflexivity].
  intros l1 a l2 b l3 E.
  destruct l1 as [|x1 [|x2 [|x3 l1]]]; destruct l2 as [|y1 [|y2 [|y3 l2]]]; cbn in E;
    try discriminate; injection E; intros; subst; cbn; try lia.
  all: destruct l1; discriminate.
Qed.

(** Histories with retries. *)
Lemma fr_snoc : forall evs ev, fails_and_retries (evs ++ [ev]) = retry_step (fails_and_retries evs) ev.
Proof. intros evs ev. unfold fails_and_retries. rewrite fold_left_app. reflexivity. Qed.

Lemma legal_chronological : forall me gate evs c, legal me gate evs c ->
  chronological (snd (hrun me evs)) /\ (forall r, In r (snd (hrun me evs)) -> r_created r <= c).
Proof.
  intros me gate evs c H.
  assert (add : forall l r, chronological l -> (forall x, In x l -> r_created x <= r_created r) -> chronological (l ++ [r])).
  { intros l r C Hle l1 a l2 b l3 E. destruct l3 as [|z l3] using rev_ind.
    - assert (E' : l ++ [r] = (l1 ++ a :: l2) ++ [b]) by (rewrite E, <- app_assoc; reflexivity).
      apply app_inj_tail in E'. destruct E' as [-> ->]. apply Hle. apply in_or_app. right. left. reflexivity.
    - assert (E' : l ++ [r] = (l1 ++ a :: l2 ++ b :: l3) ++ [z]).
      { rewrite E, <- app_assoc. cbn. rewrite <- app_assoc. reflexivity. }
      apply app_inj_tail in E'. destruct E' as [-> ->]. exact (C l1 a l2 b l3 eq_refl). }
  split; [|exact (w_created _ _ _ (legal_world _ _ _ _ H))].
  induction H as [c|evs c d t1 t2 id HL IH H1 H2 H3 HG|evs c a t1 t2 id HL IH H1 H2 Ha|evs c r HL IH H1 Hr].
  - intros l1 a l2 b l3 E. destruct l1; discriminate.
  - rewrite hrun_snoc. apply add; [exact IH|]. intros x Hx. apply (w_created _ _ _ (legal_world _ _ _ _ HL)) in Hx. cbn. lia.
  - rewrite hrun_snoc. apply add; [exact IH|]. intros x Hx. apply (w_created _ _ _ (legal_world _ _ _ _ HL)) in Hx. cbn. lia.
  - rewrite hrun_snoc. apply add; [exact IH|]. intros x Hx. apply (w_created _ _ _ (legal_world _ _ _ _ HL)) in Hx. lia.
Qed.

Lemma fails_in_log : forall me gate evs c, legal me gate evs c ->
  fst (fails_and_retries evs) = failures_in_a_row (snd (hrun me evs)) me.
Proof.
  intros me gate evs c H.
  induction H as [c|evs c d t1 t2 id HL IH H1 H2 H3 HG|evs c a t1 t2 id HL IH H1 H2 Ha|evs c r HL IH H1 Hr].
  - reflexivity.
  - rewrite fr_snoc, hrun_snoc. cbn [happly set_status fst snd]. rewrite failures_snoc, <- IH.
    unfold fail_step. cbn [r_task r_action]. rewrite Z.eqb_refl. destruct (fails_and_retries evs). reflexivity.
  - rewrite fr_snoc, hrun_snoc. cbn [happly set_status fst snd]. rewrite failures_snoc, <- IH.
    unfold fail_step. cbn [r_task r_action]. rewrite Z.eqb_refl. destruct (fails_and_retries evs).
    destruct a; try contradiction; reflexivity.
  - rewrite fr_snoc, hrun_snoc. cbn [happly fst snd]. rewrite failures_snoc, <- IH.
    unfold fail_step. replace (r_task r =? me) with false by lia. destruct (fails_and_retries evs). reflexivity.
Qed.

(** The status of a task with failures and no run going is "fail". *)
Lemma idle_failed : forall me gate evs c, legal me gate evs c -> busy evs = false ->
  0 < fst (fails_and_retries evs) -> forall force, get_status force (fst (hrun me evs)) (snd (hrun me evs)) me = Some AFail.
Proof.
  intros me gate evs c H.
  induction H as [c|evs c d t1 t2 id HL IH H1 H2 H3 HG|evs c a t1 t2 id HL IH H1 H2 Ha|evs c r HL IH H1 Hr];
    rewrite ?busy_snoc, ?fr_snoc, ?hrun_snoc; intros B F force.
  - cbn in F. lia.
  - discriminate.
  - cbn [happly set_status fst snd]. destruct (fails_and_retries evs) as [f q].
    destruct a; cbn in F; try lia; try contradiction. unfold get_status.
    rewrite latest_any_snoc. cbn [r_task]. rewrite Z.eqb_refl. destruct force; reflexivity.
  - specialize (IH B). destruct (fails_and_retries evs) as [f q]. cbn in F, IH. specialize (IH F force).
    unfold get_status in *. cbn [happly fst snd]. rewrite latest_any_snoc.
    replace (r_task r =? me) with false by lia. exact IH.
Qed.

Lemma retries_bounded : forall me (gate : world -> Z -> bool) force n evs c,
  legal me gate evs c -> one_at_a_time evs -> 0 <= n ->
  (forall ev, In ev evs -> unix_epoch <= event_time ev) ->
  (forall w d, gate w d = true -> get_status force (fst w) (snd w) me = Some AFail ->
     retry_state n force (fst w) (snd w) me = true) ->
  snd (fails_and_retries evs) <= n.
Proof.
  intros me gate force n evs c H O Hn T G.
  assert (K : snd (fails_and_retries evs) <= n /\ 0 <= fst (fails_and_retries evs) /\ 0 <= snd (fails_and_retries evs) /\
    (fst (fails_and_retries evs) = 0 -> snd (fails_and_retries evs) = 0) /\
    snd (fails_and_retries evs) <= fst (fails_and_retries evs) /\
    (busy evs = false -> 0 < fst (fails_and_retries evs) -> snd (fails_and_retries evs) < fst (fails_and_retries evs))).
  2:{ exact (proj1 K). }
  induction H as [c|evs c d t1 t2 id HL IH H1 H2 H3 HG|evs c a t1 t2 id HL IH H1 H2 Ha|evs c r HL IH H1 Hr].
  - cbn. lia.
  - apply one_at_a_time_snoc in O. destruct O as [O Hb]. specialize (Hb d t1 t2 id eq_refl).
    assert (T' : forall ev, In ev evs -> unix_epoch <= event_time ev) by (intros ev Hev; apply T; apply in_or_app; left; exact Hev).
    destruct (IH O T') as (K1 & K2 & K2' & K3 & K4 & K5).
    assert (FL := fails_in_log me gate evs c HL).
    assert (IF := idle_failed me gate evs c HL Hb).
    rewrite fr_snoc, busy_snoc. destruct (fails_and_retries evs) as [f q]. cbn [fst snd retry_step] in *.
    destruct (0 <? f) eqn:E; [|repeat split; try lia; try discriminate].
    specialize (IF ltac:(lia) force). specialize (G _ _ HG IF).
    assert (f <= n).
    { destruct (Z.eq_dec n 0) as [-> | Hn0]; [rewrite retry_zero in G; discriminate|].
      destruct (legal_chronological me gate evs c HL) as [C _].
      assert (A : after_epoch (snd (hrun me evs)) me).
      { clear - HL T'. induction HL as [c|evs c d t1 t2 id HL IH H1 H2 H3 HG|evs c a t1 t2 id HL IH H1 H2 Ha|evs c r HL IH H1 Hr].
        - intros x [].
        - rewrite hrun_snoc. intros x Hx Ht. apply in_app_or in Hx. destruct Hx as [Hx|[<- | []]].
          + apply IH; try assumption. intros ev Hev. apply T'. apply in_or_app. left. exact Hev.
          + exact (T' (HStart d t1 t2 id) ltac:(apply in_or_app; right; left; reflexivity)).
        - rewrite hrun_snoc. intros x Hx Ht. apply in_app_or in Hx. destruct Hx as [Hx|[<- | []]].
          + apply IH; try assumption. intros ev Hev. apply T'. apply in_or_app. left. exact Hev.
          + exact (T' (HOutcome a t1 t2 id) ltac:(apply in_or_app; right; left; reflexivity)).
        - rewrite hrun_snoc. intros x Hx Ht. apply in_app_or in Hx. destruct Hx as [Hx|[<- | []]].
          + apply IH; try assumption. intros ev Hev. apply T'. apply in_or_app. left. exact Hev.
          + exact (T' (HOther r) ltac:(apply in_or_app; right; left; reflexivity)). }
      destruct (retry_sound n force _ _ me ltac:(lia) C A G) as [_ X]. lia. }
    specialize (K5 Hb ltac:(lia)). repeat split; try lia; try discriminate.
  - apply one_at_a_time_snoc in O. destruct O as [O _].
    assert (T' : forall ev, In ev evs -> unix_epoch <= event_time ev) by (intros ev Hev; apply T; apply in_or_app; left; exact Hev).
    destruct (IH O T') as (K1 & K2 & K2' & K3 & K4 & K5).
    rewrite fr_snoc, busy_snoc. destruct (fails_and_retries evs) as [f q]. cbn [fst snd retry_step] in *.
    destruct a; try contradiction; cbn [fst snd]; repeat split; try lia.
  - apply one_at_a_time_snoc in O. destruct O as [O _].
    assert (T' : forall ev, In ev evs -> unix_epoch <= event_time ev) by (intros ev Hev; apply T; apply in_or_app; left; exact Hev).
    specialize (IH O T'). rewrite fr_snoc, busy_snoc. destruct (fails_and_retries evs) as [f q]. exact IH.
Qed.
