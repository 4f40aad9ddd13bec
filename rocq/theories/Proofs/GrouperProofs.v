(** Proofs about including groups of tasks. *)
From Coq Require Import Bool Arith Lia ZifyBool String.
From Verif Require Import Model.Base Model.Condition Model.World Model.Registry.
From Verif Require Import Spec.RegistrySpec Proofs.RegistryProofs Proofs.ConditionProofs.
Open Scope nat_scope.

Definition joined (s : nat) (g : grouper) (o : tobj) : tobj :=
  TObj (prefixed g (o_name o)) s
    (match g_start g with Some c => c_and (o_start o) c | None => o_start o end)
    (match o_exec o with None => g_exec g | x => x end) (o_link o).

Lemma check_raise st s n : st_policy st s = PRaise ->
  check_name st s n = if contains st s n then Err ValueError else Ok n.
Proof.
  intros P. unfold check_name, parse_name, validate_name. rewrite P.
  destruct (contains st s n) eqn:C; [reflexivity|]. now rewrite C.
Qed.
Lemma prefix_empty g n : g_prefix g = EmptyString -> prefixed g n = n.
Proof. intros E. unfold prefixed. now rewrite E. Qed.
Lemma prefixed_inj g a b : prefixed g a = prefixed g b -> a = b.
Proof. apply append_cancel. Qed.

Lemma find_same {A} (f h : A -> bool) l : (forall j, In j l -> f j = h j) -> find f l = find h l.
Proof.
  induction l as [|x l IH]; intros H; [reflexivity|]. cbn [find]. rewrite (H x (or_introl eq_refl)).
  destruct (h x); [reflexivity|]. apply IH. intros j J. apply H. now right.
Qed.
(** A successful inclusion of a task *)
Lemma include_one s g i st : s <> g_session g -> st_policy st s = PRaise -> st_policy st (g_session g) = PRaise ->
  o_session (st_obj st i) = g_session g -> ~ In i (st_tasks st s) ->
  let n := prefixed g (name_of st i) in
  if negb (String.eqb (g_prefix g) EmptyString) && contains st (g_session g) n
  then include_task s g i st = (st, Err ValueError)
  else if contains st s n then snd (include_task s g i st) = Err KeyError
  else snd (include_task s g i st) = Ok tt /\
       let st' := fst (include_task s g i st) in
       st_obj st' i = joined s g (st_obj st i) /\ (forall j, j <> i -> st_obj st' j = st_obj st j) /\
       st_tasks st' s = (st_tasks st s ++ [i])%list /\ (forall s', s' <> s -> st_tasks st' s' = st_tasks st s') /\
       st_policy st' = st_policy st /\ st_next st' = st_next st.
Proof.
  intros D P1 P2 Own NI n. unfold include_task.
  assert (Tail : forall st1, st_tasks st1 = st_tasks st -> st_policy st1 = st_policy st -> st_next st1 = st_next st ->
    (forall j, j <> i -> st_obj st1 j = st_obj st j) -> st_obj st1 i = with_name n (st_obj st i) ->
    let o := st_obj st1 i in
    let o := match g_start g with Some c => with_start (c_and (o_start o) c) o | None => o end in
    let o := with_exec (match o_exec o with None => g_exec g | x => x end) o in
    let r := add_task s i (set_obj i o st1) in
    if contains st s n then snd r = Err KeyError
    else snd r = Ok tt /\
       let st' := fst r in
       st_obj st' i = joined s g (st_obj st i) /\ (forall j, j <> i -> st_obj st' j = st_obj st j) /\
       st_tasks st' s = (st_tasks st s ++ [i])%list /\ (forall s', s' <> s -> st_tasks st' s' = st_tasks st s') /\
       st_policy st' = st_policy st /\ st_next st' = st_next st).
  { intros st1 T1 Q1 X1 O1 N1. cbn zeta. rewrite N1.
    set (o := with_exec _ _).
    assert (Eo : o = with_session (g_session g) (joined s g (st_obj st i))).
    { unfold o, joined, with_session, with_exec, with_start, with_name. cbn [o_name o_session o_start o_exec o_link].
      destruct (g_start g); cbn [o_name o_session o_start o_exec o_link]; rewrite Own; reflexivity. }
    set (st2 := set_obj i o st1).
    assert (Oi : st_obj st2 i = o) by (unfold st2, set_obj; cbn [st_obj]; now rewrite Nat.eqb_refl).
    assert (Oj : forall j, j <> i -> st_obj st2 j = st_obj st j).
    { intros j Dj. unfold st2, set_obj. cbn [st_obj]. apply Nat.eqb_neq in Dj as Ej. rewrite Ej. now apply O1. }
    assert (T2 : st_tasks st2 s = st_tasks st s) by (unfold st2, set_obj; cbn [st_tasks]; now rewrite T1).
    assert (Nm : o_name (st_obj st2 i) = n) by (rewrite Oi, Eo; reflexivity).
    assert (C2 : contains st2 s n = contains st s n).
    { unfold contains, lookup. rewrite T2. erewrite find_same; [reflexivity|]. intros j J. cbn beta.
      now rewrite Oj by (intros ->; contradiction). }
    assert (P3 : st_policy st2 s = PRaise) by (unfold st2, set_obj; cbn [st_policy]; now rewrite Q1).
    unfold add_task. rewrite Nm, C2, P3. destruct (contains st s n); [reflexivity|].
    split; [reflexivity|]. cbn [fst]. unfold set_tasks at 1 3 5. cbn [st_obj]. rewrite Oi.
    split; [unfold set_obj; cbn [st_obj]; rewrite Nat.eqb_refl, Eo; reflexivity|]. split.
    { intros j Dj. unfold set_obj at 1. cbn [st_obj set_tasks]. apply Nat.eqb_neq in Dj as Ej. rewrite Ej. now apply Oj. }
    split.
    { unfold set_obj at 1. cbn [st_tasks]. unfold set_tasks. cbn [st_tasks]. rewrite Nat.eqb_refl, T2. unfold set_add.
      destruct (existsb (Nat.eqb i) (st_tasks st s)) eqn:E; [|reflexivity].
      exfalso. apply NI. apply existsb_exists in E as (x & X & Q). apply Nat.eqb_eq in Q. now subst. }
    split.
    { intros s' Ds. unfold set_obj at 1, set_tasks. cbn [st_tasks]. apply Nat.eqb_neq in Ds. rewrite Ds.
      unfold st2, set_obj. cbn [st_tasks]. now rewrite T1. }
    split; [exact Q1|exact X1]. }
  destruct (String.eqb (g_prefix g) EmptyString) eqn:E; cbn [negb andb].
  - apply String.eqb_eq in E. assert (En : n = name_of st i) by now apply prefix_empty.
    apply (Tail st); try reflexivity. rewrite En. unfold name_of. now destruct (st_obj st i).
  - unfold set_name. rewrite Own, check_raise by exact P2.
    change (g_prefix g ++ o_name (st_obj st i))%string with n.
    destruct (contains st (g_session g) n); [reflexivity|].
    apply Tail; try reflexivity.
    + intros j Dj. unfold set_obj. cbn [st_obj]. apply Nat.eqb_neq in Dj. now rewrite Dj.
    + unfold set_obj. cbn [st_obj]. now rewrite Nat.eqb_refl.
Qed.

(** A successful inclusion of a group *)
Lemma include_all s g : s <> g_session g -> forall l st st',
  NoDup l -> (forall i, In i l -> o_session (st_obj st i) = g_session g /\ ~ In i (st_tasks st s)) ->
  st_policy st s = PRaise -> st_policy st (g_session g) = PRaise ->
  include_tasks s g l st = (st', Ok tt) ->
  st_tasks st' s = (st_tasks st s ++ l)%list /\ (forall i, In i l -> st_obj st' i = joined s g (st_obj st i)) /\
  (forall i, ~ In i l -> st_obj st' i = st_obj st i) /\ (forall s', s' <> s -> st_tasks st' s' = st_tasks st s').
Proof.
  intros D. induction l as [|i l IH]; intros st st' N H P1 P2 R.
  - cbn [include_tasks] in R. injection R as <-. split; [now rewrite app_nil_r|]. repeat split; auto. intros i [].
  - cbn [include_tasks] in R. inversion N as [|? ? Ni Nl]; subst.
    destruct (H i (or_introl eq_refl)) as [Own NI].
    pose proof (include_one s g i st D P1 P2 Own NI) as I. cbn zeta in I.
    destruct (include_task s g i st) as [st1 r1]. cbn [fst snd] in I.
    destruct (negb _ && _); [injection I as <- ->; discriminate R|].
    destruct (contains st s _); [rewrite I in R; discriminate R|].
    destruct I as (-> & O1 & O2 & T1 & T2 & Q1 & _).
    apply IH in R; [|exact Nl| |now rewrite Q1|now rewrite Q1].
    + destruct R as (R1 & R2 & R3 & R4). split.
      { rewrite R1, T1, <- app_assoc. reflexivity. }
      split.
      { intros j [<- | J]; [rewrite R3 by exact Ni; exact O1|]. rewrite R2 by exact J. rewrite O2; [reflexivity|]. congruence. }
      split.
      { intros j J. rewrite R3 by (intros Hj; apply J; now right). apply O2. intros ->. apply J. now left. }
      intros s' Ds. rewrite R4 by exact Ds. now apply T2.
    + intros j J. assert (j <> i) by congruence. rewrite O2 by assumption. destruct (H j (or_intror J)) as [H1 H2].
      split; [exact H1|]. rewrite T1, in_app_iff. intros [X | [X | []]]; [contradiction|congruence].
Qed.

Lemma observe_and env c d : observe env (c_and c d) = both env c (Some d).
Proof.
  unfold c_and. rewrite observe_mk_all. cbn [both]. cbn [observe all_loop].
  destruct (observe env c) as [[[]|e] tr]; try reflexivity.
  destruct (observe env d) as [[[]|e] tr']; try reflexivity; rewrite ?app_nil_r; reflexivity.
Qed.

Theorem group_included s g st st' : s <> g_session g -> sane st -> orderly st s -> orderly st (g_session g) ->
  (forall i, task_of st (g_session g) i -> ~ task_of st s i) ->
  st_policy st s = PRaise -> st_policy st (g_session g) = PRaise ->
  include_grouper s g st = (st', Ok tt) ->
  st_tasks st' s = (st_tasks st s ++ st_tasks st (g_session g))%list /\ unique_names st' s /\
  (forall i, task_of st (g_session g) i ->
     name_of st' i = prefixed g (name_of st i) /\ o_session (st_obj st' i) = s /\
     o_exec (st_obj st' i) = (match o_exec (st_obj st i) with None => g_exec g | x => x end) /\
     forall env, observe env (o_start (st_obj st' i)) = both env (o_start (st_obj st i)) (g_start g)) /\
  forall i, ~ task_of st (g_session g) i -> st_obj st' i = st_obj st i.
Proof.
  intros D S O1 O2 Dis P1 P2 R.
  assert (U : orderly st' s).
  { pose proof (orderly_op (OInclude s g) st s S O1) as X. cbn [apply_op keeps_to] in X. rewrite R in X. apply X.
    intros i I J. exfalso. exact (Dis i I J). }
  unfold include_grouper in R. apply include_all in R; [|exact D|apply S| |exact P1|exact P2].
  - destruct R as (R1 & R2 & R3 & _). split; [exact R1|]. split; [apply U|]. split; [|exact R3].
    intros i I. unfold name_of. rewrite (R2 i I). split; [reflexivity|]. split; [reflexivity|]. split; [reflexivity|].
    intros env. cbn [joined o_start]. destruct (g_start g); [apply observe_and|reflexivity].
  - intros i I. split; [now apply O2|now apply Dis].
Qed.

(** When the inclusion succeeds *)
Lemma include_ok s g st0 : s <> g_session g ->
  unique_names st0 (g_session g) ->
  (forall i, task_of st0 (g_session g) i -> ~ used st0 s (prefixed g (name_of st0 i))) ->
  (g_prefix g <> EmptyString -> forall i, task_of st0 (g_session g) i -> ~ used st0 (g_session g) (prefixed g (name_of st0 i))) ->
  forall l don st, st_tasks st0 (g_session g) = (don ++ l)%list ->
  (forall i, In i don -> name_of st i = prefixed g (name_of st0 i)) ->
  (forall i, ~ In i don -> st_obj st i = st_obj st0 i) ->
  st_tasks st s = (st_tasks st0 s ++ don)%list -> st_tasks st (g_session g) = st_tasks st0 (g_session g) ->
  st_policy st s = PRaise -> st_policy st (g_session g) = PRaise ->
  (forall i, In i l -> o_session (st_obj st i) = g_session g /\ ~ In i (st_tasks st s)) ->
  (forall i, In i (st_tasks st0 s) -> ~ In i don) ->
  snd (include_tasks s g l st) = Ok tt.
Proof.
  intros D [Nd U] H1 H2. induction l as [|i l IH]; intros don st E Hd Ho T1 T2 P1 P2 Hl Dis; [reflexivity|].
  cbn [include_tasks]. destruct (Hl i (or_introl eq_refl)) as [Own NI].
  assert (Ti : task_of st0 (g_session g) i) by (unfold task_of; rewrite E, in_app_iff; right; now left).
  rewrite E in Nd. assert (Ndon : ~ In i don).
  { intros X. apply NoDup_remove_2 in Nd. apply Nd. apply in_or_app. now left. }
  assert (Nl : ~ In i l).
  { intros X. apply NoDup_remove_2 in Nd. apply Nd. apply in_or_app. now right. }
  assert (Ni : name_of st i = name_of st0 i) by (unfold name_of; now rewrite Ho).
  assert (Same : forall j, In j don -> prefixed g (name_of st0 j) <> prefixed g (name_of st0 i)).
  { intros j J X. apply prefixed_inj in X. assert (j = i); [|congruence]. apply U; [|exact Ti|exact X].
    unfold task_of. rewrite E, in_app_iff. now left. }
  assert (C1 : negb (String.eqb (g_prefix g) EmptyString) && contains st (g_session g) (prefixed g (name_of st i)) = false).
  { destruct (String.eqb (g_prefix g) EmptyString) eqn:Ep; [reflexivity|]. cbn [negb andb]. apply String.eqb_neq in Ep.
    apply not_contains. intros (j & J & X). rewrite Ni in X. unfold task_of in J. rewrite T2 in J.
    destruct (in_dec Nat.eq_dec j don) as [Y|Y].
    - rewrite Hd in X by exact Y. exact (Same j Y X).
    - apply (H2 Ep i Ti). exists j. split; [exact J|]. unfold name_of in X. now rewrite Ho in X. }
  assert (C2 : contains st s (prefixed g (name_of st i)) = false).
  { apply not_contains. intros (j & J & X). rewrite Ni in X. unfold task_of in J. rewrite T1, in_app_iff in J.
    destruct J as [J|J]; [|rewrite Hd in X by exact J; exact (Same j J X)].
    apply (H1 i Ti). exists j. split; [exact J|]. unfold name_of in X. now rewrite Ho in X by now apply Dis. }
  pose proof (include_one s g i st D P1 P2 Own NI) as I. cbn zeta in I. rewrite C1, C2 in I.
  destruct (include_task s g i st) as [st1 r1]. cbn [fst snd] in I. destruct I as (-> & O1 & O2 & T3 & T4 & Q1 & _).
  apply (IH (don ++ [i])%list).
  - rewrite <- app_assoc. exact E.
  - intros j J. apply in_app_iff in J as [J | [<- | []]].
    + unfold name_of. rewrite O2 by congruence. now apply Hd.
    + unfold name_of. rewrite O1. cbn [joined o_name]. now rewrite Ho by exact Ndon.
  - intros j J. rewrite in_app_iff in J. rewrite O2 by (intros ->; apply J; right; now left). apply Ho. intros X. apply J. now left.
  - rewrite T3, T1, <- app_assoc. reflexivity.
  - rewrite T4 by congruence. exact T2.
  - now rewrite Q1.
  - now rewrite Q1.
  - intros j J. assert (j <> i) by congruence. rewrite O2 by assumption. destruct (Hl j (or_intror J)) as [X Y].
    split; [exact X|]. rewrite T3, in_app_iff. intros [Z | [Z | []]]; [contradiction|congruence].
  - intros j J X. apply in_app_iff in X as [X | [<- | []]]; [now apply (Dis j)|].
    apply NI. rewrite T1. apply in_or_app. now left.
Qed.
Theorem group_succeeds s g st : s <> g_session g -> orderly st (g_session g) ->
  (forall i, task_of st (g_session g) i -> ~ task_of st s i) ->
  st_policy st s = PRaise -> st_policy st (g_session g) = PRaise ->
  (forall i, task_of st (g_session g) i -> ~ used st s (prefixed g (name_of st i))) ->
  (g_prefix g <> EmptyString -> forall i, task_of st (g_session g) i -> ~ used st (g_session g) (prefixed g (name_of st i))) ->
  snd (include_grouper s g st) = Ok tt.
Proof.
  intros D O Dis P1 P2 H1 H2. unfold include_grouper.
  apply (include_ok s g st D (proj1 O) H1 H2 _ [] st); rewrite ?app_nil_r; auto; try (intros i []).
  intros i I. split; [now apply O|now apply Dis].
Qed.
