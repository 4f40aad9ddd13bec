(** Every completed cycle comes to the cyclic tasks that were in the session
    when it began, to each of them once. *)
From Coq Require Import ZArith List Bool Arith Lia Permutation.
From Verif Require Import Model.Base Model.History Model.Dynamic Spec.DynamicSpec Proofs.DynamicProofs Proofs.DynamicStart.
Import ListNotations.
Open Scope nat_scope.

Definition along (cs : list nat) (w w' : dworld) : Prop :=
  exists s, dw_trace w' = dw_trace w ++ s /\ one_phase s /\ considered s = cs /\
    dw_members w' = session_after (dw_members w) s /\ steady w w' /\ (forall i, In (DAdd i) s -> i < length (dw_objs w')).
Definition quiet (w w' : dworld) : Prop := along [] w w'.

Lemma one_phase_app a b : one_phase (a ++ b) <-> one_phase a /\ one_phase b.
Proof.
  unfold one_phase. split.
  - intros H. split; intros K; apply H; apply in_or_app; [left|right]; exact K.
  - intros [A B] K. apply in_app_or in K. tauto.
Qed.
Lemma considered_app a b : considered (a ++ b) = considered a ++ considered b.
Proof. apply flat_map_app. Qed.
Lemma along_refl w : quiet w w.
Proof. exists []. rewrite app_nil_r. repeat split; try lia; try (intros ? []). intros []. Qed.
Lemma along_trans a b w1 w2 w3 : along a w1 w2 -> along b w2 w3 -> along (a ++ b) w1 w3.
Proof.
  intros (s & T1 & O1 & C1 & M1 & S1 & A1) (s' & T2 & O2 & C2 & M2 & S2 & A2). exists (s ++ s').
  rewrite T2, T1, app_assoc. split; [reflexivity|]. split; [apply one_phase_app; split; assumption|].
  split; [rewrite considered_app, C1, C2; reflexivity|].
  split; [rewrite M2, M1; unfold session_after; rewrite fold_left_app; reflexivity|].
  split; [eapply steady_trans; eassumption|]. intros i Hi. apply in_app_or in Hi. destruct Hi as [Hi|Hi]; [|apply A2; exact Hi].
  apply A1 in Hi. destruct S2. lia.
Qed.
Lemma along_quiet a w1 w2 w3 : along a w1 w2 -> quiet w2 w3 -> along a w1 w3.
Proof. intros A B. pose proof (along_trans _ _ _ _ _ A B) as H. rewrite app_nil_r in H. exact H. Qed.
Lemma quiet_same w w1 w2 : steady w1 w2 -> dw_trace w2 = dw_trace w1 -> dw_members w2 = dw_members w1 -> quiet w w1 -> quiet w w2.
Proof.
  intros S T M Q. apply (along_quiet [] w w1 w2 Q). exists []. rewrite app_nil_r. repeat split; try assumption; try apply S; try (intros ? []). intros [].
Qed.
Lemma quiet_event w w1 w2 e : steady w1 w2 -> dw_trace w2 = dw_trace w1 ++ [e] -> dw_members w2 = session_step (dw_members w1) e ->
  e <> DPhase -> considered [e] = [] -> (forall i, e = DAdd i -> i < length (dw_objs w2)) -> quiet w w1 -> quiet w w2.
Proof.
  intros S T M N C A Q. apply (along_quiet [] w w1 w2 Q). exists [e]. split; [exact T|]. split; [intros [K|[]]; exact (N K)|].
  split; [exact C|]. split; [exact M|]. split; [exact S|]. intros i [K|[]]. exact (A i K).
Qed.

Lemma perm_filter {A} (f : A -> bool) l l' : Permutation l l' -> Permutation (filter f l) (filter f l').
Proof.
  induction 1 as [|x l l' P IH|x y l|l l' l'' P1 IH1 P2 IH2]; cbn [filter].
  - reflexivity.
  - destruct (f x); [constructor; exact IH|exact IH].
  - destruct (f x), (f y); try reflexivity. apply perm_swap.
  - rewrite IH1. exact IH2.
Qed.

Section Quiet.
Context (orc : doracle) (cf : dconfig).
Notation any := (fun _ : exn => True).
Notation may := (fun (_ : dworld) (_ : nat) => True).
Lemma x_like c w w' : alike w w' -> quiet c w -> quiet c w'.
Proof using.
  intros (A1 & A2 & _ & _ & A5 & _). apply quiet_same; [|exact A5|exact A2]. unfold steady, obj. rewrite A1. split; [lia|reflexivity].
Qed.
Lemma x_move c k w : quiet c w -> quiet c (do_move (o_move orc k w) w).
Proof using.
  intros H. destruct (move_view (o_move orc k w) w) as [S [[T M]|(e & ME & A & T & M)]]; [exact (quiet_same _ _ _ S T M H)|].
  apply (quiet_event c w _ e S T M); [| |exact A|exact H]; destruct e; try destruct ME; try discriminate; reflexivity.
Qed.
Lemma x_pop c w r q i : quiet c w -> dw_queue w = r :: q -> by_name (q_name r) w = Some i -> quiet c (noted i r q w).
Proof using.
  intros H _ _. destruct (noted_view i r q w) as (S & E1 & E2 & _).
  apply (quiet_event c w _ (DNote i r)); [exact S|exact E2|exact E1|discriminate|reflexivity|discriminate|exact H].
Qed.
Lemma x_lost c w r q : quiet c w -> dw_queue w = r :: q -> by_name (q_name r) w = None -> quiet c (dset_queue q w) /\ True.
Proof using. intros H _ _. split; [exact H|exact I]. Qed.
Lemma x_order c w q : Permutation (dw_queue w) q -> quiet c w -> quiet c (dset_queue q w).
Proof using. intros _ H. exact H. Qed.
Lemma x_judge c i w : True -> quiet c w -> quiet c (judged i w).
Proof using. intros _. apply (quiet_event c w _ (DJudge i (do_state (obj i w)) (dw_log w))); [exact (steady_refl w)|reflexivity|reflexivity|discriminate|reflexivity|discriminate]. Qed.
Lemma x_start c i w : True -> quiet c w -> drunnable cf i w = true -> quiet c (enqueued i (push_run i w)).
Proof using.
  intros _ H _. destruct (push_view i w) as (S & E1 & E2).
  eapply quiet_event; [exact S|exact E2|exact E1|discriminate|reflexivity|discriminate|exact H].
Qed.
Lemma x_note c i a t w : quiet c w -> quiet c (note i a t w).
Proof using. destruct (note_same i a t w) as (E1 & E2 & _). apply quiet_same; [apply steady_note|exact E1|exact E2]. Qed.
Lemma x_kill c i r w : quiet c w -> quiet c (kill_run i w r).
Proof using.
  intros H. destruct (kill_view i r w) as (S & E1 & [E2|E2]); [exact (quiet_same _ _ _ S E2 E1 H)|].
  eapply quiet_event; [exact S|exact E2|exact E1|discriminate|reflexivity|discriminate|exact H].
Qed.
Lemma e_env c : hold (quiet c) any (denv orc).
Proof using. apply (p_env orc quiet any); eauto using x_like, x_move. Qed.
Lemma e_logs c : hold (quiet c) any dhandle_logs.
Proof using. apply (p_handle_logs quiet any); eauto using x_pop, x_lost. Qed.
Lemma e_guarded c i : hold (quiet c) any (dguarded orc cf i).
Proof using. apply (p_guarded orc cf quiet may any); eauto using x_like, x_move, x_pop, x_lost, x_judge, x_start, x_note, x_order. Qed.
Lemma e_check c i : hold (quiet c) any (dcheck orc i).
Proof using. apply (p_check orc quiet any); eauto using x_like, x_kill. Qed.
Lemma e_wait c n b : hold (quiet c) any (dwait orc n b).
Proof using. apply (p_wait orc quiet any); eauto using x_like, x_move, x_pop, x_lost, x_kill. Qed.
Lemma e_end c n b : hold (quiet c) any (dend_tasks orc cf n b).
Proof using. apply (p_end_tasks orc cf quiet any); eauto using x_like, x_move, x_pop, x_lost, x_kill. Qed.

Lemma quiet_of {A} (m : D A) w w' r : (forall c, hold (quiet c) any m) -> m w = (w', r) -> quiet w w'.
Proof using. intros H E. pose proof (H w w (along_refl w)) as [K _]. rewrite E in K. exact K. Qed.
Lemma bind_returns {A B} (m : D A) (f : A -> D B) w w' b :
  dbind m f w = (w', Returns b) -> exists w1 a, m w = (w1, Returns a) /\ f a w1 = (w', Returns b).
Proof using. unfold dbind. destruct (m w) as [w1 [a|e|]]; try discriminate. intros H. exists w1, a. split; [reflexivity|exact H]. Qed.

Lemma turn_along i w w' : i < length (dw_objs w) -> dturn orc cf i w = (w', Returns tt) ->
  along (if cyclic w i then [i] else []) w w'.
Proof using.
  intros L H. unfold dturn in H.
  apply bind_returns in H. destruct H as (w1 & [] & H1 & H). apply (quiet_of _ _ _ _ (fun c => e_env c)) in H1.
  apply bind_returns in H. destruct H as (w2 & [] & H2 & H). apply (quiet_of _ _ _ _ (fun c => e_logs c)) in H2.
  pose proof (along_quiet _ _ _ _ H1 H2) as H3. clear H1 H2.
  unfold dbind at 1, dget at 1 in H.
  assert (E : do_startup (obj i w2) || do_shutdown (obj i w2) = negb (cyclic w i)).
  { destruct H3 as (_ & _ & _ & _ & _ & [_ S] & _). specialize (S i L). unfold look in S. injection S as _ _ _ E4 E5. unfold cyclic. rewrite E4, E5, negb_involutive. reflexivity. }
  rewrite E in H. apply bind_returns in H. destruct H as (w3 & [] & H4 & H). apply (quiet_of _ _ _ _ (fun c => e_check c i)) in H.
  destruct (cyclic w i); cbn [negb] in H4.
  - apply bind_returns in H4. destruct H4 as (w4 & [] & [= <-] & H5). apply (quiet_of _ _ _ _ (fun c => e_guarded c i)) in H5.
    apply (along_quiet [i] w w3 w'); [|exact H]. apply (along_quiet [i] _ _ _) with (2 := H5).
    apply (along_trans [] [i] w w2); [exact H3|]. exists [DConsider i]. split; [reflexivity|]. split; [intros [K|[]]; discriminate|].
    split; [reflexivity|]. split; [reflexivity|]. split; [exact (steady_refl w2)|]. intros j [K|[]]; discriminate.
  - injection H4 as <-. exact (along_quiet _ _ _ _ H3 H).
Qed.
Lemma turns_along ts : forall w w', (forall i, In i ts -> i < length (dw_objs w)) -> deach (dturn orc cf) ts w = (w', Returns tt) ->
  along (filter (cyclic w) ts) w w'.
Proof using.
  induction ts as [|i ts IH]; cbn [deach]; intros w w' L H; [injection H as <-; apply along_refl|].
  apply bind_returns in H. destruct H as (w1 & [] & H1 & H). apply turn_along in H1; [|apply L; left; reflexivity].
  assert (S : steady w w1) by (destruct H1 as (? & _ & _ & _ & _ & S & _); exact S).
  apply IH in H; [|intros j Hj; destruct S; specialize (L j (or_intror Hj)); lia].
  assert (E : filter (cyclic w1) ts = filter (cyclic w) ts).
  { apply filter_ext_in. intros j Hj. destruct S as [_ S]. specialize (S j (L j (or_intror Hj))). unfold look in S. injection S as _ _ _ E4 E5.
    unfold cyclic. rewrite E4, E5. reflexivity. }
  rewrite E in H. pose proof (along_trans _ _ _ _ _ H1 H) as K. cbn [filter]. destruct (cyclic w i); exact K.
Qed.
Lemma cycle_along w w' : (forall i, In i (dw_members w) -> i < length (dw_objs w)) -> dcycle orc cf w = (w', Returns tt) ->
  along (filter (cyclic w) (dtasks w)) (demit DPhase w) w'.
Proof using.
  intros L H. unfold dcycle in H. unfold dbind at 1, dmod at 1 in H. unfold dbind at 1, dget at 1 in H.
  rewrite (dtasks_like w (demit DPhase w) eq_refl eq_refl) in H.
  apply bind_returns in H. destruct H as (w1 & [] & H1 & H). apply turns_along in H1; [|intros i Hi; apply dtasks_in in Hi; apply L; exact Hi].
  apply bind_returns in H. destruct H as (w2 & [] & H2 & H). apply (quiet_of _ _ _ _ (fun c => e_logs c)) in H2.
  unfold dmod in H. injection H as <-. apply (along_quiet _ _ _ _) with (2 := x_like w2 w2 _ ltac:(repeat split) (along_refl w2)).
  exact (along_quiet _ _ _ _ H1 H2).
Qed.

(** ** The whole session *)
Context (m0 : list nat).
Definition closing (p : list devent) : Prop := p = [] \/ exists q, p = DPhase :: q.
Definition Closed (w : dworld) (tr : list devent) : Prop :=
  forall p1 seg p3, tr = p1 ++ DPhase :: seg ++ p3 -> one_phase seg -> p1 <> [] -> closing p3 ->
    Permutation (considered seg) (filter (cyclic w) (session_after m0 p1)).
Definition Valid (w : dworld) : Prop :=
  (forall i, In i m0 -> i < length (dw_objs w)) /\ (forall i, In (DAdd i) (dw_trace w) -> i < length (dw_objs w)).
Definition CW (w : dworld) : Prop := dw_members w = session_after m0 (dw_trace w) /\ Valid w /\ Closed w (dw_trace w).

Lemma after_in tr i : In i (session_after m0 tr) -> In i m0 \/ In (DAdd i) tr.
Proof using.
  induction tr as [|e tr IH] using rev_ind; [left; exact H|]. unfold session_after. rewrite fold_left_app. cbn. fold (session_after m0 tr).
  intros H.
  assert (G : In i (session_after m0 tr) \/ e = DAdd i).
  { destruct e; cbn [session_step] in H; try (left; exact H).
    - apply in_app_or in H. destruct H as [H|[->|[]]]; [left; exact H|right; reflexivity].
    - apply filter_In in H. left. apply H. }
  destruct G as [G| ->]; [destruct (IH G) as [K|K]; [left; exact K|right; apply in_or_app; left; exact K]|right; apply in_or_app; right; left; reflexivity].
Qed.
Lemma split_phase (a s b c : list devent) : a ++ s = b ++ DPhase :: c -> one_phase s -> exists c', a = b ++ DPhase :: c' /\ c = c' ++ s.
Proof using.
  intros E O. apply app_eq_app in E. destruct E as (l & [[E1 E2]|[E1 E2]]).
  - destruct l as [|x l]; cbn in E2; [exfalso; apply O; rewrite <- E2; left; reflexivity|].
    injection E2 as -> ->. exists l. split; [exact E1|reflexivity].
  - exfalso. apply O. rewrite E2. apply in_or_app. right. left. reflexivity.
Qed.
Lemma Closed_mono w w' tr : Valid w -> (forall i, In (DAdd i) tr -> In (DAdd i) (dw_trace w)) -> steady w w' -> Closed w tr -> Closed w' tr.
Proof using.
  intros [V1 V2] I S C p1 seg p3 E O N K. rewrite (C p1 seg p3 E O N K).
  assert (X : filter (cyclic w) (session_after m0 p1) = filter (cyclic w') (session_after m0 p1)); [|rewrite X; reflexivity].
  apply filter_ext_in. intros i Hi. apply after_in in Hi.
  assert (L : i < length (dw_objs w)).
  { destruct Hi as [Hi|Hi]; [apply V1; exact Hi|]. apply V2. apply I. rewrite E. apply in_or_app. left. exact Hi. }
  destruct S as [_ S]. specialize (S i L). unfold look in S. injection S as _ _ _ E4 E5. unfold cyclic. rewrite E4, E5. reflexivity.
Qed.
Lemma CW_along w w' cs : CW w -> along cs w w' -> dw_members w' = session_after m0 (dw_trace w') /\ Valid w'.
Proof using.
  intros (M & [V1 V2] & C) (s & T & O & E & M' & [L S] & A). split.
  - rewrite M', T, M. unfold session_after. rewrite fold_left_app. reflexivity.
  - split; [intros i Hi; specialize (V1 i Hi); lia|]. intros i. rewrite T. intros H. apply in_app_or in H. destruct H as [H|H]; [specialize (V2 i H); lia|apply A; exact H].
Qed.
Lemma CW_quiet w w' : CW w -> quiet w w' -> CW w'.
Proof using.
  intros H Q. destruct (CW_along _ _ _ H Q) as [M V]. split; [exact M|]. split; [exact V|].
  destruct Q as (s & T & O & E & _ & S & _). destruct H as (_ & V0 & C).
  apply (Closed_mono w w' _) in C; [|exact V0|auto|exact S].
  rewrite T. intros p1 seg p3 X O1 N K. destruct K as [-> |[q ->]].
  - rewrite app_nil_r in X. destruct (split_phase _ _ _ _ X O) as (c & X1 & ->). apply one_phase_app in O1.
    rewrite considered_app, E, app_nil_r. apply (C p1 c []); [rewrite app_nil_r; exact X1|apply O1|exact N|left; reflexivity].
  - change (DPhase :: seg ++ DPhase :: q) with ((DPhase :: seg) ++ DPhase :: q) in X. rewrite app_assoc in X.
    destruct (split_phase _ _ _ _ X O) as (c & X1 & ->). apply (C p1 seg (DPhase :: c)); [|exact O1|exact N|right; exists c; reflexivity].
    rewrite X1, <- app_assoc. reflexivity.
Qed.
(** a phase after [tr] *)
Lemma Closed_next w tr s : Closed w tr -> one_phase s -> (tr <> [] -> Permutation (considered s) (filter (cyclic w) (session_after m0 tr))) ->
  Closed w (tr ++ DPhase :: s).
Proof using.
  intros C O B p1 seg p3 X O1 N K. change (tr ++ DPhase :: s) with (tr ++ [DPhase] ++ s) in X. rewrite app_assoc in X.
  destruct K as [-> |[q ->]].
  - rewrite app_nil_r in X. destruct (split_phase _ _ _ _ X O) as (c & X1 & ->).
    destruct c as [|x c _] using rev_ind.
    + apply app_inj_tail in X1. destruct X1 as [<- _]. exact (B N).
    + rewrite app_comm_cons, app_assoc in X1. apply app_inj_tail in X1. destruct X1 as [_ <-]. exfalso. apply O1. apply in_or_app. left. apply in_or_app. right. left. reflexivity.
  - change (DPhase :: seg ++ DPhase :: q) with ((DPhase :: seg) ++ DPhase :: q) in X. rewrite app_assoc in X.
    destruct (split_phase _ _ _ _ X O) as (c & X1 & ->). destruct c as [|x c _] using rev_ind.
    + apply app_inj_tail in X1. destruct X1 as [-> _]. apply (C p1 seg []); [rewrite app_nil_r; reflexivity|exact O1|exact N|left; reflexivity].
    + rewrite app_comm_cons, app_assoc in X1. apply app_inj_tail in X1. destruct X1 as [X1 _].
      apply (C p1 seg (DPhase :: c)); [rewrite X1, <- app_assoc; reflexivity|exact O1|exact N|right; exists c; reflexivity].
Qed.
Lemma phase_members w : CW w -> dw_members (demit DPhase w) = session_after m0 (dw_trace (demit DPhase w)) /\ Valid (demit DPhase w).
Proof using.
  intros (M & [V1 V2] & _). split; [|split].
  - change (dw_members w = session_after m0 (dw_trace w ++ [DPhase])). unfold session_after. rewrite fold_left_app. exact M.
  - exact V1.
  - intros i H. cbn in H. apply in_app_or in H. destruct H as [H|[H|[]]]; [apply V2; exact H|discriminate].
Qed.
Lemma CW_next w w' cs : CW w -> along cs (demit DPhase w) w' -> (dw_trace w <> [] -> Permutation cs (filter (cyclic w) (dw_members w))) -> CW w'.
Proof using.
  intros H A B. destruct (phase_members w H) as [M [V1 V2]]. destruct A as (s & T & O & E & M' & [L S] & A). destruct H as (M0 & V0 & C).
  split; [|split; [split|]].
  - rewrite M', T, M. unfold session_after. rewrite fold_left_app. reflexivity.
  - intros i Hi. specialize (V1 i Hi). lia.
  - intros i. rewrite T. intros H. apply in_app_or in H. destruct H as [H|H]; [specialize (V2 i H); lia|apply A; exact H].
  - rewrite T. cbn. rewrite <- app_assoc. cbn. apply Closed_next.
    + apply (Closed_mono w w'); [exact V0|auto|split; [exact L|exact S]|exact C].
    + exact O.
    + intros N. rewrite E, (B N), M0. 
      assert (X : filter (cyclic w) (session_after m0 (dw_trace w)) = filter (cyclic w') (session_after m0 (dw_trace w))); [|rewrite X; reflexivity].
      apply filter_ext_in. intros i Hi. apply after_in in Hi.
      assert (Li : i < length (dw_objs w)) by (destruct V0 as [W1 W2]; destruct Hi as [Hi|Hi]; [apply W1; exact Hi|apply W2; exact Hi]).
      specialize (S i Li). unfold look in S. injection S as _ _ _ E4 E5. unfold cyclic. rewrite E4, E5. reflexivity.
Qed.
Lemma CW_members w : CW w -> forall i, In i (dw_members w) -> i < length (dw_objs w).
Proof using. intros (M & [V1 V2] & _) i Hi. rewrite M in Hi. apply after_in in Hi. destruct Hi as [Hi|Hi]; [apply V1; exact Hi|apply V2; exact Hi]. Qed.

Lemma startup_CW w w' : CW w -> dw_trace w = [] -> dstartup orc cf w = (w', Returns tt) -> CW w'.
Proof using.
  intros H T E. apply (CW_next w w' []); [exact H| |intros N; contradiction].
  unfold dstartup in E. unfold dbind at 1, dmod at 1 in E. unfold dbind at 1, dmod at 1 in E. unfold dbind at 1, dget at 1 in E.
  assert (B : quiet (demit DPhase w) (dset_cycles 0 (demit DPhase w))) by (apply (x_like _ (demit DPhase w)); [repeat split|apply along_refl]).
  apply (along_quiet [] _ _ _ B). revert E. apply quiet_of. intros c. apply h_each. intros i _.
  apply h_bind; [apply e_env|]. intros _. apply h_bind.
  - apply h_mod. intros w1. destruct (cached_view i w1) as (S & E1 & E2). apply quiet_same; assumption.
  - intros _. apply h_get. intros w1 H1. destruct (do_startup _); [apply e_guarded; exact H1|apply h_ret; exact H1].
Qed.
Lemma loop_CW n : forall w w', CW w -> dloop orc cf n w = (w', Returns tt) -> CW w'.
Proof using.
  induction n as [|n IH]; cbn [dloop]; intros w w' H E; [discriminate|].
  unfold dbind at 1, dget at 1 in E. destruct (Nat.leb _ _); [injection E as <-; exact H|].
  apply bind_returns in E. destruct E as (w1 & [] & E1 & E). apply (quiet_of _ _ _ _ (fun c => e_env c)) in E1. pose proof (CW_quiet _ _ H E1) as H1.
  unfold dbind at 1, dget at 1 in E. destruct (dw_down w1); [injection E as <-; exact H1|].
  apply bind_returns in E. destruct E as (w2 & [] & E2 & E). apply (IH w2 w'); [|exact E].
  apply cycle_along in E2; [|apply CW_members; exact H1]. apply (CW_next w1 w2 _ H1 E2). intros _.
  apply perm_filter. apply dtasks_perm.
Qed.
Lemma at_finally P ok m f w : at_ P ok (m w) -> hold P ok f -> at_ P ok (dfinally m f w).
Proof using.
  intros [M1 M2] F. unfold dfinally. unfold dbind at 1, dattempt. destruct (m w) as [w1 [[]|e|]]; cbn [fst snd] in *.
  - apply h_bind; [exact F|intros _; apply h_ret|exact M1].
  - apply h_bind; [exact F|intros _; apply h_raise; exact M2|exact M1].
  - split; [exact M1|exact I].
Qed.
Lemma shut_down_quiet n b w : quiet (demit DPhase w) (fst (dshut_down orc cf n b w)).
Proof using.
  apply (at_finally (quiet (demit DPhase w)) any).
  - apply at_finally; [|apply e_end]. unfold dlast. unfold dbind at 1, dmod at 1. unfold dbind at 1, dget at 1.
    apply h_each; [|apply along_refl]. intros i _. apply h_get. intros w1 H1. destruct (do_shutdown _); [apply e_guarded; exact H1|apply h_ret; exact H1].
  - apply h_bind; [apply e_wait|]. intros _. apply e_logs.
Qed.
Lemma serve_returns n w w' : dserve orc cf n w = (w', Returns tt) ->
  exists w1 w2, dstartup orc cf (dset_down false w) = (w1, Returns tt) /\ dloop orc cf n w1 = (w2, Returns tt) /\
    dshut_down orc cf n false w2 = (w', Returns tt).
Proof using.
  unfold dserve. unfold dbind at 1, dmod at 1. unfold dbind at 1, dattempt.
  destruct (dbind (dstartup orc cf) _ _) as [w2 [[]|e|]] eqn:E.
  - apply bind_returns in E. destruct E as (w1 & [] & E1 & E2). intros H. apply bind_returns in H. destruct H as (w3 & [] & H3 & [= <-]).
    exists w1, w2. repeat split; assumption.
  - intros H. apply bind_returns in H. destruct H as (w3 & [] & H3 & H). discriminate.
  - discriminate.
Qed.
End Quiet.

Lemma cycles_come_to_members orc cf n w w' p seg q :
  outset w -> dserve orc cf n w = (w', Returns tt) ->
  dw_trace w' = p ++ DPhase :: seg ++ DPhase :: q -> one_phase seg -> p <> [] ->
  Permutation (considered seg) (filter (cyclic w') (session_after (dw_members w) p)).
Proof.
  intros (M & _ & _ & _ & T) E X O N. apply serve_returns in E. destruct E as (w1 & w2 & E1 & E2 & E3).
  assert (B : CW (dw_members w) (dset_down false w)).
  { split; [cbn; rewrite T; reflexivity|]. split; [split|].
    - intros i Hi. rewrite M in Hi. apply in_seq in Hi. cbn. lia.
    - cbn. rewrite T. intros i [].
    - cbn. rewrite T. intros p1 ? ? K. destruct p1; discriminate. }
  apply (startup_CW _ _ _ _ _ B) in E1; [|exact T]. apply (loop_CW _ _ _ _ _ _ E1) in E2.
  pose proof (shut_down_quiet orc cf n false w2) as Q. rewrite E3 in Q. cbn [fst] in Q.
  destruct Q as (s & T3 & O3 & E4 & _ & S3 & _). cbn in T3. rewrite <- app_assoc in T3. cbn in T3.
  destruct E2 as (_ & V & C). apply (Closed_mono _ w2 w') in C; [|exact V|auto|exact S3].
  rewrite T3 in X. change (dw_trace w2 ++ DPhase :: s) with (dw_trace w2 ++ [DPhase] ++ s) in X. rewrite app_assoc in X.
  change (DPhase :: seg ++ DPhase :: q) with ((DPhase :: seg) ++ DPhase :: q) in X. rewrite app_assoc in X.
  destruct (split_phase _ _ _ _ X O3) as (c & X1 & ->). destruct c as [|x c _] using rev_ind.
  - apply app_inj_tail in X1. destruct X1 as [X1 _]. apply (C p seg []); [rewrite app_nil_r; exact X1|exact O|exact N|left; reflexivity].
  - rewrite app_comm_cons, app_assoc in X1. apply app_inj_tail in X1. destruct X1 as [X1 _].
    apply (C p seg (DPhase :: c)); [rewrite X1, <- app_assoc; reflexivity|exact O|exact N|right; exists c; reflexivity].
Qed.
