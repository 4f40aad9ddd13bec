(** Which tasks start and which ones a cycle comes to. *)
From Coq Require Import ZArith List Bool Arith Lia Permutation.
From Verif Require Import Model.Base Model.History Model.Dynamic Spec.DynamicSpec Proofs.DynamicProofs.
Import ListNotations.
Open Scope nat_scope.

(** ** What a move does to the session and the trace *)
Definition mild (e : devent) : Prop := match e with DOver _ _ | DAdd _ | DRemove _ => True | _ => False end.
Definition steady (w w' : dworld) : Prop :=
  length (dw_objs w) <= length (dw_objs w') /\ forall i, i < length (dw_objs w) -> look (obj i w') = look (obj i w).
Lemma steady_refl w : steady w w.
Proof. split; [lia|reflexivity]. Qed.
Lemma steady_trans a b c : steady a b -> steady b c -> steady a c.
Proof. intros [L1 E1] [L2 E2]. split; [lia|]. intros i Hi. rewrite E2 by lia. apply E1. exact Hi. Qed.
Lemma steady_on i f w : (forall o, look (f o) = look o) -> steady w (on_obj i f w).
Proof.
  intros F. split; [cbn; rewrite update_length; lia|]. intros j Hj. rewrite obj_on. destruct (_ && _); [apply F|reflexivity].
Qed.
Lemma steady_note i a t w : steady w (note i a t w).
Proof. destruct (note_spec i a t w) as (st & l & ->). apply (steady_on i (with_dstate st) w). reflexivity. Qed.
Lemma note_same i a t w : dw_trace (note i a t w) = dw_trace w /\ dw_members (note i a t w) = dw_members w /\ dw_queue (note i a t w) = dw_queue w
  /\ length (dw_objs (note i a t w)) = length (dw_objs w) /\ dw_uid (note i a t w) = dw_uid w.
Proof. destruct (note_spec i a t w) as (st & l & ->). cbn. rewrite update_length. repeat split. Qed.
Lemma move_view m w :
  steady w (do_move m w) /\
  ((dw_trace (do_move m w) = dw_trace w /\ dw_members (do_move m w) = dw_members w) \/
   exists e, mild e /\ (forall i, e = DAdd i -> i < length (dw_objs (do_move m w))) /\
     dw_trace (do_move m w) = dw_trace w ++ [e] /\ dw_members (do_move m w) = session_step (dw_members w) e).
Proof.
  assert (Z : steady w w) by apply steady_refl.
  destruct m as [d|n k p u d|i|i|i b|i u e|]; cbn [do_move].
  - split; [exact Z|left; split; reflexivity].
  - destruct (by_name n w); [split; [exact Z|left; split; reflexivity]|]. unfold dadd. split.
    + split; cbn; [rewrite app_length; lia|]. intros j Hj. unfold obj. cbn. rewrite app_nth1 by exact Hj. reflexivity.
    + right. exists (DAdd (length (dw_objs w))). split; [exact I|]. split; [|split; reflexivity].
      intros j [= <-]. cbn. rewrite app_length. cbn. lia.
  - destruct (Nat.ltb i (length (dw_objs w))) eqn:L; [|split; [exact Z|left; split; reflexivity]].
    destruct (by_name _ w); [split; [exact Z|left; split; reflexivity]|].
    split; [exact Z|]. right. exists (DAdd i). split; [exact I|]. split; [|split; reflexivity].
    intros j [= <-]. apply Nat.ltb_lt. exact L.
  - destruct (existsb (Nat.eqb i) (dw_members w)); [|split; [exact Z|left; split; reflexivity]].
    split; [exact Z|]. right. exists (DRemove i). split; [exact I|]. split; [discriminate|split; reflexivity].
  - split; [apply (steady_on i (with_disabled b) w); reflexivity|left; split; reflexivity].
  - destruct (going i u w); [|split; [exact Z|left; split; reflexivity]].
    assert (S1 : steady w (demit (DOver i u) (on_obj i (fun o => with_druns (end_run u (do_runs o)) o) w))) by (apply (steady_on i (fun o => with_druns (end_run u (do_runs o)) o) w); reflexivity).
    destruct (is_process (obj i w)).
    + split; [exact S1|]. right. exists (DOver i u). split; [exact I|]. split; [discriminate|split; reflexivity].
    + match goal with |- context [note i ?a ?t ?x] => destruct (note_same i a t x) as (N1 & N2 & _); pose proof (steady_note i a t x) as N3 end.
      split; [eapply steady_trans; eassumption|]. right. exists (DOver i u). split; [exact I|]. split; [discriminate|]. rewrite N1, N2. split; reflexivity.
  - split; [exact Z|left; split; reflexivity].
Qed.
Lemma kill_view i r w : steady w (kill_run i w r) /\ dw_members (kill_run i w r) = dw_members w /\
  (dw_trace (kill_run i w r) = dw_trace w \/ dw_trace (kill_run i w r) = dw_trace w ++ [DOver i (dr_uid r)]).
Proof.
  unfold kill_run. destruct (dr_alive r); [|split; [exact (steady_refl w)|split; [reflexivity|left; reflexivity]]].
  match goal with |- context [note i ?a ?t ?x] => destruct (note_same i a t x) as (N1 & N2 & _); pose proof (steady_note i a t x) as N3 end.
  split; [|split; [exact N2|right; exact N1]].
  eapply steady_trans; [|exact N3]. apply (steady_on i (fun o => with_druns (end_run (dr_uid r) (do_runs o)) o) w). reflexivity.
Qed.
Lemma push_view i w : steady w (enqueued i (push_run i w)) /\ dw_members (enqueued i (push_run i w)) = dw_members w /\
  dw_trace (enqueued i (push_run i w)) = dw_trace w ++ [DStart i (dw_uid w) (do_kind (obj i w))].
Proof.
  unfold enqueued. destruct (push_kind i w i) as [K _]. rewrite K.
  assert (S1 : steady w (push_run i w)).
  { unfold push_run. destruct (do_kind (obj i w)); [exact (steady_refl w)| |];
      apply (steady_on i (fun o => with_druns (do_runs o ++ [DRun (dw_uid w) true]) o) w); reflexivity. }
  assert (S2 : dw_members (push_run i w) = dw_members w) by (unfold push_run; destruct (do_kind (obj i w)); reflexivity).
  assert (S3 : dw_trace (push_run i w) = dw_trace w ++ [DStart i (dw_uid w) (do_kind (obj i w))]) by (unfold push_run; destruct (do_kind (obj i w)); reflexivity).
  destruct (do_kind (obj i w)); (split; [exact S1|split; [exact S2|exact S3]]).
Qed.
Lemma noted_view i r q w : steady w (noted i r q w) /\ dw_members (noted i r q w) = dw_members w /\
  dw_trace (noted i r q w) = dw_trace w ++ [DNote i r] /\ dw_queue (noted i r q w) = q.
Proof.
  unfold noted. destruct (note_same i (q_action r) (q_time r) (dset_queue q w)) as (N1 & N2 & N3 & _).
  pose proof (steady_note i (q_action r) (q_time r) (dset_queue q w)) as N4. cbn in *.
  split; [exact N4|]. rewrite N1, N2, N3. repeat split.
Qed.
Lemma cached_view i w : steady w (dcached i w) /\ dw_members (dcached i w) = dw_members w /\ dw_trace (dcached i w) = dw_trace w.
Proof.
  destruct (cached_spec i w) as (st & l & ->). split; [apply (steady_on i (with_dstate st) w); reflexivity|split; reflexivity].
Qed.

(** ** Starts *)
Section Starts.
Context (orc : doracle) (cf : dconfig) (m0 : list nat).
Definition inphase (tr : list devent) (i : nat) : Prop :=
  exists p1 p2, tr = p1 ++ DPhase :: p2 /\ one_phase p2 /\ In i (session_after m0 p1).
Definition good (tr : list devent) : Prop :=
  forall pre i u k post, tr = pre ++ DStart i u k :: post -> inphase pre i.
Definition SQ (ts : list nat) (w : dworld) : Prop :=
  dw_members w = session_after m0 (dw_trace w) /\ good (dw_trace w) /\ forall i, In i ts -> inphase (dw_trace w) i.
Lemma after_app tr e : session_after m0 (tr ++ [e]) = session_step (session_after m0 tr) e.
Proof using. unfold session_after. rewrite fold_left_app. reflexivity. Qed.
Lemma inphase_snoc tr e i : e <> DPhase -> inphase tr i -> inphase (tr ++ [e]) i.
Proof using.
  intros N (p1 & p2 & -> & O & H). exists p1, (p2 ++ [e]). split; [rewrite <- app_assoc; reflexivity|]. split; [|exact H].
  intros K. apply in_app_or in K. destruct K as [K|[K|[]]]; [exact (O K)|exact (N K)].
Qed.
Lemma good_snoc tr e : good tr -> (forall i u k, e = DStart i u k -> inphase tr i) -> good (tr ++ [e]).
Proof using.
  intros G K pre i u k post E.
  destruct post as [|x post _] using rev_ind.
  - apply app_inj_tail in E. destruct E as [<- ->]. exact (K i u k eq_refl).
  - rewrite app_comm_cons, app_assoc in E. apply app_inj_tail in E. destruct E as [E _]. exact (G pre i u k post E).
Qed.
Lemma SQ_same ts w w' : dw_trace w' = dw_trace w -> dw_members w' = dw_members w -> SQ ts w -> SQ ts w'.
Proof using. unfold SQ. intros -> ->. tauto. Qed.
Lemma SQ_event ts w w' e : dw_trace w' = dw_trace w ++ [e] -> dw_members w' = session_step (dw_members w) e ->
  e <> DPhase -> (forall i u k, e = DStart i u k -> In i ts) -> SQ ts w -> SQ ts w'.
Proof using.
  intros T M N K (H1 & H2 & H3). unfold SQ. rewrite T, M, after_app, H1. split; [reflexivity|]. split.
  - apply good_snoc; [exact H2|]. intros i u k E. apply H3. exact (K i u k E).
  - intros i Hi. apply inphase_snoc; [exact N|apply H3; exact Hi].
Qed.
Lemma SQ_move c k w : SQ c w -> SQ c (do_move (o_move orc k w) w).
Proof using.
  intros H. destruct (move_view (o_move orc k w) w) as [_ [[T M]|(e & ME & _ & T & M)]]; [exact (SQ_same _ _ _ T M H)|].
  apply (SQ_event c w _ e T M); [| |exact H].
  - intros ->. exact ME.
  - intros i u k' ->. destruct ME.
Qed.

Lemma starts_hold n w : dw_members w = m0 -> dw_trace w = [] ->
  at_ (QQ SQ) (fun _ => True) (dserve orc cf n w).
Proof using.
  intros M0 T0.
  assert (B : QQ SQ w).
  { exists []. split; [rewrite T0; exact M0|]. split; [|intros i []]. rewrite T0. intros pre i u k post E. destruct pre; discriminate. }
  assert (X1 : forall c w w', alike w w' -> SQ c w -> SQ c w').
  { intros c w1 w2 (_ & A2 & _ & _ & A5 & _). exact (SQ_same c w1 w2 A5 A2). }
  assert (X3 : forall c w r q i, SQ c w -> dw_queue w = r :: q -> by_name (q_name r) w = Some i -> SQ c (noted i r q w)).
  { intros c w1 r q i H _ _. destruct (noted_view i r q w1) as (_ & E1 & E2 & _). apply (SQ_event c w1 _ (DNote i r)); [exact E2|exact E1|discriminate|discriminate|exact H]. }
  assert (X4 : forall c w r q, SQ c w -> dw_queue w = r :: q -> by_name (q_name r) w = None -> SQ c (dset_queue q w) /\ True).
  { intros c w1 r q H _ _. split; [exact H|exact I]. }
  assert (XO : forall c w q, Permutation (dw_queue w) q -> SQ c w -> SQ c (dset_queue q w)).
  { intros c w1 q _. apply SQ_same; reflexivity. }
  assert (X5 : forall c i w, In i c -> SQ c w -> SQ c (judged i w)).
  { intros c i w1 _ H. eapply SQ_event; [reflexivity|reflexivity|discriminate|discriminate|exact H]. }
  assert (X6 : forall c i w, In i c -> SQ c w -> drunnable cf i w = true -> SQ c (enqueued i (push_run i w))).
  { intros c i w1 Hi H _. destruct (push_view i w1) as (_ & E1 & E2). eapply SQ_event; [exact E2|exact E1|discriminate| |exact H].
    intros j u k [= <- _ _]. exact Hi. }
  assert (X7 : forall c i a t w, SQ c w -> SQ c (note i a t w)).
  { intros c i a t w1. destruct (note_same i a t w1) as (E1 & E2 & _). apply SQ_same; assumption. }
  assert (X8 : forall c i r w, SQ c w -> SQ c (kill_run i w r)).
  { intros c i r w1 H. destruct (kill_view i r w1) as (_ & E1 & [E2|E2]); [exact (SQ_same _ _ _ E2 E1 H)|].
    eapply SQ_event; [exact E2|exact E1|discriminate|discriminate|exact H]. }
  assert (X9 : forall c i w, In i c -> SQ c w -> SQ c (demit (DConsider i) w)).
  { intros c i w1 _ H. eapply SQ_event; [reflexivity|reflexivity|discriminate|discriminate|exact H]. }
  assert (X10 : forall c w, SQ c w -> exists c', SQ c' (demit DPhase w) /\ forall i, In i (dtasks w) -> In i c').
  { intros c w1 (H1 & H2 & _). exists (dtasks w1). split; [|trivial]. split; [|split].
    - change (dw_members w1 = session_after m0 (dw_trace w1 ++ [DPhase])). rewrite after_app. exact H1.
    - change (good (dw_trace w1 ++ [DPhase])). apply good_snoc; [exact H2|discriminate].
    - intros i Hi. exists (dw_trace w1), []. split; [reflexivity|]. split; [intros []|]. rewrite <- H1. apply dtasks_in. exact Hi. }
  apply (p_serve orc cf SQ (fun c i => In i c) (fun _ => True)); auto using SQ_move.
  apply (p_startup orc cf SQ (fun c i => In i c) (fun _ => True)); auto using SQ_move.
  intros c i w1. destruct (cached_view i w1) as (_ & E1 & E2). apply SQ_same; assumption.
Qed.
End Starts.

Lemma starts_of_members orc cf n w w' r p i u k q :
  dw_trace w = [] -> dserve orc cf n w = (w', r) -> dw_trace w' = p ++ DStart i u k :: q ->
  exists p1 p2, p = p1 ++ DPhase :: p2 /\ one_phase p2 /\ In i (session_after (dw_members w) p1).
Proof.
  intros T E S1. pose proof (starts_hold orc cf (dw_members w) n w eq_refl T) as H. rewrite E in H. destruct H as [(c & _ & G & _) _].
  exact (G p i u k q S1).
Qed.
