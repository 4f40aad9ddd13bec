(** Proofs about parameter sets as objects. *)
From Coq Require Import Bool Arith Lia.
From Verif Require Import Model.Base Model.World Model.Params Model.Sharing Spec.SharingSpec.
Open Scope Z_scope.

Lemma write_length : forall h l d, length (write h l d) = length h.
Proof. induction h as [|e h IH]; intros [|l] d; cbn [write length]; auto. Qed.
Lemma read_write_same : forall h l d, (l < length h)%nat -> read (write h l d) l = d.
Proof.
  unfold read. induction h as [|e h IH]; intros [|l] d H; cbn [write length nth] in *; try lia; [reflexivity|]. apply IH. lia.
Qed.
Lemma read_write_other : forall h l m d, l <> m -> read (write h l d) m = read h m.
Proof.
  unfold read. induction h as [|e h IH]; intros [|l] [|m] d H; cbn [write nth]; try reflexivity; try lia. apply IH. lia.
Qed.
Lemma read_app : forall h d l, (l < length h)%nat -> read (h ++ [d]) l = read h l.
Proof. intros h d l H. unfold read. apply app_nth1, H. Qed.
Lemma read_last : forall h d, read (h ++ [d]) (length h) = d.
Proof. intros h d. unfold read. rewrite app_nth2, Nat.sub_diag by lia. reflexivity. Qed.

Lemma untouched_refl : forall h, untouched h h.
Proof. intros h l H. split; [exact H|reflexivity]. Qed.
Lemma untouched_trans : forall a b c, untouched a b -> untouched b c -> untouched a c.
Proof. intros a b c H I l E. destruct (H l E) as [F G]. destruct (I l F) as [J K]. split; [exact J|congruence]. Qed.
Lemma untouched_fresh : forall h d, untouched h (h ++ [d]).
Proof. intros h d l H. unfold existing in *. split; [rewrite app_length; cbn; lia|]. apply read_app, H. Qed.
Lemma untouched_write : forall h h' l d, untouched h h' -> (length h <= l)%nat -> untouched h (write h' l d).
Proof.
  intros h h' l d U G m E. destruct (U m E) as [A B]. unfold existing in *. split; [rewrite write_length; exact A|].
  rewrite read_write_other by lia. exact B.
Qed.
Lemma untouched_length : forall h h', untouched h h' -> (length h <= length h')%nat.
Proof.
  intros h h' U. destruct (length h) as [|k] eqn:L; [lia|]. destruct (U k) as [A _]; unfold existing in *; lia.
Qed.
Lemma untouched_map : forall h h' ls, untouched h h' -> Forall (existing h) ls -> map (read h') ls = map (read h) ls.
Proof.
  intros h h' ls U F. induction F as [|l ls E F IH]; [reflexivity|]. cbn [map]. destruct (U l E) as [_ ->]. rewrite IH. reflexivity.
Qed.
Lemma seen_task_same : forall h h' t, untouched h h' -> has_sets h t -> seen_task h' t = seen_task h t.
Proof.
  intros h h' t U [O B]. unfold seen_task. rewrite (untouched_map h h' _ U B). destruct (U _ O) as [_ ->]. reflexivity.
Qed.
Lemma seen_session_same : forall h h' s sp, untouched h h' -> existing h sp -> seen_session h' s sp = seen_session h s sp.
Proof. intros h h' s sp U E. unfold seen_session. destruct (U _ E) as [_ ->]. reflexivity. Qed.

(** * The start of a run *)
Lemma fresh_spec : forall h d l h', fresh h d = (l, h') ->
  l = length h /\ length h' = S (length h) /\ untouched h h' /\ read h' l = d.
Proof.
  intros h d l h' E. unfold fresh in E. injection E as <- <-. split; [reflexivity|].
  split; [rewrite app_length; cbn; lia|]. split; [apply untouched_fresh|apply read_last].
Qed.

Lemma extra_set_spec : forall n s sp h t x flag passed, existing h sp -> has_sets h t ->
  exists r h', extra_set n s sp h t x flag passed = (r, h') /\ untouched h h' /\
  match r with
  | Ok l => (length h <= l)%nat /\ existing h' l /\
            get_extra_params n (seen_session h s sp) (seen_task h t) x flag passed = Ok (read h' l)
  | Err e => get_extra_params n (seen_session h s sp) (seen_task h t) x flag passed = Err e
  end.
Proof.
  intros n s sp h t x flag passed E T. unfold extra_set, p_init, p_or.
  destruct (fresh h (parameters passed)) as [pl h1] eqn:F1. apply fresh_spec in F1. destruct F1 as (P1 & L1 & U1 & R1).
  destruct (fresh h1 _) as [el h2] eqn:F2. apply fresh_spec in F2. destruct F2 as (P2 & L2 & U2 & R2).
  set (h3 := match x with XThread => p_set h2 el k_terminate (PVal flag) | _ => h2 end).
  assert (L3 : length h3 = length h2). { unfold h3. destruct x; try reflexivity. apply write_length. }
  assert (R3 : read h3 el = extras (seen_task h t) x flag).
  { unfold h3, extras, p_set. cbn [pt_name seen_task]. destruct x; try exact R2.
    rewrite read_write_same by lia. rewrite R2. reflexivity. }
  assert (U3 : untouched h1 h3).
  { unfold h3. destruct x; try exact U2. apply untouched_write; [exact U2|lia]. }
  clearbody h3.
  assert (UH3 : untouched h h3) by (eapply untouched_trans; eassumption).
  destruct (UH3 sp E) as [_ RS].
  assert (RP : read h3 pl = parameters passed).
  { destruct (U3 pl) as [_ ->]; [unfold existing; lia|exact R1]. }
  rewrite RS, RP.
  destruct (fresh h3 _) as [j1 h4] eqn:F4. apply fresh_spec in F4. destruct F4 as (P4 & L4 & U4 & R4).
  destruct (U4 el) as [_ RE]; [unfold existing; lia|]. rewrite RE, R3, R4.
  destruct (fresh h4 _) as [j2 h5] eqn:F5. apply fresh_spec in F5. destruct F5 as (P5 & L5 & U5 & R5).
  assert (UH5 : untouched h h5) by (eapply untouched_trans; [exact UH3|]; eapply untouched_trans; eassumption).
  rewrite (seen_session_same h h5 s sp UH5 E), (seen_task_same h h5 t UH5 T), R5.
  unfold get_extra_params. change (ss_params (seen_session h s sp)) with (read h sp).
  destruct (prefilter n (seen_session h s sp) (seen_task h t) _) as [d|e] eqn:P; cbn [bind].
  - destruct (fresh h5 _) as [r h6] eqn:F6. apply fresh_spec in F6. destruct F6 as (P6 & L6 & U6 & R6).
    exists (Ok r), h6. split; [reflexivity|].
    split; [eapply untouched_trans; eassumption|]. split; [lia|]. split; [unfold existing; lia|].
    rewrite R6. reflexivity.
  - exists (Err e), h5. split; [reflexivity|]. split; [exact UH5|]. reflexivity.
Qed.

Lemma direct_set_spec : forall h0 h t, untouched h0 h -> has_sets h0 t -> exists l h',
  direct_set h t = (l, h', tl (st_batches t)) /\ untouched h h' /\ (length h <= l)%nat /\ existing h' l /\
  read h' l = direct_params (seen_task h0 t).
Proof.
  intros h0 h t U T.
  assert (TS : exists l h', task_set h t = (l, h') /\ untouched h h' /\ (length h <= l)%nat /\ existing h' l /\
                            read h' l = get_task_params (seen_task h0 t)).
  { unfold task_set, p_copy, p_init, p_or, get_task_params. cbn [pt_own pt_kind pt_sig seen_task].
    destruct T as [O _]. destruct (U _ O) as [_ RO]. rewrite RO.
    destruct (fresh h _) as [own h1] eqn:F1. apply fresh_spec in F1. destruct F1 as (P1 & L1 & U1 & R1).
    assert (D : exists l h', (own, h1) = (l, h') /\ untouched h h' /\
                (length h <= l)%nat /\ existing h' l /\ read h' l = parameters (read h0 (st_own t))).
    { exists own, h1. split; [reflexivity|]. split; [exact U1|]. split; [lia|]. split; [unfold existing; lia|exact R1]. }
    destruct (st_kind t) as [[|]|]; [|exact D|exact D].
    destruct (fresh h1 _) as [f h2] eqn:F2. apply fresh_spec in F2. destruct F2 as (P2 & L2 & U2 & R2).
    destruct (U2 own) as [_ RW]; [unfold existing; lia|]. rewrite RW, R1, R2.
    destruct (fresh h2 _) as [u h3] eqn:F3. apply fresh_spec in F3. destruct F3 as (P3 & L3 & U3 & R3).
    exists u, h3. split; [reflexivity|].
    split; [eapply untouched_trans; [exact U1|]; eapply untouched_trans; eassumption|].
    split; [lia|]. split; [unfold existing; lia|exact R3]. }
  destruct TS as (l & h' & E & V & L & X & R). unfold direct_set, direct_params. rewrite E. cbn [pt_requests seen_task].
  destruct T as [_ B]. destruct (st_batches t) as [|b bs].
  - exists l, h'. split; [reflexivity|]. split; [exact V|]. split; [exact L|]. split; [exact X|exact R].
  - cbn [map tl]. inversion B as [|? ? EB _]; subst.
    destruct (U b EB) as [EB1 RB1]. destruct (V b EB1) as [_ RB2]. rewrite RB2, RB1.
    exists l, (p_update h' l (read h0 b)). split; [reflexivity|]. unfold p_update.
    split; [apply untouched_write; assumption|]. split; [exact L|].
    split; [unfold existing; rewrite write_length; exact X|]. rewrite read_write_same by exact X. rewrite R. reflexivity.
Qed.

Lemma stage_spec : forall n s cx h0 h l, untouched h0 h -> (length h0 <= l)%nat -> existing h l ->
  exists r h', p_stage n s cx h l = (r, h') /\ untouched h0 h' /\ length h' = length h /\
  (forall m, m <> l -> read h' m = read h m) /\
  match r with
  | Ok _ => pre_materialize n s cx (read h l) = Ok (read h' l)
  | Err e => pre_materialize n s cx (read h l) = Err e
  end.
Proof.
  intros n s cx h0 h l U L X. unfold p_stage. destruct (pre_materialize n s cx (read h l)) as [d|e] eqn:P.
  - exists (Ok tt), (write h l d). split; [reflexivity|]. split; [apply untouched_write; assumption|].
    split; [apply write_length|]. split; [intros m N; apply read_write_other; congruence|].
    rewrite read_write_same by exact X. reflexivity.
  - exists (Err e), h. split; [reflexivity|]. split; [exact U|]. split; [reflexivity|]. split; [reflexivity|reflexivity].
Qed.

(** What the start comes to: the two sets hold what Model.Params computes *)
Definition prepared (n : nat) (s : sess) (t : ptask) (x : exec) (flag : value) (passed : dict param)
  : result (dict param * dict param) :=
  let* params := get_extra_params n s t x flag passed in
  let direct := direct_params t in
  let staged cx :=
    let* params := pre_materialize n s cx params in
    let* direct := pre_materialize n s cx direct in Ok (params, direct) in
  match x with
  | XMain | XAsync => Ok (params, direct)
  | XThread =>
      let* flag := match get_item n s params k_terminate with Err KeyError => Ok (ss_event s) | r => r end in
      staged (Ctx (Some (pt_name t)) SGiven (Some flag))
  | XProcess => staged (Ctx (Some (pt_name t)) SGiven None)
  end.

Lemma run_kwargs_prepared : forall n s s' t x flag passed,
  run_kwargs n s s' t x flag passed = let* pd := prepared n s t x flag passed in run_params n s' t (fst pd) (snd pd).
Proof.
  intros n s s' t x flag passed. unfold run_kwargs, prepared.
  destruct (get_extra_params n s t x flag passed) as [params|e]; [|reflexivity]. cbn [bind].
  destruct x; try reflexivity.
  - destruct (get_item n s params k_terminate) as [v|[]]; cbn [bind]; try reflexivity;
      (destruct (pre_materialize n s _ params) as [p|]; cbn [bind]; [|reflexivity]);
      (destruct (pre_materialize n s _ (direct_params t)) as [q|]; cbn [bind]; reflexivity).
  - destruct (pre_materialize n s _ params) as [p|]; cbn [bind]; [|reflexivity].
    destruct (pre_materialize n s _ (direct_params t)) as [q|]; cbn [bind]; reflexivity.
Qed.

Lemma start_run_spec : forall n s sp h t x flag passed, existing h sp -> has_sets h t ->
  exists r h' bs, start_run n s sp h t x flag passed = (r, h', bs) /\ untouched h h' /\
  match r with
  | Ok (p, d) => (length h <= p)%nat /\ (length h <= d)%nat /\ existing h' p /\ existing h' d /\
      prepared n (seen_session h s sp) (seen_task h t) x flag passed = Ok (read h' p, read h' d)
  | Err e => prepared n (seen_session h s sp) (seen_task h t) x flag passed = Err e
  end.
Proof.
  intros n s sp h t x flag passed E T. unfold start_run, prepared.
  destruct (extra_set_spec n s sp h t x flag passed E T) as (r1 & h1 & -> & U1 & X1).
  destruct r1 as [p|e]; [|exists (Err e), h1, (st_batches t); split; [reflexivity|]; split; [exact U1|]; rewrite X1; reflexivity].
  destruct X1 as (LP & XP & ->). cbn [bind].
  destruct (direct_set_spec h h1 t U1 T) as (d & h2 & -> & U2 & LD & XD & RD).
  unfold p_or. destruct (fresh h2 _) as [u h3] eqn:F3. apply fresh_spec in F3. destruct F3 as (P3 & L3 & U3 & _).
  pose proof (untouched_length _ _ U1) as LL1. pose proof (untouched_length _ _ U2) as LL2.
  assert (U23 : untouched h1 h3) by (eapply untouched_trans; eassumption).
  assert (U : untouched h h3) by (eapply untouched_trans; eassumption).
  destruct (U23 p XP) as [XP3 RP3]. destruct (U3 d XD) as [XD3 RD3].
  assert (N : p <> d). { unfold existing in *. lia. }
  rewrite (seen_session_same h h3 s sp U E). rewrite <- RP3, <- RD, <- RD3.
  assert (ST : forall cx, exists r h' bs,
    match p_stage n (seen_session h s sp) cx h3 p with
    | (Ok _, h4) =>
        match p_stage n (seen_session h4 s sp) cx h4 d with
        | (Ok _, h5) => (Ok (p, d), h5, tl (st_batches t))
        | (Err e, h5) => (Err e, h5, tl (st_batches t))
        end
    | (Err e, h4) => (Err e, h4, tl (st_batches t))
    end = (r, h', bs) /\ untouched h h' /\
    match r with
    | Ok (a, b) => (length h <= a)%nat /\ (length h <= b)%nat /\ existing h' a /\ existing h' b /\
        (let* params := pre_materialize n (seen_session h s sp) cx (read h3 p) in
         let* direct := pre_materialize n (seen_session h s sp) cx (read h3 d) in Ok (params, direct)) = Ok (read h' a, read h' b)
    | Err e =>
        (let* params := pre_materialize n (seen_session h s sp) cx (read h3 p) in
         let* direct := pre_materialize n (seen_session h s sp) cx (read h3 d) in Ok (params, direct)) = Err e
    end).
  { intros cx.
    destruct (stage_spec n (seen_session h s sp) cx h h3 p U LP XP3) as (r4 & h4 & -> & U4 & L4 & O4 & X4).
    destruct r4 as [[]|e]; [|do 3 eexists; split; [reflexivity|]; split; [exact U4|]; rewrite X4; reflexivity].
    rewrite X4. cbn [bind]. rewrite (seen_session_same h h4 s sp U4 E).
    assert (XD4 : existing h4 d) by (unfold existing in *; lia).
    destruct (stage_spec n (seen_session h s sp) cx h h4 d U4 ltac:(lia) XD4) as (r5 & h5 & -> & U5 & L5 & O5 & X5).
    rewrite (O4 d) in X5 by congruence.
    destruct r5 as [[]|e]; [|do 3 eexists; split; [reflexivity|]; split; [exact U5|]; rewrite X5; reflexivity].
    do 3 eexists. split; [reflexivity|]. split; [exact U5|]. split; [exact LP|]. split; [lia|].
    split; [unfold existing in *; lia|]. split; [unfold existing in *; lia|].
    rewrite ?X4. cbn [bind]. rewrite ?X5. cbn [bind]. rewrite (O5 p) by congruence. reflexivity. }
  destruct x.
  - do 3 eexists. split; [reflexivity|]. split; [exact U|]. split; [exact LP|]. split; [lia|]. split; [exact XP3|]. split; [exact XD3|]. reflexivity.
  - do 3 eexists. split; [reflexivity|]. split; [exact U|]. split; [exact LP|]. split; [lia|]. split; [exact XP3|]. split; [exact XD3|]. reflexivity.
  - destruct (get_item n (seen_session h s sp) (read h3 p) k_terminate) as [v|[]]; cbn [bind];
      first [exact (ST (Ctx (Some (st_name t)) SGiven (Some v))) | exact (ST (Ctx (Some (st_name t)) SGiven (Some (ss_event s))))
            | do 3 eexists; split; [reflexivity|]; split; [exact U|]; reflexivity].
  - exact (ST (Ctx (Some (st_name t)) SGiven None)).
Qed.

Lemma begin_run_spec : forall n s' h t p d, existing h p -> existing h d ->
  exists h', begin_run n s' h t p d = (run_params n s' (seen_task h t) (read h p) (read h d), h') /\ untouched h h'.
Proof.
  intros n s' h t p d P D. unfold begin_run, p_init, p_copy, p_init, p_or, run_params.
  destruct (fresh h _) as [a h1] eqn:F1. apply fresh_spec in F1. destruct F1 as (P1 & L1 & U1 & R1).
  destruct (U1 d D) as [D1 RD]. rewrite RD.
  destruct (fresh h1 _) as [b h2] eqn:F2. apply fresh_spec in F2. destruct F2 as (P2 & L2 & U2 & R2).
  destruct (U2 a) as [_ RA]; [unfold existing; lia|]. rewrite RA, R1, R2.
  destruct (fresh h2 _) as [c h3] eqn:F3. apply fresh_spec in F3. destruct F3 as (P3 & L3 & U3 & R3).
  exists h3. split; [rewrite R3; reflexivity|]. eapply untouched_trans; [exact U1|]. eapply untouched_trans; eassumption.
Qed.

(** * The theorems about runs *)
Lemma start_leaves : forall n s sp h t x flag passed, existing h sp -> has_sets h t ->
  untouched h (snd (fst (start_run n s sp h t x flag passed))).
Proof.
  intros n s sp h t x flag passed E T. destruct (start_run_spec n s sp h t x flag passed E T) as (r & h' & bs & -> & U & _). exact U.
Qed.

Lemma begin_leaves : forall n s' h t p d, existing h p -> existing h d -> untouched h (snd (begin_run n s' h t p d)).
Proof. intros n s' h t p d P D. destruct (begin_run_spec n s' h t p d P D) as (h' & -> & U). exact U. Qed.

Lemma run_gets : forall n s s' sp h t x flag passed p d h1 bs h2, existing h sp -> has_sets h t ->
  start_run n s sp h t x flag passed = (Ok (p, d), h1, bs) ->
  existing h2 p -> existing h2 d -> read h2 p = read h1 p -> read h2 d = read h1 d ->
  fst (begin_run n s' h2 t p d) = run_kwargs n (seen_session h s sp) s' (seen_task h t) x flag passed.
Proof.
  intros n s s' sp h t x flag passed p d h1 bs h2 E T S P D RP RD.
  destruct (start_run_spec n s sp h t x flag passed E T) as (r & h' & bs' & S' & U & X). rewrite S in S'. injection S' as <- <- <-.
  destruct X as (_ & _ & _ & _ & X). destruct (begin_run_spec n s' h2 t p d P D) as (h3 & -> & _). cbn [fst].
  rewrite run_kwargs_prepared, X. cbn [bind fst snd]. rewrite RP, RD. unfold run_params, postfilter. reflexivity.
Qed.

Lemma run_fails : forall n s s' sp h t x flag passed e h1 bs, existing h sp -> has_sets h t ->
  start_run n s sp h t x flag passed = (Err e, h1, bs) ->
  run_kwargs n (seen_session h s sp) s' (seen_task h t) x flag passed = Err e.
Proof.
  intros n s s' sp h t x flag passed e h1 bs E T S.
  destruct (start_run_spec n s sp h t x flag passed E T) as (r & h' & bs' & S' & U & X). rewrite S in S'. injection S' as <- <- <-.
  rewrite run_kwargs_prepared, X. reflexivity.
Qed.

Lemma sets_new : forall n s sp h t x flag passed p d h1 bs, existing h sp -> has_sets h t ->
  start_run n s sp h t x flag passed = (Ok (p, d), h1, bs) -> ~ existing h p /\ ~ existing h d /\ existing h1 p /\ existing h1 d.
Proof.
  intros n s sp h t x flag passed p d h1 bs E T S.
  destruct (start_run_spec n s sp h t x flag passed E T) as (r & h' & bs' & S' & U & X). rewrite S in S'. injection S' as <- <- <-.
  destruct X as (A & B & C & D & _). unfold existing in *. lia.
Qed.

(** * Requests *)
Lemma request_spec : forall h given kwargs, existing h given -> exists r h',
  request h given kwargs = (r, h') /\ untouched h h' /\ ~ existing h r /\ existing h' r /\
  read h' r = request_params (read h given) kwargs.
Proof.
  intros h given kwargs E. unfold request. destruct (fresh h []) as [r h1] eqn:F. apply fresh_spec in F.
  destruct F as (P & L & U & R). destruct (U given E) as [_ ->]. unfold p_update.
  do 2 eexists. split; [reflexivity|]. split; [apply untouched_write; [apply untouched_write; [exact U|lia]|lia]|].
  unfold existing. rewrite !write_length. split; [lia|]. split; [lia|].
  rewrite read_write_same by (rewrite write_length; lia). rewrite read_write_same by lia. rewrite R. reflexivity.
Qed.

(** * Histories *)
Lemma untouched_by_fresh : forall h d, untouched h (snd (fresh h d)).
Proof. intros h d. apply untouched_fresh. Qed.

Lemma start_leaves_any : forall n s sp h t x flag passed, untouched h (snd (fst (start_run n s sp h t x flag passed))).
Proof.
  intros n s sp h t x flag passed. unfold start_run, extra_set, p_init, p_or.
  destruct (fresh h (parameters passed)) as [pl h1] eqn:F1. apply fresh_spec in F1. destruct F1 as (P1 & L1 & U1 & _).
  destruct (fresh h1 _) as [el h2] eqn:F2. apply fresh_spec in F2. destruct F2 as (P2 & L2 & U2 & _).
  set (h3 := match x with XThread => p_set h2 el k_terminate (PVal flag) | _ => h2 end).
  assert (U3 : untouched h h3).
  { assert (A : untouched h h2) by (eapply untouched_trans; eassumption).
    unfold h3. destruct x; try exact A. apply untouched_write; [exact A|lia]. }
  clearbody h3.
  destruct (fresh h3 _) as [j1 h4] eqn:F4. apply fresh_spec in F4. destruct F4 as (_ & _ & U4 & _).
  destruct (fresh h4 _) as [j2 h5] eqn:F5. apply fresh_spec in F5. destruct F5 as (_ & _ & U5 & _).
  assert (UH5 : untouched h h5) by (eapply untouched_trans; [exact U3|]; eapply untouched_trans; eassumption).
  destruct (prefilter _ _ _ _) as [dd|e]; [|exact UH5].
  destruct (fresh h5 _) as [p h6] eqn:F6. apply fresh_spec in F6. destruct F6 as (P6 & L6 & U6 & _).
  assert (UH6 : untouched h h6) by (eapply untouched_trans; eassumption).
  pose proof (untouched_length _ _ UH5) as G5. clear U1 U2 U3 U4 U5 U6 UH5 L1 L2 P1 P2.
  assert (TS : forall l h', task_set h6 t = (l, h') -> (length h <= l)%nat /\ untouched h h').
  { unfold task_set, p_copy, p_init, p_or. intros l h'.
    destruct (fresh h6 _) as [own h7] eqn:F7. apply fresh_spec in F7. destruct F7 as (P7 & L7 & U7 & _).
    assert (UH7 : untouched h h7) by (eapply untouched_trans; eassumption).
    destruct (st_kind t) as [[|]|]; try (intros I; injection I as <- <-; split; [lia|exact UH7]).
    destruct (fresh h7 _) as [f h8] eqn:F8. apply fresh_spec in F8. destruct F8 as (P8 & L8 & U8 & _).
    intros F9. apply fresh_spec in F9. destruct F9 as (P9 & L9 & U9 & _).
    split; [lia|]. eapply untouched_trans; [exact UH7|]. eapply untouched_trans; eassumption. }
  assert (DS : forall l h' bs, direct_set h6 t = (l, h', bs) -> (length h <= l)%nat /\ untouched h h').
  { unfold direct_set. intros l h' bs. destruct (task_set h6 t) as [l0 h0]. destruct (TS l0 h0 eq_refl) as [A B].
    destruct (st_batches t); intros I; injection I as <- <- <-; (split; [exact A|]); [exact B|].
    apply untouched_write; assumption. }
  destruct (direct_set h6 t) as [[d h7] bs]. destruct (DS d h7 bs eq_refl) as [LD UD].
  destruct (fresh h7 _) as [u h8] eqn:F8. apply fresh_spec in F8. destruct F8 as (_ & _ & U8 & _).
  assert (U : untouched h h8) by (eapply untouched_trans; eassumption).
  assert (LP : (length h <= p)%nat) by lia.
  assert (PS : forall s0 cx hh l r h', untouched h hh -> (length h <= l)%nat -> p_stage n s0 cx hh l = (r, h') -> untouched h h').
  { unfold p_stage. intros s0 cx hh l r h' V G. destruct (pre_materialize _ _ _ _); intros I; injection I as <- <-; [|exact V].
    apply untouched_write; assumption. }
  assert (ST : forall cx, untouched h (snd (fst (
    match p_stage n (seen_session h8 s sp) cx h8 p with
    | (Ok _, h4) =>
        match p_stage n (seen_session h4 s sp) cx h4 d with
        | (Ok _, h5) => (Ok (p, d), h5, bs)
        | (Err e, h5) => (Err e, h5, bs)
        end
    | (Err e, h4) => (Err e, h4, bs)
    end)))).
  { intros cx. destruct (p_stage n (seen_session h8 s sp) cx h8 p) as [r9 h9] eqn:S9. apply PS in S9; [|exact U|exact LP].
    destruct r9 as [[]|e]; [|exact S9].
    destruct (p_stage n (seen_session h9 s sp) cx h9 d) as [r10 h10] eqn:S10. apply PS in S10; [|exact S9|exact LD].
    destruct r10; exact S10. }
  destruct x; try exact U; [|apply ST].
  destruct (get_item _ _ _ _) as [v|[]]; try exact U; apply ST.
Qed.

Lemma begin_leaves_any : forall n s' h t p d, untouched h (snd (begin_run n s' h t p d)).
Proof.
  intros n s' h t p d. unfold begin_run, p_copy, p_init, p_or.
  destruct (fresh h _) as [a h1] eqn:F1. apply fresh_spec in F1. destruct F1 as (_ & _ & U1 & _).
  destruct (fresh h1 _) as [b h2] eqn:F2. apply fresh_spec in F2. destruct F2 as (_ & _ & U2 & _).
  destruct (fresh h2 _) as [c h3] eqn:F3. apply fresh_spec in F3. destruct F3 as (_ & _ & U3 & _).
  eapply untouched_trans; [exact U1|]. eapply untouched_trans; eassumption.
Qed.

Lemma request_leaves_any : forall h given kwargs, untouched h (snd (request h given kwargs)).
Proof.
  intros h given kwargs. unfold request. destruct (fresh h []) as [r h1] eqn:F. apply fresh_spec in F.
  destruct F as (P & L & U & _). apply untouched_write; [apply untouched_write; [exact U|lia]|lia].
Qed.

Lemma happen_keeps : forall h e l, existing h l -> ~ changes e l -> existing (happen h e) l /\ read (happen h e) l = read h l.
Proof.
  intros h e l E C.
  assert (W : forall m d, m <> l -> existing (write h m d) l /\ read (write h m d) l = read h l).
  { intros m d N. unfold existing in *. rewrite write_length. split; [exact E|]. apply read_write_other, N. }
  destruct e; cbn [happen changes] in *; try (apply W, C).
  - apply untouched_by_fresh, E.
  - apply untouched_by_fresh, E.
  - apply untouched_by_fresh, E.
  - unfold own_params. destruct kind as [[|]|]; try (split; [exact E|reflexivity]).
    destruct (fresh h sig) as [f h1] eqn:F. apply fresh_spec in F. destruct F as (_ & _ & U & _).
    destruct (U l E) as [A B]. destruct (untouched_by_fresh h1 (params_or (read h1 f) (read h1 given)) l A) as [G H].
    unfold p_or. split; [exact G|congruence].
  - apply request_leaves_any, E.
  - apply start_leaves_any, E.
  - apply begin_leaves_any, E.
Qed.

Lemma happens_keeps : forall es h l, existing h l -> (forall e, In e es -> ~ changes e l) ->
  existing (happens h es) l /\ read (happens h es) l = read h l.
Proof.
  unfold happens. induction es as [|e es IH]; intros h l E C; [split; [exact E|reflexivity]|]. cbn [fold_left].
  destruct (happen_keeps h e l E (C e (or_introl eq_refl))) as [A B].
  destruct (IH (happen h e) l A (fun f I => C f (or_intror I))) as [G H]. split; [exact G|congruence].
Qed.

Lemma request_kept : forall h given kwargs r h' es, existing h given -> request h given kwargs = (r, h') ->
  (forall e, In e es -> ~ changes e r) -> read (happens h' es) r = request_params (read h given) kwargs.
Proof.
  intros h given kwargs r h' es E R C. destruct (request_spec h given kwargs E) as (r0 & h0 & R0 & U & N & X & V).
  rewrite R in R0. injection R0 as <- <-. destruct (happens_keeps es h' r X C) as [_ ->]. exact V.
Qed.

Lemma run_gets_later : forall n s s' sp h t x flag passed p d h1 bs es, existing h sp -> has_sets h t ->
  start_run n s sp h t x flag passed = (Ok (p, d), h1, bs) -> (forall e, In e es -> ~ changes e p /\ ~ changes e d) ->
  fst (begin_run n s' (happens h1 es) t p d) = run_kwargs n (seen_session h s sp) s' (seen_task h t) x flag passed.
Proof.
  intros n s s' sp h t x flag passed p d h1 bs es E T S C.
  destruct (sets_new _ _ _ _ _ _ _ _ _ _ _ _ E T S) as (_ & _ & P & D).
  destruct (happens_keeps es h1 p P (fun e I => proj1 (C e I))) as [A B].
  destruct (happens_keeps es h1 d D (fun e I => proj2 (C e I))) as [G H].
  eapply run_gets; eassumption.
Qed.

(** * Whose sets are whose *)
Lemma own_new : forall h sig given l h', existing h given -> own_params h (PFunc false) sig given = (l, h') ->
  ~ existing h l /\ existing h' l /\ read h' l = params_or sig (read h given).
Proof.
  intros h sig given l h' E. unfold own_params, p_or. destruct (fresh h sig) as [f h1] eqn:F. apply fresh_spec in F.
  destruct F as (P & L & U & R). destruct (U given E) as [_ ->]. rewrite R. intros G. apply fresh_spec in G.
  destruct G as (Q & M & V & S). unfold existing. split; [lia|]. split; [lia|exact S].
Qed.

Lemma own_of_dict_new : forall h kind sig given l h', own_params_of_dict h kind sig given = (l, h') ->
  ~ existing h l /\ existing h' l.
Proof.
  intros h kind sig given l h'. unfold own_params_of_dict, p_init. destruct (fresh h (parameters given)) as [g h1] eqn:F.
  apply fresh_spec in F. destruct F as (P & L & U & _). intros O.
  destruct kind as [[|]|]; try (injection O as <- <-; unfold existing; lia).
  apply own_new in O; [|unfold existing; lia]. unfold existing in *. lia.
Qed.

Lemma shared : forall h kind sig sig' given k p a h1 b h2, existing h given -> kind <> PFunc false ->
  own_params h kind sig given = (a, h1) -> own_params h1 kind sig' given = (b, h2) ->
  read (p_set h2 a k p) b = dset k p (read h2 b).
Proof.
  intros h kind sig sig' given k p a h1 b h2 E N A B. unfold own_params in A, B.
  destruct kind as [[|]|]; try contradiction (N eq_refl);
    injection A as <- <-; injection B as <- <-; unfold p_set; apply read_write_same, E.
Qed.
