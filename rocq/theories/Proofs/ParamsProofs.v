(** Proofs about parameter sets, arguments and the keyword arguments of runs. *)
From Coq Require Import Bool Arith Lia ZifyBool.
From Verif Require Import Model.Base Model.World Model.Params Spec.ParamsSpec.
Open Scope Z_scope.

(** * Dictionaries *)

Lemma dget_dset {V} : forall (d : dict V) k v k',
  dget k' (dset k v d) = if k =? k' then Some v else dget k' d.
Proof.
  induction d as [|[a b] d IH]; intros k v k'; cbn [dset dget].
  - reflexivity.
  - destruct (a =? k) eqn:E; cbn [dget].
    + destruct (a =? k') eqn:E1; destruct (k =? k') eqn:E2; try reflexivity; lia.
    + rewrite IH. destruct (a =? k') eqn:E1; destruct (k =? k') eqn:E2; try reflexivity; lia.
Qed.

Lemma keys_dset {V} : forall (d : dict V) k v,
  map fst (dset k v d) = if existsb (Z.eqb k) (map fst d) then map fst d else map fst d ++ [k].
Proof.
  induction d as [|[a b] d IH]; intros k v; cbn [dset map fst existsb app].
  - reflexivity.
  - rewrite (Z.eqb_sym k a). destruct (a =? k) eqn:E.
    + apply Z.eqb_eq in E. subst. reflexivity.
    + cbn [map fst orb]. rewrite IH. destruct (existsb (Z.eqb k) (map fst d)); reflexivity.
Qed.

Lemma existsb_key : forall k l, existsb (Z.eqb k) l = true <-> In k l.
Proof.
  intros k l. rewrite existsb_exists. split.
  - intros (x & H & E). apply Z.eqb_eq in E. subst. exact H.
  - intros H. exists k. split; [exact H|apply Z.eqb_refl].
Qed.

Lemma one_dset {V} : forall (d : dict V) k v, one_per_key d -> one_per_key (dset k v d).
Proof.
  unfold one_per_key. intros d k v H. rewrite keys_dset.
  destruct (existsb (Z.eqb k) (map fst d)) eqn:E; [exact H|].
  assert (N : ~ In k (map fst d)) by (rewrite <- existsb_key, E; discriminate).
  induction (map fst d) as [|a l IH]; cbn [app].
  - repeat constructor. intros [].
  - inversion H; subst. cbn [existsb] in E. apply orb_false_iff in E. destruct E as [_ E].
    constructor.
    + rewrite in_app_iff. intros [I | [<- | []]]; [contradiction|]. apply N. left. reflexivity.
    + apply IH; [assumption|exact E|]. intros I. apply N. right. exact I.
Qed.

Lemma one_dupdate {V} : forall (e d : dict V), one_per_key d -> one_per_key (dupdate d e).
Proof.
  unfold dupdate. induction e as [|[k v] e IH]; intros d H; cbn [fold_left]; [exact H|].
  apply IH. apply one_dset. exact H.
Qed.

Lemma dget_none {V} : forall (d : dict V) k, ~ In k (map fst d) -> dget k d = None.
Proof.
  induction d as [|[a b] d IH]; intros k H; cbn [dget]; [reflexivity|].
  cbn [map fst] in H. destruct (a =? k) eqn:E.
  - exfalso. apply H. left. lia.
  - apply IH. intros I. apply H. right. exact I.
Qed.

Lemma dget_dupdate {V} : forall (e d : dict V) k, one_per_key e ->
  dget k (dupdate d e) = match dget k e with Some v => Some v | None => dget k d end.
Proof.
  unfold dupdate. induction e as [|[a v] e IH]; intros d k H; cbn [fold_left dget fst snd]; [reflexivity|].
  inversion H; subst. rewrite IH by assumption. rewrite dget_dset.
  destruct (a =? k) eqn:E; [|reflexivity].
  rewrite dget_none; [reflexivity|]. apply Z.eqb_eq in E. subst. assumption.
Qed.

Lemma dget_filter {V} : forall (f : Z -> bool) (d : dict V) k,
  dget k (filter (fun kv => f (fst kv)) d) = if f k then dget k d else None.
Proof.
  induction d as [|[a v] d IH]; intros k; cbn [filter dget fst].
  - destruct (f k); reflexivity.
  - destruct (f a) eqn:E; cbn [dget]; rewrite IH; destruct (a =? k) eqn:E1; try reflexivity.
    + apply Z.eqb_eq in E1. subst. rewrite E. reflexivity.
    + apply Z.eqb_eq in E1. subst. rewrite E. reflexivity.
Qed.

Lemma one_filter {V} : forall (f : Z * V -> bool) (d : dict V), one_per_key d -> one_per_key (filter f d).
Proof.
  unfold one_per_key. induction d as [|a d IH]; intros H; cbn [filter]; [exact H|].
  cbn [map] in H. inversion H; subst. destruct (f a); cbn [map]; [|apply IH; assumption].
  constructor; [|apply IH; assumption].
  intros I. apply H2. apply in_map_iff in I. destruct I as (x & E & I). apply filter_In in I.
  rewrite <- E. apply in_map. apply I.
Qed.

(** * Materialising *)

Lemma materialize_get : forall n s cx d vs, materialize n s cx d = Ok vs ->
  map fst vs = map fst d /\
  forall k, match dget k d with
            | None => dget k vs = None
            | Some p => exists v, dget k vs = Some v /\ param_value n s cx p = Ok v
            end.
Proof.
  induction d as [|[a p] d IH]; intros vs H; cbn [materialize] in H.
  - injection H as <-. split; [reflexivity|]. intros k. reflexivity.
  - destruct (param_value n s cx p) as [v|] eqn:E; cbn [bind] in H; [|discriminate].
    destruct (materialize n s cx d) as [l|]; cbn [bind] in H; [|discriminate].
    injection H as <-. destruct (IH l eq_refl) as [IK IV]. split.
    + cbn [map fst]. rewrite IK. reflexivity.
    + intros k. cbn [dget]. destruct (a =? k); [exists v; auto|apply IV].
Qed.

Lemma materialize_ok : forall n s cx d, (forall k p, In (k, p) d -> exists v, param_value n s cx p = Ok v) ->
  exists vs, materialize n s cx d = Ok vs.
Proof.
  induction d as [|[a p] d IH]; intros H; cbn [materialize].
  - exists []. reflexivity.
  - destruct (H a p (or_introl eq_refl)) as [v E]. rewrite E. cbn [bind].
    destruct IH as [vs E2]. { intros k q I. apply (H k q). right. exact I. }
    rewrite E2. cbn [bind]. eexists. reflexivity.
Qed.

Lemma pre_materialize_get : forall n s cx d ps, pre_materialize n s cx d = Ok ps ->
  map fst ps = map fst d /\
  forall k, match dget k d with
            | None => dget k ps = None
            | Some p => exists q, dget k ps = Some q /\ stage_param n s cx p = Ok q
            end.
Proof.
  induction d as [|[a p] d IH]; intros ps H; cbn [pre_materialize] in H.
  - injection H as <-. split; [reflexivity|]. intros k. reflexivity.
  - destruct (stage_param n s cx p) as [v|] eqn:E; cbn [bind] in H; [|discriminate].
    destruct (pre_materialize n s cx d) as [l|]; cbn [bind] in H; [|discriminate].
    injection H as <-. destruct (IH l eq_refl) as [IK IV]. split.
    + cbn [map fst]. rewrite IK. reflexivity.
    + intros k. cbn [dget]. destruct (a =? k); [exists v; auto|apply IV].
Qed.

Lemma in_dget {V} : forall (d : dict V) k v, one_per_key d -> In (k, v) d -> dget k d = Some v.
Proof.
  induction d as [|[a b] d IH]; intros k v H I; [destruct I|].
  cbn [dget]. inversion H; subst. destruct I as [E | I].
  - injection E as -> ->. rewrite Z.eqb_refl. reflexivity.
  - destruct (a =? k) eqn:E; [|apply IH; assumption].
    apply Z.eqb_eq in E. subst. exfalso. apply H2. change k with (fst (k, v)). apply in_map. exact I.
Qed.

(** * The keyword arguments of a run *)

Lemma one_nil {V} : one_per_key (@nil (Z * V)).
Proof. constructor. Qed.

Lemma one_extras : forall t x flag, one_per_key (extras t x flag).
Proof.
  intros t x flag. unfold one_per_key, extras. destruct x; cbn;
    repeat constructor; cbn; unfold k_session, k_task, k_terminate; intros H; intuition lia.
Qed.

Lemma dget_parameters : forall d k, one_per_key d -> dget k (parameters d) = dget k d.
Proof. intros d k H. unfold parameters. rewrite dget_dupdate by exact H. destruct (dget k d); reflexivity. Qed.

Lemma dget_or : forall l r k, one_per_key l -> one_per_key r ->
  dget k (params_or l r) = match dget k r with Some p => Some p | None => dget k l end.
Proof.
  intros l r k L R. unfold params_or. rewrite dget_dupdate by exact R. destruct (dget k r); [reflexivity|].
  rewrite dget_dupdate by exact L. destruct (dget k l); reflexivity.
Qed.

Lemma one_parameters : forall d, one_per_key (parameters d).
Proof. intros d. apply one_dupdate, one_nil. Qed.
Lemma one_or : forall l r, one_per_key (params_or l r).
Proof. intros l r. apply one_dupdate, one_dupdate, one_nil. Qed.

Lemma extras_built_in : forall t x flag, extras t x flag = built_in t x flag.
Proof. intros t x flag. now destruct x. Qed.

Definition pool (s : sess) (t : ptask) (x : exec) (flag : value) (passed : dict param) : dict param :=
  params_or (params_or (ss_params s) (parameters passed)) (extras t x flag).

Lemma pool_get : forall s t x flag passed k, one_per_key (ss_params s) -> one_per_key passed ->
  dget k (pool s t x flag passed) = first_with [built_in t x flag; passed; ss_params s] k.
Proof.
  intros s t x flag passed k S P. unfold pool.
  rewrite dget_or by (apply one_or || apply one_extras). cbn [first_with].
  rewrite extras_built_in. destruct (dget k (built_in t x flag)); [reflexivity|].
  rewrite dget_or by (exact S || apply one_parameters).
  rewrite dget_parameters by exact P. destruct (dget k passed); [reflexivity|].
  destruct (dget k (ss_params s)); reflexivity.
Qed.

Lemma direct_get : forall t k, one_per_key (pt_own t) -> one_per_key (pt_sig t) -> Forall one_per_key (pt_requests t) ->
  dget k (direct_params t) = first_with [request_of t; pt_own t; signature_of t] k.
Proof.
  intros t k O S R. unfold direct_params, request_of. cbn [first_with].
  assert (G : dget k (get_task_params t) =
              match dget k (pt_own t) with Some p => Some p | None =>
                match dget k (signature_of t) with Some p => Some p | None => None end end).
  { unfold get_task_params, signature_of. destruct (pt_kind t) as [[|]|].
    - rewrite dget_or by (exact S || apply one_parameters). rewrite dget_parameters by exact O.
      destruct (dget k (pt_own t)); [reflexivity|]. destruct (dget k (pt_sig t)); reflexivity.
    - rewrite dget_parameters by exact O. destruct (dget k (pt_own t)); reflexivity.
    - rewrite dget_parameters by exact O. destruct (dget k (pt_own t)); reflexivity. }
  destruct (pt_requests t) as [|r rs].
  - cbn [dget]. exact G.
  - inversion R; subst. rewrite dget_dupdate by assumption. rewrite G. reflexivity.
Qed.

Lemma one_direct : forall t, one_per_key (direct_params t).
Proof.
  intros t. assert (H : one_per_key (get_task_params t)).
  { unfold get_task_params. destruct (pt_kind t) as [[|]|]; [apply one_or|apply one_parameters|apply one_parameters]. }
  unfold direct_params. destruct (pt_requests t); [exact H|apply one_dupdate; exact H].
Qed.

Lemma extra_get : forall n s t x flag passed, is_func t -> one_per_key (ss_params s) -> one_per_key passed ->
  exists d, get_extra_params n s t x flag passed = Ok d /\ one_per_key d /\
    forall k, dget k d = if (match pt_kind t with PFunc true => true | _ => pt_takes t k end)
                         then first_with [built_in t x flag; passed; ss_params s] k else None.
Proof.
  intros n s t x flag passed F S P. unfold get_extra_params, prefilter. fold (pool s t x flag passed).
  unfold is_func in F. destruct (pt_kind t) as [[|]|]; [| |congruence]; cbn [bind].
  - eexists. split; [reflexivity|]. split; [apply one_parameters|]. intros k.
    rewrite dget_parameters by apply one_or. apply pool_get; assumption.
  - eexists. split; [reflexivity|]. split; [apply one_parameters|]. intros k.
    rewrite dget_parameters by (apply one_filter, one_or). unfold keep_taken.
    rewrite dget_filter. rewrite pool_get by assumption. reflexivity.
Qed.

(** Both halves put together, after staging or not *)
Lemma merged_get : forall t params direct k, one_per_key params -> one_per_key direct ->
  dget k (params_or (parameters (postfilter t params)) (parameters direct)) =
  match dget k direct with
  | Some p => Some p
  | None => if (match pt_kind t with PFunc true => pt_takes t k | _ => true end) then dget k params else None
  end.
Proof.
  intros t params direct k P D. rewrite dget_or by apply one_parameters.
  rewrite (dget_parameters direct) by exact D. destruct (dget k direct); [reflexivity|].
  unfold postfilter. destruct (pt_kind t) as [[|]|].
  - rewrite dget_parameters by (apply one_filter; exact P). unfold keep_taken. apply dget_filter.
  - apply dget_parameters. exact P.
  - apply dget_parameters. exact P.
Qed.

Lemma one_keys {V W} : forall (d : dict V) (e : dict W), map fst e = map fst d -> one_per_key d -> one_per_key e.
Proof. unfold one_per_key. intros d e E H. rewrite E. exact H. Qed.

Lemma extras_flag : forall t flag, dget k_terminate (built_in t XThread flag) = Some (PVal flag).
Proof. reflexivity. Qed.

(** The value of a parameter as the code obtains it *)
Definition staged (n : nat) (s s' : sess) (t : ptask) (x : exec) (flag : value) (p : param) : result value :=
  match x with
  | XMain | XAsync => param_value n s' (in_task t None) p
  | XThread => let* q := stage_param n s (in_task t (Some (stop_event s t flag))) p in
               param_value n s' (in_task t None) q
  | XProcess => let* q := stage_param n s (in_task t None) p in param_value n s' (in_task t None) q
  end.
Lemma get_kwargs_given : forall t ev a, get_kwargs (in_task t ev) a = in_task t ev.
Proof. intros t ev a. now destruct a. Qed.
Lemma late_dec : forall s a, late s a \/ ~ late s a.
Proof. intros s a. destruct a as [| | | | |f sig [[|]|]| | | | |]; cbn; try (now left); try (now right). destruct (ss_pre s); [now right|now left]. Qed.
Lemma staged_early : forall n s s' t cx a, ~ late s a ->
  (let* q := stage n s cx a in param_value n s' (in_task t None) q) = get_value n s cx a.
Proof.
  intros n s s' t cx a L.
  assert (E : stage n s cx a = let* v := get_value n s cx a in Ok (PVal v)).
  { destruct a as [| | | | |f sig [[|]|]| | | | |]; try reflexivity; cbn in L |- *; [congruence|].
    destruct (ss_pre s); [reflexivity|congruence]. }
  rewrite E. destruct (get_value n s cx a); reflexivity.
Qed.
Lemma staged_late : forall n s s' t cx a, late s a ->
  (let* q := stage n s cx a in param_value n s' (in_task t None) q) = get_value n s' (in_task t None) a.
Proof.
  intros n s s' t cx a L. destruct a as [| | | | |f sig [[|]|]| | | | |]; cbn [late] in L; try contradiction; [discriminate L| |].
  - cbn [stage bind param_value]. now rewrite get_kwargs_given.
  - cbn [stage]. rewrite L. cbn [bind param_value]. now rewrite get_kwargs_given.
Qed.
Lemma staged_worth : forall n s s' t x flag p, worth n s s' t x flag p (staged n s s' t x flag p).
Proof.
  intros n s s' t x flag p. destruct p as [v|a]; [now destruct x|].
  destruct x; unfold worth, staged, stage_param; try (cbn [param_value]; now rewrite get_kwargs_given);
    (split; intros L; [now apply staged_late|now apply staged_early]).
Qed.
Lemma worth_staged : forall n s s' t x flag p r, worth n s s' t x flag p r -> r = staged n s s' t x flag p.
Proof.
  intros n s s' t x flag p r H. pose proof (staged_worth n s s' t x flag p) as W. destruct p as [v|a]; [cbn in H, W; congruence|].
  unfold worth in H, W. destruct (late_dec s a); destruct x; try congruence; destruct H as [H1 H2], W as [W1 W2].
  - now rewrite (H1 H0), (W1 H0).
  - now rewrite (H1 H0), (W1 H0).
  - now rewrite (H2 H0), (W2 H0).
  - now rewrite (H2 H0), (W2 H0).
Qed.

Lemma precedence_staged : forall n s s' t x flag passed kw,
  is_func t -> dictionaries s t passed ->
  run_kwargs n s s' t x flag passed = Ok kw ->
  forall k, match chosen s t x flag passed k with
            | None => dget k kw = None
            | Some p => exists v, dget k kw = Some v /\ staged n s s' t x flag p = Ok v
            end.
Proof.
  intros n s s' t x flag passed kw F (HS & HP & HO & HG & HR) H k.
  destruct (extra_get n s t x flag passed F HS HP) as (params & EP & OP & GP).
  unfold run_kwargs in H. rewrite EP in H. cbn [bind] in H.
  unfold is_func in F.
  pose proof (direct_get t k HO HG HR) as GD.
  unfold chosen. rewrite <- GD.
  assert (FIN : forall p d,
    one_per_key p -> one_per_key d -> run_params n s' t p d = Ok kw ->
    match (match dget k d with Some q => Some q | None =>
             if (match pt_kind t with PFunc true => pt_takes t k | _ => true end) then dget k p else None end) with
    | None => dget k kw = None
    | Some q => exists v, dget k kw = Some v /\ param_value n s' (in_task t None) q = Ok v
    end).
  { intros p d Op Od E. unfold run_params in E. apply materialize_get in E. destruct E as [_ E].
    specialize (E k). rewrite merged_get in E by assumption. exact E. }
  assert (STG : forall cx p d, pre_materialize n s cx params = Ok p -> pre_materialize n s cx (direct_params t) = Ok d ->
    run_params n s' t p d = Ok kw ->
    match (match dget k (direct_params t) with Some q => Some q | None =>
             if pt_takes t k then first_with [built_in t x flag; passed; ss_params s] k else None end) with
    | None => dget k kw = None
    | Some q => exists v, dget k kw = Some v /\
                  (let* q := stage_param n s cx q in param_value n s' (in_task t None) q) = Ok v
    end).
  { intros cx p d E1 E2 E. apply pre_materialize_get in E1. destruct E1 as [K1 G1].
    apply pre_materialize_get in E2. destruct E2 as [K2 G2].
    specialize (FIN p d (one_keys _ _ K1 OP) (one_keys _ _ K2 (one_direct t)) E).
    specialize (G1 k). specialize (G2 k). rewrite GP in G1.
    destruct (dget k (direct_params t)) as [q|].
    - destruct G2 as (q' & D & ST). rewrite D in FIN. rewrite ST. cbn [bind]. exact FIN.
    - rewrite G2 in FIN. destruct (pt_kind t) as [[|]|]; [| |congruence].
      + destruct (pt_takes t k); [|exact FIN].
        destruct (first_with [built_in t x flag; passed; ss_params s] k) as [q|].
        * destruct G1 as (q' & D & ST). rewrite D in FIN. rewrite ST. cbn [bind]. exact FIN.
        * rewrite G1 in FIN. exact FIN.
      + destruct (pt_takes t k).
        * destruct (first_with [built_in t x flag; passed; ss_params s] k) as [q|].
          -- destruct G1 as (q' & D & ST). rewrite D in FIN. rewrite ST. cbn [bind]. exact FIN.
          -- rewrite G1 in FIN. exact FIN.
        * rewrite G1 in FIN. exact FIN. }
  assert (NOW : run_params n s' t params (direct_params t) = Ok kw ->
    match (match dget k (direct_params t) with Some q => Some q | None =>
             if pt_takes t k then first_with [built_in t x flag; passed; ss_params s] k else None end) with
    | None => dget k kw = None
    | Some q => exists v, dget k kw = Some v /\ param_value n s' (in_task t None) q = Ok v
    end).
  { intros E. specialize (FIN params (direct_params t) OP (one_direct t) E). rewrite GP in FIN.
    destruct (dget k (direct_params t)) as [q|]; [exact FIN|].
    destruct (pt_kind t) as [[|]|]; [| |congruence]; destruct (pt_takes t k); exact FIN. }
  destruct x; cbn [staged].
  - exact (NOW H).
  - exact (NOW H).
  - assert (EV : (match get_item n s params k_terminate with Err KeyError => Ok (ss_event s) | r => r end)
                 = Ok (stop_event s t flag)).
    { unfold get_item. rewrite GP. unfold stop_event.
      cbn [first_with]. rewrite extras_flag.
      destruct (pt_kind t) as [[|]|]; [reflexivity| |congruence].
      destruct (pt_takes t k_terminate); reflexivity. }
    rewrite EV in H. cbn [bind] in H.
    destruct (pre_materialize n s _ params) as [p|] eqn:E1; cbn [bind] in H; [|discriminate].
    destruct (pre_materialize n s _ (direct_params t)) as [d|] eqn:E2; cbn [bind] in H; [|discriminate].
    exact (STG _ p d E1 E2 H).
  - destruct (pre_materialize n s _ params) as [p|] eqn:E1; cbn [bind] in H; [|discriminate].
    destruct (pre_materialize n s _ (direct_params t)) as [d|] eqn:E2; cbn [bind] in H; [|discriminate].
    exact (STG _ p d E1 E2 H).
Qed.

Theorem precedence : forall n s s' t x flag passed kw,
  is_func t -> dictionaries s t passed ->
  run_kwargs n s s' t x flag passed = Ok kw ->
  forall k, match chosen s t x flag passed k with
            | None => dget k kw = None
            | Some p => exists v, dget k kw = Some v /\ worth n s s' t x flag p (Ok v)
            end.
Proof.
  intros n s s' t x flag passed kw F D H k. pose proof (precedence_staged n s s' t x flag passed kw F D H k) as P.
  destruct (chosen s t x flag passed k) as [p|]; [|exact P]. destruct P as (v & G & E). exists v. split; [exact G|].
  rewrite <- E. apply staged_worth.
Qed.

(** A main or async run gets its arguments whenever each chosen one has a value. *)
Theorem main_gets_them : forall n s s' t x flag passed,
  is_func t -> dictionaries s t passed -> x = XMain \/ x = XAsync ->
  (forall k p, chosen s t x flag passed k = Some p -> exists v, worth n s s' t x flag p (Ok v)) ->
  exists kw, run_kwargs n s s' t x flag passed = Ok kw.
Proof.
  intros n s s' t x flag passed F (HS & HP & HO & HG & HR) X H.
  destruct (extra_get n s t x flag passed F HS HP) as (params & EP & OP & GP).
  unfold run_kwargs. rewrite EP. cbn [bind].
  assert (M : exists kw, run_params n s' t params (direct_params t) = Ok kw).
  { unfold run_params. apply materialize_ok. intros k p I.
    apply in_dget in I; [|apply one_or].
    rewrite merged_get in I by (exact OP || apply one_direct).
    assert (C : chosen s t x flag passed k = Some p).
    { unfold chosen. rewrite <- direct_get by assumption.
      destruct (dget k (direct_params t)); [exact I|]. rewrite GP in I.
      unfold is_func in F. destruct (pt_kind t) as [[|]|]; [| |congruence]; destruct (pt_takes t k);
        first [exact I|discriminate]. }
    destruct (H k p C) as [v E]. apply worth_staged in E. exists v. destruct X as [-> | ->]; symmetry; exact E. }
  destruct X as [-> | ->]; exact M.
Qed.

(** * Secrets *)

Lemma dget_redact : forall d k, dget k (redact_all d) = option_map redact_param (dget k d).
Proof.
  induction d as [|[a p] d IH]; intros k; cbn [redact_all map dget fst snd]; [reflexivity|].
  destruct (a =? k); [reflexivity|apply IH].
Qed.

Lemma first_redact : forall f g l, (forall a, f (redact a) = g a) -> first_value f (map redact l) = first_value g l.
Proof.
  intros f g l H. induction l as [|a l IH]; cbn [map first_value]; [reflexivity|]. rewrite H, IH. reflexivity.
Qed.
Lemma args_redact : forall f g l, (forall a, f (redact a) = g a) ->
  materialize_args f (map (fun ka => (fst ka, redact (snd ka))) l) = materialize_args g l.
Proof.
  intros f g l H. induction l as [|[k a] l IH]; cbn [map materialize_args fst snd]; [reflexivity|].
  rewrite H, IH. reflexivity.
Qed.
Lemma kwargs_redact : forall cx a, get_kwargs cx (redact a) = get_kwargs cx a.
Proof. intros cx a. destruct a; reflexivity. Qed.
Lemma kwargs_task : forall cx a, cx_task cx = None -> cx_task (get_kwargs cx a) = None.
Proof.
  intros cx a H. destruct a; try exact H. cbn [get_kwargs]. rewrite H. destruct (cx_session cx); [reflexivity|exact H|exact H].
Qed.

Lemma value_redact : forall n s cx a, cx_task cx = None ->
  get_value n (with_params (redact_all (ss_params s)) s) cx (redact a) = get_value n s cx a.
Proof.
  induction n as [|n IH]; intros s cx a H; [reflexivity|].
  destruct a as [v|key d|d|name d|t d|f sig pre| |var d|word d|v|l]; cbn [redact get_value]; try reflexivity.
  - unfold find_session. rewrite H. destruct (cx_session cx) eqn:E; cbn [bind]; try reflexivity.
    cbn [with_params ss_params]. rewrite dget_redact. destruct (dget key (ss_params s)) as [[v|a]|]; try reflexivity.
    cbn [option_map redact_param]. rewrite IH by exact H. reflexivity.
  - rewrite (args_redact _ (fun a => get_value n s (get_kwargs cx a) a)); [reflexivity|].
    intros a. rewrite kwargs_redact. apply IH. apply kwargs_task. exact H.
  - rewrite H. reflexivity.
  - apply first_redact. intros a. apply IH. exact H.
Qed.

Lemma with_params_eta : forall s p, with_params p (with_params (ss_params s) s) = with_params p s.
Proof. reflexivity. Qed.

(** Reading through the mapping, with or without the session at hand *)
Theorem nothing_leaks : forall n s p q cx a b,
  cx_task cx = None -> same_but_secrets p q -> redact a = redact b ->
  get_value n (with_params p s) cx a = get_value n (with_params q s) cx b.
Proof.
  intros n s p q cx a b H E A.
  rewrite <- (value_redact n (with_params p s)) by exact H. rewrite <- (value_redact n (with_params q s)) by exact H.
  cbn [ss_params with_params]. unfold same_but_secrets in E. unfold with_params. cbn.
  rewrite E, A. reflexivity.
Qed.

Lemma same_get : forall p q k, same_but_secrets p q ->
  match dget k p, dget k q with
  | None, None => True
  | Some a, Some b => redact_param a = redact_param b
  | _, _ => False
  end.
Proof.
  intros p q k E. pose proof (dget_redact p k) as P. pose proof (dget_redact q k) as Q.
  unfold same_but_secrets in E. rewrite E in P. rewrite P in Q.
  destruct (dget k p), (dget k q); cbn [option_map] in Q; try discriminate; [|exact I].
  injection Q as ->. reflexivity.
Qed.

Theorem items_alike : forall n s p q p' q' k,
  same_but_secrets p q -> same_but_secrets p' q' ->
  get_item n (with_params p s) p' k = get_item n (with_params q s) q' k.
Proof.
  intros n s p q p' q' k E E'. unfold get_item. pose proof (same_get p' q' k E') as G.
  destruct (dget k p') as [[v|a]|], (dget k q') as [[v'|b]|]; try contradiction; cbn [redact_param] in G;
    try discriminate; try reflexivity.
  - injection G as ->. reflexivity.
  - injection G as G. apply nothing_leaks; [reflexivity|exact E|exact G].
Qed.

Lemma redact_shape : forall a b, redact a = redact b ->
  match a, b with
  | SimpleArg _, SimpleArg _ | ArgKey _ _, ArgKey _ _ | SessionArg _, SessionArg _ | TaskArg _ _, TaskArg _ _
  | ReturnArg _ _, ReturnArg _ _ | FlagArg, FlagArg | EnvArg _ _, EnvArg _ _ | CliArg _ _, CliArg _ _ => a = b
  | FuncArg f _ _, FuncArg g _ _ => f = g
  | PrivateArg _, PrivateArg _ | PipeArg _, PipeArg _ => True
  | _, _ => False
  end.
Proof.
  intros a b H. destruct a, b; cbn [redact] in H; try discriminate; try exact I; try exact H.
  injection H as -> _ _. reflexivity.
Qed.

Theorem repr_alike : forall n s p q a b, same_but_secrets p q -> redact a = redact b ->
  repr_arg n (with_params p s) a = repr_arg n (with_params q s) b /\
  str_arg n (with_params p s) a = str_arg n (with_params q s) b.
Proof.
  intros n s p q a b E A. pose proof (nothing_leaks n s p q no_kwargs a b eq_refl E A) as G.
  pose proof (redact_shape a b A) as R.
  split; destruct a, b; try contradiction; cbn [repr_arg str_arg]; try rewrite G;
    try (inversion R; subst); try reflexivity.
Qed.

Theorem params_repr_alike : forall n s p q p' q', same_but_secrets p q -> same_but_secrets p' q' ->
  repr_params n (with_params p s) p' = repr_params n (with_params q s) q'.
Proof.
  intros n s p q p' q' E. revert q'. induction p' as [|[k a] p' IH]; intros [|[k' b] q'] E'; try discriminate.
  - reflexivity.
  - unfold same_but_secrets in E'. cbn [redact_all map fst snd] in E'. injection E' as -> A E'.
    cbn [repr_params]. rewrite (IH q' E').
    destruct a as [v|a], b as [v'|b]; cbn [redact_param] in A; try discriminate.
    + injection A as ->. reflexivity.
    + injection A as A. destruct (repr_alike n s p q a b E A) as [R _]. rewrite R. reflexivity.
Qed.

(** * Pipes *)

Lemma written_items : forall p, plain_members p -> pipe_items (written p) = members p.
Proof.
  induction p as [a|l IHl r IHr]; intros H; cbn [written members].
  - specialize (H a (or_introl eq_refl)). destruct a; try reflexivity. discriminate.
  - cbn [rshift pipe_items]. rewrite IHl, IHr; [reflexivity| |]; intros a I; apply H; cbn [members];
      apply in_or_app; [right|left]; exact I.
Qed.

Lemma first_value_spec : forall f l r, first_value f l = r ->
  first_found (map f l) r \/ (r = Err KeyError /\ forall a, In a l -> f a = Err KeyError).
Proof.
  intros f l r H. induction l as [|a l IH]; cbn [first_value map] in *.
  - right. split; [symmetry; exact H|]. intros a [].
  - destruct (f a) as [v|e] eqn:E.
    + left. exists [], (map f l). split; [rewrite <- H; reflexivity|]. split; [intros x []|]. rewrite <- H. discriminate.
    + assert (K : e = KeyError \/ e <> KeyError) by (destruct e; (left; reflexivity) || (right; discriminate)).
      destruct K as [-> | K].
      * destruct (IH H) as [(b & c & L & B & N) | [N A]].
        -- left. exists (Err KeyError :: b), c. split; [rewrite L; reflexivity|]. split; [|exact N].
           intros x [<- | I]; [reflexivity|apply B; exact I].
        -- right. split; [exact N|]. intros x [<- | I]; [exact E|apply A; exact I].
      * left. exists [], (map f l). split; [|split; [intros x []|]].
        -- cbn [app]. f_equal. destruct e; try (rewrite <- H; first [reflexivity|exact E]). exfalso. apply K. reflexivity.
        -- destruct e; rewrite <- H; try discriminate. exfalso. apply K. reflexivity.
Qed.

Lemma written_then : forall l r, plain_members (Then l r) -> written (Then l r) = PipeArg (members (Then l r)).
Proof.
  intros l r H. cbn [written members]. unfold rshift. rewrite !written_items; [reflexivity| |];
    intros a I; apply H; cbn [members]; apply in_or_app; [right|left]; exact I.
Qed.

Lemma pipe_first : forall n s cx l r, plain_members (Then l r) ->
  let v := get_value (S n) s cx (written (Then l r)) in
  let vs := map (get_value n s cx) (members (Then l r)) in
  first_found vs v \/ (v = Err KeyError /\ forall x, In x vs -> x = Err KeyError).
Proof.
  intros n s cx l r H v vs. unfold v, vs. rewrite written_then by exact H. cbn [get_value].
  destruct (first_value_spec (get_value n s cx) (members (Then l r)) _ eq_refl) as [F | [E A]].
  - left. exact F.
  - right. split; [exact E|]. intros x I. apply in_map_iff in I. destruct I as (a & <- & I). apply A. exact I.
Qed.

Lemma first_found_unique : forall rs r r', first_found rs r -> first_found rs r' -> r = r'.
Proof.
  intros rs r r' (b & a & E & B & N) (b' & a' & E' & B' & N'). subst rs.
  revert b' E' B'. induction b as [|x b IH]; intros [|x' b'] E' B'; cbn [app] in E'.
  - injection E' as -> _. reflexivity.
  - injection E' as -> _. exfalso. apply N. apply B'. left. reflexivity.
  - injection E' as <- _. exfalso. apply N'. apply B. left. reflexivity.
  - injection E' as -> E'. apply (IH (fun y I => B y (or_intror I)) b' E').
    intros y I. apply B'. right. exact I.
Qed.

(** Lookups *)
Lemma arg_lookup : forall n s cx key default,
  (cx_session cx = SGiven \/ cx_task cx <> None) ->
  (dget key (ss_params s) = None ->
     get_value (S n) s cx (ArgKey key default) = match default with Some v => Ok v | None => Err KeyError end) /\
  (forall v, dget key (ss_params s) = Some (PVal v) -> get_value (S n) s cx (ArgKey key default) = Ok v).
Proof.
  intros n s cx key default H.
  assert (F : exists cx', find_session cx = Ok cx').
  { unfold find_session. destruct H as [H | H].
    - rewrite H. eexists. reflexivity.
    - destruct (cx_task cx); [|congruence]. destruct (cx_session cx); eexists; reflexivity. }
  destruct F as [cx' F]. split; [intros D|intros v D]; cbn [get_value]; rewrite F; cbn [bind]; rewrite D; reflexivity.
Qed.
Lemma return_lookup : forall n s cx t default,
  (cx_session cx = SGiven \/ cx_task cx <> None) -> In t (ss_tasks s) ->
  get_value (S n) s cx (ReturnArg t default) =
  match dget t (ss_returns s), default with
  | Some v, _ => Ok v
  | None, Some v => Ok v
  | None, None => Err KeyError
  end.
Proof.
  intros n s cx t default H I.
  assert (F : exists cx', find_session cx = Ok cx').
  { unfold find_session. destruct H as [H | H].
    - rewrite H. eexists. reflexivity.
    - destruct (cx_task cx); [|congruence]. destruct (cx_session cx); eexists; reflexivity. }
  destruct F as [cx' F]. cbn [get_value]. rewrite F. cbn [bind].
  rewrite (proj2 (existsb_key t (ss_tasks s)) I).
  unfold or_default, of_option. destruct (dget t (ss_returns s)); [reflexivity|]. destruct default; reflexivity.
Qed.
Lemma env_lookup : forall n s cx var default,
  get_value (S n) s cx (EnvArg var default) =
  match dget var (ss_environ s), default with
  | Some v, _ => Ok v
  | None, Some v => Ok v
  | None, None => Err KeyError
  end.
Proof.
  intros n s cx var default. cbn [get_value]. unfold or_default, of_option.
  destruct (dget var (ss_environ s)); [reflexivity|]. destruct default; reflexivity.
Qed.
Lemma cli_lookup : forall n s cx word default,
  (~ In word (ss_argv s) ->
     get_value (S n) s cx (CliArg word default) = match default with Some v => Ok v | None => Err KeyError end) /\
  (forall before v after, ss_argv s = before ++ word :: v :: after -> ~ In word before ->
     get_value (S n) s cx (CliArg word default) = Ok (VData v)).
Proof.
  intros n s cx word default. cbn [get_value]. split.
  - induction (ss_argv s) as [|w l IH]; intros H; cbn [cli_value]; [reflexivity|].
    destruct (w =? word) eqn:E.
    + exfalso. apply H. left. lia.
    + apply IH. intros I. apply H. right. exact I.
  - intros before v after E H. rewrite E. clear E. induction before as [|w l IH]; cbn [app cli_value].
    + rewrite Z.eqb_refl. reflexivity.
    + destruct (w =? word) eqn:E.
      * exfalso. apply H. left. lia.
      * apply IH. intros I. apply H. right. exact I.
Qed.

(** * Tasks with the base class's filter *)

Lemma read_keys_get : forall n s d keys d', read_keys n s d keys = Ok d' ->
  map fst d' = keys /\
  forall k, (In k keys -> exists v, get_item n s d k = Ok v /\ dget k d' = Some (PVal v)) /\
            (~ In k keys -> dget k d' = None).
Proof.
  induction keys as [|a keys IH]; intros d' H; cbn [read_keys] in H.
  - injection H as <-. split; [reflexivity|]. intros k. split; [intros []|intros _; reflexivity].
  - destruct (get_item n s d a) as [v|] eqn:E; cbn [bind] in H; [|discriminate].
    destruct (read_keys n s d keys) as [l|]; cbn [bind] in H; [|discriminate].
    injection H as <-. destruct (IH l eq_refl) as [K G]. split; [cbn [map fst]; rewrite K; reflexivity|].
    intros k. destruct (G k) as [G1 G2]. cbn [dget]. destruct (a =? k) eqn:EK.
    + apply Z.eqb_eq in EK. subst a. split; [intros _; exists v; auto|]. intros N. exfalso. apply N. left. reflexivity.
    + split.
      * intros [-> | I]; [rewrite Z.eqb_refl in EK; discriminate|exact (G1 I)].
      * intros N. apply G2. intros I. apply N. right. exact I.
Qed.

Lemma dget_in {V} : forall (d : dict V) k, (In k (map fst d) -> exists v, dget k d = Some v).
Proof.
  induction d as [|[a b] d IH]; intros k H; [destruct H|]. cbn [dget]. destruct (a =? k) eqn:E; [eexists; reflexivity|].
  destruct H as [<- | H]; [cbn [fst] in E; lia|apply IH; exact H].
Qed.

Lemma one_read : forall n s d d', read_keys n s d (map fst d) = Ok d' -> one_per_key d -> one_per_key d'.
Proof. intros n s d d' H O. apply read_keys_get in H. destruct H as [K _]. apply (one_keys d); assumption. Qed.

Lemma base_extra_get : forall n s t x flag passed d,
  pt_kind t = PBase -> one_per_key (ss_params s) -> one_per_key passed ->
  get_extra_params n s t x flag passed = Ok d ->
  one_per_key d /\
  forall k, dget k d =
    if pt_takes t k
    then match first_with [built_in t x flag; passed; ss_params s] k with
         | None => None
         | Some p => match (match p with PVal v => Ok v | PArg a => get_value n s no_kwargs a end) with
                     | Ok v => Some (PVal v) | Err _ => None end
         end
    else None.
Proof.
  intros n s t x flag passed d B S P H. unfold get_extra_params, prefilter in H. rewrite B in H.
  fold (pool s t x flag passed) in H.
  destruct (read_keys n s (pool s t x flag passed) (map fst (pool s t x flag passed))) as [e|] eqn:E;
    cbn [bind] in H; [|discriminate].
  injection H as <-. pose proof (one_read _ _ _ _ E (one_or _ _)) as OE.
  apply read_keys_get in E. destruct E as [K G].
  split; [apply one_parameters|]. intros k.
  rewrite dget_parameters by (apply one_filter; exact OE). unfold keep_taken. rewrite dget_filter.
  destruct (pt_takes t k); [|reflexivity].
  rewrite <- pool_get by assumption. destruct (G k) as [G1 G2].
  destruct (existsb (Z.eqb k) (map fst (pool s t x flag passed))) eqn:I.
  - apply existsb_key in I. destruct (G1 I) as (v & V & D). rewrite D. unfold get_item in V.
    destruct (dget k (pool s t x flag passed)) as [[w|a]|]; [|rewrite V; reflexivity|discriminate].
    injection V as ->. reflexivity.
  - assert (N : ~ In k (map fst (pool s t x flag passed))) by (rewrite <- existsb_key, I; discriminate).
    rewrite (G2 N), (dget_none _ _ N). reflexivity.
Qed.

Lemma base_extra_value : forall n s t x flag passed d,
  pt_kind t = PBase -> one_per_key (ss_params s) -> one_per_key passed ->
  get_extra_params n s t x flag passed = Ok d ->
  forall k, match (if pt_takes t k then first_with [built_in t x flag; passed; ss_params s] k else None) with
            | None => dget k d = None
            | Some p => exists v, (match p with PVal v => Ok v | PArg a => get_value n s no_kwargs a end) = Ok v /\
                                  dget k d = Some (PVal v)
            end.
Proof.
  intros n s t x flag passed d B S P H k. unfold get_extra_params, prefilter in H. rewrite B in H.
  fold (pool s t x flag passed) in H.
  destruct (read_keys n s (pool s t x flag passed) (map fst (pool s t x flag passed))) as [e|] eqn:E;
    cbn [bind] in H; [|discriminate].
  injection H as <-. pose proof (one_read _ _ _ _ E (one_or _ _)) as OE.
  apply read_keys_get in E. destruct E as [K G].
  rewrite dget_parameters by (apply one_filter; exact OE). unfold keep_taken. rewrite dget_filter.
  destruct (pt_takes t k); [|reflexivity].
  rewrite <- pool_get by assumption. destruct (G k) as [G1 G2].
  destruct (existsb (Z.eqb k) (map fst (pool s t x flag passed))) eqn:I.
  - apply existsb_key in I. destruct (G1 I) as (v & V & D). unfold get_item in V.
    destruct (dget k (pool s t x flag passed)) as [[w|a]|]; [| |discriminate]; exists v; split; assumption.
  - assert (N : ~ In k (map fst (pool s t x flag passed))) by (rewrite <- existsb_key, I; discriminate).
    rewrite (dget_none _ _ N). exact (G2 N).
Qed.

(** What a run of such a task gets: its own parameters with their values, the
    others as read without the task *)
Theorem base_precedence : forall n s s' t x flag passed kw,
  pt_kind t = PBase -> dictionaries s t passed ->
  run_kwargs n s s' t x flag passed = Ok kw ->
  forall k,
    match first_with [request_of t; pt_own t] k with
    | Some p => exists v, dget k kw = Some v /\ worth n s s' t x flag p (Ok v)
    | None =>
        match (if pt_takes t k then first_with [built_in t x flag; passed; ss_params s] k else None) with
        | None => dget k kw = None
        | Some (PVal v) => dget k kw = Some v
        | Some (PArg a) => exists v, get_value n s no_kwargs a = Ok v /\ dget k kw = Some v
        end
    end.
Proof.
  intros n s s' t x flag passed kw B (HS & HP & HO & HG & HR) H k.
  unfold run_kwargs in H. destruct (get_extra_params n s t x flag passed) as [params|] eqn:EP; cbn [bind] in H; [|discriminate].
  destruct (base_extra_get _ _ _ _ _ _ _ B HS HP EP) as [OP _].
  pose proof (base_extra_value _ _ _ _ _ _ _ B HS HP EP) as GP.
  pose proof (direct_get t k HO HG HR) as GD. unfold signature_of in GD. rewrite B in GD. cbn [first_with dget] in GD.
  assert (GD' : dget k (direct_params t) = first_with [request_of t; pt_own t] k).
  { rewrite GD. cbn [first_with]. destruct (dget k (request_of t)); [reflexivity|]. destruct (dget k (pt_own t)); reflexivity. }
  rewrite <- GD'.
  assert (FIN : forall p d, one_per_key p -> one_per_key d -> run_params n s' t p d = Ok kw ->
    match (match dget k d with Some q => Some q | None => dget k p end) with
    | None => dget k kw = None
    | Some q => exists v, dget k kw = Some v /\ param_value n s' (in_task t None) q = Ok v
    end).
  { intros p d Op Od E. unfold run_params in E. apply materialize_get in E. destruct E as [_ E].
    specialize (E k). rewrite merged_get in E by assumption. rewrite B in E. exact E. }
  assert (STG : forall cx p d, pre_materialize n s cx params = Ok p -> pre_materialize n s cx (direct_params t) = Ok d ->
    run_params n s' t p d = Ok kw ->
    match dget k (direct_params t) with
    | Some q => exists v, dget k kw = Some v /\
                  (let* q := stage_param n s cx q in param_value n s' (in_task t None) q) = Ok v
    | None => match dget k params with
              | None => dget k kw = None
              | Some q => exists v, dget k kw = Some v /\
                  (let* q := stage_param n s cx q in param_value n s' (in_task t None) q) = Ok v
              end
    end).
  { intros cx p d E1 E2 E. apply pre_materialize_get in E1. destruct E1 as [K1 G1].
    apply pre_materialize_get in E2. destruct E2 as [K2 G2].
    specialize (FIN p d (one_keys _ _ K1 OP) (one_keys _ _ K2 (one_direct t)) E).
    specialize (G1 k). specialize (G2 k).
    destruct (dget k (direct_params t)) as [q|].
    - destruct G2 as (q' & D & ST). rewrite D in FIN. rewrite ST. cbn [bind]. exact FIN.
    - rewrite G2 in FIN. destruct (dget k params) as [q|].
      + destruct G1 as (q' & D & ST). rewrite D in FIN. rewrite ST. cbn [bind]. exact FIN.
      + rewrite G1 in FIN. exact FIN. }
  assert (ALL : match dget k (direct_params t) with
    | Some q => exists v, dget k kw = Some v /\ staged n s s' t x flag q = Ok v
    | None => match dget k params with
              | None => dget k kw = None
              | Some q => exists v, dget k kw = Some v /\ staged n s s' t x flag q = Ok v
              end
    end).
  { assert (NOW : run_params n s' t params (direct_params t) = Ok kw ->
      match dget k (direct_params t) with
      | Some q => exists v, dget k kw = Some v /\ param_value n s' (in_task t None) q = Ok v
      | None => match dget k params with
                | None => dget k kw = None
                | Some q => exists v, dget k kw = Some v /\ param_value n s' (in_task t None) q = Ok v
                end
      end).
    { intros E. specialize (FIN params (direct_params t) OP (one_direct t) E).
      destruct (dget k (direct_params t)); exact FIN. }
    destruct x; cbn [staged].
    - exact (NOW H).
    - exact (NOW H).
    - assert (EV : (match get_item n s params k_terminate with Err KeyError => Ok (ss_event s) | r => r end)
                   = Ok (stop_event s t flag)).
      { unfold get_item. specialize (GP k_terminate). unfold stop_event. rewrite B.
        cbn [first_with] in GP. rewrite extras_flag in GP. destruct (pt_takes t k_terminate).
        - destruct GP as (v & V & D). injection V as <-. rewrite D. reflexivity.
        - rewrite GP. reflexivity. }
      rewrite EV in H. cbn [bind] in H.
      destruct (pre_materialize n s _ params) as [p|] eqn:E1; cbn [bind] in H; [|discriminate].
      destruct (pre_materialize n s _ (direct_params t)) as [d|] eqn:E2; cbn [bind] in H; [|discriminate].
      exact (STG _ p d E1 E2 H).
    - destruct (pre_materialize n s _ params) as [p|] eqn:E1; cbn [bind] in H; [|discriminate].
      destruct (pre_materialize n s _ (direct_params t)) as [d|] eqn:E2; cbn [bind] in H; [|discriminate].
      exact (STG _ p d E1 E2 H). }
  specialize (GP k). destruct (dget k (direct_params t)) as [q|].
  - destruct ALL as (v & D & E). exists v. split; [exact D|]. rewrite <- E. apply staged_worth.
  - destruct (if pt_takes t k then first_with [built_in t x flag; passed; ss_params s] k else None) as [o|].
    + destruct GP as (v & V & D). rewrite D in ALL. destruct ALL as (w & W & E).
      assert (EQ : w = v) by (destruct x; cbn in E; congruence). subst w.
      destruct o as [u|a]; [injection V as ->; exact W|]. exists v. split; assumption.
    + rewrite GP in ALL. exact ALL.
Qed.

(** A secret among the chosen parameters reaches the task's code. *)
Theorem secret_reaches : forall n s s' t x flag passed kw k v,
  is_func t -> dictionaries s t passed -> run_kwargs (S n) s s' t x flag passed = Ok kw ->
  chosen s t x flag passed k = Some (PArg (PrivateArg v)) -> dget k kw = Some v.
Proof.
  intros n s s' t x flag passed kw k v F D H C.
  pose proof (precedence_staged (S n) s s' t x flag passed kw F D H k) as P. rewrite C in P.
  destruct P as (w & G & W). rewrite G. f_equal. destruct x; cbn in W; injection W as <-; reflexivity.
Qed.

(** Requests *)
Lemma request_kwargs : forall given kwargs k, one_per_key given -> one_per_key kwargs ->
  dget k (request_params given kwargs) = first_with [kwargs; given] k.
Proof.
  intros given kwargs k G K. unfold request_params. rewrite dget_dupdate by exact K. cbn [first_with].
  destruct (dget k kwargs); [reflexivity|]. rewrite dget_dupdate by exact G. destruct (dget k given); reflexivity.
Qed.
