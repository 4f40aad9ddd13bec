(** Proofs about what crosses to and from child processes. *)
From Coq Require Import Bool Arith Lia ZifyBool.
From Verif Require Import Model.Base Model.World Model.Params Model.Condition Model.History Model.Crossing
  Spec.ParamsSpec Spec.CrossingSpec Proofs.ParamsProofs.
Open Scope Z_scope.

(** * Arguments *)

Lemma dget_crossed : forall pick d k, one_per_key d ->
  dget k (crossed pick d) = match dget k d with Some q => if pick q then Some q else None | None => None end.
Proof.
  unfold crossed. induction d as [|[a p] d IH]; intros k O; cbn [filter dget snd]; [reflexivity|].
  inversion O as [|x l N O' E]; subst.
  destruct (pick p) eqn:P; cbn [dget]; destruct (a =? k) eqn:E.
  - now rewrite P.
  - apply IH, O'.
  - rewrite IH by exact O'. rewrite dget_none; [now rewrite P|]. replace k with a by lia. exact N.
  - apply IH, O'.
Qed.

Lemma one_crossed : forall pick d, one_per_key d -> one_per_key (crossed pick d).
Proof. intros pick d O. apply one_filter, O. Qed.

Lemma child_materialize_get : forall n s cx d vs, child_materialize n s cx d = Ok vs ->
  forall k, match dget k d with
            | None => dget k vs = None
            | Some p => exists v, dget k vs = Some v /\ child_param n s cx p = Ok v
            end.
Proof.
  induction d as [|[a p] d IH]; intros vs H k; cbn [child_materialize] in H.
  - injection H as <-. reflexivity.
  - destruct (child_param n s cx p) as [v|e] eqn:V; cbn [bind] in H; [|discriminate].
    destruct (child_materialize n s cx d) as [ws|e] eqn:M; cbn [bind] in H; [|discriminate].
    injection H as <-. cbn [dget]. destruct (a =? k) eqn:E.
    + exists v. split; [reflexivity|exact V].
    + apply IH. reflexivity.
Qed.

Lemma stage_sent : forall n s t p q, stage_param n s (in_task t None) p = Ok q -> sent_as n s t p q.
Proof.
  intros n s t p q H. destruct p as [v|a]; cbn [stage_param] in H; cbn [sent_as]; [congruence|].
  split; intros L.
  - destruct a as [| | | | |f sig [[|]|]| | | | |]; cbn [late] in L; try contradiction; [discriminate L| |].
    + cbn [stage] in H. congruence.
    + cbn [stage] in H. rewrite L in H. congruence.
  - assert (E : stage n s (in_task t None) a = let* v := get_value n s (in_task t None) a in Ok (PVal v)).
    { destruct a as [| | | | |f sig [[|]|]| | | | |]; try reflexivity.
      - exfalso. apply L. reflexivity.
      - cbn [stage]. destruct (ss_pre s) eqn:P; [reflexivity|]. exfalso. apply L. exact P. }
    rewrite E in H. destruct (get_value n s (in_task t None) a) as [v|e]; cbn [bind] in H; [|discriminate].
    exists v. split; [reflexivity|congruence].
Qed.

Lemma child_param_in : forall n s t q v, child_param n s (in_task t None) q = Ok v -> in_child n s t q v.
Proof.
  intros n s t q v H. destruct q as [w|a]; cbn [child_param] in H; cbn [in_child]; [congruence|].
  now rewrite get_kwargs_given in H.
Qed.

Theorem spawn_gets : forall n pick s s' t passed kw,
  is_func t -> dictionaries s t passed -> spawn_kwargs n pick s s' t passed = Ok kw ->
  forall k, exists a b,
    arriving n pick s t (own_source t k) a /\
    arriving n pick s t (shared_source s t passed k) b /\
    match (match a with Some q => Some q | None => b end) with
    | None => dget k kw = None
    | Some q => exists v, dget k kw = Some v /\ in_child n s' t q v
    end.
Proof.
  intros n pick s s' t passed kw F (HS & HP & HO & HG & HR) H k.
  destruct (extra_get n s t XProcess VNone passed F HS HP) as (params & EP & OP & GP).
  unfold spawn_kwargs in H. rewrite EP in H. cbn [bind] in H.
  fold (in_task t None) in H.
  destruct (pre_materialize n s (in_task t None) params) as [p|e] eqn:E1; cbn [bind] in H; [|discriminate].
  destruct (pre_materialize n s (in_task t None) (direct_params t)) as [d|e] eqn:E2; cbn [bind] in H; [|discriminate].
  apply pre_materialize_get in E1. destruct E1 as [K1 G1].
  apply pre_materialize_get in E2. destruct E2 as [K2 G2].
  pose proof (one_keys _ _ K1 OP) as O1. pose proof (one_keys _ _ K2 (one_direct t)) as O2.
  pose proof (child_materialize_get _ _ _ _ _ H k) as M. clear H.
  rewrite merged_get in M by (apply one_crossed; assumption).
  rewrite !dget_crossed in M by assumption.
  specialize (G1 k). specialize (G2 k). rewrite GP in G1. rewrite (direct_get t k HO HG HR) in G2.
  fold (own_source t k) in G2.
  assert (A : exists a, arriving n pick s t (own_source t k) a /\
                a = match dget k d with Some q => if pick q then Some q else None | None => None end).
  { destruct (own_source t k) as [o|]; cbn [arriving].
    - destruct G2 as (q & -> & ST). exists (if pick q then Some q else None).
      split; [|reflexivity]. exists q. split; [now apply stage_sent|reflexivity].
    - exists None. rewrite G2. split; reflexivity. }
  assert (B : exists b, arriving n pick s t (shared_source s t passed k) b /\
                b = (if (match pt_kind t with PFunc true => pt_takes t k | _ => true end)
                     then match dget k p with Some q => if pick q then Some q else None | None => None end else None)).
  { unfold shared_source. unfold is_func in F.
    assert (W : match (if pt_takes t k then first_with [built_in t XProcess VNone; passed; ss_params s] k else None) with
                | None => (if (match pt_kind t with PFunc true => pt_takes t k | _ => true end) then dget k p else None) = None
                | Some o => exists q, dget k p = Some q /\ stage_param n s (in_task t None) o = Ok q /\
                              (match pt_kind t with PFunc true => pt_takes t k | _ => true end) = true
                end).
    { destruct (pt_kind t) as [[|]|]; [| |congruence].
      - destruct (pt_takes t k); [|reflexivity].
        destruct (first_with [built_in t XProcess VNone; passed; ss_params s] k) as [o|]; [|exact G1].
        destruct G1 as (q & D & ST). exists q. auto.
      - destruct (pt_takes t k); [|exact G1].
        destruct (first_with [built_in t XProcess VNone; passed; ss_params s] k) as [o|]; [|exact G1].
        destruct G1 as (q & D & ST). exists q. auto. }
    destruct (if pt_takes t k then first_with [built_in t XProcess VNone; passed; ss_params s] k else None) as [o|];
      cbn [arriving].
    - destruct W as (q & D & ST & T). rewrite D, T. exists (if pick q then Some q else None).
      split; [|reflexivity]. exists q. split; [now apply stage_sent|reflexivity].
    - exists None. split; [reflexivity|].
      destruct (match pt_kind t with PFunc true => pt_takes t k | _ => true end); [now rewrite W|reflexivity]. }
  destruct A as (a & A1 & A2), B as (b & B1 & B2). exists a, b. split; [exact A1|]. split; [exact B1|].
  rewrite A2, B2. clear A1 A2 B1 B2 G1 G2.
  match type of M with match ?x with _ => _ end => match goal with |- match ?y with _ => _ end =>
    change y with x; destruct x as [q|]; [|exact M] end end.
  destruct M as (v & D & V). exists v. split; [exact D|]. now apply child_param_in.
Qed.

(** A self-contained argument has the same value in the child. *)
Lemma child_same : forall n s cx a, self_contained a = true -> child_value n s cx a = get_value n s cx a.
Proof.
  induction n as [|n IH]; intros s cx a H; [reflexivity|].
  destruct a as [v|k d|d|[nm|] d|tk d|f sig pre| |v d|w d|v|l]; cbn [self_contained] in H; try discriminate; try reflexivity.
  - cbn [child_value get_value].
    assert (E : materialize_args (fun a => child_value n s (get_kwargs cx a) a) sig =
                materialize_args (fun a => get_value n s (get_kwargs cx a) a) sig).
    { induction sig as [|[k a] sig IHs]; [reflexivity|]. cbn [forallb snd] in H. apply andb_prop in H. destruct H as [H1 H2].
      cbn [materialize_args]. rewrite IH by exact H1. now rewrite IHs. }
    now rewrite E.
  - cbn [child_value get_value]. induction l as [|a l IHl]; [reflexivity|].
    cbn [forallb] in H. apply andb_prop in H. destruct H as [H1 H2]. cbn [first_value]. rewrite IH by exact H1.
    rewrite IHl by exact H2. reflexivity.
Qed.

Definition good (n : nat) (pick : param -> bool) (s : sess) (t : ptask) (p : param) : Prop :=
  (forall q, sent_as n s t p q -> pick q = true) /\
  (forall a, p = PArg a -> late s a -> self_contained a = true).
Definition goods n pick s t (d : dict param) : Prop := forall k p, In (k, p) d -> good n pick s t p.

Lemma in_dset {V} : forall (d : dict V) k v k' v', In (k', v') (dset k v d) -> v' = v \/ In (k', v') d.
Proof.
  induction d as [|[a b] d IH]; intros k v k' v' I; cbn [dset] in I.
  - destruct I as [E | []]. left. congruence.
  - destruct (a =? k).
    + destruct I as [E | I]; [left; congruence|right; right; exact I].
    + destruct I as [E | I]; [right; left; exact E|]. destruct (IH _ _ _ _ I) as [E | J]; [now left|right; right; exact J].
Qed.
Lemma in_dupdate {V} : forall (e d : dict V) k v, In (k, v) (dupdate d e) -> (exists k', In (k', v) e) \/ In (k, v) d.
Proof.
  unfold dupdate. induction e as [|[a b] e IH]; intros d k v I; cbn [fold_left fst snd] in I; [now right|].
  destruct (IH _ _ _ I) as [[k' J] | J].
  - left. exists k'. right. exact J.
  - destruct (in_dset _ _ _ _ _ J) as [E | J']; [left; exists a; left; congruence|now right].
Qed.
Lemma goods_dupdate : forall n pick s t d e, goods n pick s t d -> goods n pick s t e -> goods n pick s t (dupdate d e).
Proof.
  intros n pick s t d e D E k p I. destruct (in_dupdate _ _ _ _ I) as [[k' J] | J]; [eapply E; exact J|eapply D; exact J].
Qed.
Lemma goods_nil : forall n pick s t, goods n pick s t [].
Proof. intros n pick s t k p []. Qed.
Lemma goods_or : forall n pick s t d e, goods n pick s t d -> goods n pick s t e -> goods n pick s t (params_or d e).
Proof. intros n pick s t d e D E. unfold params_or. repeat apply goods_dupdate; auto using goods_nil. Qed.
Lemma goods_parameters : forall n pick s t d, goods n pick s t d -> goods n pick s t (parameters d).
Proof. intros n pick s t d D. unfold parameters. apply goods_dupdate; auto using goods_nil. Qed.
Lemma goods_filter : forall n pick s t f d, goods n pick s t d -> goods n pick s t (filter f d).
Proof. intros n pick s t f d D k p I. apply filter_In in I. eapply D, I. Qed.

(** What is left of good parameters when they are sent *)
Definition arrived (pick : param -> bool) (q : param) : Prop :=
  pick q = true /\ forall a, q = PArg a -> self_contained a = true.

Lemma sent_good : forall n pick s t d ps, goods n pick s t d -> pre_materialize n s (in_task t None) d = Ok ps ->
  forall k q, In (k, q) ps -> arrived pick q.
Proof.
  induction d as [|[a p] d IH]; intros ps G H k q I; cbn [pre_materialize] in H.
  - injection H as <-. destruct I.
  - destruct (stage_param n s (in_task t None) p) as [r|e] eqn:ST; cbn [bind] in H; [|discriminate].
    destruct (pre_materialize n s (in_task t None) d) as [rs|e] eqn:M; cbn [bind] in H; [|discriminate].
    injection H as <-. destruct I as [E | I].
    + injection E as <- <-. apply stage_sent in ST. destruct (G a p (or_introl eq_refl)) as [G1 G2].
      split; [apply G1, ST|]. intros b ->. destruct p as [v|c]; cbn [sent_as] in ST; [discriminate|].
      destruct (late_dec s c) as [L|L].
      * destruct ST as [ST _]. specialize (ST L). injection ST as ->. apply (G2 c eq_refl L).
      * destruct ST as [_ ST]. destruct (ST L) as (v & _ & E). discriminate.
    + eapply IH; [|reflexivity|exact I]. intros k' p' J. eapply G. right. exact J.
Qed.

Lemma filter_all : forall {A} (f : A -> bool) l, (forall x, In x l -> f x = true) -> filter f l = l.
Proof.
  intros A f l H. induction l as [|x l IH]; [reflexivity|]. cbn [filter]. rewrite (H x (or_introl eq_refl)).
  f_equal. apply IH. intros y I. apply H. right. exact I.
Qed.

Lemma child_materialize_same : forall n s cx d, (forall k q, In (k, q) d -> forall a, q = PArg a -> self_contained a = true) ->
  child_materialize n s cx d = materialize n s cx d.
Proof.
  induction d as [|[k p] d IH]; intros H; [reflexivity|]. cbn [child_materialize materialize].
  assert (E : child_param n s cx p = param_value n s cx p).
  { destruct p as [v|a]; [reflexivity|]. cbn [child_param param_value]. apply child_same, (H k (PArg a)); [now left|reflexivity]. }
  rewrite E, IH; [reflexivity|]. intros k' q I. apply (H k'). right. exact I.
Qed.

Theorem spawn_same : forall n pick s s' t flag passed, is_func t -> all_cross n pick s t passed ->
  spawn_kwargs n pick s s' t passed = run_kwargs n s s' t XProcess flag passed.
Proof.
  intros n pick s s' t flag passed F A. unfold spawn_kwargs, run_kwargs.
  assert (EX : get_extra_params n s t XProcess flag passed = get_extra_params n s t XProcess VNone passed) by reflexivity.
  rewrite EX.
  assert (S1 : forall d, In d [request_of t; pt_own t; signature_of t; built_in t XProcess VNone; passed; ss_params s] -> goods n pick s t d).
  { intros d I k p J. exact (A d k p I J). }
  assert (GE : forall d, get_extra_params n s t XProcess VNone passed = Ok d -> goods n pick s t d).
  { intros d E. unfold get_extra_params, prefilter in E. unfold is_func in F.
    assert (GP : goods n pick s t (params_or (params_or (ss_params s) (parameters passed)) (extras t XProcess VNone))).
    { apply goods_or; [apply goods_or; [|apply goods_parameters]|rewrite extras_built_in]; apply S1; cbn; tauto. }
    destruct (pt_kind t) as [[|]|]; cbn [bind] in E; [| |congruence]; injection E as <-; apply goods_parameters;
      [exact GP|apply goods_filter, GP]. }
  assert (GD : goods n pick s t (direct_params t)).
  { assert (G : goods n pick s t (get_task_params t)).
    { unfold get_task_params. destruct (pt_kind t) as [[|]|] eqn:K; [apply goods_or|apply goods_parameters|apply goods_parameters].
      - replace (pt_sig t) with (signature_of t) by (unfold signature_of; now rewrite K). apply S1. cbn; tauto.
      - apply goods_parameters, S1. cbn; tauto.
      - apply S1. cbn; tauto.
      - apply S1. cbn; tauto. }
    unfold direct_params. destruct (pt_requests t) as [|r rs] eqn:R; [exact G|].
    apply goods_dupdate; [exact G|]. replace r with (request_of t) by (unfold request_of; now rewrite R). apply S1. cbn; tauto. }
  destruct (get_extra_params n s t XProcess VNone passed) as [params|e] eqn:EP; cbn [bind]; [|reflexivity].
  specialize (GE params eq_refl). fold (in_task t None).
  destruct (pre_materialize n s (in_task t None) params) as [p|e] eqn:E1; cbn [bind]; [|reflexivity].
  destruct (pre_materialize n s (in_task t None) (direct_params t)) as [d|e] eqn:E2; cbn [bind]; [|reflexivity].
  pose proof (sent_good _ _ _ _ _ _ GE E1) as W1. pose proof (sent_good _ _ _ _ _ _ GD E2) as W2.
  unfold crossed. rewrite (filter_all _ p), (filter_all _ d).
  - unfold run_params. apply child_materialize_same. intros k q I.
    unfold params_or in I. destruct (in_dupdate _ _ _ _ I) as [[k' J] | J].
    + unfold parameters in J. destruct (in_dupdate _ _ _ _ J) as [[k2 J2] | []]. exact (proj2 (W2 _ _ J2)).
    + destruct (in_dupdate _ _ _ _ J) as [[k2 J2] | []]. unfold parameters in J2.
      destruct (in_dupdate _ _ _ _ J2) as [[k3 J3] | []].
      assert (I3 : In (k3, q) p).
      { unfold postfilter, keep_taken in J3. destruct (pt_kind t) as [[|]|]; [apply filter_In in J3; apply J3|exact J3|exact J3]. }
      exact (proj2 (W1 _ _ I3)).
  - intros [k q] I. exact (proj1 (W2 _ _ I)).
  - intros [k q] I. exact (proj1 (W1 _ _ I)).
Qed.

(** * The task itself *)

(** The keys of the returns *)
Fixpoint keys_of (get : Z -> bool * Z) (ok : Z -> bool) (ys : list Z) : bool * Z :=
  match ys with
  | [] => (true, 0)
  | y :: ys =>
      let '(b, c) := get y in
      if b && ok y then let '(b', c') := keys_of get ok ys in (b', c + c') else (false, c)
  end.
Lemma getstate_S : forall n fin ok mark x, getstate (S n) fin ok mark x =
  let '(b, c) := keys_of (getstate n fin ok mark) ok fin in ((b && ok x) || negb (mark x), 1 + c).
Proof.
  intros n fin ok mark x. cbn [getstate]. 
  match goal with |- (let '(_, _) := ?f fin in _) = _ =>
    assert (E : forall ys, f ys = keys_of (getstate n fin ok mark) ok ys) end.
  { induction ys as [|y ys IH]; [reflexivity|]. cbn [keys_of].
    destruct (getstate n fin ok mark y) as [b c]. destruct (b && ok y); [|reflexivity]. now rewrite IH. }
  now rewrite E.
Qed.

Lemma keys_fail : forall get ok ys y, In y ys -> fst (get y) && ok y = false -> fst (keys_of get ok ys) = false.
Proof.
  induction ys as [|z ys IH]; intros y I H; [destruct I|]. cbn [keys_of].
  destruct I as [-> | I].
  - destruct (get y) as [b c]. cbn [fst] in H. rewrite H. reflexivity.
  - destruct (get z) as [b c]. destruct (b && ok z); [|reflexivity].
    specialize (IH y I H). destruct (keys_of get ok ys) as [b' c']. exact IH.
Qed.
Lemma keys_fine : forall get ok ys, (forall y, In y ys -> fst (get y) = true /\ ok y = true) -> fst (keys_of get ok ys) = true.
Proof.
  induction ys as [|z ys IH]; intros H; [reflexivity|]. cbn [keys_of].
  destruct (H z (or_introl eq_refl)) as [G O]. destruct (get z) as [b c]. cbn [fst] in G. rewrite G, O. cbn [andb].
  assert (I : fst (keys_of get ok ys) = true) by (apply IH; intros y J; apply H; right; exact J).
  destruct (keys_of get ok ys) as [b' c']. exact I.
Qed.

Theorem again_fails : forall n fin ok mark x, In x fin -> mark x = true -> fst (getstate n fin ok mark x) = false.
Proof.
  induction n as [|n IH]; intros fin ok mark x I M; [reflexivity|].
  rewrite getstate_S. pose proof (keys_fail (getstate n fin ok mark) ok fin x I) as K.
  rewrite IH in K by assumption. specialize (K eq_refl).
  destruct (keys_of (getstate n fin ok mark) ok fin) as [b c]. cbn [fst] in *. now rewrite K, M.
Qed.

Theorem other_fails : forall n fin ok mark x y, In y fin -> ok y = false -> mark x = true ->
  fst (getstate n fin ok mark x) = false.
Proof.
  intros [|n] fin ok mark x y I O M; [reflexivity|]. rewrite getstate_S.
  pose proof (keys_fail (getstate n fin ok mark) ok fin y I) as K. rewrite O, andb_false_r in K. specialize (K eq_refl).
  destruct (keys_of (getstate n fin ok mark) ok fin) as [b c]. cbn [fst] in *. now rewrite K, M.
Qed.

Theorem task_crosses : forall n fin ok mark x,
  ~ In x fin -> mark x = true -> (forall y, In y fin -> ok y = true /\ mark y = false) ->
  fst (getstate (S (S n)) fin ok mark x) = ok x.
Proof.
  intros n fin ok mark x N M F. rewrite getstate_S.
  assert (K : fst (keys_of (getstate (S n) fin ok mark) ok fin) = true).
  { apply keys_fine. intros y I. destruct (F y I) as [O Y]. split; [|exact O].
    rewrite getstate_S. destruct (keys_of (getstate n fin ok mark) ok fin) as [b c]. cbn [fst]. rewrite Y. apply orb_true_r. }
  destruct (keys_of (getstate (S n) fin ok mark) ok fin) as [b c]. cbn [fst] in *. rewrite K, M. apply orb_false_r.
Qed.

Lemma unmarked_fine : forall n fin ok mark y, mark y = false -> fst (getstate (S n) fin ok mark y) = true.
Proof.
  intros n fin ok mark y Y. rewrite getstate_S. destruct (keys_of (getstate n fin ok mark) ok fin) as [b c].
  cbn [fst]. rewrite Y. apply orb_true_r.
Qed.

Lemma keys_count : forall get ok ys m, 0 <= m ->
  (forall y, In y ys -> fst (get y) = true /\ ok y = true /\ m <= snd (get y)) ->
  m * Z.of_nat (length ys) <= snd (keys_of get ok ys).
Proof.
  induction ys as [|z ys IH]; intros m P H; [cbn; lia|]. cbn [keys_of length].
  destruct (H z (or_introl eq_refl)) as (G & O & C). destruct (get z) as [b c]. cbn [fst snd] in *. rewrite G, O. cbn [andb].
  assert (I : m * Z.of_nat (length ys) <= snd (keys_of get ok ys)) by (apply IH; [exact P|]; intros y J; apply H; right; exact J).
  destruct (keys_of get ok ys) as [b' c']. cbn [snd] in *. rewrite Nat2Z.inj_succ. lia.
Qed.

Theorem attempts_double : forall n fin ok mark x, (2 <= length fin)%nat ->
  (forall y, In y fin -> ok y = true /\ mark y = false) ->
  2 ^ Z.of_nat n <= snd (getstate (S n) fin ok mark x).
Proof.
  induction n as [|n IH]; intros fin ok mark x L F.
  - rewrite getstate_S.
    assert (C : 0 <= snd (keys_of (getstate 0 fin ok mark) ok fin)).
    { destruct fin as [|y fin]; [cbn; lia|]. cbn. lia. }
    destruct (keys_of (getstate 0 fin ok mark) ok fin) as [b c]. cbn [snd] in *. change (2 ^ Z.of_nat 0) with 1. lia.
  - rewrite getstate_S.
    assert (C : 2 ^ Z.of_nat n * Z.of_nat (length fin) <= snd (keys_of (getstate (S n) fin ok mark) ok fin)).
    { apply keys_count; [apply Z.pow_nonneg; lia|]. intros y I. destruct (F y I) as [O Y].
      split; [now apply unmarked_fine|]. split; [exact O|]. apply IH; assumption. }
    destruct (keys_of (getstate (S n) fin ok mark) ok fin) as [b c]. cbn [snd] in *.
    rewrite Nat2Z.inj_succ, Z.pow_succ_r by lia.
    assert (P : 0 <= 2 ^ Z.of_nat n) by (apply Z.pow_nonneg; lia). nia.
Qed.

(** * The start *)

Theorem start_fails_once : forall st l name t id, ts_status st <> Some ARun ->
  exists st', start_spawned (Cargo true false) st l name t id =
    (st', l ++ [Rec name ARun t (Some id); Rec name AFail t (Some id)], Err TaskSetupError) /\
  ts_status st' = Some AFail.
Proof.
  intros st l name t id N. unfold start_spawned. cbn [cg_task cg_rest].
  assert (E : match ts_status st with Some ARun => true | _ => false end = false)
    by (destruct (ts_status st) as [[]|]; congruence).
  rewrite E. cbn [set_status fst action_eqb]. eexists. rewrite <- app_assoc. split; reflexivity.
Qed.
Theorem start_fails_unrecorded : forall st l name t id, ts_status st = Some ARun ->
  exists st', start_spawned (Cargo true false) st l name t id =
    (st', l ++ [Rec name AFail t (Some id)], Err TaskSetupError).
Proof. intros st l name t id N. unfold start_spawned. cbn [cg_task cg_rest]. rewrite N. eexists. reflexivity. Qed.
Theorem start_fails_twice : forall rest st l name t id,
  exists st', start_spawned (Cargo false rest) st l name t id =
    (st', l ++ [Rec name ARun t None; Rec name AFail t None; Rec name AFail t (Some id)], Err TaskSetupError).
Proof.
  intros rest st l name t id. unfold start_spawned. cbn [cg_task cg_rest set_status fst ts_status].
  eexists. rewrite <- !app_assoc. reflexivity.
Qed.

(** * What comes back *)

Theorem all_come_back : forall pick name ms st l rets, (forall m, In m ms -> arrives pick m = true) ->
  exists st' rets', receive_all pick name (st, l, rets) ms = (st', l ++ map (record_of name) ms, rets') /\
  forall m, last_of ms = Some m ->
    ts_status st' = Some (r_action (record_of name m)) /\
    (forall t id v, m = MSuccess t id v -> dget name rets' = Some v).
Proof.
  intros pick name ms st l rets H. unfold receive_all. rewrite filter_all by exact H. clear H. revert st l rets.
  induction ms as [|m ms IH] using rev_ind; intros st l rets.
  - exists st, rets. cbn. rewrite app_nil_r. split; [reflexivity|]. intros m E. discriminate.
  - destruct (IH st l rets) as (st1 & rets1 & E & _). rewrite fold_left_app, E. cbn [fold_left].
    unfold last_of. rewrite rev_app_distr. cbn [rev app]. rewrite map_app, app_assoc. cbn [map].
    destruct m as [a t id|t id v]; cbn [receive log_record set_status fst record_of].
    + eexists _, _. split; [reflexivity|]. intros m' E'. injection E' as <-. split; [reflexivity|]. discriminate.
    + eexists _, _. split; [reflexivity|]. intros m' E'. injection E' as <-. split; [reflexivity|].
      intros t' id' v' E'. injection E' as _ _ <-. rewrite dget_dset, Z.eqb_refl. reflexivity.
Qed.

Theorem success_lost : forall pick name st l rets t1 t2 id v, pick (PVal v) = false ->
  exists st', receive_all pick name (st, l, rets) [MPlain ARun t1 id; MSuccess t2 id v] =
    (st', l ++ [Rec name ARun t1 (Some id)], rets) /\
  forall force, get_status force st' (l ++ [Rec name ARun t1 (Some id)]) name = Some ARun.
Proof.
  intros pick name st l rets t1 t2 id v P. unfold receive_all. cbn [filter arrives]. rewrite P. cbn [fold_left].
  eexists. split; [reflexivity|]. intros [|]; [|reflexivity].
  cbn [get_status]. unfold get_latest_any, filter_by, last_of. rewrite filter_app. cbn [filter r_task].
  rewrite Z.eqb_refl. cbn [andb]. rewrite rev_app_distr. reflexivity.
Qed.
