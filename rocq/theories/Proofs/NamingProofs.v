(** Parameter sets whose parameters have ordinary names are put together as the
    union of dictionaries; what the other names do. *)
From Coq Require Import Bool Arith Lia ZifyBool.
From Verif Require Import Model.Base Model.World Model.Params Model.Naming Spec.ParamsSpec Spec.NamingSpec
  Proofs.ParamsProofs.
Open Scope Z_scope.

Lemma plain_nil : ordinary_names [].
Proof. intros k p []. Qed.

Lemma plain_dset : forall d k p, ordinary_names d -> ordinary k -> ordinary_names (dset k p d).
Proof.
  induction d as [|[k' p'] d IH]; intros k p D K; cbn [dset].
  - intros j q [E|[]]. injection E as <- <-. exact K.
  - assert (T : ordinary_names d) by (intros j q I; exact (D j q (or_intror I))).
    destruct (k' =? k).
    + intros j q [E|I]; [injection E as <- <-; exact (D _ _ (or_introl eq_refl))|exact (T j q I)].
    + intros j q [E|I]; [injection E as <- <-; exact (D _ _ (or_introl eq_refl))|exact (IH k p T K j q I)].
Qed.

Lemma plain_dupdate : forall e d, ordinary_names d -> ordinary_names e -> ordinary_names (dupdate d e).
Proof.
  induction e as [|[k p] e IH]; intros d D E; [exact D|].
  unfold dupdate. cbn [fold_left fst snd]. apply IH.
  - apply plain_dset; [exact D|exact (E _ _ (or_introl eq_refl))].
  - intros j q I. exact (E j q (or_intror I)).
Qed.

Lemma plain_parameters : forall d, ordinary_names d -> ordinary_names (parameters d).
Proof. intros d D. apply plain_dupdate; [exact plain_nil|exact D]. Qed.
Lemma plain_or : forall l r, ordinary_names l -> ordinary_names r -> ordinary_names (params_or l r).
Proof. intros l r L R. apply plain_dupdate; [apply plain_dupdate; [exact plain_nil|exact L]|exact R]. Qed.
Lemma plain_filter : forall f d, ordinary_names d -> ordinary_names (filter f d).
Proof. intros f d D k p I. apply filter_In in I. exact (D k p (proj1 I)). Qed.

Lemma plain_extras : forall t x flag, ordinary_names (extras t x flag).
Proof.
  intros t x flag k p I. unfold ordinary, k_self, k_param, k_type.
  rewrite extras_built_in in I. unfold built_in in I.
  assert (K : k = k_session \/ k = k_task \/ k = k_terminate).
  { destruct I as [I|[I|I]]; [injection I as <- _; auto|injection I as <- _; auto|].
    destruct x; cbn in I; try contradiction. destruct I as [I|[]]. injection I as <- _. auto. }
  unfold k_session, k_task, k_terminate in K. lia.
Qed.

Lemma plain_keys : forall (d e : dict param), map fst e = map fst d -> ordinary_names d -> ordinary_names e.
Proof.
  intros d e M D k p I. assert (J : In k (map fst d)) by (rewrite <- M; change k with (fst (k, p)); apply in_map; exact I).
  apply in_map_iff in J. destruct J as ([k' p'] & E & J). cbn in E. subst k'. exact (D k p' J).
Qed.

Lemma pre_keys : forall n s cx d e, pre_materialize n s cx d = Ok e -> map fst e = map fst d.
Proof.
  intros n s cx d. induction d as [|[k p] d IH]; intros e E; cbn [pre_materialize] in E; [injection E as <-; reflexivity|].
  destruct (stage_param n s cx p) as [v|]; [|discriminate E]. cbn [bind] in E.
  destruct (pre_materialize n s cx d) as [vs|]; [|discriminate E]. cbn [bind] in E. injection E as <-.
  cbn [map fst]. rewrite (IH vs eq_refl). reflexivity.
Qed.

Lemma read_plain : forall n s d keys e, ordinary_names d -> read_keys n s d keys = Ok e -> ordinary_names e.
Proof.
  intros n s d keys. induction keys as [|k keys IH]; intros e D E; cbn [read_keys] in E; [injection E as <-; exact plain_nil|].
  destruct (get_item n s d k) as [v|] eqn:G; [|discriminate E]. cbn [bind] in E.
  destruct (read_keys n s d keys) as [vs|]; [|discriminate E]. cbn [bind] in E. injection E as <-.
  intros j q [I|I]; [|exact (IH vs D eq_refl j q I)]. injection I as <- _.
  unfold get_item in G. destruct (dget k d) as [p|] eqn:K; [|discriminate G].
  clear - D K. revert K. induction d as [|[k' p'] d IH]; cbn [dget]; [discriminate|].
  destruct (k' =? k) eqn:F.
  - intros _. assert (k' = k) by lia. subst k'. exact (D _ _ (or_introl eq_refl)).
  - intros K. apply IH; [|exact K]. intros j q I. exact (D j q (or_intror I)).
Qed.

Lemma plain_get : forall d k p, ordinary_names d -> dget k d = Some p -> ordinary k.
Proof.
  induction d as [|[k' p'] d IH]; intros k p D; cbn [dget]; [discriminate|].
  destruct (k' =? k) eqn:F.
  - intros _. assert (k' = k) by lia. subst k'. exact (D _ _ (or_introl eq_refl)).
  - apply IH. intros j q I. exact (D j q (or_intror I)).
Qed.

Lemma plain_init : forall ob d, ordinary_names d -> init_keywords ob d = Ok d.
Proof.
  intros ob d D. unfold init_keywords.
  destruct (dget k_self d) as [p|] eqn:S; [exfalso; exact (proj1 (plain_get _ _ _ D S) eq_refl)|].
  destruct (dget k_param d) as [p|] eqn:P; [exfalso; exact (proj1 (proj2 (plain_get _ _ _ D P)) eq_refl)|].
  destruct (dget k_type d) as [p|] eqn:T; [exfalso; exact (proj2 (proj2 (plain_get _ _ _ D T)) eq_refl)|].
  clear S P T.
  cut (filter (fun kv => negb (fst kv =? k_param) && negb (fst kv =? k_type)) d = d); [intros ->; reflexivity|].
  induction d as [|[k p] d IH]; [reflexivity|]. cbn [filter fst].
  assert (K : ordinary k) by exact (D _ _ (or_introl eq_refl)). destruct K as (_ & K1 & K2).
  destruct (k =? k_param) eqn:E1; [exfalso; lia|]. destruct (k =? k_type) eqn:E2; [exfalso; lia|].
  cbn [negb andb]. f_equal. apply IH. intros j q I. exact (D j q (or_intror I)).
Qed.

Lemma plain_union : forall ob l r, ordinary_names l -> ordinary_names r -> union ob l r = Ok (params_or l r).
Proof. intros ob l r L R. exact (plain_init ob _ (plain_or l r L R)). Qed.

Lemma extra_same : forall ob n s t x flag passed, ordinary_names (ss_params s) -> ordinary_names passed ->
  named_extra_params ob n s t x flag passed = get_extra_params n s t x flag passed /\
  forall d, get_extra_params n s t x flag passed = Ok d -> ordinary_names d.
Proof.
  intros ob n s t x flag passed S P. unfold named_extra_params, get_extra_params.
  rewrite plain_union by (exact S || (apply plain_parameters; exact P)). cbn [bind].
  assert (O : ordinary_names (params_or (ss_params s) (parameters passed)))
    by (apply plain_or; [exact S|apply plain_parameters; exact P]).
  rewrite plain_union by (exact O || apply plain_extras). cbn [bind]. split; [reflexivity|].
  pose proof (plain_or _ _ O (plain_extras t x flag)) as Q. revert Q.
  generalize (params_or (params_or (ss_params s) (parameters passed)) (extras t x flag)). intros a A d E.
  unfold prefilter in E. destruct (pt_kind t) as [[|]|].
  - cbn [bind] in E. injection E as <-. apply plain_parameters. exact A.
  - cbn [bind] in E. injection E as <-. apply plain_parameters, plain_filter. exact A.
  - destruct (read_keys n s a (map fst a)) as [e|] eqn:R; [|discriminate E]. cbn [bind] in E. injection E as <-.
    apply plain_parameters, plain_filter. exact (read_plain _ _ _ _ _ A R).
Qed.

Lemma direct_same : forall ob t,
  ordinary_names (pt_own t) -> ordinary_names (signature_of t) -> ordinary_names (request_of t) ->
  named_direct_params ob t = Ok (direct_params t) /\ ordinary_names (direct_params t).
Proof.
  intros ob t O G R.
  assert (H : named_task_params ob t = Ok (get_task_params t) /\ ordinary_names (get_task_params t)).
  { unfold named_task_params, get_task_params. unfold signature_of in G.
    destruct (pt_kind t) as [[|]|]; [|split; [reflexivity|apply plain_parameters; exact O]..].
    split; [apply plain_union|apply plain_or]; try exact G; apply plain_parameters; exact O. }
  destruct H as [H1 H2]. unfold named_direct_params, direct_params. rewrite H1. cbn [bind].
  unfold request_of in R. destruct (pt_requests t) as [|r rs]; (split; [reflexivity|]); [exact H2|].
  apply plain_dupdate; [exact H2|exact R].
Qed.

Lemma run_same : forall ob n s t params direct, ordinary_names params -> ordinary_names direct ->
  named_run_params ob n s t params direct = run_params n s t params direct.
Proof.
  intros ob n s t params direct P D. unfold named_run_params, run_params.
  rewrite plain_union; [reflexivity| |apply plain_parameters; exact D].
  apply plain_parameters. unfold postfilter. destruct (pt_kind t) as [[|]|]; [apply plain_filter|..]; exact P.
Qed.

Lemma named_same : forall ob n s s' t x flag passed, all_ordinary s t passed ->
  named_kwargs ob n s s' t x flag passed = run_kwargs n s s' t x flag passed.
Proof.
  intros ob n s s' t x flag passed (S & P & O & G & R). unfold named_kwargs, run_kwargs.
  destruct (extra_same ob n s t x flag passed S P) as [-> X].
  destruct (direct_same ob t O G R) as [-> D].
  destruct (get_extra_params n s t x flag passed) as [params|e]; [|reflexivity]. cbn [bind].
  specialize (X params eq_refl). rewrite (plain_union ob params (direct_params t) X D). cbn [bind].
  destruct x.
  - apply run_same; assumption.
  - apply run_same; assumption.
  - destruct (match get_item n s params k_terminate with Err KeyError => Ok (ss_event s) | r => r end) as [ev|]; [|reflexivity].
    cbn [bind].
    destruct (pre_materialize n s (Ctx (Some (pt_name t)) SGiven (Some ev)) params) as [a|] eqn:A; [|reflexivity]. cbn [bind].
    destruct (pre_materialize n s (Ctx (Some (pt_name t)) SGiven (Some ev)) (direct_params t)) as [b|] eqn:B; [|reflexivity].
    cbn [bind]. apply run_same; [exact (plain_keys _ _ (pre_keys _ _ _ _ _ A) X)|exact (plain_keys _ _ (pre_keys _ _ _ _ _ B) D)].
  - destruct (pre_materialize n s (Ctx (Some (pt_name t)) SGiven None) params) as [a|] eqn:A; [|reflexivity]. cbn [bind].
    destruct (pre_materialize n s (Ctx (Some (pt_name t)) SGiven None) (direct_params t)) as [b|] eqn:B; [|reflexivity].
    cbn [bind]. apply run_same; [exact (plain_keys _ _ (pre_keys _ _ _ _ _ A) X)|exact (plain_keys _ _ (pre_keys _ _ _ _ _ B) D)].
Qed.

Lemma named_precedence : forall ob n s s' t x flag passed kw,
  is_func t -> dictionaries s t passed -> all_ordinary s t passed ->
  named_kwargs ob n s s' t x flag passed = Ok kw ->
  forall k, match chosen s t x flag passed k with
            | None => dget k kw = None
            | Some p => exists v, dget k kw = Some v /\ worth n s s' t x flag p (Ok v)
            end.
Proof. intros ob n s s' t x flag passed kw F D O E. rewrite named_same in E by exact O. exact (precedence _ _ _ _ _ _ _ _ F D E). Qed.

Lemma named_gets_them : forall ob n s s' t x flag passed,
  is_func t -> dictionaries s t passed -> all_ordinary s t passed -> x = XMain \/ x = XAsync ->
  (forall k p, chosen s t x flag passed k = Some p -> exists v, worth n s s' t x flag p (Ok v)) ->
  exists kw, named_kwargs ob n s s' t x flag passed = Ok kw.
Proof. intros ob n s s' t x flag passed F D O X W. rewrite named_same by exact O. exact (main_gets_them _ _ _ _ _ _ _ F D X W). Qed.

(** * The other names *)

Lemma self_breaks : forall ob n s s' t x flag passed p,
  one_per_key (ss_params s) -> dget k_self (ss_params s) = Some p ->
  named_kwargs ob n s s' t x flag passed = Err TypeError.
Proof.
  intros ob n s s' t x flag passed p S G. unfold named_kwargs, named_extra_params, union, init_keywords.
  change (dupdate (dupdate [] (ss_params s)) (parameters passed)) with (params_or (ss_params s) (parameters passed)).
  rewrite dget_or by (exact S || apply one_parameters). rewrite G.
  destruct (dget k_self (parameters passed)); reflexivity.
Qed.

Lemma type_breaks : forall ob n s s' t x flag f k p,
  one_per_key (ss_params s) -> dget k_self (ss_params s) = None -> dget k_param (ss_params s) = None ->
  dget k_type (ss_params s) = Some f -> f <> PVal VNone -> (forall q, ob_call ob f q = Err TypeError) ->
  dget k (ss_params s) = Some p -> k <> k_type ->
  named_kwargs ob n s s' t x flag [] = Err TypeError.
Proof.
  intros ob n s s' t x flag f k p S G1 G2 G3 NF C K KT. unfold named_kwargs, named_extra_params, union, init_keywords.
  change (dupdate (dupdate [] (ss_params s)) (parameters [])) with (params_or (ss_params s) []).
  assert (Q : forall j, dget j (params_or (ss_params s) []) = dget j (ss_params s)).
  { intros j. rewrite dget_or by (exact S || apply one_nil). reflexivity. }
  rewrite !Q, G1, G2, G3. cbn [bind].
  assert (N : is_none f = false) by (destruct f as [[]|]; try reflexivity; congruence). rewrite N.
  set (rest := filter _ _).
  assert (R : dget k rest = Some p).
  { unfold rest. rewrite (dget_filter (fun j => negb (j =? k_param) && negb (j =? k_type))). rewrite Q, K.
    destruct (k =? k_param) eqn:E1; [assert (k = k_param) by lia; congruence|].
    destruct (k =? k_type) eqn:E2; [exfalso; lia|]. reflexivity. }
  destruct rest as [|[j q] rest]; [discriminate R|]. cbn [call_all]. rewrite C. reflexivity.
Qed.

(** A session with an ordinary parameter and one called type_, whose value can
    be called; a task that takes both *)
Definition nx_objects : objects :=
  Objects (fun _ => Err TypeError)
    (fun f p => match f, p with PVal (VData 1), PVal (VData n) => Ok (PVal (VData (100 + n))) | _, _ => Err TypeError end).
Definition nx_sess (params : dict param) : sess :=
  Sess params [1] [] [] [] false (fun _ => XMain) (fun _ _ => Ok VNone) (VEvent 1).
Definition nx_task : ptask := PTask 1 [] [] (fun k => (k =? 5) || (k =? k_type)) (PFunc false) [].

Lemma nx_one : forall k p q, k <> 5 -> dictionaries (nx_sess [(5, p); (k, q)]) nx_task [].
Proof.
  intros k p q K. unfold dictionaries, one_per_key. cbn. repeat split; repeat constructor; cbn; intuition congruence.
Qed.

Lemma type_is_lost : exists ob n s t flag kw p v,
  is_func t /\ dictionaries s t [] /\
  chosen s t XMain flag [] k_type = Some p /\ chosen s t XMain flag [] 5 = Some (PVal v) /\
  named_kwargs ob n s s t XMain flag [] = Ok kw /\ dget k_type kw = None /\ dget 5 kw <> Some v.
Proof.
  exists nx_objects, 9%nat, (nx_sess [(5, PVal (VData 7)); (k_type, PVal (VData 1))]), nx_task, VNone.
  exists [(5, VData 107)], (PVal (VData 1)), (VData 7).
  split; [discriminate|]. split; [apply nx_one; discriminate|].
  split; [reflexivity|]. split; [reflexivity|]. split; [vm_compute; reflexivity|]. split; [reflexivity|]. vm_compute. congruence.
Qed.

(** The task's own parameter called _param, which is None, does not reach it. *)
Lemma param_is_lost : exists ob n s t flag kw,
  is_func t /\ dictionaries s t [] /\ dget k_param (pt_own t) = Some (PVal VNone) /\
  named_kwargs ob n s s t XMain flag [] = Ok kw /\ dget k_param kw = None.
Proof.
  exists nx_objects, 9%nat, (nx_sess []), (PTask 1 [(k_param, PVal VNone)] [] (fun k => k =? k_param) (PFunc false) []), VNone, [].
  split; [discriminate|]. split.
  - unfold dictionaries, one_per_key. cbn. repeat split; repeat constructor; cbn; intuition congruence.
  - split; [reflexivity|]. split; vm_compute; reflexivity.
Qed.
