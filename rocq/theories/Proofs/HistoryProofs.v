From Coq Require Import Bool Arith Lia ZifyBool.
From Verif Require Import Model.Base Model.Interval Model.Period Model.Condition Model.History
  Spec.ConditionSpec Spec.HistorySpec Proofs.ConditionProofs.
Open Scope Z_scope.

Lemma action_eqb_eq : forall a b, action_eqb a b = true <-> a = b.
Proof. intros a b. destruct a, b; cbn; split; intros H; try discriminate; reflexivity. Qed.
Lemma action_eqb_refl : forall a, action_eqb a a = true.
Proof. intros a. apply action_eqb_eq. reflexivity. Qed.
Lemma action_eqb_neq : forall a b, action_eqb a b = false <-> a <> b.
Proof.
  intros a b. destruct (action_eqb a b) eqn:E; split; intros H; try discriminate; try reflexivity.
  - apply action_eqb_eq in E. contradiction.
  - intros Eq. apply action_eqb_eq in Eq. congruence.
Qed.

Lemma action_in_iff : forall acts r, action_in acts r = true <-> In (r_action r) acts.
Proof.
  intros acts r. unfold action_in. rewrite existsb_exists. split.
  - intros (a & Hi & E). apply action_eqb_eq in E. subst a. exact Hi.
  - intros H. exists (r_action r). split; [exact H|apply action_eqb_refl].
Qed.

Lemma about_iff : forall name acts r,
  (r_task r =? name) && action_in acts r = true <-> about name acts r.
Proof. intros name acts r. unfold about. rewrite andb_true_iff, action_in_iff, Z.eqb_eq. tauto. Qed.

(** * Counting records *)

Lemma times_app : forall l1 l2 name acts s e,
  times (l1 ++ l2) name acts s e = times l1 name acts s e + times l2 name acts s e.
Proof. intros l1 l2 name acts s e. induction l1 as [|r l1 IH]; cbn [times app]; lia. Qed.

Lemma times_nonneg : forall l name acts s e, 0 <= times l name acts s e.
Proof.
  intros l name acts s e. induction l as [|r l IH]; cbn [times]; [lia|].
  destruct (_ && _ && _ && _); lia.
Qed.

Lemma measure_log_count : forall l name w s e,
  count_of (measure_log l name w s e) = Some (times l name (watched_list w) s e).
Proof.
  intros l name w s e. unfold measure_log, count_of. f_equal. rewrite map_length.
  unfold filter_by. induction l as [|r l IH]; [reflexivity|].
  cbn [filter times]. unfold action_in in *. rewrite <- IH.
  destruct (r_task r =? name), (existsb (action_eqb (r_action r)) (watched_list w)),
    (s <=? r_created r), (r_created r <=? e); cbn [andb length]; lia.
Qed.

Lemma times_zero_iff : forall l name acts s e, times l name acts s e = 0 <-> ~ did l name acts s e.
Proof.
  intros l name acts s e. unfold did, about. induction l as [|r l IH]; cbn [times].
  - split; [intros _ (r & [] & _)|reflexivity].
  - assert (N := times_nonneg l name acts s e).
    change (existsb (action_eqb (r_action r)) acts) with (action_in acts r).
    destruct ((r_task r =? name) && action_in acts r && (s <=? r_created r) && (r_created r <=? e)) eqn:E.
    + split; [lia|]. intros H. exfalso. apply H. exists r.
      rewrite !andb_true_iff, action_in_iff in E. split; [left; reflexivity|]. split; [split; [lia|tauto]|lia].
    + split.
      * intros H (r' & Hi & Ha & Hr). destruct Hi as [<- | Hi].
        -- rewrite !andb_false_iff in E. destruct Ha as [Ha1 Ha2].
           apply action_in_iff in Ha2. rewrite Ha2 in E. lia.
        -- apply (proj1 IH); [lia|]. exists r'. split; [exact Hi|]. split; [exact Ha|exact Hr].
      * intros H. replace (times l name acts s e) with 0; [reflexivity|]. symmetry. apply IH.
        intros (r' & Hi & Ha & Hr). apply H. exists r'. split; [right; exact Hi|]. split; [exact Ha|exact Hr].
Qed.

Lemma observe_log : forall c l name w s e,
  comparable_observe c (measure_log l name w s e) = comp_state c (times l name (watched_list w) s e).
Proof.
  intros c l name w s e. assert (H := measure_log_count l name w s e).
  unfold measure_log in *. cbn in *. injection H as ->. reflexivity.
Qed.

(** * The cache shortcut *)

Lemma scan_spec : forall last s e acts c0,
  (fst (scan_actions last s e acts c0) = true ->
     exists a t, In a acts /\ last a = Some t /\ s <= t <= e) /\
  (snd (scan_actions last s e acts c0) = true ->
     c0 = true /\ forall a t, In a acts -> last a = Some t -> t < s).
Proof.
  intros last s e acts. induction acts as [|a acts IH]; intros c0; cbn [scan_actions].
  - cbn. split; [discriminate|]. intros ->. split; [reflexivity|intros a t []].
  - destruct (last a) as [t|] eqn:E.
    + destruct ((s <=? t) && (t <=? e)) eqn:E1.
      * cbn. split; [|discriminate]. intros _. exists a, t. split; [left; reflexivity|]. split; [exact E|lia].
      * destruct (s <=? t) eqn:E2; destruct (IH false) as [IF1 IF2]; destruct (IH c0) as [IC1 IC2].
        -- split.
           ++ intros H. destruct (IF1 H) as (a' & t' & Hi & X). exists a', t'. split; [right; exact Hi|exact X].
           ++ intros H. destruct (IF2 H) as [Hf _]. discriminate.
        -- split.
           ++ intros H. destruct (IC1 H) as (a' & t' & Hi & X). exists a', t'. split; [right; exact Hi|exact X].
           ++ intros H. destruct (IC2 H) as [Hc Hall]. split; [exact Hc|].
              intros a' t' [<- | Hi] Hl; [|exact (Hall a' t' Hi Hl)]. rewrite E in Hl. injection Hl as <-. lia.
    + destruct (IH c0) as [IC1 IC2]. split.
      * intros H. destruct (IC1 H) as (a' & t' & Hi & X). exists a', t'. split; [right; exact Hi|exact X].
      * intros H. destruct (IC2 H) as [Hc Hall]. split; [exact Hc|].
        intros a' t' [<- | Hi] Hl; [congruence|exact (Hall a' t' Hi Hl)].
Qed.

(** What the cache concludes about [w] in [s, e]. *)
Definition cache_says (st : tstate) (w : watched) (s e : Z) : bool * bool :=
  match w with
  | WOne a => (occurred_single (ts_last st a) s e, cannot_single (ts_last st a) s)
  | WMany acts => scan_actions (ts_last st) s e acts true
  end.

Lemma cache_says_spec : forall st w s e,
  (fst (cache_says st w s e) = true ->
     exists a t, In a (watched_list w) /\ ts_last st a = Some t /\ s <= t <= e) /\
  (snd (cache_says st w s e) = true ->
     forall a t, In a (watched_list w) -> ts_last st a = Some t -> t < s).
Proof.
  intros st [a|acts] s e; cbn [cache_says watched_list].
  - cbn [fst snd]. unfold occurred_single, cannot_single. split.
    + intros H. destruct (ts_last st a) as [t|] eqn:E; [|discriminate].
      exists a, t. split; [left; reflexivity|]. split; [exact E|lia].
    + intros H a' t [<- | []] E. rewrite E in H. lia.
  - destruct (scan_spec (ts_last st) s e acts true) as [H1 H2]. split; [exact H1|].
    intros H. exact (proj2 (H2 H)).
Qed.

Lemma measurement_cases : forall c st l name w s e,
  get_measurement false c st l name w s e =
    (let oc := cache_says st w s e in
     if is_equal_zero c && snd oc then MBool true
     else if is_equal_zero c && fst oc then MBool false
     else if is_any_over_zero c && snd oc then MBool false
     else if is_any_over_zero c && fst oc then MBool true
     else measure_log l name w s e).
Proof.
  intros c st l name w s e. unfold get_measurement, cache_says.
  destruct w as [a|acts]; [reflexivity|]. destruct (scan_actions _ s e acts true). reflexivity.
Qed.

Lemma cache_agrees : forall c st l name w s e, keys_ok c -> cache_latest st l name ->
  comparable_observe c (get_measurement false c st l name w s e) =
  comparable_observe c (get_measurement true c st l name w s e).
Proof.
  intros c st l name w s e K C. rewrite measurement_cases. cbn [get_measurement].
  destruct (cache_says_spec st w s e) as [Hocc Hcan].
  destruct (cache_says st w s e) as [occ can]. cbn [fst snd] in *.
  rewrite observe_log.
  assert (N := times_nonneg l name (watched_list w) s e).
  assert (Hcan' : can = true -> times l name (watched_list w) s e = 0).
  { intros H. apply times_zero_iff. intros (r & Hi & [Ha1 Ha2] & Hr).
    specialize (Hcan H (r_action r)). specialize (C (r_action r)).
    destruct (ts_last st (r_action r)) as [t|] eqn:E.
    - specialize (Hcan t Ha2 eq_refl). destruct C as [_ C]. specialize (C r Hi).
      assert (about name [r_action r] r) by (split; [exact Ha1|left; reflexivity]).
      specialize (C H0). lia.
    - apply (C r Hi). split; [exact Ha1|left; reflexivity]. }
  assert (Hocc' : occ = true -> 0 < times l name (watched_list w) s e).
  { intros H. destruct (Hocc H) as (a & t & Ha & E & Ht).
    specialize (C a). rewrite E in C. destruct C as [(r & Hi & [Hb1 Hb2] & Hr) _].
    assert (times l name (watched_list w) s e <> 0); [|lia].
    intros Z0. apply times_zero_iff in Z0. apply Z0. exists r. split; [exact Hi|].
    destruct Hb2 as [Hb2|[]]. split; [split; [exact Hb1|rewrite <- Hb2; exact Ha]|lia]. }
  destruct (is_equal_zero c) eqn:EZ; destruct (is_any_over_zero c) eqn:AZ; cbn [andb].
  - destruct can; cbn [comparable_observe].
    + rewrite (equal_zero_sound c _ K EZ), Hcan' by reflexivity. reflexivity.
    + destruct occ; cbn [comparable_observe]; [|apply observe_log].
      rewrite (equal_zero_sound c _ K EZ). specialize (Hocc' eq_refl). lia.
  - destruct can; cbn [comparable_observe].
    + rewrite (equal_zero_sound c _ K EZ), Hcan' by reflexivity. reflexivity.
    + destruct occ; cbn [comparable_observe]; [|apply observe_log].
      rewrite (equal_zero_sound c _ K EZ). specialize (Hocc' eq_refl). lia.
  - destruct can; cbn [comparable_observe].
    + rewrite (any_over_zero_sound c _ K N AZ), Hcan' by reflexivity. reflexivity.
    + destruct occ; cbn [comparable_observe]; [|apply observe_log].
      rewrite (any_over_zero_sound c _ K N AZ). specialize (Hocc' eq_refl). lia.
  - apply observe_log.
Qed.

(** The condition in terms of the log. *)
Lemma status_spec : forall force c st l name w fuel p now b, keys_ok c -> cache_latest st l name ->
  status_observe force c st l name w fuel p now = Returns b ->
  exists s e, get_period_span fuel (Some p) now = Returns (s, e) /\
    b = comp_state c (times l name (watched_list w) s e).
Proof.
  intros force c st l name w fuel p now b K C H. unfold status_observe in H.
  destruct (get_period_span fuel (Some p) now) as [[s e]|x|]; try discriminate.
  cbn [obind fst snd] in H. injection H as <-. exists s, e. split; [reflexivity|].
  destruct force; [|rewrite cache_agrees by assumption]; apply observe_log.
Qed.

Lemma keys_single : forall op v, keys_ok [(op, v)].
Proof. intros op v. constructor; [intros []|constructor]. Qed.

Lemma status_spec_eq0 : forall force st l name w fuel p now b, cache_latest st l name ->
  status_observe force [(OpEq, BInt 0)] st l name w fuel p now = Returns b ->
  exists s e, get_period_span fuel (Some p) now = Returns (s, e) /\
    (b = true <-> ~ did l name (watched_list w) s e).
Proof.
  intros force st l name w fuel p now b C H.
  destruct (status_spec _ _ _ _ _ _ _ _ _ _ (keys_single _ _) C H) as (s & e & Hs & ->).
  exists s, e. split; [exact Hs|]. rewrite <- times_zero_iff. cbn. lia.
Qed.

Lemma oand_true : forall a b, oand a b = Returns true <-> a = Returns true /\ b = Returns true.
Proof.
  intros [[|]|x|] b; cbn; split; try tauto; try discriminate; intros [H _]; discriminate.
Qed.

Lemma oand_returns : forall a b v, oand a b = Returns v ->
  exists x, a = Returns x /\ (if x then b = Returns v else v = false).
Proof.
  intros [[|]|x|] b v H; cbn in H; try discriminate.
  - exists true. split; [reflexivity|exact H].
  - exists false. split; [reflexivity|]. injection H as <-. reflexivity.
Qed.

(** TaskExecutable in terms of the log *)
Lemma executable_spec : forall force st l name retries fuel p now b, cache_latest st l name ->
  executable force st l name retries fuel p now = Returns b ->
  exists i, is_in_period fuel p now = Returns i /\
  (b = true <-> i = true /\ exists s e, get_period_span fuel (Some p) now = Returns (s, e) /\
     ~ did l name [ASuccess; AInaction; ATerminate] s e /\
     times l name [AFail] s e <= match retries with None => 0 | Some n => n end).
Proof.
  intros force st l name retries fuel p now b C H. unfold executable in H. cbv zeta in H.
  set (n := match retries with None => 0 | Some n => n end) in *.
  assert (Hdid : forall s e, did l name [ASuccess; AInaction; ATerminate] s e <->
     did l name [AInaction] s e \/ did l name [ASuccess] s e \/ did l name [ATerminate] s e).
  { intros s e. unfold did, about. split.
    - intros (r & Hi & [Ht [Ha|[Ha|[Ha|[]]]]] & Hr).
      + right. left. exists r. rewrite <- Ha. cbn. tauto.
      + left. exists r. rewrite <- Ha. cbn. tauto.
      + right. right. exists r. rewrite <- Ha. cbn. tauto.
    - intros [(r & Hi & [Ht [Ha|[]]] & Hr)|[(r & Hi & [Ht [Ha|[]]] & Hr)|(r & Hi & [Ht [Ha|[]]] & Hr)]];
        exists r; rewrite <- Ha; cbn; tauto. }
  apply oand_returns in H. destruct H as (i & Hi & H). exists i. split; [exact Hi|].
  destruct i; [|subst b; split; [discriminate|intros [Hf _]; discriminate]].
  apply oand_returns in H. destruct H as (b1 & H1 & H).
  destruct (status_spec_eq0 _ _ _ _ _ _ _ _ _ C H1) as (s & e & Hs & S1). cbn [watched_list w_inacted] in S1.
  assert (Huniq : forall s' e', get_period_span fuel (Some p) now = Returns (s', e') -> s' = s /\ e' = e)
    by (intros s' e' H'; rewrite Hs in H'; injection H' as <- <-; split; reflexivity).
  destruct b1.
  2:{ subst b. split; [discriminate|]. intros [_ (s' & e' & Hs' & Hd & _)].
      destruct (Huniq _ _ Hs') as [-> ->]. apply S1.
      intros Hx. apply Hd, Hdid. left. exact Hx. }
  apply oand_returns in H. destruct H as (b2 & H2 & H).
  destruct (status_spec_eq0 _ _ _ _ _ _ _ _ _ C H2) as (s2 & e2 & Hs2 & S2). destruct (Huniq _ _ Hs2) as [-> ->].
  destruct b2.
  2:{ subst b. split; [discriminate|]. intros [_ (s' & e' & Hs' & Hd & _)].
      destruct (Huniq _ _ Hs') as [-> ->]. apply S2.
      intros Hx. apply Hd, Hdid. right. left. exact Hx. }
  apply oand_returns in H. destruct H as (b3 & H3 & H).
  destruct (status_spec _ _ _ _ _ _ _ _ _ _ (keys_single _ _) C H3) as (s3 & e3 & Hs3 & S3).
  destruct (Huniq _ _ Hs3) as [-> ->].
  cbn [watched_list w_failed comp_state forallb int_compare fst snd] in S3. rewrite andb_true_r in S3.
  destruct b3.
  2:{ subst b. split; [discriminate|]. intros [_ (s' & e' & Hs' & _ & Hd)].
      destruct (Huniq _ _ Hs') as [-> ->]. lia. }
  destruct (status_spec_eq0 _ _ _ _ _ _ _ _ _ C H) as (s4 & e4 & Hs4 & S4). destruct (Huniq _ _ Hs4) as [-> ->].
  cbn [watched_list w_terminated w_succeeded] in S2, S4. split.
  - intros ->. split; [reflexivity|]. exists s, e. split; [exact Hs|]. split; [|lia].
    rewrite Hdid. intros [Hx|[Hx|Hx]].
    + exact (proj1 S1 eq_refl Hx).
    + exact (proj1 S2 eq_refl Hx).
    + exact (proj1 S4 eq_refl Hx).
  - intros [_ (s' & e' & Hs' & Hd & _)]. destruct (Huniq _ _ Hs') as [-> ->].
    apply S4. intros Hx. apply Hd, Hdid. right. right. exact Hx.
Qed.

Lemma runnable_spec : forall force st l name fuel p now b, cache_latest st l name ->
  runnable force st l name fuel p now = Returns b ->
  exists i, is_in_period fuel p now = Returns i /\
  (b = true <-> i = true /\ exists s e, get_period_span fuel (Some p) now = Returns (s, e) /\
     ~ did l name [ARun] s e).
Proof.
  intros force st l name fuel p now b C H. unfold runnable in H.
  apply oand_returns in H. destruct H as (i & Hi & H). exists i. split; [exact Hi|].
  destruct i; [|subst b; split; [discriminate|intros [Hf _]; discriminate]].
  destruct (status_spec_eq0 _ _ _ _ _ _ _ _ _ C H) as (s & e & Hs & S1).
  rewrite S1. split.
  - intros Hd. split; [reflexivity|]. exists s, e. split; [exact Hs|exact Hd].
  - intros [_ (s' & e' & Hs' & Hd)]. rewrite Hs in Hs'. injection Hs' as <- <-. exact Hd.
Qed.
