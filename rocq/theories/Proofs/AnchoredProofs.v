From Verif Require Import Model.Base Model.Interval Model.Calendar Model.Anchored
  Spec.PeriodSpec Proofs.CalendarProofs.
From Coq Require Import Lia ZifyBool.
Ltac Zify.zify_post_hook ::= Z.div_mod_to_equations.
Open Scope Z_scope.

Lemma mk_interval_ok l r cl : l <= r -> mk_interval Z_ops l r cl = Ok (Interval l r cl).
Proof. intros H. unfold mk_interval. cbn [op_lt Z_ops]. destruct (r <? l) eqn:E; [lia|reflexivity]. Qed.

Section Boundaries.
  Variable B : Z -> Z.
  Hypothesis Bmono : forall k, B k < B (k + 1).

  Lemma B_add_nat n k : B k <= B (k + Z.of_nat n).
  Proof.
    induction n as [|n IH].
    - rewrite Z.add_0_r. lia.
    - pose proof (Bmono (k + Z.of_nat n)).
      replace (k + Z.of_nat (S n)) with (k + Z.of_nat n + 1) by lia. lia.
  Qed.

  Lemma B_le i j : i <= j -> B i <= B j.
  Proof. intros H. replace j with (i + Z.of_nat (Z.to_nat (j - i))) by lia. apply B_add_nat. Qed.

  Lemma B_succ_le i j : i < j -> B (i + 1) <= B j.
  Proof. intros H. apply B_le. lia. Qed.

  Lemma offset_first_after x t k : (forall k, 0 <= x <= B (k + 1) - B k) -> B k <= t < B (k + 1) ->
    first_after (fun j => B j + x) t (if t - B k <? x then B k + x else B (k + 1) + x).
  Proof.
    intros Hx Hk. unfold first_after.
    destruct (t - B k <? x) eqn:E.
    - split; [exists k; reflexivity|]. split; [lia|].
      intros j Hj. destruct (Z_lt_dec j k) as [D|D].
      + pose proof (B_succ_le j k D). pose proof (Hx j). lia.
      + pose proof (B_le k j). lia.
    - split; [exists (k + 1); reflexivity|]. split; [pose proof (Hx (k + 1)); lia|].
      intros j Hj. destruct (Z_lt_dec k j) as [D|D].
      + pose proof (B_le (k + 1) j). lia.
      + pose proof (B_le j k). lia.
  Qed.

  Lemma offset_last_until x t k : (forall k, 0 <= x <= B (k + 1) - B k) -> B k <= t < B (k + 1) ->
    last_until (fun j => B j + x) t (if t - B k <? x then B (k - 1) + x else B k + x).
  Proof.
    intros Hx Hk. unfold last_until.
    destruct (t - B k <? x) eqn:E.
    - split; [exists (k - 1); reflexivity|].
      pose proof (Hx (k - 1)) as Hx1. replace (k - 1 + 1) with k in Hx1 by lia. split; [lia|].
      intros j Hj. destruct (Z_lt_dec j k) as [D|D].
      + pose proof (B_le j (k - 1)). lia.
      + pose proof (B_le k j). lia.
    - split; [exists k; reflexivity|]. split; [lia|].
      intros j Hj. destruct (Z_lt_dec k j) as [D|D].
      + pose proof (B_le (k + 1) j). pose proof (Hx j). lia.
      + pose proof (B_le j k). lia.
  Qed.

End Boundaries.

(** Moment [t] is in cycle [k], and the class measures it so. *)
Definition cycle_at (p : anchored) (B : Z -> Z) (t k : Z) : Prop :=
  B k <= t < B (k + 1) /\ anchor_dt (a_cls p) t = t - B k /\
  get_scope_forward (a_cls p) t = B (k + 1) - B k /\
  get_scope_back (a_cls p) t = B k - B (k - 1).

Section Cycle.
  Variables (p : anchored) (B : Z -> Z).
  Let c := a_cls p.
  Let s := a_start p.
  Let e := a_end p.
  Hypothesis Bmono : forall k, B k < B (k + 1).
  Hypothesis Hcyc : forall t, exists k, cycle_at p B t k.
  Hypothesis Hs : forall k, 0 <= s <= B (k + 1) - B k.
  Hypothesis He : forall k, 0 <= e <= B (k + 1) - B k.
  Let B_le := B_le B Bmono.
  Let B_succ_le := B_succ_le B Bmono.
  Let offset_first_after := offset_first_after B Bmono.
  Let offset_last_until := offset_last_until B Bmono.

  Lemma in_period_iff t k : cycle_at p B t k ->
    (in_period B s e t <->
     if Z_lt_dec s e then s <= t - B k < e else s <= t - B k \/ t - B k < e).
  Proof using All.
    intros [Hk _]. unfold in_period, occ_start, occ_end.
    destruct (Z_lt_dec s e) as [L|L]; split.
    - intros [j Hj]. assert (j = k); [|subst; lia].
      destruct (Z.lt_trichotomy j k) as [D|[D|D]]; [|exact D|].
      + pose proof (B_succ_le j k D). pose proof (He j). lia.
      + pose proof (B_succ_le k j D). pose proof (Hs j). lia.
    - intros H. exists k. lia.
    - intros [j Hj].
      destruct (Z.lt_trichotomy j k) as [D|[D|D]].
      + destruct (Z.eq_dec (j + 1) k) as [E|E]; [right; rewrite E in Hj; lia|].
        assert (D2 : j + 1 < k) by lia. pose proof (B_succ_le (j + 1) k D2). pose proof (He (j + 1)). lia.
      + subst j. left. lia.
      + pose proof (B_succ_le k j D). pose proof (Hs j). lia.
    - intros [H|H].
      + exists k. pose proof (He (k + 1)). lia.
      + exists (k - 1). replace (k - 1 + 1) with k by lia. pose proof (Hs (k - 1)).
        replace (k - 1 + 1) with k in * by lia. lia.
  Qed.

  Lemma next_start_val t k : cycle_at p B t k ->
    next_start p t = if t - B k <? s then B k + s else B (k + 1) + s.
  Proof using All.
    intros [Hk [Ha [Hf Hb]]]. unfold next_start. rewrite Ha, Hf. fold s.
    destruct (t - B k <? s); lia.
  Qed.
  Lemma next_end_val t k : cycle_at p B t k ->
    next_end p t = if t - B k <? e then B k + e else B (k + 1) + e.
  Proof using All.
    intros [Hk [Ha [Hf Hb]]]. unfold next_end. rewrite Ha, Hf. fold e.
    destruct (t - B k <? e); lia.
  Qed.
  Lemma prev_start_val t k : cycle_at p B t k ->
    prev_start p t = if t - B k <? s then B (k - 1) + s else B k + s.
  Proof using All.
    intros [Hk [Ha [Hf Hb]]]. unfold prev_start. rewrite Ha, Hb. fold s.
    destruct (t - B k <? s); lia.
  Qed.
  Lemma prev_end_val t k : cycle_at p B t k ->
    prev_end p t = if t - B k <? e then B (k - 1) + e else B k + e.
  Proof using All.
    intros [Hk [Ha [Hf Hb]]]. unfold prev_end. rewrite Ha, Hb. fold e.
    destruct (t - B k <? e); lia.
  Qed.

  Lemma next_start_first_after t : first_after (fun j => B j + s) t (next_start p t).
  Proof using All. destruct (Hcyc t) as [k Hk]. rewrite (next_start_val t k Hk). apply offset_first_after; [exact Hs|apply Hk]. Qed.
  Lemma next_end_first_after t : first_after (fun j => B j + e) t (next_end p t).
  Proof using All. destruct (Hcyc t) as [k Hk]. rewrite (next_end_val t k Hk). apply offset_first_after; [exact He|apply Hk]. Qed.
  Lemma prev_start_last_until t : last_until (fun j => B j + s) t (prev_start p t).
  Proof using All. destruct (Hcyc t) as [k Hk]. rewrite (prev_start_val t k Hk). apply offset_last_until; [exact Hs|apply Hk]. Qed.
  Lemma prev_end_last_until t : last_until (fun j => B j + e) t (prev_end p t).
  Proof using All. destruct (Hcyc t) as [k Hk]. rewrite (prev_end_val t k Hk). apply offset_last_until; [exact He|apply Hk]. Qed.

  Lemma not_in_period_gap t k u : cycle_at p B t k -> t <= u ->
    (* nothing between t and the next start unless t itself is in the period *)
    ~ in_period B s e t -> u < next_start p t -> ~ in_period B s e u.
  Proof using All.
    intros Hk Hu Hn Hlt [j Hj].
    pose proof (next_start_first_after t) as [_ [_ Hmin]].
    destruct (Z_lt_dec t (B j + s)) as [D|D].
    - pose proof (Hmin j D). unfold occ_start in Hj. lia.
    - apply Hn. exists j. unfold occ_start in *. lia.
  Qed.

  Hypothesis Hfull : s = 0 -> e = scope_max c -> forall k, e = B (k + 1) - B k.

  Lemma acontains_iff t : acontains p t = true <-> in_period B s e t.
  Proof using All.
    destruct (Hcyc t) as [k Hk]. rewrite (in_period_iff t k Hk).
    destruct Hk as [Hk [Ha [Hf Hb]]].
    unfold acontains, is_full. rewrite Ha. fold s e c.
    destruct ((s =? e) || (s =? 0) && (e =? scope_max c)) eqn:F.
    - split; [intros _|reflexivity].
      destruct (Z_lt_dec s e) as [L|L].
      + assert (E0 : s = 0) by lia. assert (E1 : e = scope_max c) by lia.
        pose proof (Hfull E0 E1 k). lia.
      + lia.
    - destruct (Z_lt_dec s e) as [L|L].
      + destruct (e <? s) eqn:G; [lia|]. cbn [negb]. lia.
      + destruct (e <? s) eqn:G; [|lia]. cbn [negb]. lia.
  Qed.

  Lemma is_full_cases : is_full p = true -> s = e \/ (s = 0 /\ forall k, e = B (k + 1) - B k).
  Proof using All.
    unfold is_full. fold s e c. intros F.
    destruct (Z.eq_dec s e) as [|N]; [left; assumption|right].
    assert (E0 : s = 0) by lia. assert (E2 : e = scope_max c) by lia.
    split; [exact E0|]. exact (Hfull E0 E2).
  Qed.

  Lemma arollback_full_ok t : is_full p = true ->
    exists i, arollback p t = Ok i /\ rollback_full_spec B s e t i.
  Proof using All.
    intros F. destruct (Hcyc t) as [k Hk]. destruct (Hcyc (t - 1)) as [k' Hk'].
    pose proof (prev_start_val t k Hk) as E1.
    pose proof (prev_start_val (t - 1) k' Hk') as E2.
    destruct Hk as [Hk0 _]. destruct Hk' as [Hk0' _].
    assert (Hkk : k' = k \/ (k' = k - 1 /\ t = B k)).
    { destruct (Z.lt_trichotomy k' k) as [D|[D|D]]; [|left; exact D|].
      - right. pose proof (B_succ_le k' k D).
        destruct (Z_lt_dec (k' + 1) k) as [D2|D2].
        + pose proof (B_succ_le (k' + 1) k D2). pose proof (Bmono (k' + 1)). lia.
        + assert (k' + 1 = k) by lia. subst k. split; lia.
      - pose proof (B_succ_le k k' D). lia. }
    unfold arollback. rewrite F. unfold resolution.
    destruct (is_full_cases F) as [Ese|[Es0 Eel]].
    - (* start = end *)
      pose proof (Hs k) as A1. pose proof (Hs (k - 1)) as A2. replace (k - 1 + 1) with k in A2 by lia.
      destruct (t =? prev_start p t) eqn:E.
      + assert (Et : t = prev_start p t) by lia.
        assert (Et2 : t = B k + s /\ t - B k >= s \/ t = B (k - 1) + s /\ t - B k < s).
        { rewrite E1 in Et. destruct (t - B k <? s) eqn:X; lia. }
        destruct Et2 as [[Et2 Et3]|[Et2 Et3]].
        * destruct Hkk as [->|[-> Htk]].
          -- destruct (t - 1 - B k <? s) eqn:X in E2; [|lia].
             rewrite E2. rewrite mk_interval_ok by lia.
             eexists; split; [reflexivity|]. unfold rollback_full_spec; cbn [left right closed].
             split; [reflexivity|]. split; [reflexivity|]. exists (k - 1). unfold occ_start, occ_end.
             replace (k - 1 + 1) with k by lia.
             destruct (Z_lt_dec s e); [lia|]. pose proof (Bmono (k - 1)). replace (k - 1 + 1) with k in * by lia. lia.
          -- assert (s = 0) by lia.
             destruct (t - 1 - B (k - 1) <? s) eqn:X in E2; [lia|].
             rewrite E2. rewrite mk_interval_ok by lia.
             eexists; split; [reflexivity|]. unfold rollback_full_spec; cbn [left right closed].
             split; [reflexivity|]. split; [reflexivity|]. exists (k - 1). unfold occ_start, occ_end.
             replace (k - 1 + 1) with k by lia.
             destruct (Z_lt_dec s e); [lia|]. pose proof (Bmono (k - 1)). replace (k - 1 + 1) with k in * by lia. lia.
        * (* t = B (k-1) + s and t < B k + s : t = B k = B (k-1) + Len *)
          assert (t = B k) by lia.
          destruct Hkk as [->|[-> Htk]]; [lia|].
          destruct (t - 1 - B (k - 1) <? s) eqn:X in E2; [|lia].
          rewrite E2. replace (k - 1 - 1) with (k - 2) in * by lia.
          pose proof (Hs (k - 2)) as A3. replace (k - 2 + 1) with (k - 1) in A3 by lia.
          pose proof (Bmono (k - 1)) as Bm1. replace (k - 1 + 1) with k in Bm1 by lia.
          rewrite mk_interval_ok by lia.
          eexists; split; [reflexivity|]. unfold rollback_full_spec; cbn [left right closed].
          split; [reflexivity|]. split; [reflexivity|]. exists (k - 2). unfold occ_start, occ_end.
          replace (k - 2 + 1) with (k - 1) by lia.
          destruct (Z_lt_dec s e); [lia|]. lia.
      + assert (Hle : prev_start p t <= t) by (apply (prev_start_last_until t)).
        rewrite mk_interval_ok by lia.
        eexists; split; [reflexivity|]. unfold rollback_full_spec; cbn [left right closed].
        split; [reflexivity|]. split; [reflexivity|].
        rewrite E1 in *. unfold occ_start, occ_end.
        destruct (t - B k <? s) eqn:X.
        * exists (k - 1). replace (k - 1 + 1) with k by lia. destruct (Z_lt_dec s e); lia.
        * exists k. destruct (Z_lt_dec s e); [lia|]. lia.
    - (* start = 0, end = whole cycle *)
      pose proof (Bmono k) as Bm. pose proof (Bmono (k - 1)) as Bm1. replace (k - 1 + 1) with k in Bm1 by lia.
      pose proof (Eel k) as Ee. pose proof (Eel (k - 1)) as Ee1. replace (k - 1 + 1) with k in Ee1 by lia.
      destruct (t - B k <? s) eqn:X in E1; [lia|].
      destruct (t =? prev_start p t) eqn:E.
      + destruct Hkk as [->|[-> Htk]]; [lia|].
        destruct (t - 1 - B (k - 1) <? s) eqn:Y in E2; [lia|].
        rewrite E2. rewrite mk_interval_ok by lia.
        eexists; split; [reflexivity|]. unfold rollback_full_spec; cbn [left right closed].
        split; [reflexivity|]. split; [reflexivity|]. exists (k - 1). unfold occ_start, occ_end.
        destruct (Z_lt_dec s e); lia.
      + rewrite E1. rewrite mk_interval_ok by lia.
        eexists; split; [reflexivity|]. unfold rollback_full_spec; cbn [left right closed].
        split; [reflexivity|]. split; [reflexivity|]. exists k. unfold occ_start, occ_end.
        destruct (Z_lt_dec s e); lia.
  Qed.

  Hypothesis Hnd : forall k, s < B (k + 1) - B k + e.

  Lemma arollforward_ok fuel t :
    exists i, arollforward (S fuel) p t = Returns i /\ rollforward_spec B s e t i.
  Proof using All.
    destruct (Hcyc t) as [k Hk].
    pose proof (next_end_val t k Hk) as Ene.
    pose proof (next_start_val t k Hk) as Ens.
    pose proof (in_period_iff t k Hk) as Hin.
    pose proof (acontains_iff t) as Hcont.
    pose proof (not_in_period_gap t k) as Hgap.
    assert (Hk' := Hk). destruct Hk' as [Hk0 _].
    pose proof (Hs k) as Hsk. pose proof (He k) as Hek. pose proof (Hs (k+1)) as Hsk1. pose proof (He (k+1)) as Hek1.
    pose proof (Hs (k-1)) as Hskm. pose proof (He (k-1)) as Hekm. replace (k - 1 + 1) with k in * by lia.
    pose proof (Hnd k) as Hndk. pose proof (Hnd (k - 1)) as Hndm. replace (k - 1 + 1) with k in * by lia.
    cbn [arollforward].
    destruct (is_full p) eqn:F.
    - (* full *)
      assert (Hp : in_period B s e t).
      { apply Hcont. unfold acontains. rewrite F. reflexivity. }
      assert (Hgt : t < next_end p t) by (rewrite Ene; destruct (t - B k <? e) eqn:E; lia).
      assert (E1 : (next_end p t =? t) = false) by lia. rewrite E1.
      rewrite mk_interval_ok by lia. cbn [of_result].
      assert (Hocc : exists j, occ_start B s j <= t /\ next_end p t = occ_end B s e j).
      { unfold is_full in F. fold s e c in F. rewrite Ene. unfold occ_start, occ_end.
        destruct (Z_lt_dec s e) as [L|L].
        - assert (E0 : s = 0) by lia. assert (E2 : e = scope_max c) by lia.
          pose proof (Hfull E0 E2 k). exists k. destruct (t - B k <? e) eqn:E; lia.
        - destruct (t - B k <? e) eqn:E.
          + exists (k - 1). replace (k - 1 + 1) with k by lia. lia.
          + exists k. lia. }
      destruct Hocc as [j [Hj1 Hj2]].
      eexists; split; [reflexivity|]. unfold rollforward_spec; cbn [left right closed].
      split; [reflexivity|]. split; [lia|]. split; [intros u Hu; lia|].
      split; [intros u Hu; exists j; lia|].
      exists j. split; [exact Hj1|]. split; [exact Hj2|]. left; reflexivity.
    - (* not full *)
      unfold rollstart. destruct (acontains p t) eqn:C.
      + assert (Hp : in_period B s e t) by (apply Hcont; reflexivity).
        assert (Hgt : t < next_end p t) by (rewrite Ene; destruct (t - B k <? e) eqn:E; lia).
        assert (E1 : (t =? next_end p t) = false) by lia. rewrite E1.
        rewrite mk_interval_ok by lia. cbn [of_result].
        assert (Hocc : exists j, occ_start B s j <= t /\ next_end p t = occ_end B s e j).
        { rewrite Ene. unfold occ_start, occ_end. apply Hin in Hp.
          destruct (Z_lt_dec s e) as [L|L].
          - exists k. destruct (t - B k <? e) eqn:E; lia.
          - destruct (t - B k <? e) eqn:E.
            + exists (k - 1). replace (k - 1 + 1) with k by lia. lia.
            + exists k. lia. }
        destruct Hocc as [j [Hj1 Hj2]].
        eexists; split; [reflexivity|]. unfold rollforward_spec; cbn [left right closed].
        split; [reflexivity|]. split; [lia|]. split; [intros u Hu; lia|].
        split; [intros u Hu; exists j; lia|].
        exists j. split; [exact Hj1|]. split; [exact Hj2|]. left; reflexivity.
      + assert (Hp : ~ in_period B s e t) by (intros X; apply Hcont in X; congruence).
        assert (Hocc : exists j, next_start p t = occ_start B s j /\ next_end p t = occ_end B s e j
                                 /\ next_start p t < next_end p t /\ t < next_start p t).
        { assert (Hp' := Hp). rewrite Hin in Hp'. rewrite Ens, Ene. unfold occ_start, occ_end.
          destruct (Z_lt_dec s e) as [L|L].
          - destruct (t - B k <? s) eqn:E; destruct (t - B k <? e) eqn:E'; try lia.
            + exists k. lia.
            + exists (k + 1). lia.
          - destruct (t - B k <? s) eqn:E; destruct (t - B k <? e) eqn:E'; try lia.
            exists k. lia. }
        destruct Hocc as [j [Hj1 [Hj2 [Hlt Hlt']]]].
        assert (E1 : (next_start p t =? next_end p t) = false) by lia. rewrite E1.
        rewrite mk_interval_ok by lia. cbn [of_result].
        eexists; split; [reflexivity|]. unfold rollforward_spec; cbn [left right closed].
        split; [reflexivity|]. split; [lia|].
        split; [intros u Hu; apply (Hgap u); auto; lia|].
        split; [intros u Hu; exists j; lia|].
        exists j. split; [lia|]. split; [exact Hj2|]. right; exact Hj1.
  Qed.

  Lemma arollback_ok t : is_full p = false ->
    exists i, arollback p t = Ok i /\ rollback_spec B s e t i.
  Proof using All.
    intros F. destruct (Hcyc t) as [k Hk].
    pose proof (prev_start_val t k Hk) as Eps.
    pose proof (prev_end_val t k Hk) as Epe.
    pose proof (in_period_iff t k Hk) as Hin.
    pose proof (acontains_iff t) as Hcont.
    destruct Hk as [Hk0 _].
    pose proof (Hs k) as Hsk. pose proof (He k) as Hek.
    pose proof (Hs (k-1)) as Hskm. pose proof (He (k-1)) as Hekm. replace (k - 1 + 1) with k in * by lia.
    pose proof (Hnd k) as Hndk. pose proof (Hnd (k - 1)) as Hndm. replace (k - 1 + 1) with k in * by lia.
    pose proof (Hs (k - 2)) as Hskm2. replace (k - 2 + 1) with (k - 1) in * by lia.
    pose proof (Hs (k + 1)) as Hsk1. pose proof (Bmono k) as Bm.
    assert (Fne : s <> e).
    { intros X. unfold is_full in F. fold s e c in F. rewrite X, Z.eqb_refl in F. discriminate. }
    unfold arollback. rewrite F. unfold rollend.
    assert (Hocc : exists j, prev_start p t = occ_start B s j /\
                    (if acontains p t then t else prev_end p t) = Z.min t (occ_end B s e j) /\
                    t < occ_start B s (j + 1) /\ occ_start B s j <= t /\
                    occ_start B s j < occ_end B s e j).
    { rewrite Eps, Epe. unfold occ_start, occ_end.
      destruct (acontains p t) eqn:C.
      - assert (Hp : in_period B s e t) by (apply Hcont; reflexivity). apply Hin in Hp.
        destruct (Z_lt_dec s e) as [L|L]; destruct (t - B k <? s) eqn:E; try lia.
        + exists k. lia.
        + exists (k - 1). replace (k - 1 + 1) with k by lia. lia.
        + exists k. pose proof (He (k + 1)). lia.
      - assert (Hp : ~ in_period B s e t) by (intros X; apply Hcont in X; congruence).
        rewrite Hin in Hp.
        destruct (Z_lt_dec s e) as [L|L]; destruct (t - B k <? s) eqn:E; destruct (t - B k <? e) eqn:E'; try lia.
        + exists (k - 1). replace (k - 1 + 1) with k by lia. lia.
        + exists k. lia.
        + exists (k - 1). replace (k - 1 + 1) with k by lia. lia. }
    destruct Hocc as [j [Hj1 [Hj2 [Hj3 [Hj4 Hj5]]]]].
    rewrite Hj2. rewrite mk_interval_ok by lia.
    eexists; split; [reflexivity|]. unfold rollback_spec; cbn [left right closed].
    assert (Hno : forall u, occ_end B s e j <= u <= t -> ~ in_period B s e u).
    { intros u Hu [i Hi].
      destruct (Z.lt_trichotomy i j) as [D|[D|D]].
      - assert (occ_end B s e i <= occ_start B s j \/ occ_end B s e i <= occ_end B s e j).
        { unfold occ_end, occ_start. pose proof (B_succ_le i j D). pose proof (He i).
          destruct (Z_lt_dec s e); [left; lia|]. right.
          assert (i + 1 <= j) by lia. pose proof (B_le (i + 1) (j + 1)). lia. }
        lia.
      - subst i. lia.
      - assert (occ_start B s (j + 1) <= occ_start B s i) by (unfold occ_start; pose proof (B_le (j + 1) i); lia).
        lia. }
    split.
    { rewrite Hj1. destruct (Z.eq_dec (occ_start B s j) (Z.min t (occ_end B s e j))) as [D|D].
      - rewrite (proj2 (Z.eqb_eq _ _) D). reflexivity.
      - rewrite (proj2 (Z.eqb_neq _ _) D). reflexivity. }
    split; [lia|].
    split.
    { intros u Hu. apply Hno. lia. }
    split.
    { intros Hp. destruct (Z_le_dec (occ_end B s e j) t) as [D|D]; [|lia].
      exfalso. apply (Hno t); [lia|exact Hp]. }
    split.
    { intros u Hu. exists j. lia. }
    exists j. split; [exact Hj1|]. split; [reflexivity|exact Hj3].
  Qed.
End Cycle.
