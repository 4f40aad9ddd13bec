From Verif Require Import Model.Base Model.Interval Model.Calendar Model.Anchored
  Spec.PeriodSpec Proofs.CalendarProofs Proofs.AnchoredProofs.
From Coq Require Import Lia ZifyBool.
Ltac Zify.zify_post_hook ::= Z.div_mod_to_equations.
Open Scope Z_scope.

Lemma fixed_cycle_scope c L : fixed_cycle c L -> L = scope_max c /\ 0 < L.
Proof. intros H; destruct H; split; reflexivity. Qed.

Lemma anchor_dt_fixed c L t : fixed_cycle c L -> anchor_dt c t = t mod L.
Proof.
  intros H; destruct H; unfold anchor_dt, to_microseconds, dt_microsecond, dt_second, dt_minute, dt_hour,
    dt_weekday, dt_ordinal, us_day, us_hour, us_minute, us_second, us_millisecond.
  all: try change (10 ^ 6) with 1000000.
  - lia.
  - change (60 * 1000000) with 60000000. lia.
  - change (60 * 60 * 1000000) with 3600000000. lia.
  - change (24 * 60 * 60 * 1000000) with 86400000000. lia.
  - change (7 * 24 * 60 * 60 * 1000000) with 604800000000. lia.
Qed.

Lemma validate_ok c n m : validate c n = Ok m -> m = n /\ 0 <= n <= scope_max c.
Proof.
  unfold validate. destruct ((n <? 0) || (scope_max c <? n)) eqn:E; [discriminate|].
  intros H; injection H as <-. lia.
Qed.

Lemma bind_ok {A B} (r : result A) (f : A -> result B) b :
  bind r f = Ok b -> exists a, r = Ok a /\ f a = Ok b.
Proof. destruct r as [a|e]; cbn; [intros H; exists a; auto|discriminate]. Qed.

(** Whatever the constructor accepts is within the cycle. *)
Lemma mk_anchored_bounds c st en tp sg rc p :
  mk_anchored c st en tp sg rc = Ok p ->
  a_cls p = c /\ 0 <= a_start p <= scope_max c /\ 0 <= a_end p <= scope_max c.
Proof.
  intros H.
  assert (Hm : 0 <= scope_max c) by (destruct c; cbn; discriminate).
  assert (G : (let* s := set_start c st in
               let* e := set_end c s en rc tp sg in Ok (Anchored c s e)) = Ok p ->
              a_cls p = c /\ 0 <= a_start p <= scope_max c /\ 0 <= a_end p <= scope_max c).
  { intros H1. apply bind_ok in H1. destruct H1 as [s [Hs H1]]. apply bind_ok in H1. destruct H1 as [e [He H1]].
    injection H1 as <-. cbn.
    unfold set_start in Hs. apply bind_ok in Hs. destruct Hs as [ms [_ Hs]]. apply validate_ok in Hs.
    unfold set_end in He. apply bind_ok in He. destruct He as [me [_ He]]. apply validate_ok in He.
    destruct Hs, He. subst. auto. }
  unfold mk_anchored in H.
  destruct st; [exact (G H)|]. destruct en; [exact (G H)|].
  destruct tp; [discriminate|]. injection H as <-. cbn [a_cls a_start a_end]. split; [reflexivity|lia].
Qed.

(** The hypotheses of the generic cycle lemmas for fixed-length cycles. *)
Section Fixed.
  Variables (p : anchored) (L : Z).
  Hypothesis HL : fixed_cycle (a_cls p) L.
  Hypothesis Hs : 0 <= a_start p <= L.
  Hypothesis He : 0 <= a_end p <= L.

  Lemma fixed_pos : 0 < L.
  Proof using All. apply (fixed_cycle_scope _ _ HL). Qed.
  Lemma fixed_mono k : every_L L k < every_L L (k + 1).
  Proof using All. unfold every_L. pose proof fixed_pos. lia. Qed.
  Lemma fixed_cyc t : exists k, cycle_at p (every_L L) t k.
  Proof using All.
    pose proof fixed_pos. exists (t / L). unfold cycle_at, every_L.
    rewrite (anchor_dt_fixed _ _ t HL).
    assert (EL : get_scope_forward (a_cls p) t = L /\ get_scope_back (a_cls p) t = L).
    { destruct HL; split; reflexivity. }
    destruct EL as [-> ->].
    pose proof (Z.div_mod t L ltac:(lia)). pose proof (Z.mod_pos_bound t L ltac:(lia)).
    repeat split; lia.
  Qed.
  Lemma fixed_s k : 0 <= a_start p <= every_L L (k + 1) - every_L L k.
  Proof using All. unfold every_L. lia. Qed.
  Lemma fixed_e k : 0 <= a_end p <= every_L L (k + 1) - every_L L k.
  Proof using All. unfold every_L. lia. Qed.
  Lemma fixed_nd k : ~ (a_start p = L /\ a_end p = 0) -> a_start p < every_L L (k + 1) - every_L L k + a_end p.
  Proof using All. unfold every_L. lia. Qed.
  Lemma fixed_full : a_start p = 0 -> a_end p = scope_max (a_cls p) ->
    forall k, a_end p = every_L L (k + 1) - every_L L k.
  Proof using All. intros _ H k. destruct (fixed_cycle_scope _ _ HL) as [E _]. unfold every_L. lia. Qed.
End Fixed.

Section FixedResults.
  Variables (c : acls) (L : Z) (st en : option aval) (tp sg rc : bool) (p : anchored).
  Hypothesis HL : fixed_cycle c L.
  Hypothesis Hp : mk_anchored c st en tp sg rc = Ok p.

  Lemma fr_cls : fixed_cycle (a_cls p) L.
  Proof using All. destruct (mk_anchored_bounds _ _ _ _ _ _ _ Hp) as [-> _]. exact HL. Qed.
  Lemma fr_s : 0 <= a_start p <= L.
  Proof using All. destruct (mk_anchored_bounds _ _ _ _ _ _ _ Hp) as [_ [H _]]. destruct (fixed_cycle_scope _ _ HL) as [-> _]. exact H. Qed.
  Lemma fr_e : 0 <= a_end p <= L.
  Proof using All. destruct (mk_anchored_bounds _ _ _ _ _ _ _ Hp) as [_ [_ H]]. destruct (fixed_cycle_scope _ _ HL) as [-> _]. exact H. Qed.

  Let H1 := fixed_mono p L fr_cls fr_s fr_e.
  Let H2 := fixed_cyc p L fr_cls fr_s fr_e.
  Let H3 := fixed_s p L fr_cls fr_s fr_e.
  Let H4 := fixed_e p L fr_cls fr_s fr_e.
  Let H6 := fixed_full p L fr_cls fr_s fr_e.
  Let H5 := fun nd k => fixed_nd p L fr_cls fr_s fr_e k nd.

  Lemma fixed_contains_iff t : acontains p t = true <-> in_period (every_L L) (a_start p) (a_end p) t.
  Proof. exact (acontains_iff p (every_L L) H1 H2 H3 H4 H6 t). Qed.
  Lemma fixed_next_start t : first_after (fun k => k * L + a_start p) t (next_start p t).
  Proof. exact (next_start_first_after p (every_L L) H1 H2 H3 H4 t). Qed.
  Lemma fixed_next_end t : first_after (fun k => k * L + a_end p) t (next_end p t).
  Proof. exact (next_end_first_after p (every_L L) H1 H2 H3 H4 t). Qed.
  Lemma fixed_prev_start t : last_until (fun k => k * L + a_start p) t (prev_start p t).
  Proof. exact (prev_start_last_until p (every_L L) H1 H2 H3 H4 t). Qed.
  Lemma fixed_prev_end t : last_until (fun k => k * L + a_end p) t (prev_end p t).
  Proof. exact (prev_end_last_until p (every_L L) H1 H2 H3 H4 t). Qed.
  Lemma fixed_rollforward (Hnd : ~ (a_start p = L /\ a_end p = 0)) fuel t :
    exists i, arollforward (S fuel) p t = Returns i /\
    rollforward_spec (every_L L) (a_start p) (a_end p) t i.
  Proof. exact (arollforward_ok p (every_L L) H1 H2 H3 H4 H6 (H5 Hnd) fuel t). Qed.
  Lemma fixed_rollback (Hnd : ~ (a_start p = L /\ a_end p = 0)) t :
    is_full p = false -> exists i, arollback p t = Ok i /\
    rollback_spec (every_L L) (a_start p) (a_end p) t i.
  Proof. exact (arollback_ok p (every_L L) H1 H2 H3 H4 H6 (H5 Hnd) t). Qed.
  Lemma fixed_rollback_full t : is_full p = true -> exists i, arollback p t = Ok i /\
    rollback_full_spec (every_L L) (a_start p) (a_end p) t i.
  Proof. exact (arollback_full_ok p (every_L L) H1 H2 H3 H4 H6 t). Qed.
End FixedResults.
