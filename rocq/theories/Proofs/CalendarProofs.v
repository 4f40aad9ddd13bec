From Verif Require Import Model.Base Model.Calendar Spec.CalendarSpec.
From Coq Require Import Lia ZifyBool Znumtheory.
Ltac Zify.zify_post_hook ::= Z.div_mod_to_equations.
Open Scope Z_scope.

Definition valid_ymd (y m d : Z) : Prop := 1 <= m <= 12 /\ 1 <= d <= days_in_month y m.

(** Year length *)
Lemma days_before_year_succ y :
  days_before_year (y + 1) = days_before_year y + (if is_leap y then 366 else 365).
Proof.
  unfold days_before_year, is_leap.
  destruct (y mod 4 =? 0) eqn:E4; destruct (y mod 100 =? 0) eqn:E100; destruct (y mod 400 =? 0) eqn:E400;
  cbn [andb orb negb]; lia.
Qed.

Lemma month_cases m : 1 <= m <= 12 ->
  m = 1 \/ m = 2 \/ m = 3 \/ m = 4 \/ m = 5 \/ m = 6 \/ m = 7 \/ m = 8 \/ m = 9 \/ m = 10 \/ m = 11 \/ m = 12.
Proof. lia. Qed.

Ltac mcases H := destruct (month_cases _ H) as [->|[->|[->|[->|[->|[->|[->|[->|[->|[->|[->| ->]]]]]]]]]]].

Lemma days_before_month_succ y m : 1 <= m < 12 ->
  days_before_month y (m + 1) = days_before_month y m + days_in_month y m.
Proof.
  intros H. assert (H' : 1 <= m <= 12) by lia.
  unfold days_before_month, days_in_month.
  mcases H'; try lia; destruct (is_leap y); reflexivity.
Qed.

Lemma days_before_month_12 y :
  days_before_month y 12 + days_in_month y 12 = (if is_leap y then 366 else 365).
Proof. unfold days_before_month, days_in_month. destruct (is_leap y); reflexivity. Qed.

Lemma days_in_month_bounds y m : 1 <= m <= 12 -> 28 <= days_in_month y m <= 31.
Proof. intros H. unfold days_in_month. mcases H; destruct (is_leap y); cbn; lia. Qed.

Lemma days_before_month_bounds y m : 1 <= m <= 12 ->
  0 <= days_before_month y m /\
  days_before_month y m + days_in_month y m <= (if is_leap y then 366 else 365).
Proof. intros H. unfold days_before_month, days_in_month. mcases H; destruct (is_leap y); cbn; lia. Qed.

Lemma days_before_month_mono y m m' : 1 <= m -> m < m' -> m' <= 12 ->
  days_before_month y m + days_in_month y m <= days_before_month y m'.
Proof.
  intros H1 H2 H3. assert (A : 1 <= m <= 12) by lia. assert (B : 1 <= m' <= 12) by lia.
  unfold days_before_month, days_in_month.
  mcases A; mcases B; try lia; destruct (is_leap y); cbn; lia.
Qed.

Lemma days_before_year_mono y y' : y < y' ->
  days_before_year y + (if is_leap y then 366 else 365) <= days_before_year y'.
Proof.
  intros H. rewrite <- days_before_year_succ. unfold days_before_year. lia.
Qed.

Lemma ymd2ord_inj y m d y' m' d' :
  valid_ymd y m d -> valid_ymd y' m' d' -> ymd2ord y m d = ymd2ord y' m' d' ->
  y = y' /\ m = m' /\ d = d'.
Proof.
  unfold valid_ymd, ymd2ord. intros [Hm Hd] [Hm' Hd'] E.
  pose proof (days_before_month_bounds y m Hm) as [B1 B2].
  pose proof (days_before_month_bounds y' m' Hm') as [B1' B2'].
  assert (Ey : y = y').
  { destruct (Z.lt_trichotomy y y') as [L|[L|L]]; [|exact L|].
    - pose proof (days_before_year_mono y y' L). lia.
    - pose proof (days_before_year_mono y' y L). lia. }
  subst y'.
  assert (Em : m = m').
  { destruct (Z.lt_trichotomy m m') as [L|[L|L]]; [|exact L|].
    - pose proof (days_before_month_mono y m m'). lia.
    - pose proof (days_before_month_mono y m' m). lia. }
  subst m'. lia.
Qed.

(** Decomposition of the day number performed by [ord2ymd]. *)
Lemma is_leap_decomp n400 n100 n4 n1 :
  0 <= n100 <= 3 -> 0 <= n4 <= 24 -> 0 <= n1 <= 3 ->
  is_leap (n400 * 400 + 1 + n100 * 100 + n4 * 4 + n1)
  = (n1 =? 3) && (negb (n4 =? 24) || (n100 =? 3)).
Proof.
  intros H100 H4 H1. set (y := n400 * 400 + 1 + n100 * 100 + n4 * 4 + n1).
  unfold is_leap.
  destruct (n1 =? 3) eqn:E1.
  - assert (y mod 4 = 0) by (subst y; lia). rewrite (proj2 (Z.eqb_eq _ _) H). cbn [andb].
    destruct (n4 =? 24) eqn:E4; cbn [negb orb].
    + assert (y mod 100 = 0) by (subst y; lia). rewrite (proj2 (Z.eqb_eq _ _) H0). cbn [negb orb].
      destruct (n100 =? 3) eqn:E3.
      * assert (y mod 400 = 0) by (subst y; lia). rewrite (proj2 (Z.eqb_eq _ _) H2). reflexivity.
      * assert (y mod 400 <> 0) by (subst y; lia). apply Z.eqb_neq in H2. exact H2.
    + assert (y mod 100 <> 0) by (subst y; lia). apply Z.eqb_neq in H0. rewrite H0. reflexivity.
  - assert (y mod 4 <> 0) by (subst y; lia). apply Z.eqb_neq in H. rewrite H. reflexivity.
Qed.

Lemma days_before_year_decomp n400 n100 n4 n1 :
  0 <= n100 <= 3 -> 0 <= n4 <= 24 -> 0 <= n1 <= 3 ->
  days_before_year (n400 * 400 + 1 + n100 * 100 + n4 * 4 + n1)
  = n400 * 146097 + n100 * 36524 + n4 * 1461 + n1 * 365.
Proof.
  intros H100 H4 H1. unfold days_before_year.
  replace (n400 * 400 + 1 + n100 * 100 + n4 * 4 + n1 - 1) with (n400 * 400 + n100 * 100 + n4 * 4 + n1) by lia.
  assert (E4 : (n400 * 400 + n100 * 100 + n4 * 4 + n1) / 4 = n400 * 100 + n100 * 25 + n4) by lia.
  assert (E100 : (n400 * 400 + n100 * 100 + n4 * 4 + n1) / 100 = n400 * 4 + n100) by lia.
  assert (E400 : (n400 * 400 + n100 * 100 + n4 * 4 + n1) / 400 = n400) by lia.
  rewrite E4, E100, E400. lia.
Qed.

(** Month/day of the n-th (0-based) day of a year. *)
Definition yearday_md (leapyear : bool) (n : Z) : Z * Z :=
  let month := (n + 50) / 32 in
  let preceding := days_before_month_common month + (if (2 <? month) && leapyear then 1 else 0) in
  if n <? preceding then
    let month := month - 1 in
    let preceding := preceding - (days_in_month_common month + (if (month =? 2) && leapyear then 1 else 0)) in
    (month, n - preceding + 1)
  else (month, n - preceding + 1).

Definition yearday_ok (leapyear : bool) (n : Z) : bool :=
  let '(m, d) := yearday_md leapyear n in
  (1 <=? m) && (m <=? 12) && (1 <=? d) &&
  (d <=? (if (m =? 2) && leapyear then 29 else days_in_month_common m)) &&
  (days_before_month_common m + (if (2 <? m) && leapyear then 1 else 0) + d =? n + 1).

Lemma yearday_sweep :
  forallb (fun k => yearday_ok false (Z.of_nat k)) (seq 0 365) = true /\
  forallb (fun k => yearday_ok true (Z.of_nat k)) (seq 0 366) = true.
Proof. split; vm_compute; reflexivity. Qed.

Lemma yearday_all (leapyear : bool) n : 0 <= n < (if leapyear then 366 else 365) -> yearday_ok leapyear n = true.
Proof.
  intros H. destruct yearday_sweep as [S1 S2]. rewrite forallb_forall in S1, S2.
  replace n with (Z.of_nat (Z.to_nat n)) by lia.
  destruct leapyear; [apply S2 | apply S1]; apply in_seq; lia.
Qed.

Lemma ord2ymd_correct n y m d :
  ord2ymd n = (y, m, d) -> valid_ymd y m d /\ ymd2ord y m d = n.
Proof.
  unfold ord2ymd.
  set (n' := n - 1).
  set (n400 := n' / 146097). set (r400 := n' mod 146097).
  set (n100 := r400 / 36524). set (r100 := r400 mod 36524).
  set (n4 := r100 / 1461). set (r4 := r100 mod 1461).
  set (n1 := r4 / 365). set (r1 := r4 mod 365).
  cbv zeta.
  assert (A0 : n = n400 * 146097 + r400 + 1 /\ 0 <= r400 < 146097) by (subst n400 r400 n'; lia).
  assert (A1 : r400 = n100 * 36524 + r100 /\ 0 <= r100 < 36524 /\ 0 <= n100 <= 4) by (subst n100 r100; lia).
  assert (A2 : r100 = n4 * 1461 + r4 /\ 0 <= r4 < 1461 /\ 0 <= n4 <= 24) by (subst n4 r4; lia).
  assert (A3 : r4 = n1 * 365 + r1 /\ 0 <= r1 < 365 /\ 0 <= n1 <= 4) by (subst n1 r1; lia).
  clearbody n400 r400 n100 r100 n4 r4 n1 r1. clear n'.
  destruct ((n1 =? 4) || (n100 =? 4)) eqn:E.
  - intros H; injection H as <- <- <-.
    (* last day of a leap year *)
    assert (D : (n100 = 4 /\ n4 = 0 /\ n1 = 0 /\ r1 = 0) \/ (n100 <= 3 /\ n1 = 4 /\ r1 = 0)) by lia.
    destruct D as [[-> [-> [-> ->]]]|[H100 [-> ->]]].
    + replace (n400 * 400 + 1 + 4 * 100 + 0 * 4 + 0 - 1) with (n400 * 400 + 1 + 3 * 100 + 24 * 4 + 3) by lia.
      assert (L : is_leap (n400 * 400 + 1 + 3 * 100 + 24 * 4 + 3) = true) by (rewrite is_leap_decomp; lia).
      split.
      * unfold valid_ymd, days_in_month. cbn [Z.eqb Pos.eqb andb days_in_month_common]. lia.
      * unfold ymd2ord, days_before_month. rewrite days_before_year_decomp by lia. rewrite L. cbn. lia.
    + assert (n4 < 24 \/ n100 = 3) as Hn4 by lia.
      replace (n400 * 400 + 1 + n100 * 100 + n4 * 4 + 4 - 1) with (n400 * 400 + 1 + n100 * 100 + n4 * 4 + 3) by lia.
      assert (L : is_leap (n400 * 400 + 1 + n100 * 100 + n4 * 4 + 3) = true) by (rewrite is_leap_decomp; lia).
      split.
      * unfold valid_ymd, days_in_month. cbn [Z.eqb Pos.eqb andb days_in_month_common]. lia.
      * unfold ymd2ord, days_before_month. rewrite days_before_year_decomp by lia. rewrite L. cbn. lia.
  - assert (H1 : 0 <= n1 <= 3) by lia. assert (H100 : 0 <= n100 <= 3) by lia. assert (H4 : 0 <= n4 <= 24) by lia.
    pose proof (is_leap_decomp n400 n100 n4 n1 H100 H4 H1) as L.
    pose proof (days_before_year_decomp n400 n100 n4 n1 H100 H4 H1) as B.
    set (year := n400 * 400 + 1 + n100 * 100 + n4 * 4 + n1) in *.
    set (lp := (n1 =? 3) && (negb (n4 =? 24) || (n100 =? 3))) in *.
    assert (Hr : 0 <= r1 < (if lp then 366 else 365)) by (destruct lp; lia).
    pose proof (yearday_all lp r1 Hr) as Y. unfold yearday_ok, yearday_md in Y.
    intros H.
    assert (G : forall mm dd, (year, mm, dd) = (y, m, d) ->
      (1 <=? mm) && (mm <=? 12) && (1 <=? dd) &&
      (dd <=? (if (mm =? 2) && lp then 29 else days_in_month_common mm)) &&
      (days_before_month_common mm + (if (2 <? mm) && lp then 1 else 0) + dd =? r1 + 1) = true ->
      valid_ymd y m d /\ ymd2ord y m d = n).
    { intros mm dd E1 Y1. injection E1 as <- <- <-.
      rewrite !andb_true_iff in Y1. destruct Y1 as [[[[Y1 Y2] Y3] Y4] Y5].
      unfold valid_ymd, days_in_month, ymd2ord, days_before_month. rewrite L, B.
      split; [|lia]. split; [lia|]. split; [lia|]. apply Z.leb_le in Y4. exact Y4. }
    destruct (r1 <? _) eqn:E2 in H, Y; eapply G; eauto.
Qed.

Lemma ord2ymd_ymd2ord y m d : valid_ymd y m d -> ord2ymd (ymd2ord y m d) = (y, m, d).
Proof.
  intros V. destruct (ord2ymd (ymd2ord y m d)) as [[y' m'] d'] eqn:E.
  destruct (ord2ymd_correct _ _ _ _ E) as [V' E'].
  destruct (ymd2ord_inj _ _ _ _ _ _ V' V E') as [-> [-> ->]]. reflexivity.
Qed.

Lemma is_leap_spec y : is_leap y = true <-> leap_year y.
Proof.
  unfold is_leap, leap_year.
  rewrite andb_true_iff, orb_true_iff, negb_true_iff, !Z.eqb_eq, Z.eqb_neq.
  rewrite !Z.mod_divide by discriminate. tauto.
Qed.

Lemma month_length_spec y m : 1 <= m <= 12 -> month_length y m (days_in_month y m).
Proof.
  intros H. unfold days_in_month.
  mcases H; cbn [Z.eqb Pos.eqb andb days_in_month_common];
    try (apply ml_31; lia); try (apply ml_30; lia).
  destruct (is_leap y) eqn:E.
  - apply ml_feb_leap, is_leap_spec, E.
  - apply ml_feb. intros L. apply is_leap_spec in L. congruence.
Qed.

Lemma ord2ymd_first : ord2ymd 1 = (1, 1, 1).
Proof. reflexivity. Qed.

Lemma ord2ymd_next n : next_day (ord2ymd n) (ord2ymd (n + 1)).
Proof.
  destruct (ord2ymd n) as [[y m] d] eqn:E.
  destruct (ord2ymd_correct _ _ _ _ E) as [[Hm Hd] En].
  pose proof (month_length_spec y m Hm) as ML.
  destruct (Z.eq_dec d (days_in_month y m)) as [->|D].
  - destruct (Z.eq_dec m 12) as [->|M].
    + replace (ord2ymd (n + 1)) with (y + 1, 1, 1).
      * change (days_in_month y 12) with (if (12 =? 2) && is_leap y then 29 else 31).
        cbn [Z.eqb Pos.eqb andb]. constructor.
      * symmetry. rewrite <- (ord2ymd_ymd2ord (y + 1) 1 1).
        2: { unfold valid_ymd. pose proof (days_in_month_bounds (y+1) 1). lia. }
        f_equal. rewrite <- En. unfold ymd2ord. rewrite days_before_year_succ.
        pose proof (days_before_month_12 y).
        assert (days_before_month (y + 1) 1 = 0) by (unfold days_before_month; reflexivity). lia.
    + replace (ord2ymd (n + 1)) with (y, m + 1, 1).
      * apply nd_month_end; [exact ML|lia].
      * symmetry. rewrite <- (ord2ymd_ymd2ord y (m + 1) 1).
        2: { unfold valid_ymd. pose proof (days_in_month_bounds y (m+1)). lia. }
        f_equal. rewrite <- En. unfold ymd2ord. rewrite days_before_month_succ by lia. lia.
  - replace (ord2ymd (n + 1)) with (y, m, d + 1).
    + apply nd_in_month with (n := days_in_month y m); [exact ML|lia|lia].
    + symmetry. rewrite <- (ord2ymd_ymd2ord y m (d + 1)).
      2: { unfold valid_ymd. lia. }
      f_equal. rewrite <- En. unfold ymd2ord. lia.
Qed.
