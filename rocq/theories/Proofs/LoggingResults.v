From Coq Require Import Bool Arith Lia ZifyBool List ZArith String Ascii.
From Verif Require Import Model.Base Model.Interval Model.Period Model.Condition Model.History Model.Logging
  Spec.LoggingSpec Proofs.LoggingProofs.
Import ListNotations.
Local Open Scope Z_scope.
Local Open Scope list_scope.

Lemma put_names : forall n g ls m, In m (map fst (put n g ls)) <-> m = n \/ In m (map fst ls).
Proof.
  intros n g ls m. induction ls as [|[k h] ls IH]; cbn [put map fst In].
  - intuition.
  - destruct (String.eqb_spec k n) as [->|D]; cbn [map fst In]; [intuition|]. rewrite IH. intuition.
Qed.
Lemma put_nodup : forall n g ls, NoDup (map fst ls) -> NoDup (map fst (put n g ls)).
Proof.
  intros n g ls H. induction ls as [|[k h] ls IH]; cbn [put map fst].
  - constructor; [intros []|constructor].
  - inversion_clear H as [|? ? H1 H2]. destruct (String.eqb_spec k n) as [->|D]; cbn [map fst]; [now constructor|].
    constructor; [|now apply IH]. rewrite put_names. intros [->|I]; [now apply D|contradiction].
Qed.
Lemma sole_change : forall base n f reg, sole base reg -> lonely base n -> sole base (change n f reg).
Proof.
  intros base n f reg [S1 S2] L. unfold change. split; cbn [reg_named].
  - now apply put_nodup.
  - intros m I. apply put_names in I. destruct I as [->|I]; [exact L|exact (S2 m I)].
Qed.
Lemma filter_fst : forall (p : string -> bool) (ls : list (string * logger)),
  map fst (filter (fun ng => p (fst ng)) ls) = filter p (map fst ls).
Proof. intros p ls. induction ls as [|[n g] ls IH]; [reflexivity|]. cbn. destruct (p n); cbn; now rewrite IH. Qed.

Lemma sole_step : forall base ev reg st, sole base reg -> (forall n, In n (names_of ev) -> lonely base n) ->
  sole base (fst (step ev (reg, st))).
Proof.
  intros base ev reg st S H. destruct ev as [b q|b q|b q|n h|n lvl|b s f|b|n x|n x]; cbn [step fst names_of] in *;
    try (apply sole_change; [exact S|apply H; now left]).
  - unfold check_readable. cbv zeta.
    assert (S1 : sole base (change b (fun g => if negb (is_readable g) && negb (is_private b)
                                 then set_handlers (g_handlers g ++ [repo_handler q]) g else g) reg)).
    { apply sole_change; [exact S|apply H; now left]. }
    destruct (_ <=? _); [exact S1|apply sole_change; [exact S1|apply H; now left]].
  - destruct S as [S1 S2]. unfold delete_loggers. split; cbn [reg_named];
      rewrite (filter_fst (fun n => negb (String.prefix b n))).
    + now apply NoDup_filter.
    + intros n I. apply filter_In in I. exact (S2 n (proj1 I)).
Qed.

Lemma all_step : forall base r reg st ev, ready base r reg -> harmless_all base r ev ->
  snd (step ev (reg, st)) r = st r ++ said_all [ev].
Proof.
  intros base r reg st ev R [H _].
  assert (R' := ready_step base r 0 reg st ev R (H 0)).
  destruct ev as [b q|b q|b q|n h|n lvl|b s f|b|n x|n x]; cbn [step snd said_all]; try (now rewrite app_nil_r).
  - specialize (H (r_task x) eq_refl). subst n. cbn [step fst] in R'. now apply log_once.
  - specialize (H (r_task x) eq_refl). subst n. cbn [step fst] in R'. apply handle_once; [exact R'|].
    assert (P := level_positive (r_action x)). lia.
Qed.
Lemma said_all_cons : forall ev evs, said_all (ev :: evs) = said_all [ev] ++ said_all evs.
Proof. intros [] evs; cbn [said_all]; reflexivity. Qed.

Lemma steps_all : forall base r evs reg st, ready base r reg -> sole base reg -> Forall (harmless_all base r) evs ->
  ready base r (fst (steps_of evs (reg, st))) /\ sole base (fst (steps_of evs (reg, st))) /\
  snd (steps_of evs (reg, st)) r = st r ++ said_all evs.
Proof.
  intros base r evs. induction evs as [|ev evs IH]; intros reg st R S H.
  - split; [exact R|]. split; [exact S|]. cbn. now rewrite app_nil_r.
  - inversion_clear H as [|? ? H1 H2]. unfold steps_of in *. cbn [fold_left].
    destruct (step ev (reg, st)) as [reg' st'] eqn:E.
    assert (R' := ready_step base r 0 reg st ev R (proj1 H1 0)). assert (A' := all_step base r reg st ev R H1).
    assert (S' := sole_step base ev reg st S (proj2 H1)).
    rewrite E in R', A', S'. cbn [fst snd] in R', A', S'. destruct (IH reg' st' R' S' H2) as (B1 & B2 & B3).
    split; [exact B1|]. split; [exact B2|]. rewrite B3, A', <- app_assoc. rewrite (said_all_cons ev evs). reflexivity.
Qed.

Lemma sole_loggers : forall base reg g, sole base reg -> look base (reg_named reg) = Some g -> is_private base = false ->
  task_loggers base reg = [(base, g)].
Proof.
  intros base reg g [S1 S2] L P. unfold task_loggers.
  assert (N : forall ls, (forall n, In n (map fst ls) -> lonely base n) -> ~ In base (map fst ls) ->
    filter (fun ng : string * logger => String.prefix base (fst ng) && negb (is_private (fst ng))) ls = []).
  { induction ls as [|[n h] ls IH]; intros H1 H2; [reflexivity|]. cbn [filter fst].
    destruct (String.prefix base n) eqn:E.
    - exfalso. apply H2. left. cbn. symmetry. symmetry. apply (H1 n (or_introl eq_refl) E).
    - cbn [andb]. apply IH; [intros m I; apply H1; now right|intros I; apply H2; now right]. }
  revert S1 S2 L. generalize (reg_named reg) as ls. induction ls as [|[n h] ls IH]; intros S1 S2 L; [discriminate L|].
  cbn [look] in L. cbn [map fst] in S1. inversion_clear S1 as [|? ? H1 H2].
  destruct (String.eqb_spec n base) as [->|D].
  - injection L as ->. cbn [filter fst]. rewrite prefix_refl, P. cbn [andb negb]. f_equal. apply N; [|exact H1].
    intros m I. apply S2. now right.
  - cbn [filter fst]. destruct (String.prefix base n) eqn:E.
    + exfalso. apply D. exact (S2 n (or_introl eq_refl) E).
    + cbn [andb]. apply IH; [exact H2|intros m I; apply S2; now right|exact L].
Qed.

Theorem app_log : forall base r reg st evs, unused r reg -> sole base reg -> is_private base = false ->
  Forall (harmless_all base r) evs ->
  let w := steps_of (HApp base r :: evs) (reg, st) in get_task_log base (fst w) (snd w) = Ok (st r ++ said_all evs).
Proof.
  intros base r reg st evs U S P H. cbv zeta. unfold steps_of. cbn [fold_left step].
  assert (S' : sole base (new_app base r reg)) by (apply sole_change; [exact S|intros _; reflexivity]).
  destruct (steps_all base r evs (new_app base r reg) st (app_ready _ _ _ U) S' H) as (A & B & C). unfold steps_of in A, B, C.
  destruct (get_ready _ _ _ A) as (g & pre & post & _ & L & H1 & H2 & _).
  unfold get_task_log. rewrite (sole_loggers base _ g B L P). cbn [read_loggers]. rewrite H1, (first_ready r pre post H2).
  cbn [bind]. rewrite app_nil_r. f_equal. exact C.
Qed.

(** ** Clocks *)
Lemma clock_change : forall base n f reg s, stamped_by base reg = Some s ->
  (n = base -> forall g, g_clock g = Some s -> g_clock (f g) = Some s) -> stamped_by base (change n f reg) = Some s.
Proof.
  intros base n f reg s H F. unfold stamped_by, get_logger in *. destruct (String.eqb_spec n base) as [->|D].
  - rewrite look_change_same. apply F; [reflexivity|]. exact H.
  - rewrite look_change_other by congruence. exact H.
Qed.
Lemma clock_step : forall base s ev reg st, stamped_by base reg = Some s ->
  (forall b, ev = HDelete b -> String.prefix b base = false) -> stamped_by base (fst (step ev (reg, st))) = Some s.
Proof.
  intros base s ev reg st H D. destruct ev as [b q|b q|b q|n h|n lvl|b s' f|b|n x|n x]; cbn [step fst] in *;
    try (apply clock_change; [exact H|intros _ g Hg; exact Hg]).
  - unfold check_readable. cbv zeta.
    assert (S1 : stamped_by base (change b (fun g => if negb (is_readable g) && negb (is_private b)
                                 then set_handlers (g_handlers g ++ [repo_handler q]) g else g) reg) = Some s).
    { apply clock_change; [exact H|]. intros _ g Hg. destruct (_ && _); exact Hg. }
    destruct (_ <=? _); [exact S1|]. apply clock_change; [exact S1|intros _ g Hg; exact Hg].
  - apply clock_change; [exact H|]. intros _ g Hg. rewrite Hg. exact Hg.
  - unfold stamped_by, get_logger, delete_loggers in *. cbn [reg_named].
    rewrite (look_filter (fun n => negb (String.prefix b n))), (D b eq_refl). exact H.
Qed.
Theorem clock_kept : forall base s reg st evs, stamped_by base reg = None ->
  (forall b, In (HDelete b) evs -> String.prefix b base = false) ->
  stamped_by base (fst (steps_of (HWrap base s true :: evs) (reg, st))) = Some s.
Proof.
  intros base s reg st evs N D. unfold steps_of. cbn [fold_left step].
  assert (H : stamped_by base (wrap_clock base s true reg) = Some s).
  { unfold wrap_clock, stamped_by. unfold get_logger at 1. rewrite look_change_same. unfold stamped_by in N. rewrite N. reflexivity. }
  revert H D. generalize (wrap_clock base s true reg) as reg0. revert st. induction evs as [|ev evs IH]; intros st reg0 H D; [exact H|].
  cbn [fold_left]. destruct (step ev (reg0, st)) as [reg1 st1] eqn:E.
  apply IH; [|intros b I; apply D; now right].
  assert (X := clock_step base s ev reg0 st H). rewrite E in X. apply X. intros b ->. apply D. now left.
Qed.

(** ** Other ways to set the repository *)
Lemma unused_get : forall r reg n, unused r reg -> free r (g_handlers (get_logger n reg)).
Proof.
  intros r reg n [_ U] h. unfold get_logger. destruct (look n (reg_named reg)) as [g|] eqn:E; [apply (U n g h E)|intros []].
Qed.
Lemma fresh_ready : forall base r reg f, unused r reg ->
  (exists pre post, g_handlers (f (get_logger base reg)) = pre ++ repo_handler r :: post /\
    (forall h, In h pre -> h_repo h = None) /\ free r post) -> 0 < g_level (f (get_logger base reg)) <= info ->
  ready base r (change base f reg).
Proof.
  intros base r reg f [U1 U2] (pre & post & H1 & H2 & H3) L. split; [exact U1|]. split.
  - intros n g D H. rewrite look_change_other in H by exact D. intros h. exact (U2 n g h H).
  - eexists _, pre, post. split; [apply look_change_same|]. tauto.
Qed.
Lemma set_repo_ready : forall base r reg, unused r reg -> open_level base reg -> ready base r (set_repo base r reg).
Proof.
  intros base r reg U L. apply fresh_ready; [exact U| |exact L].
  exists [], (filter (fun h => negb (has_repo h)) (g_handlers (get_logger base reg))).
  split; [reflexivity|]. split; [intros h []|]. intros h I. apply filter_In in I. exact (unused_get r reg base U h (proj1 I)).
Qed.

Theorem set_repo_keeps : forall base r task reg st evs, unused r reg -> open_level base reg -> Forall (harmless base r task) evs ->
  let w := steps_of (HSetRepo base r :: evs) (reg, st) in
  read_task (fst w) (snd w) base task = Ok (filter (fun x => r_task x =? task) (st r) ++ said task evs).
Proof.
  intros base r task reg st evs U L H. cbv zeta. unfold steps_of. cbn [fold_left step].
  destruct (steps_kept base r task evs (set_repo base r reg) st (set_repo_ready _ _ _ U L) H) as [A B]. unfold steps_of in A, B.
  rewrite (read_ready base r _ _ task A). f_equal. exact B.
Qed.

Lemma effective_same : forall base f reg, (forall g, g_level (f g) = g_level g) -> g_level (get_logger base reg) = 0 ->
  effective (lineage (change base f reg) base) = effective (lineage reg base).
Proof.
  intros base f reg F Z0. unfold lineage. destruct (up_head (String.length base) base) as (ms & -> & D). cbn [flat_map].
  rewrite look_change_same. cbn [reg_root change]. cbn [app effective]. rewrite F, Z0, Z.eqb_refl.
  assert (E : flat_map (fun m => match look m (reg_named (change base f reg)) with Some g => [g] | None => [] end) ms =
              flat_map (fun m => match look m (reg_named reg) with Some g => [g] | None => [] end) ms).
  { clear - D. induction ms as [|m ms IH]; [reflexivity|]. cbn [flat_map].
    rewrite look_change_other by (apply D; now left). f_equal. apply IH. intros m' I. apply D. now right. }
  rewrite E. unfold get_logger in Z0. destruct (look base (reg_named reg)) as [g|]; [|reflexivity].
  cbn [app effective]. rewrite Z0, Z.eqb_refl. reflexivity.
Qed.

Lemma change_twice : forall base f1 f2 reg, look base (reg_named (change base f2 (change base f1 reg))) = Some (f2 (f1 (get_logger base reg))).
Proof. intros. rewrite look_change_same. unfold get_logger at 1. now rewrite look_change_same. Qed.

Lemma check_new_ready : forall base r reg, unused r reg -> without_repo base reg -> is_private base = false ->
  open_level base reg \/ strict_above base reg -> ready base r (check_readable base r reg).
Proof.
  intros base r reg U W P L. unfold check_readable. rewrite P. cbn [negb andb].
  set (f1 := fun g => if negb (is_readable g) && true then set_handlers (g_handlers g ++ [repo_handler r]) g else g).
  assert (Rd : is_readable (get_logger base reg) = false).
  { unfold is_readable. destruct (existsb has_repo _) eqn:E; [|reflexivity]. apply existsb_exists in E.
    destruct E as (h & I & Hh). unfold has_repo in Hh. rewrite (W h I) in Hh. discriminate. }
  assert (F1 : f1 (get_logger base reg) = set_handlers (g_handlers (get_logger base reg) ++ [repo_handler r]) (get_logger base reg)).
  { unfold f1. now rewrite Rd. }
  assert (X : exists pre post, g_handlers (f1 (get_logger base reg)) = pre ++ repo_handler r :: post /\
    (forall h, In h pre -> h_repo h = None) /\ free r post).
  { exists (g_handlers (get_logger base reg)), []. rewrite F1. split; [reflexivity|]. split; [exact W|intros h []]. }
  cbv zeta. destruct L as [L|[L1 L2]].
  - assert (R1 : ready base r (change base f1 reg)).
    { apply fresh_ready; [exact U|exact X|]. rewrite F1. exact L. }
    destruct (_ <=? _); [exact R1|]. apply ready_same; [exact R1|]. intros g pre post H1 H2 H3 H4. exists pre, post.
    cbn [set_level g_handlers g_level]. unfold info. repeat split; try assumption; lia.
  - rewrite effective_same; [|intros g; unfold f1; destruct (_ && _); reflexivity|exact L1].
    destruct (Z.leb_spec (effective (lineage reg base)) info); [lia|].
    destruct X as (pre & post & H1 & H2 & H3). destruct U as [U1 U2]. split; [exact U1|]. split.
    + intros n g D Hn. rewrite !look_change_other in Hn by exact D. intros h. exact (U2 n g h Hn).
    + exists (set_level info (f1 (get_logger base reg))), pre, post. split; [apply change_twice|].
      split; [exact H1|]. split; [exact H2|]. split; [exact H3|]. cbn. unfold info. lia.
Qed.

Theorem check_keeps : forall base r task reg st evs, unused r reg -> without_repo base reg -> is_private base = false ->
  open_level base reg \/ strict_above base reg -> Forall (harmless base r task) evs ->
  let w := steps_of (HCheck base r :: evs) (reg, st) in
  read_task (fst w) (snd w) base task = Ok (filter (fun x => r_task x =? task) (st r) ++ said task evs).
Proof.
  intros base r task reg st evs U W P L H. cbv zeta. unfold steps_of. cbn [fold_left step].
  destruct (steps_kept base r task evs (check_readable base r reg) st (check_new_ready _ _ _ U W P L) H) as [A B]. unfold steps_of in A, B.
  rewrite (read_ready base r _ _ task A). f_equal. exact B.
Qed.
