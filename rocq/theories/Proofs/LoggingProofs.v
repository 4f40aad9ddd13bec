From Coq Require Import Bool Arith Lia ZifyBool List ZArith String Ascii.
From Verif Require Import Model.Base Model.Interval Model.Period Model.Condition Model.History Model.Logging
  Spec.LoggingSpec.
Import ListNotations.
Local Open Scope Z_scope.
Local Open Scope list_scope.

Definition free (r : Z) (hs : list handler) : Prop := forall h, In h hs -> h_repo h <> Some r.

(** The application is in charge of its logger *)
Definition ready (base : string) (r : Z) (reg : registry) : Prop :=
  free r (g_handlers (reg_root reg)) /\
  (forall n g, n <> base -> look n (reg_named reg) = Some g -> free r (g_handlers g)) /\
  exists g pre post, look base (reg_named reg) = Some g /\ g_handlers g = pre ++ repo_handler r :: post /\
    (forall h, In h pre -> h_repo h = None) /\ free r post /\ 0 < g_level g <= info.

Lemma look_put_same : forall n g ls, look n (put n g ls) = Some g.
Proof.
  intros n g ls. induction ls as [|[m h] ls IH]; cbn [put look].
  - now rewrite String.eqb_refl.
  - destruct (String.eqb m n) eqn:E; cbn [look]; rewrite E; [reflexivity|exact IH].
Qed.
Lemma look_put_other : forall n m g ls, m <> n -> look m (put n g ls) = look m ls.
Proof.
  intros n m g ls D. induction ls as [|[k h] ls IH]; cbn [put look].
  - destruct (String.eqb_spec n m); [congruence|reflexivity].
  - destruct (String.eqb_spec k n) as [->|E]; cbn [look].
    + destruct (String.eqb_spec n m); [congruence|reflexivity].
    + destruct (String.eqb k m); [reflexivity|exact IH].
Qed.

Lemma look_change_same : forall n f reg, look n (reg_named (change n f reg)) = Some (f (get_logger n reg)).
Proof. intros. unfold change. cbn [reg_named]. apply look_put_same. Qed.
Lemma look_change_other : forall n m f reg, m <> n -> look m (reg_named (change n f reg)) = look m (reg_named reg).
Proof. intros. unfold change. cbn [reg_named]. now apply look_put_other. Qed.

Lemma get_ready : forall base r reg, ready base r reg -> exists g pre post, get_logger base reg = g /\
  look base (reg_named reg) = Some g /\ g_handlers g = pre ++ repo_handler r :: post /\
    (forall h, In h pre -> h_repo h = None) /\ free r post /\ 0 < g_level g <= info.
Proof.
  intros base r reg (_ & _ & g & pre & post & L & H). exists g, pre, post.
  split; [unfold get_logger; now rewrite L|]. split; [exact L|exact H].
Qed.

(** Changing another logger *)
Lemma ready_other : forall base r reg n f, ready base r reg -> n <> base ->
  (forall g, free r (g_handlers g) -> free r (g_handlers (f g))) -> ready base r (change n f reg).
Proof.
  intros base r reg n f (R0 & R1 & g & pre & post & L & R2) D F. split; [exact R0|]. split.
  - intros m h M Hm. destruct (String.eqb_spec m n) as [->|E].
    + rewrite look_change_same in Hm. injection Hm as <-. apply F. unfold get_logger.
      destruct (look n (reg_named reg)) eqn:E; [now apply (R1 n)|intros x []].
    + rewrite look_change_other in Hm by exact E. exact (R1 m h M Hm).
  - exists g, pre, post. split; [|exact R2]. rewrite look_change_other by congruence. exact L.
Qed.
(** Changing that one without harm *)
Lemma ready_same : forall base r reg f, ready base r reg ->
  (forall g pre post, g_handlers g = pre ++ repo_handler r :: post -> (forall h, In h pre -> h_repo h = None) -> free r post ->
     0 < g_level g <= info ->
     exists pre' post', g_handlers (f g) = pre' ++ repo_handler r :: post' /\ (forall h, In h pre' -> h_repo h = None) /\
       free r post' /\ 0 < g_level (f g) <= info) -> ready base r (change base f reg).
Proof.
  intros base r reg f R F. destruct (get_ready _ _ _ R) as (g & pre & post & E & L & H1 & H2 & H3 & H4).
  destruct R as (R0 & R1 & _). split; [exact R0|]. split.
  - intros m h M Hm. rewrite look_change_other in Hm by exact M. exact (R1 m h M Hm).
  - destruct (F g pre post H1 H2 H3 H4) as (pre' & post' & G). exists (f g), pre', post'.
    split; [|exact G]. rewrite look_change_same, E. reflexivity.
Qed.

Lemma shorter : forall s p, before_last_dot s = Some p -> (String.length p < String.length s)%nat.
Proof.
  induction s as [|c s IH]; cbn [before_last_dot]; intros p H; [discriminate|].
  destruct (before_last_dot s) as [q|].
  - injection H as <-. cbn [String.length]. specialize (IH q eq_refl). lia.
  - destruct (Ascii.eqb c "."); [|discriminate]. injection H as <-. cbn. lia.
Qed.
Lemma up_shorter : forall fuel n m, In m (names_up fuel n) -> (String.length m <= String.length n)%nat.
Proof.
  induction fuel as [|fuel IH]; intros n m; cbn [names_up].
  - intros [<- |[]]. lia.
  - intros [<- |I]; [lia|]. destruct (before_last_dot n) as [p|] eqn:E; [|destruct I].
    apply shorter in E. specialize (IH p m I). lia.
Qed.
Lemma up_head : forall fuel n, exists ms, names_up fuel n = n :: ms /\ forall m, In m ms -> m <> n.
Proof.
  intros [|fuel] n; cbn [names_up].
  - exists []. split; [reflexivity|intros m []].
  - eexists. split; [reflexivity|]. intros m I. destruct (before_last_dot n) as [p|] eqn:E; [|destruct I].
    apply shorter in E. apply up_shorter in I. intros ->. lia.
Qed.

Lemma lineage_ready : forall base r reg, ready base r reg -> exists g rest,
  lineage reg base = g :: rest /\ look base (reg_named reg) = Some g /\ forall g', In g' rest -> free r (g_handlers g').
Proof.
  intros base r reg R. destruct (get_ready _ _ _ R) as (g & pre & post & _ & L & _). destruct R as (R0 & R1 & _).
  unfold lineage. destruct (up_head (String.length base) base) as (ms & -> & D). cbn [flat_map]. rewrite L.
  exists g, (flat_map (fun m => match look m (reg_named reg) with Some g => [g] | None => [] end) ms ++ [reg_root reg]).
  split; [reflexivity|]. split; [reflexivity|]. intros g' I. apply in_app_or in I. destruct I as [I|[<- |[]]]; [|exact R0].
  apply in_flat_map in I. destruct I as (m & Im & I). destruct (look m (reg_named reg)) as [g0|] eqn:E; [|destruct I].
  destruct I as [<- |[]]. apply (R1 m); [exact (D m Im)|exact E].
Qed.

(** What a record adds to the repository *)
Lemma emit_free : forall lvl x hs st r, free r hs -> fold_left (emit lvl x) hs st r = st r.
Proof.
  intros lvl x hs. induction hs as [|h hs IH]; intros st r F; [reflexivity|]. cbn [fold_left].
  rewrite IH by (intros h' I; apply F; now right). unfold emit. specialize (F h (or_introl eq_refl)).
  destruct (h_repo h) as [q|]; [|reflexivity]. destruct (h_level h <=? lvl); [|reflexivity].
  unfold add_to. destruct (Z.eqb_spec r q); [subst; congruence|reflexivity].
Qed.
Lemma emit_only : forall lvl x hs st r, exists k, fold_left (emit lvl x) hs st r = st r ++ repeat x k.
Proof.
  intros lvl x hs. induction hs as [|h hs IH]; intros st r.
  - exists O. cbn. now rewrite app_nil_r.
  - cbn [fold_left]. destruct (IH (emit lvl x st h) r) as [k E]. rewrite E. unfold emit.
    destruct (h_repo h) as [q|]; [|now exists k]. destruct (h_level h <=? lvl); [|now exists k].
    unfold add_to. destruct (r =? q); [|now exists k]. exists (S k). rewrite <- app_assoc. reflexivity.
Qed.
Lemma reached_free : forall r gs, (forall g, In g gs -> free r (g_handlers g)) -> free r (reached gs).
Proof.
  intros r gs H. induction gs as [|g gs IH]; [intros h []|]. cbn [reached]. intros h I. apply in_app_or in I.
  destruct I as [I|I]; [exact (H g (or_introl eq_refl) h I)|].
  destruct (g_propagate g); [|destruct I]. apply (IH (fun g' I' => H g' (or_intror I')) h I).
Qed.
Lemma free_app : forall r a b, free r (a ++ b) <-> free r a /\ free r b.
Proof.
  intros r a b. unfold free. split.
  - intros H. split; intros h I; apply H; apply in_or_app; [now left|now right].
  - intros [A B] h I. apply in_app_or in I. destruct I; [now apply A|now apply B].
Qed.
Lemma none_free : forall r hs, (forall h, In h hs -> h_repo h = None) -> free r hs.
Proof. intros r hs H h I. rewrite (H h I). discriminate. Qed.

Lemma handle_once : forall base r reg lvl x st, ready base r reg -> 0 <= lvl ->
  handle reg base lvl x st r = st r ++ [x].
Proof.
  intros base r reg lvl x st R Hl. destruct (lineage_ready _ _ _ R) as (g & rest & E & L & F).
  destruct R as (_ & _ & g' & pre & post & L' & H1 & H2 & H3 & H4). rewrite L in L'. injection L' as <-.
  unfold handle. rewrite E. cbn [reached]. rewrite H1, <- app_assoc. rewrite fold_left_app. cbn [app fold_left].
  rewrite fold_left_app.
  assert (F' : free r (if g_propagate g then reached rest else [])).
  { destruct (g_propagate g); [now apply reached_free|intros h []]. }
  rewrite (emit_free _ _ _ _ _ F'). rewrite (emit_free _ _ _ _ _ H3).
  unfold emit at 1. cbn [repo_handler h_repo h_level]. destruct (Z.leb_spec 0 lvl); [|lia].
  unfold add_to. rewrite Z.eqb_refl. now rewrite (emit_free _ _ _ _ _ (none_free r pre H2)).
Qed.

Lemma level_positive : forall a, 20 <= level_of a.
Proof. intros []; unfold level_of, info; lia. Qed.
Lemma log_once : forall base r reg x st, ready base r reg -> log_action reg base x st r = st r ++ [x].
Proof.
  intros base r reg x st R. unfold log_action. destruct (lineage_ready _ _ _ R) as (g & rest & E & L & F).
  assert (Ef : effective (lineage reg base) <= level_of (r_action x)).
  { rewrite E. cbn [effective]. destruct R as (_ & _ & g' & pre & post & L' & _ & _ & _ & H4). rewrite L in L'. injection L' as <-.
    assert (P := level_positive (r_action x)). unfold info in H4. destruct (Z.eqb_spec (g_level g) 0); lia. }
  destruct (Z.leb_spec (effective (lineage reg base)) (level_of (r_action x))); [|lia].
  apply handle_once; [exact R|]. assert (P := level_positive (r_action x)). lia.
Qed.
Lemma log_only : forall reg n x st r, exists k, log_action reg n x st r = st r ++ repeat x k.
Proof.
  intros reg n x st r. unfold log_action. destruct (_ <=? _); [apply emit_only|exists O; now rewrite app_nil_r].
Qed.

Lemma filter_repeat : forall (f : record -> bool) x k, f x = false -> filter f (repeat x k) = [].
Proof. intros f x k H. induction k as [|k IH]; [reflexivity|]. cbn. now rewrite H. Qed.

Lemma set_handlers_level : forall hs g, g_level (set_handlers hs g) = g_level g.
Proof. reflexivity. Qed.

Lemma prefix_refl : forall s, String.prefix s s = true.
Proof. induction s as [|c s IH]; [reflexivity|]. cbn. destruct (ascii_dec c c); [exact IH|congruence]. Qed.

Lemma look_filter : forall (p : string -> bool) ls n,
  look n (filter (fun ng => p (fst ng)) ls) = if p n then look n ls else None.
Proof.
  intros p ls n. induction ls as [|[m g] ls IH]; cbn [filter look fst]; [now destruct (p n)|].
  destruct (p m) eqn:E; cbn [look].
  - destruct (String.eqb_spec m n) as [->|D]; [now rewrite E|exact IH].
  - destruct (String.eqb_spec m n) as [->|D]; [now rewrite E, IH, E|exact IH].
Qed.

Lemma in_pre_none_readable : forall r pre post, existsb has_repo (pre ++ repo_handler r :: post) = true.
Proof. intros. rewrite existsb_app. cbn. apply orb_true_r. Qed.

Lemma ready_check : forall base r reg b q, ready base r reg -> q <> r -> ready base r (check_readable b q reg).
Proof.
  intros base r reg b q R D. unfold check_readable.
  set (f1 := fun g => if negb (is_readable g) && negb (is_private b) then set_handlers (g_handlers g ++ [repo_handler q]) g else g).
  assert (R1 : ready base r (change b f1 reg)).
  { destruct (String.eqb_spec b base) as [->|E].
    - apply ready_same; [exact R|]. intros g pre post H1 H2 H3 H4. exists pre, post. unfold f1, is_readable.
      rewrite H1, in_pre_none_readable. cbn [negb andb]. tauto.
    - apply ready_other; [exact R|exact E|]. intros g F. unfold f1. destruct (_ && _); [|exact F].
      cbn [set_handlers g_handlers]. apply free_app. split; [exact F|]. intros h [<- |[]]. cbn. congruence. }
  cbv zeta. destruct (_ <=? _); [exact R1|].
  destruct (String.eqb_spec b base) as [->|E].
  - apply ready_same; [exact R1|]. intros g pre post H1 H2 H3 H4. exists pre, post.
    cbn [set_level g_handlers g_level]. unfold info. repeat split; try assumption; lia.
  - apply ready_other; [exact R1|exact E|]. intros g F. exact F.
Qed.

Lemma ready_step : forall base r task reg st ev, ready base r reg -> harmless base r task ev ->
  ready base r (fst (step ev (reg, st))).
Proof.
  intros base r task reg st ev R H. destruct ev as [b q|b q|b q|n h|n lvl|b s f|b|n x|n x]; cbn [harmless step fst] in *.
  - destruct H as [D1 D2]. unfold new_app. apply ready_other; [exact R|exact D1|]. intros g F.
    cbn [set_handlers set_level g_handlers]. intros h [<- |I]; [cbn; congruence|exact (F h I)].
  - now apply ready_check.
  - destruct H as [D1 D2]. unfold set_repo. apply ready_other; [exact R|exact D1|]. intros g F.
    cbn [set_handlers g_handlers]. intros h [<- |I]; [cbn; congruence|]. apply filter_In in I. exact (F h (proj1 I)).
  - destruct (String.eqb_spec n base) as [->|E].
    + apply ready_same; [exact R|]. intros g pre post H1 H2 H3 H4. exists pre, (post ++ [h]).
      cbn [set_handlers g_handlers g_level]. rewrite H1, <- app_assoc. cbn [app].
      split; [reflexivity|]. split; [exact H2|]. split; [|exact H4].
      apply free_app. split; [exact H3|]. intros h' [<- |[]]. exact H.
    + apply ready_other; [exact R|exact E|]. intros g F. cbn [set_handlers g_handlers]. apply free_app.
      split; [exact F|]. intros h' [<- |[]]. exact H.
  - destruct (String.eqb_spec n base) as [->|E].
    + apply ready_same; [exact R|]. intros g pre post H1 H2 H3 H4. exists pre, post. cbn [set_level g_handlers g_level].
      repeat split; try assumption; specialize (H eq_refl); lia.
    + apply ready_other; [exact R|exact E|]. intros g F. exact F.
  - unfold wrap_clock. destruct (String.eqb_spec b base) as [->|E].
    + apply ready_same; [exact R|]. intros g pre post H1 H2 H3 H4. exists pre, post.
      destruct (g_clock g); [tauto|]. destruct f; cbn [set_clock g_handlers g_level]; tauto.
    + apply ready_other; [exact R|exact E|]. intros g F. destruct (g_clock g); [exact F|]. destruct f; exact F.
  - destruct R as (R0 & R1 & g & pre & post & L & R2). unfold delete_loggers. split; [exact R0|]. cbn [reg_named].
    split.
    + intros n h D Hn. rewrite (look_filter (fun n => negb (String.prefix b n))) in Hn.
      destruct (negb (String.prefix b n)); [exact (R1 n h D Hn)|discriminate].
    + exists g, pre, post. split; [|exact R2]. rewrite (look_filter (fun n => negb (String.prefix b n))).
      rewrite H. exact L.
  - destruct (String.eqb_spec n base) as [->|E].
    + apply ready_same; [exact R|]. intros g pre post H1 H2 H3 H4. exists pre, post. tauto.
    + apply ready_other; [exact R|exact E|]. intros g F. exact F.
  - destruct (String.eqb_spec n base) as [->|E].
    + apply ready_same; [exact R|]. intros g pre post H1 H2 H3 H4. exists pre, post. tauto.
    + apply ready_other; [exact R|exact E|]. intros g F. exact F.
Qed.

Definition own (task : Z) (x : record) : bool := r_task x =? task.
Lemma stores_step : forall base r task reg st ev, ready base r reg -> harmless base r task ev ->
  filter (own task) (snd (step ev (reg, st)) r) = filter (own task) (st r) ++ said task [ev].
Proof.
  intros base r task reg st ev R H.
  assert (R' := ready_step base r task reg st ev R H).
  destruct ev as [b q|b q|b q|n h|n lvl|b s f|b|n x|n x]; cbn [step snd said]; try (now rewrite app_nil_r).
  - cbn [harmless step fst] in *. unfold own at 2.
    destruct (Z.eqb_spec (r_task x) task) as [E|E].
    + rewrite (H E) in *. rewrite (log_once base r _ x st R'). rewrite filter_app. cbn [filter]. unfold own at 2.
      now rewrite E, Z.eqb_refl.
    + destruct (log_only (change n (fun g => g) reg) n x st r) as [k ->]. rewrite filter_app, filter_repeat; [reflexivity|].
      unfold own. now apply Z.eqb_neq.
  - cbn [harmless step fst] in *.
    destruct (Z.eqb_spec (r_task x) task) as [E|E].
    + rewrite (H E) in *. rewrite handle_once; [|exact R'|assert (P := level_positive (r_action x)); lia].
      rewrite filter_app. cbn [filter]. unfold own at 2. now rewrite E, Z.eqb_refl.
    + unfold handle. destruct (emit_only (level_of (r_action x)) x (reached (lineage (change n (fun g => g) reg) n)) st r) as [k ->].
      rewrite filter_app, filter_repeat; [reflexivity|]. unfold own. now apply Z.eqb_neq.
Qed.

Lemma said_cons : forall task ev evs, said task (ev :: evs) = said task [ev] ++ said task evs.
Proof. intros task [] evs; cbn [said]; rewrite ?app_nil_r; reflexivity. Qed.

Lemma steps_kept : forall base r task evs reg st, ready base r reg -> Forall (harmless base r task) evs ->
  ready base r (fst (steps_of evs (reg, st))) /\
  filter (own task) (snd (steps_of evs (reg, st)) r) = filter (own task) (st r) ++ said task evs.
Proof.
  intros base r task evs. induction evs as [|ev evs IH]; intros reg st R H.
  - split; [exact R|]. cbn. now rewrite app_nil_r.
  - inversion_clear H as [|? ? H1 H2]. unfold steps_of in *. cbn [fold_left].
    destruct (step ev (reg, st)) as [reg' st'] eqn:E.
    assert (R' := ready_step base r task reg st ev R H1). assert (S' := stores_step base r task reg st ev R H1).
    rewrite E in R', S'. cbn [fst snd] in R', S'. destruct (IH reg' st' R' H2) as [A B]. split; [exact A|].
    rewrite B, S', <- app_assoc. rewrite (said_cons task ev evs). reflexivity.
Qed.

Lemma first_ready : forall r pre post, (forall h, In h pre -> h_repo h = None) -> first_repo (pre ++ repo_handler r :: post) = Ok r.
Proof.
  intros r pre post H. induction pre as [|h pre IH]; [reflexivity|]. cbn [app first_repo].
  rewrite (H h (or_introl eq_refl)). apply IH. intros h' I. apply H. now right.
Qed.
Lemma read_ready : forall base r reg st task, ready base r reg -> read_task reg st base task = Ok (filter (own task) (st r)).
Proof.
  intros base r reg st task R. destruct (get_ready _ _ _ R) as (g & pre & post & E & _ & H1 & H2 & _).
  unfold read_task. rewrite E, H1, (first_ready r pre post H2). reflexivity.
Qed.

Lemma app_ready : forall base r reg, unused r reg -> ready base r (new_app base r reg).
Proof.
  intros base r reg [U1 U2]. split; [exact U1|]. split.
  - intros n g D H. unfold new_app in H. rewrite look_change_other in H by exact D. intros h. exact (U2 n g h H).
  - exists (set_handlers (repo_handler r :: g_handlers (get_logger base reg)) (set_level info (get_logger base reg))), [], (g_handlers (get_logger base reg)).
    split; [unfold new_app; rewrite look_change_same; reflexivity|]. split; [reflexivity|]. split; [intros h []|]. split.
    + unfold get_logger. destruct (look base (reg_named reg)) as [g|] eqn:E; [|intros h []]. intros h. exact (U2 base g h E).
    + cbn. unfold info. lia.
Qed.

Theorem app_keeps : forall base r task reg st evs, unused r reg -> Forall (harmless base r task) evs ->
  let w := steps_of (HApp base r :: evs) (reg, st) in
  read_task (fst w) (snd w) base task = Ok (filter (fun x => r_task x =? task) (st r) ++ said task evs).
Proof.
  intros base r task reg st evs U H. cbv zeta. unfold steps_of. cbn [fold_left step].
  destruct (steps_kept base r task evs (new_app base r reg) st (app_ready _ _ _ U) H) as [A B]. unfold steps_of in A, B.
  rewrite (read_ready base r _ _ task A). f_equal. exact B.
Qed.
