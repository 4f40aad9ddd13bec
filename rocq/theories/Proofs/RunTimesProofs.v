(** Proofs about the times on a task's records. *)
From Coq Require Import ZArith List Bool Sorted Arith QArith Lia ZifyBool.
From Verif Require Import Model.Base Model.Duration Model.RunTimes Spec.DurationSpec Spec.RunTimesSpec Proofs.DurationProofs.
Import ListNotations.
Open Scope Z_scope.

Lemma steps_app force x l l' : do_steps force x (l ++ l') = do_steps force (do_steps force x l) l'.
Proof. apply fold_left_app. Qed.

Lemma rev_filter_last l r : is_run (tr_action r) = true -> forall k, Forall (fun o => tr_action o <> ARun) k ->
  last_from_log (l ++ r :: k) = Some (tr_created r).
Proof.
  intros R k K. unfold last_from_log. rewrite rev_app_distr. cbn [rev].
  assert (E : forall m m', Forall (fun o => tr_action o <> ARun) m -> filter (fun r => is_run (tr_action r)) (m ++ m') = filter (fun r => is_run (tr_action r)) m').
  { intros m m' H. induction H as [|o m H F IH]; [reflexivity|]. cbn [filter app]. destruct (tr_action o) eqn:?; cbn [is_run]; [congruence|exact IH..]. }
  rewrite <- app_assoc. rewrite E; [|now apply Forall_rev]. cbn [app filter]. rewrite R. reflexivity.
Qed.

(** Between: the start noted here stays *)
Definition kept (h : Z) (h' : Z) (r : trec) (l0 : list trec) (made : nat -> Z) (x : times) : Prop :=
  (x_here x = Some h \/ x_here x = Some h') /\ (exists k, x_log x = l0 ++ r :: k /\ Forall (fun o => tr_action o <> ARun) k) /\
  none_waiting x /\ x_made x = made.

Lemma kept_step force h r l0 made x s : tr_action r = ARun -> no_begin s -> outcome_step s ->
  (force = false -> x_here x = Some h) ->
  kept h (tr_created r) r l0 made x -> kept h (tr_created r) r l0 made (do_step force x s) /\ (force = false -> x_here (do_step force x s) = Some h).
Proof.
  intros R N O F [H [[k [L K]] [W M]]].
  destruct x as [here child md log queue]; cbn [x_here x_log x_made] in *.
  destruct s as [u c|u c|u p c c' ok|u tg p a c c' ok|ok|]; cbn in N; try contradiction.
  - destruct p; cbn [do_step].
    + unfold finish_start, finish_record; cbn [x_log x_here]. rewrite L. rewrite rev_filter_last by (rewrite ?R; auto).
      split; [|destruct force; [discriminate|auto]].
      split; [destruct force; cbn; auto|]. split; [|split; [exact W|exact M]]. cbn [x_log].
      destruct ok; [|exists k; auto].
      eexists (k ++ [_]). split; [rewrite <- app_assoc; reflexivity|]. apply Forall_app. split; [exact K|]. constructor; [exact O|constructor].
    + split; [|exact F]. split; [exact H|]. split; [exists k; auto|]. split; [|exact M].
      unfold none_waiting in *; cbn [x_queue] in *. destruct ok; [|exact W]. apply Forall_app. split; [exact W|]. constructor; [exact O|constructor].
  - cbn [do_step]. destruct queue as [|q queue].
    + split; [|exact F]. split; [exact H|]. split; [exists k; auto|]. split; [exact W|exact M].
    + unfold none_waiting in W; cbn [x_queue] in W. inversion W as [|? ? Q W']; subst.
      assert (E : is_run (tr_action q) = false) by (destruct (tr_action q) eqn:?; cbn; congruence). rewrite E.
      split; [|exact F]. split; [exact H|]. split; [|split; [exact W'|reflexivity]]. cbn [x_log].
      destruct ok; [|exists k; auto]. exists (k ++ [q]). split; [rewrite <- app_assoc; reflexivity|]. apply Forall_app. auto.
Qed.
Lemma kept_steps force h r l0 made l : forall x, tr_action r = ARun -> Forall no_begin l -> Forall outcome_step l ->
  (force = false -> x_here x = Some h) -> kept h (tr_created r) r l0 made x ->
  kept h (tr_created r) r l0 made (do_steps force x l) /\ (force = false -> x_here (do_steps force x l) = Some h).
Proof.
  induction l as [|s l IH]; intros x R N O F K; [auto|]. inversion N; inversion O; subst.
  destruct (kept_step force h r l0 made x s) as [K' F']; auto. apply (IH (do_step force x s)); auto.
Qed.

Theorem latest force x u w c c' mid tagged a d d' : x_made x u <= c <= c' -> none_waiting x ->
  Forall no_begin mid -> Forall outcome_step mid ->
  exists r between o, x_log (do_steps force x (Begin u Here c c' true :: mid ++ [Finish w tagged Here a d d' true])) = x_log x ++ r :: between ++ [o] /\
    starts r u (x_made x u) c' /\ tr_action o = a /\ tr_run o = (if tagged then Some w else None) /\
    exists s, lasted o s d /\ x_made x u <= s <= c'.
Proof.
  intros C W N O.
  change (Begin u Here c c' true :: mid ++ [Finish w tagged Here a d d' true]) with ([Begin u Here c c' true] ++ mid ++ [Finish w tagged Here a d d' true]).
  rewrite !steps_app. set (y := do_steps force x [Begin u Here c c' true]).
  set (r := begin_record u c c' x).
  assert (Y : kept c c' r (x_log x) (x_made x) y /\ (force = false -> x_here y = Some c)).
  { unfold y, r. destruct x as [here child md log queue]. cbn. split; [|auto]. split; [auto|]. split; [exists []; auto|]. split; [exact W|reflexivity]. }
  destruct Y as [Y F].
  destruct (kept_steps force c r (x_log x) (x_made x) mid y eq_refl N O F Y) as [[H [[k [L K]] [_ _]]] F'].
  set (z := do_steps force y mid) in *.
  exists r, k. exists (finish_record force w tagged Here a d d' z).
  split. { cbn. destruct z as [here child md log queue]. cbn in *. rewrite L, <- app_assoc. reflexivity. }
  split; [repeat split|]. split; [reflexivity|]. split; [reflexivity|].
  assert (E : exists s, finish_start force Here w z = Some s /\ x_made x u <= s <= c').
  { unfold finish_start. destruct force.
    - rewrite L, rev_filter_last by (auto). exists c'. split; [reflexivity|lia].
    - exists c. split; [auto|lia]. }
  destruct E as [s [E B]]. exists s. unfold lasted, finish_record; cbn [tr_start tr_end tr_runtime]. rewrite E. auto.
Qed.

Theorem alone force x u c c' mid tagged a d d' : x_made x u <= c <= c' -> none_waiting x ->
  Forall no_begin mid -> Forall outcome_step mid ->
  exists r between o, x_log (do_steps force x (Begin u Here c c' true :: mid ++ [Finish u tagged Here a d d' true])) = x_log x ++ r :: between ++ [o] /\
    starts r u (x_made x u) c' /\ tr_action o = a /\ tr_run o = (if tagged then Some u else None) /\
    exists s, lasted o s d /\ x_made x u <= s <= c'.
Proof. apply latest. Qed.

(** A start that came from a child process *)
Theorem terminated force x u r q mid w tagged a d d' : x_queue x = r :: q -> starts r u (x_made x u) (tr_created r) ->
  Forall (fun r => tr_action r <> ARun) q -> Forall no_begin mid -> Forall outcome_step mid ->
  exists between o, x_log (do_steps force x (Receive true :: mid ++ [Finish w tagged Here a d d' true])) = x_log x ++ r :: between ++ [o] /\
    tr_action o = a /\ tr_run o = (if tagged then Some w else None) /\ lasted o (tr_created r) d.
Proof.
  intros Q [R _] W N O.
  change (Receive true :: mid ++ [Finish w tagged Here a d d' true]) with ([Receive true] ++ mid ++ [Finish w tagged Here a d d' true]).
  rewrite !steps_app. set (y := do_steps force x [Receive true]).
  assert (Y : kept (tr_created r) (tr_created r) r (x_log x) (x_made x) y /\ (force = false -> x_here y = Some (tr_created r))).
  { unfold y. destruct x as [here child md log queue]. cbn in Q. subst queue. cbn. rewrite R. cbn. split; [|auto].
    split; [auto|]. split; [exists []; auto|]. split; [exact W|reflexivity]. }
  destruct Y as [Y F].
  destruct (kept_steps force (tr_created r) r (x_log x) (x_made x) mid y R N O F Y) as [[H [[k [L K]] [_ _]]] F'].
  set (z := do_steps force y mid) in *.
  exists k, (finish_record force w tagged Here a d d' z).
  split. { cbn. destruct z as [here child md log queue]. cbn in *. rewrite L, <- app_assoc. reflexivity. }
  split; [reflexivity|]. split; [reflexivity|].
  assert (E : finish_start force Here w z = Some (tr_created r)).
  { unfold finish_start. destruct force; [|auto]. rewrite L, rev_filter_last by (rewrite ?R; auto). reflexivity. }
  unfold lasted, finish_record; cbn [tr_start tr_end tr_runtime]. rewrite E. auto.
Qed.
(** A run that was not ended when the program was *)
Theorem crashed force x l r k u tagged d d' : x_log x = l ++ r :: k -> tr_action r = ARun -> Forall (fun r => tr_action r <> ARun) k ->
  exists o, x_log (do_steps force x [Load; Finish u tagged Here ACrash d d' true]) = x_log x ++ [o] /\ tr_action o = ACrash /\ lasted o (tr_created r) d.
Proof.
  intros L R K. destruct x as [here child md log queue]. cbn in L. subst log.
  exists (finish_record force u tagged Here ACrash d d' (do_step force (Times here child md (l ++ r :: k) queue) Load)).
  split; [reflexivity|]. split; [reflexivity|]. unfold lasted, finish_record, finish_start; cbn [do_step tr_start tr_end tr_runtime x_here x_log].
  rewrite rev_filter_last by (rewrite ?R; auto). destruct force; auto.
Qed.

(** In a child process *)
Lemma child_step u x s v : not_child u s -> x_child x u = v -> x_child (do_step false x s) u = v.
Proof.
  intros N H. destruct x as [here child md log queue]. cbn [x_child] in H.
  destruct s as [w c|w c|w p c c' ok|w tg p a c c' ok|ok|]; cbn [do_step]; try exact H.
  - destruct p; cbn; [exact H|]. unfold upd. cbn in N. destruct (Nat.eqb u w) eqn:E; [apply Nat.eqb_eq in E; congruence|exact H].
  - destruct p; exact H.
  - destruct queue; exact H.
Qed.
Lemma child_steps u l : forall x v, Forall (not_child u) l -> x_child x u = v -> x_child (do_steps false x l) u = v.
Proof.
  induction l as [|s l IH]; intros x v N H; [exact H|]. inversion N; subst. apply (IH (do_step false x s)); [assumption|]. apply child_step; auto.
Qed.
Lemma record_step force x s o : written s -> In o (x_log x ++ x_queue x) -> In o (x_log (do_step force x s) ++ x_queue (do_step force x s)).
Proof.
  intros W H. destruct x as [here child md log queue]. cbn [x_log x_queue] in H.
  destruct s as [w c|w c|w p c c' ok|w tg p a c c' ok|ok|]; cbn [do_step]; try exact H.
  - destruct p; cbn [x_log x_queue]; destruct ok; try exact H; rewrite ?in_app_iff in *; tauto.
  - destruct p; cbn [x_log x_queue]; destruct ok; try exact H; rewrite ?in_app_iff in *; tauto.
  - destruct queue as [|q queue]; [exact H|]. cbn in W. subst ok. cbn [x_log x_queue]. rewrite ?in_app_iff in *. cbn [In] in *. tauto.
Qed.
Lemma record_steps force l : forall x o, Forall written l -> In o (x_log x ++ x_queue x) ->
  In o (x_log (do_steps force x l) ++ x_queue (do_steps force x l)).
Proof.
  induction l as [|s l IH]; intros x o W H; [exact H|]. inversion W; subst. apply (IH (do_step force x s)); [assumption|]. apply record_step; assumption.
Qed.
Theorem in_child x u c c' mid tagged a d d' after : Forall (not_child u) mid -> Forall written after ->
  exists o, In o (x_log (do_steps false x (Begin u Child c c' true :: mid ++ Finish u tagged Child a d d' true :: after)) ++
                 x_queue (do_steps false x (Begin u Child c c' true :: mid ++ Finish u tagged Child a d d' true :: after))) /\
    tr_action o = a /\ tr_run o = (if tagged then Some u else None) /\ tr_created o = d' /\ lasted o c d.
Proof.
  intros N W.
  change (Begin u Child c c' true :: mid ++ Finish u tagged Child a d d' true :: after)
    with ([Begin u Child c c' true] ++ mid ++ [Finish u tagged Child a d d' true] ++ after).
  rewrite !steps_app. set (y := do_steps false x [Begin u Child c c' true]).
  assert (Y : x_child y u = Some c). { unfold y. destruct x. cbn. unfold upd. rewrite Nat.eqb_refl. reflexivity. }
  apply (child_steps u mid) in Y; [|exact N]. set (z := do_steps false y mid) in *.
  exists (finish_record false u tagged Child a d d' z). split.
  - apply record_steps; [exact W|]. destruct z as [here child md log queue]. cbn. apply in_app_iff. right. apply in_app_iff. right. now left.
  - repeat split. all: unfold finish_record, finish_start; cbn; rewrite Y; reflexivity.
Qed.

(** Runtimes are consistent and not negative *)
Definition before (b : Z) (o : option Z) : Prop := match o with Some t => t <= b | None => True end.
Definition fine (b : Z) (r : trec) : Prop :=
  (tr_action r = ARun -> tr_created r <= b) /\
  (tr_action r <> ARun -> exists e, tr_end r = Some e /\ tr_runtime r = option_map (fun s => e - s) (tr_start r) /\
     (forall s, tr_start r = Some s -> s <= e) /\ e <= tr_created r).
Definition sound (b : Z) (x : times) : Prop :=
  before b (x_here x) /\ (forall u, before b (x_child x u)) /\ Forall (fine b) (x_log x) /\ Forall (fine b) (x_queue x).
Lemma before_le b b' o : b <= b' -> before b o -> before b' o. Proof. destruct o; cbn; lia. Qed.
Lemma fine_le b b' r : b <= b' -> fine b r -> fine b' r.
Proof. intros L [A B]. split; [intros E; specialize (A E); lia|exact B]. Qed.
Lemma sound_le b b' x : b <= b' -> sound b x -> sound b' x.
Proof.
  intros L [A [B [C D]]]. split; [|split; [|split]].
  - eapply before_le; eassumption.
  - intros u. eapply before_le; [exact L|apply B].
  - eapply Forall_impl; [|exact C]. intros r. apply fine_le; exact L.
  - eapply Forall_impl; [|exact D]. intros r. apply fine_le; exact L.
Qed.
Lemma last_before b l : Forall (fine b) l -> before b (last_from_log l).
Proof.
  intros F. unfold last_from_log. destruct (filter _ (rev l)) as [|r k] eqn:E; [exact I|]. cbn.
  assert (H : In r (filter (fun r => is_run (tr_action r)) (rev l))) by (rewrite E; now left).
  apply filter_In in H as [H R]. apply in_rev in H. rewrite Forall_forall in F. apply (F r H). destruct (tr_action r); cbn in R; congruence.
Qed.
Lemma sound_step force b x s : outcome_step s -> sound b x -> (forall c, In c (reads s) -> b <= c) -> StronglySorted Z.le (reads s) ->
  sound (List.last (reads s) b) (do_step force x s).
Proof.
  intros O S G T. destruct x as [here child md log queue].
  destruct s as [w c|w c|w p c c' ok|w tg p a c c' ok|ok|]; cbn [reads List.last] in *.
  - apply (sound_le b); [apply G; now left|]. exact S.
  - pose proof (G c (or_introl eq_refl)) as L. apply (sound_le b c) in S; [|exact L]. destruct S as [A [B [C D]]].
    split; [cbn; lia|]. auto.
  - assert (L : b <= c) by (apply G; now left). assert (L' : c <= c'). { inversion T as [|? ? _ F]; subst. inversion F; assumption. }
    apply (sound_le b c') in S; [|lia]. destruct S as [A [B [C D]]]. cbn [x_here x_child x_log x_queue] in *.
    assert (FR : forall m, fine c' (TRec ARun (Some w) m None None c')) by (intros m; split; cbn; [lia|congruence]).
    destruct p; cbn [do_step]; (split; [|split; [|split]]); cbn [x_here x_child x_log x_queue]; auto.
    + destruct ok; [|exact C]. apply Forall_app. split; [exact C|]. constructor; [apply FR|constructor].
    + intros u. unfold upd. destruct (Nat.eqb u w); [exact L'|apply B].
    + destruct ok; [|exact D]. apply Forall_app. split; [exact D|]. constructor; [apply FR|constructor].
  - assert (L : b <= c) by (apply G; now left). assert (L' : c <= c'). { inversion T as [|? ? _ F]; subst. inversion F; assumption. }
    pose proof S as S0. apply (sound_le b c') in S; [|lia]. destruct S as [A [B [C D]]]. cbn [x_here x_child x_log x_queue] in *.
    destruct S0 as [A0 [B0 [C0 _]]]. cbn [x_here x_child x_log x_queue] in *.
    assert (FS : before b (finish_start force p w (Times here child md log queue))).
    { unfold finish_start. destruct p; destruct force; cbn; auto. apply last_before. exact C0. }
    assert (FR : fine c' (finish_record force w tg p a c c' (Times here child md log queue))).
    { split; cbn [finish_record tr_action]; [intros E; cbn in O; congruence|]. intros _. exists c. cbn [finish_record tr_end tr_runtime tr_start tr_created].
      split; [reflexivity|]. split; [reflexivity|]. split; [|exact L']. intros s E. rewrite E in FS. cbn in FS. lia. }
    destruct p; cbn [do_step]; (split; [|split; [|split]]); cbn [x_here x_child x_log x_queue]; auto.
    + destruct force; [|exact A]. eapply before_le; [|exact FS]. lia.
    + destruct ok; [|exact C]. apply Forall_app. auto.
    + intros u. destruct force; [|apply B]. unfold upd. destruct (Nat.eqb u w); [exact I|apply B].
    + destruct ok; [|exact D]. apply Forall_app. auto.
  - destruct S as [A [B [C D]]]. cbn [x_here x_child x_log x_queue] in *. cbn [do_step].
    destruct queue as [|q queue]; [repeat split; assumption|]. inversion D as [|? ? Q D']; subst.
    split; [|split; [|split]]; cbn [x_here x_child x_log x_queue]; auto.
    + destruct (is_run (tr_action q)) eqn:E; [|exact A]. cbn. apply (proj1 Q). destruct (tr_action q); cbn in E; congruence.
    + destruct ok; [|exact C]. apply Forall_app. auto.
  - destruct S as [A [B [C D]]]. cbn [x_here x_child x_log x_queue] in *. cbn [do_step].
    split; [|split; [|split]]; cbn [x_here x_child x_log x_queue]; auto. apply last_before. exact C.
Qed.
Lemma sorted_app_l (l l' : list Z) : StronglySorted Z.le (l ++ l') -> StronglySorted Z.le l /\ StronglySorted Z.le l' /\ forall a b, In a l -> In b l' -> a <= b.
Proof.
  induction l as [|a l IH]; cbn [app]; intros H.
  - split; [constructor|]. split; [exact H|]. intros a b [].
  - inversion H as [|? ? S F]; subst. apply IH in S as [S1 [S2 G]]. rewrite Forall_forall in F.
    split; [constructor; [exact S1|apply Forall_forall; intros b Hb; apply F, in_app_iff; auto]|]. split; [exact S2|].
    intros x b [<- |Hx] Hb; [apply F, in_app_iff; auto|auto].
Qed.
Lemma last_in (l : list Z) b : l <> [] -> In (List.last l b) l.
Proof. induction l as [|a l IH]; [congruence|]. intros _. destruct l as [|c l]; [now left|]. right. apply IH. discriminate. Qed.
Lemma sound_steps force l : forall b x, Forall outcome_step l -> sound b x -> (forall c, In c (flat_map reads l) -> b <= c) -> clock_goes_on l ->
  exists b', sound b' (do_steps force x l).
Proof.
  unfold clock_goes_on. induction l as [|s l IH]; intros b x O S G T; [exists b; exact S|]. inversion O; subst. cbn [flat_map] in *.
  apply sorted_app_l in T as [T1 [T2 T3]].
  apply (IH (List.last (reads s) b) (do_step force x s)); auto.
  - apply sound_step; auto. intros c Hc. apply G, in_app_iff. auto.
  - intros c Hc. destruct (reads s) as [|r k] eqn:E; [apply G, in_app_iff; auto|]. apply T3; [|exact Hc]. apply last_in. discriminate.
Qed.
Theorem runtimes force l r : clock_goes_on l -> Forall outcome_step l ->
  In r (x_log (do_steps force nothing l) ++ x_queue (do_steps force nothing l)) -> tr_action r <> ARun ->
  exists e, tr_end r = Some e /\ e <= tr_created r /\
    (tr_start r = None /\ tr_runtime r = None \/ exists s, lasted r s e /\ s <= e).
Proof.
  intros T O H A.
  assert (B : exists b, forall c, In c (flat_map reads l) -> b <= c).
  { unfold clock_goes_on in T. destruct (flat_map reads l) as [|c k]; [exists 0; intros c []|]. inversion T as [|? ? _ F]; subst. rewrite Forall_forall in F.
    exists c. intros d [<- |D]; [lia|auto]. }
  destruct B as [b B].
  destruct (sound_steps force l b nothing O) as [b' [_ [_ [L Q]]]]; auto.
  { repeat split; cbn; auto. }
  assert (F : fine b' r). { apply in_app_iff in H as [H|H]; rewrite Forall_forall in L, Q; auto. }
  destruct (proj2 F A) as [e [E [R [P K]]]]. exists e. split; [exact E|]. split; [exact K|].
  destruct (tr_start r) as [s|] eqn:S; [right; exists s|left; split; [reflexivity|exact R]].
  split; [repeat split; auto|]. apply P. reflexivity.
Qed.

(** The runtime of a TaskLogRecord *)
Lemma not_nearest (rt : Z) : 0 < rt -> ~ nearest (seconds rt) rt.
Proof.
  intros P [H _]. unfold seconds in H.
  assert (E : (inject_Z rt - inject_Z rt / inject_Z 1000000 == inject_Z rt * (999999 # 1000000))%Q) by (field; discriminate).
  assert (G : (1 # 2 < inject_Z rt * (999999 # 1000000))%Q).
  { unfold Qlt, inject_Z; cbn. lia. }
  apply Qabs.Qabs_Qle_condition in H as [H _].
  assert (K : (inject_Z rt / inject_Z 1000000 - inject_Z rt == - (inject_Z rt * (999999 # 1000000)))%Q) by (field; discriminate).
  rewrite K in H. apply (Qlt_not_le _ _ G). apply Qopp_le_compat in H. rewrite !Qopp_opp in H. exact H.
Qed.
Theorem typed_runtime r rt : tr_runtime r = Some rt ->
  exists t, ty_runtime (as_typed r) = Some t /\ gives t (inject_Z rt / inject_Z 1000000)%Q /\ (0 < rt -> t <> Returns rt).
Proof.
  intros H. unfold as_typed; cbn [ty_runtime]. rewrite H. cbn [option_map]. eexists. split; [reflexivity|].
  assert (G : gives (timedelta (seconds rt)) (inject_Z rt / inject_Z 1000000)%Q) by (apply timedelta_gives; reflexivity).
  split; [exact G|]. intros P E. destruct G as [us [N [[_ K]|[_ K]]]]; rewrite K in E; [|discriminate]. injection E as ->. exact (not_nearest rt P N).
Qed.

(** * When a run was made *)
Lemma made_step force u x s v : not_made u s -> x_made x u = v -> x_made (do_step force x s) u = v.
Proof.
  intros N H. destruct x as [here child md log queue]. cbn [x_made] in H.
  destruct s as [w c|w c|w p c c' ok|w tg p a c c' ok|ok|]; cbn [do_step]; try exact H.
  - cbn. unfold upd. cbn in N. destruct (Nat.eqb u w) eqn:E; [apply Nat.eqb_eq in E; congruence|exact H].
  - destruct p; exact H.
  - destruct p; exact H.
  - destruct queue; exact H.
Qed.
Lemma made_steps force u l : forall x v, Forall (not_made u) l -> x_made x u = v -> x_made (do_steps force x l) u = v.
Proof.
  induction l as [|s l IH]; intros x v N H; [exact H|]. inversion N; subst. apply (IH (do_step force x s)); [assumption|]. apply made_step; auto.
Qed.
Lemma run_made force x u m mid p c c' after : Forall (not_made u) mid -> Forall written after ->
  exists r, In r (x_log (do_steps force x (Make u m :: mid ++ Begin u p c c' true :: after)) ++
                 x_queue (do_steps force x (Make u m :: mid ++ Begin u p c c' true :: after))) /\ starts r u m c'.
Proof.
  intros NM WR. unfold do_steps. cbn [fold_left]. rewrite fold_left_app. cbn [fold_left].
  set (y := fold_left (do_step force) mid (do_step force x (Make u m))).
  assert (E : x_made y u = m).
  { apply (made_steps force u mid); [exact NM|]. destruct x. cbn. unfold upd. now rewrite Nat.eqb_refl. }
  exists (begin_record u c c' y). split; [|unfold begin_record, starts; cbn; now rewrite E].
  apply record_steps; [exact WR|]. destruct y as [here child md log queue]. destruct p; cbn [do_step x_log x_queue]; rewrite ?in_app_iff; cbn; auto.
Qed.
