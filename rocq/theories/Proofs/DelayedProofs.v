(** Proofs about tasks given by a file. *)
From Coq Require Import List Bool ZArith Lia String.
From Verif Require Import Model.Delayed Spec.DelayedSpec.
Import ListNotations.
Local Open Scope Z_scope.
Local Open Scope list_scope.

(** ** Marks *)
Lemma disk_after_app : forall ms d ms', disk_after d (ms ++ ms') = disk_after (disk_after d ms) ms'.
Proof. induction ms as [|m ms IH]; intros d ms'; [reflexivity|]. destruct m; cbn; apply IH. Qed.
Lemma on_disk_head : forall d ms, In d (on_disk d ms).
Proof. intros d [|m ms]; now left. Qed.
Lemma on_disk_now : forall ms d, In (disk_after d ms) (on_disk d ms).
Proof.
  induction ms as [|m ms IH]; intros d; [now left|]. destruct m; cbn; right; apply IH.
Qed.
Lemma on_disk_prefix : forall ms d ms' x, In x (on_disk d ms) -> In x (on_disk d (ms ++ ms')).
Proof.
  induction ms as [|m ms IH]; intros d ms' x I.
  - destruct I as [<- |[]]. apply on_disk_head.
  - destruct m; cbn in I |- *; (destruct I as [I|I]; [now left|right; now apply IH]).
Qed.
Lemma on_disk_suffix : forall ms d ms' x, In x (on_disk (disk_after d ms) ms') -> In x (on_disk d (ms ++ ms')).
Proof.
  induction ms as [|m ms IH]; intros d ms' x I; [exact I|]. destruct m; cbn in I |- *; right; now apply IH.
Qed.
Lemma on_disk_unsaved : forall ms d x, unsaved ms -> In x (on_disk d ms) -> x = d.
Proof.
  induction ms as [|m ms IH]; intros d x U I; [destruct I as [I|[]]; now symmetry|].
  assert (U' : unsaved ms) by (intros e J; apply (U e); now right).
  destruct m as [e|r p|r|r|r s v|r|r p]; cbn in I; destruct I as [I|I]; try (now symmetry); try (now apply IH).
  exfalso. apply (U e). now left.
Qed.

Definition no_finish (ms : list mark) : Prop := forall r, ~ In (MFinished r Inside) ms.
Lemma tidy_app : forall ms b ms', tidy_from b (ms ++ ms') = tidy_from (tidy_from b ms) ms'.
Proof. induction ms as [|m ms IH]; intros b ms'; [reflexivity|]. destruct m as [| | | | | |r []]; cbn; apply IH. Qed.
Lemma tidy_false : forall ms, no_finish ms -> tidy_from false ms = false.
Proof.
  induction ms as [|m ms IH]; intros N; [reflexivity|].
  assert (N' : no_finish ms) by (intros r J; apply (N r); now right).
  destruct m as [| | | | | |r []]; cbn; try (now apply IH). exfalso. apply (N r). now left.
Qed.
Lemma untidy : forall a q b, no_finish b -> ~ tidy (a ++ MKept q :: b).
Proof. intros a q b N T. unfold tidy in T. rewrite tidy_app in T. cbn in T. rewrite tidy_false in T by exact N. discriminate. Qed.
Lemma tidy_finished : forall a q, tidy (a ++ [MFinished q Inside]).
Proof. intros. unfold tidy. now rewrite tidy_app. Qed.

(** ** The invariant *)
(** A kept function was at the path when it was kept, and no run of the task has finished since *)
Definition kept_ok (d : disk) (ms : list mark) (f : option Z) : Prop :=
  forall w, f = Some w -> exists a q b, ms = a ++ MKept q :: b /\ no_finish b /\ disk_after d a = Some w.
Definition unbegun (r : Z) (ms : list mark) : Prop := forall p, ~ In (MBegun r p) ms.
Definition flight_ok (d : disk) (ms : list mark) (r : Z) (f : flight) : Prop :=
  exists a b, ms = a ++ MBegun r (f_place f) :: b /\ unbegun r b /\
    (disk_after d a = Some (f_sign f) \/ kept_ok d a (Some (f_sign f))) /\
    (forall w, f_copy f = Some w -> In (Some w) (on_disk (disk_after d a) b) \/ kept_ok d a (Some w)).
Definition inv (d : disk) (t : delayed) : Prop :=
  d_disk t = disk_after d (d_marks t) /\ kept_ok d (d_marks t) (d_func t) /\
  forall r f, flight_of r (d_runs t) = Some f -> flight_ok d (d_marks t) r f.

(** What the kept function of earlier marks says at a later time *)
Lemma kept_since : forall d ms w m1 m2, kept_ok d ms (Some w) -> ms = m1 ++ m2 -> tidy m1 ->
  In (Some w) (on_disk (disk_after d m1) m2).
Proof.
  intros d ms w m1 m2 K E T. destruct (K w eq_refl) as (a & q & b & Ea & N & W). rewrite Ea in E.
  apply app_eq_app in E. destruct E as (l & [[-> E2]|[-> E2]]).
  - rewrite disk_after_app in W. rewrite E2.
    apply on_disk_prefix with (ms := l). rewrite <- W. apply on_disk_now.
  - destruct l as [|x l].
    + cbn in E2. subst m2. rewrite app_nil_r. rewrite <- W. apply on_disk_head.
    + injection E2 as <- ->. exfalso. apply (untidy a q l); [|exact T]. intros r I. apply (N r). apply in_app_iff. now left.
Qed.

Lemma flight_land : forall r q rs, flight_of r (land q rs) = if q =? r then None else flight_of r rs.
Proof.
  intros r q rs. unfold land. induction rs as [|[k f] rs IH]; cbn [filter flight_of].
  - now destruct (q =? r).
  - cbn [fst]. destruct (Z.eqb_spec k q) as [-> |D]; cbn [negb].
    + rewrite IH. destruct (q =? r); reflexivity.
    + cbn [flight_of]. rewrite IH. destruct (Z.eqb_spec k r) as [-> |D'].
      * destruct (Z.eqb_spec q r); [congruence|reflexivity].
      * reflexivity.
Qed.
Lemma flight_fly : forall r q f rs, flight_of r (fly q f rs) = if q =? r then Some f else flight_of r rs.
Proof. intros. unfold fly. cbn [flight_of]. rewrite flight_land. now destruct (q =? r). Qed.

(** Marks that change neither the disk nor begin or finish a run inside *)
Definition dull (m : mark) : Prop := match m with MImport _ | MKept _ | MRan _ _ _ | MFailed _ => True | MFinished _ Outside => True | _ => False end.
Lemma disk_dull : forall ms d, Forall dull ms -> disk_after d ms = d.
Proof. induction ms as [|m ms IH]; intros d H; [reflexivity|]. inversion_clear H. destruct m; try contradiction; cbn; now apply IH. Qed.
Lemma dull_finish : forall ms, Forall dull ms -> no_finish ms.
Proof. intros ms H r I. rewrite Forall_forall in H. exact (H _ I). Qed.
Lemma dull_begun : forall ms r, Forall dull ms -> unbegun r ms.
Proof. intros ms r H p I. rewrite Forall_forall in H. exact (H _ I). Qed.

Lemma kept_ok_app : forall d ms ms' f, kept_ok d ms f -> no_finish ms' -> kept_ok d (ms ++ ms') f.
Proof.
  intros d ms ms' f K N w E. destruct (K w E) as (a & q & b & -> & Nb & W). exists a, q, (b ++ ms').
  split; [now rewrite <- app_assoc|]. split; [|exact W]. intros r I. apply in_app_iff in I. destruct I as [I|I]; [now apply (Nb r)|now apply (N r)].
Qed.
Lemma kept_none : forall d ms, kept_ok d ms None.
Proof. intros d ms w E. discriminate. Qed.
Lemma flight_ok_app : forall d ms ms' r f, flight_ok d ms r f -> unbegun r ms' -> flight_ok d (ms ++ ms') r f.
Proof.
  intros d ms ms' r f (a & b & -> & U & S & C) U'. exists a, (b ++ ms'). split; [now rewrite <- app_assoc|].
  split; [intros p I; apply in_app_iff in I; destruct I as [I|I]; [now apply (U p)|now apply (U' p)]|].
  split; [exact S|]. intros w E. destruct (C w E) as [I|K]; [left; now apply on_disk_prefix|now right].
Qed.

Section Steps.
Variable raises : Z -> bool.
Variable d : disk.

Lemma marked_app : forall i k r ms, exists ms', marked i k r ms = ms ++ ms' /\ Forall dull ms' /\
  (forall q s v, ~ In (MRan q s v) ms').
Proof.
  intros [] [] r ms; eexists; split; try reflexivity; (split; [repeat constructor|]); intros q s v I; cbn in I; intuition discriminate.
Qed.

(** The func after asking for the function *)
Lemma get_func_cases : forall c f k, get_func c f k =
  match f with Some v => (Some v, Some v, false) | None => (k, if c then k else None, true) end.
Proof. intros c [v|] [w|]; cbn; try reflexivity. now destruct c. Qed.

Lemma begin_inv : forall r p t, inv d t -> inv d (begin r p t).
Proof.
  intros r p t (D & K & F). unfold begin. destruct (flight_of r (d_runs t)) eqn:Er; [exact (conj D (conj K F))|].
  rewrite get_func_cases.
  assert (G : exists v0 i, (match d_func t with Some v => (Some v, Some v, false) | None => (d_disk t, if false then d_disk t else None, true) end)
     = (v0, d_func t, i) /\ (v0 = d_func t /\ d_func t <> None \/ v0 = d_disk t /\ d_func t = None)).
  { destruct (d_func t) as [w|]; do 2 eexists; (split; [reflexivity|]); [left|right]; (split; [reflexivity|]); congruence. }
  destruct G as (v0 & i & -> & G). destruct (marked_app i false r (d_marks t)) as (ms' & -> & Du & _).
  assert (N1 : forall x, x = MFailed r \/ x = MBegun r p -> no_finish (ms' ++ [x])).
  { intros x [-> | ->] q I; apply in_app_iff in I; destruct I as [I|[I|[]]]; try discriminate; now apply (dull_finish _ Du q). }
  destruct v0 as [v|].
  - split; [cbn; rewrite !disk_after_app; cbn; now rewrite (disk_dull ms')|].
    cbn [d_marks d_func d_runs]. rewrite <- app_assoc. split; [apply kept_ok_app; [exact K|apply N1; now right]|].
    intros q f. rewrite flight_fly. destruct (Z.eqb_spec r q) as [<- |Dq].
    + intros E. injection E as <-. exists (d_marks t ++ ms'), []. cbn [f_place f_sign f_copy]. split; [now rewrite <- app_assoc|].
      split; [intros p' []|]. rewrite disk_after_app, (disk_dull ms' _ Du), <- D.
      assert (KK : forall w, d_func t = Some w -> kept_ok d (d_marks t ++ ms') (Some w)).
      { intros w E. apply kept_ok_app; [rewrite <- E; exact K|now apply dull_finish]. }
      split.
      * destruct G as [[G _]|[G _]]; [right; now apply KK|left; now rewrite <- G].
      * intros w E. right. destruct p; [discriminate|now apply KK].
    + intros E. apply flight_ok_app; [now apply F|]. intros p' I. apply in_app_iff in I.
      destruct I as [I|[I|[]]]; [now apply (dull_begun _ q Du p')|congruence].
  - split; [cbn; rewrite !disk_after_app; cbn; now rewrite (disk_dull ms')|].
    cbn [d_marks d_func d_runs]. rewrite <- app_assoc. split; [apply kept_ok_app; [exact K|apply N1; now left]|].
    intros q f E. apply flight_ok_app; [now apply F|]. intros p' I. apply in_app_iff in I.
    destruct I as [I|[I|[]]]; [now apply (dull_begun _ q Du p')|congruence].
Qed.

(** A run asks for the function, and may keep it *)
Lemma ask : forall r f t c v g i, inv d t -> flight_of r (d_runs t) = Some f -> get_func c (func_of f t) (d_disk t) = (v, g, i) ->
  let ms := marked i (match v with Some _ => kept_by f c i | None => false end) r (d_marks t) in
  disk_after d ms = d_disk t /\ kept_ok d ms (func_after f g t) /\
  (forall q f', flight_of q (d_runs t) = Some f' -> flight_ok d ms q f') /\
  (forall h, flight_ok d ms r (Flight (f_place f) h (f_sign f) (copy_after f g))).
Proof.
  intros r f t c v g i (D & K & F) Ef Eg. cbv zeta. rewrite get_func_cases in Eg.
  set (k := match v with Some _ => kept_by f c i | None => false end).
  destruct (marked_app i k r (d_marks t)) as (ms' & Em & Du & _). rewrite Em.
  split; [rewrite disk_after_app, (disk_dull ms' _ Du); now symmetry|].
  assert (FF : forall q f', flight_of q (d_runs t) = Some f' -> flight_ok d (d_marks t ++ ms') q f').
  { intros q f' E. apply flight_ok_app; [now apply F|now apply dull_begun]. }
  split; [|split; [exact FF|]].
  - unfold func_after, func_of in *. destruct (f_place f) eqn:Ep.
    + destruct (d_func t) as [w|] eqn:Ew.
      * injection Eg as <- <- <-. apply kept_ok_app; [exact K|now apply dull_finish].
      * injection Eg as <- <- <-. intros w E. destruct c; [|discriminate]. subst k. rewrite E in Em. unfold kept_by in Em. rewrite Ep in Em.
        cbn in Em. unfold marked in Em. apply app_inv_head in Em. subst ms'. exists (d_marks t ++ [MImport r]), r, [].
        split; [now rewrite <- app_assoc|]. split; [intros q []|]. rewrite disk_after_app. cbn. now rewrite <- D.
    + apply kept_ok_app; [exact K|now apply dull_finish].
  - intros h. destruct (FF r f Ef) as (a & b & E1 & U & S & C). exists a, b. cbn [f_place f_sign f_copy]. split; [exact E1|]. split; [exact U|].
    split; [exact S|]. intros w E. unfold copy_after, func_of in *. destruct (f_place f) eqn:Ep; [now apply C|].
    destruct (f_copy f) as [x|].
    + injection Eg as <- <- <-. now apply C.
    + injection Eg as <- <- <-. left. destruct c; [|discriminate]. rewrite <- E, D.
      replace (disk_after d (d_marks t)) with (disk_after (disk_after d a) b);
        [apply on_disk_now|]. transitivity (disk_after d (d_marks t ++ ms')).
      * rewrite E1, disk_after_app. reflexivity.
      * rewrite disk_after_app. now apply disk_dull.
Qed.

Lemma inv_app : forall t ms fu ru, kept_ok d ms fu -> disk_after d ms = d_disk t ->
  (forall q f, flight_of q ru = Some f -> flight_ok d ms q f) -> forall m, dull m ->
  inv d (Delayed fu (d_cache t) (d_disk t) ru (ms ++ [m])).
Proof.
  intros t ms fu ru K D F m Du. assert (DD : Forall dull [m]) by now repeat constructor. split; [|split].
  - cbn. rewrite disk_after_app, disk_dull by exact DD. now symmetry.
  - cbn. apply kept_ok_app; [exact K|now apply dull_finish].
  - cbn. intros q f E. apply flight_ok_app; [now apply F|now apply dull_begun].
Qed.

Lemma filter_inv : forall r t, inv d t -> inv d (filter_run raises r t).
Proof.
  intros r t I. unfold filter_run. destruct (flight_of r (d_runs t)) as [f|] eqn:Er; [|exact I].
  destruct (f_phase f); [|exact I..]. destruct (get_func true (func_of f t) (d_disk t)) as [[v g] i] eqn:Eg.
  destruct (ask r f t true v g i I Er Eg) as (A1 & A2 & A3 & A4). cbv zeta.
  destruct (match v with Some _ => negb (raises (f_sign f)) | None => false end).
  - rewrite app_nil_r. split; [now symmetry|]. split; [exact A2|]. intros q f'. cbn [d_runs]. rewrite flight_fly.
    destruct (Z.eqb_spec r q) as [<- |D]; [|apply A3]. intros E. injection E as <-. apply A4.
  - apply inv_app; [exact A2|exact A1| |exact Logic.I]. intros q f'. rewrite flight_land. destruct (r =? q); [discriminate|apply A3].
Qed.

Lemma execute_inv : forall r t, inv d t -> inv d (execute r t).
Proof.
  intros r t I. unfold execute. destruct (flight_of r (d_runs t)) as [f|] eqn:Er; [|exact I].
  destruct (f_phase f); [exact I| |exact I]. destruct (get_func (d_cache t) (func_of f t) (d_disk t)) as [[v g] i] eqn:Eg.
  destruct (ask r f t _ v g i I Er Eg) as (A1 & A2 & A3 & A4).
  apply inv_app; [exact A2|exact A1| |now destruct v]. intros q f'. rewrite flight_fly.
  destruct (Z.eqb_spec r q) as [<- |D]; [|apply A3]. intros E. injection E as <-. apply A4.
Qed.

Lemma finish_inv : forall r t, inv d t -> inv d (finish r t).
Proof.
  intros r t I. unfold finish. destruct (flight_of r (d_runs t)) as [f|] eqn:Er; [|exact I].
  destruct (f_phase f); [exact I..|]. destruct I as (D & K & F).
  assert (R : forall q f', flight_of q (land r (d_runs t)) = Some f' -> flight_ok d (d_marks t ++ [MFinished r (f_place f)]) q f').
  { intros q f'. rewrite flight_land. destruct (r =? q); [discriminate|]. intros E. apply flight_ok_app; [now apply F|].
    intros p [J|[]]. discriminate. }
  split; [cbn; rewrite disk_after_app; cbn; destruct (f_place f); exact D|]. split; [|exact R].
  cbn. unfold func_after. destruct (f_place f); [apply kept_none|]. apply kept_ok_app; [exact K|]. intros q [J|[]]. discriminate.
Qed.

Lemma happen_inv : forall t e, inv d t -> inv d (happen raises t e).
Proof.
  intros t [k|r p|r|r|r] I; cbn [happen]; [|now apply begin_inv|now apply filter_inv|now apply execute_inv|now apply finish_inv].
  destruct I as (D & K & F). split; [cbn; now rewrite disk_after_app|]. split.
  - cbn. apply kept_ok_app; [exact K|]. intros q [J|[]]. discriminate.
  - cbn. intros q f E. apply flight_ok_app; [now apply F|]. intros p [J|[]]. discriminate.
Qed.

(** ** What runs call *)
(** The last of these marks is a call: of a version that was there since the run began, or was kept before *)
Definition call_ok (ms : list mark) : Prop := forall r s v ms', ms = ms' ++ [MRan r s v] ->
  exists p a b, ms' = a ++ MBegun r p :: b /\ unbegun r b /\
    (disk_after d a = Some s \/ kept_ok d a (Some s)) /\
    (In (Some v) (on_disk (disk_after d a) b) \/ kept_ok d ms' (Some v) \/ kept_ok d a (Some v)).
Definition calls_ok (ms : list mark) : Prop := forall a b, ms = a ++ b -> call_ok a.

Lemma calls_app : forall ms ms', calls_ok ms -> (forall q s v, ~ In (MRan q s v) ms') -> calls_ok (ms ++ ms').
Proof.
  intros ms ms' H N a b E. apply app_eq_app in E. destruct E as (l & [[-> E2]|[-> E2]]).
  - apply (H a l eq_refl).
  - destruct l as [|x l] using rev_ind.
    + rewrite app_nil_r. apply (H ms []). now rewrite app_nil_r.
    + intros r s v m3 E3. rewrite app_assoc in E3. apply app_inj_tail in E3. destruct E3 as [_ ->].
      exfalso. apply (N r s v). rewrite E2. apply in_app_iff. left. apply in_app_iff. right. now left.
Qed.
Lemma calls_one : forall ms m, calls_ok ms -> call_ok (ms ++ [m]) -> calls_ok (ms ++ [m]).
Proof.
  intros ms m H C a b E. destruct b as [|x b] using rev_ind; [rewrite app_nil_r in E; now subst a|].
  rewrite app_assoc in E. apply app_inj_tail in E. destruct E as [E _]. exact (H a b E).
Qed.

Lemma marked_calls : forall i k r ms, calls_ok ms -> calls_ok (marked i k r ms).
Proof. intros i k r ms H. destruct (marked_app i k r ms) as (ms' & -> & _ & N). now apply calls_app. Qed.
Lemma single_calls : forall ms m, calls_ok ms -> (forall q s v, m <> MRan q s v) -> calls_ok (ms ++ [m]).
Proof. intros ms m H N. apply calls_app; [exact H|]. intros q s v [J|[]]. exact (N q s v J). Qed.

Lemma happen_calls : forall t e, inv d t -> calls_ok (d_marks t) -> calls_ok (d_marks (happen raises t e)).
Proof.
  intros t e I H. destruct e as [k|r p|r|r|r]; cbn [happen].
  - cbn. apply single_calls; [exact H|discriminate].
  - unfold begin. destruct (flight_of r (d_runs t)); [exact H|]. destruct (get_func false (d_func t) (d_disk t)) as [[[v|] g] i]; cbn;
    (apply single_calls; [now apply marked_calls|discriminate]).
  - unfold filter_run. destruct (flight_of r (d_runs t)) as [f|]; [|exact H]. destruct (f_phase f); [|exact H..].
    destruct (get_func true (func_of f t) (d_disk t)) as [[v g] i]. cbn [d_marks].
    destruct (match v with Some _ => negb (raises (f_sign f)) | None => false end).
    + rewrite app_nil_r. now apply marked_calls.
    + apply single_calls; [now apply marked_calls|discriminate].
  - unfold execute. destruct (flight_of r (d_runs t)) as [f|] eqn:Er; [|exact H]. destruct (f_phase f); [exact H| |exact H].
    destruct (get_func (d_cache t) (func_of f t) (d_disk t)) as [[v g] i] eqn:Eg. cbn [d_marks].
    destruct v as [v|]; [|apply single_calls; [now apply marked_calls|discriminate]].
    set (ms := marked i (kept_by f (d_cache t) i) r (d_marks t)).
    apply calls_one; [now apply marked_calls|]. intros r' s' v' m3 E. apply app_inj_tail in E. destruct E as [<- E]. injection E as <- <- <-.
    destruct (ask r f t _ (Some v) g i I Er Eg) as (A1 & A2 & A3 & A4). fold ms in A1, A2, A3, A4.
    destruct (A3 r f Er) as (a & b & E1 & U & S & C). exists (f_place f), a, b. split; [exact E1|]. split; [exact U|]. split; [exact S|].
    rewrite get_func_cases in Eg. destruct (func_of f t) as [w|] eqn:Ew.
    + injection Eg as <- <- <-. unfold func_of in Ew. unfold func_after in A2. destruct (f_place f); [right; left; exact A2|].
      destruct (C w Ew) as [X|X]; [now left|now (right; right)].
    + injection Eg as Eg <- <-. left. rewrite <- Eg, <- A1, E1, disk_after_app. cbn. apply on_disk_now.
  - unfold finish. destruct (flight_of r (d_runs t)) as [f|]; [|exact H]. destruct (f_phase f); [exact H..|]. cbn.
    apply single_calls; [exact H|discriminate].
Qed.

Lemma all_inv : forall es t, inv d t -> calls_ok (d_marks t) ->
  inv d (happen_all raises es t) /\ calls_ok (d_marks (happen_all raises es t)).
Proof.
  induction es as [|e es IH]; intros t I H; [now split|]. cbn [happen_all fold_left].
  apply (IH (happen raises t e)); [now apply happen_inv|now apply happen_calls].
Qed.
Lemma new_inv : forall c, inv d (new_delayed c d) /\ calls_ok (d_marks (new_delayed c d)).
Proof.
  intros c. split.
  - split; [reflexivity|]. split; [apply kept_none|]. intros r f E. discriminate E.
  - intros a b E r s v ms' ->. destruct ms'; discriminate E.
Qed.
End Steps.
