(** Proofs about the tasks of sessions. *)
From Coq Require Import Bool Arith Lia ZifyBool String Ascii DecimalString DecimalNat FinFun.
From Verif Require Import Model.Base Model.Condition Model.World Model.Registry.
From Verif Require Import Spec.RegistrySpec Proofs.ConditionProofs.
Open Scope nat_scope.

(** * Looking names up *)
Lemma lookup_ok st s n i : lookup st s n = Ok i -> task_of st s i /\ name_of st i = n.
Proof.
  unfold lookup. destruct (find _ _) as [j|] eqn:F; [|discriminate]. intros [= ->].
  apply find_some in F as [I E]. apply String.eqb_eq in E. split; assumption.
Qed.
Lemma lookup_err st s n e : lookup st s n = Err e -> e = KeyError /\ ~ used st s n.
Proof.
  unfold lookup. destruct (find _ _) as [j|] eqn:F; [discriminate|]. intros [= <-]. split; [reflexivity|].
  intros (i & I & E). pose proof (find_none _ _ F i I) as X. cbn beta in X. unfold name_of in E. rewrite E in X.
  rewrite String.eqb_refl in X. discriminate.
Qed.
Lemma contains_spec st s n : contains st s n = true <-> used st s n.
Proof.
  unfold contains. destruct (lookup st s n) as [i|e] eqn:L.
  - split; [intros _|reflexivity]. exists i. exact (lookup_ok _ _ _ _ L).
  - split; [discriminate|]. intros U. now apply lookup_err in L.
Qed.
Lemma not_contains st s n : contains st s n = false <-> ~ used st s n.
Proof. rewrite <- contains_spec. destruct (contains st s n); split; congruence. Qed.
Lemma lookup_unique st s i : unique_names st s -> task_of st s i -> lookup st s (name_of st i) = Ok i.
Proof.
  intros [_ U] I. destruct (lookup st s (name_of st i)) as [j|e] eqn:L.
  - apply lookup_ok in L as [J E]. f_equal. apply U; [exact J|exact I|exact E].
  - apply lookup_err in L as [_ N]. exfalso. apply N. exists i. split; [exact I|reflexivity].
Qed.

(** * Numbered names *)
Lemma append_cancel a b c : (a ++ b = a ++ c -> b = c)%string.
Proof. induction a as [|x a IH]; cbn; [auto|]. intros [= H]. now apply IH. Qed.
Lemma numbered_inj base k m : numbered base k = numbered base m -> k = m.
Proof.
  unfold numbered. intros H. apply append_cancel in H. apply append_cancel in H.
  assert (U : NilEmpty.uint_of_string (NilEmpty.string_of_uint (Nat.to_uint k)) =
              NilEmpty.uint_of_string (NilEmpty.string_of_uint (Nat.to_uint m))) by now rewrite H.
  rewrite !NilEmpty.usu in U. injection U as U. now apply Unsigned.to_uint_inj.
Qed.
Lemma fresh_some st s base : forall fuel num n, fresh_name st s base num fuel = Some n ->
  exists k, num <= k /\ n = numbered base k /\ ~ used st s n /\ forall m, num <= m < k -> used st s (numbered base m).
Proof.
  induction fuel as [|fuel IH]; intros num n H; [discriminate|]. cbn [fresh_name] in H.
  destruct (contains st s (numbered base num)) eqn:C.
  - apply IH in H as (k & K & E & N & A). exists k. split; [lia|]. split; [exact E|]. split; [exact N|].
    intros m Hm. destruct (Nat.eq_dec m num) as [->|D]; [now apply contains_spec|]. apply A. lia.
  - injection H as <-. exists num. split; [lia|]. split; [reflexivity|]. split; [now apply not_contains|]. lia.
Qed.
Lemma fresh_none st s base : forall fuel num, fresh_name st s base num fuel = None ->
  forall m, num <= m < num + fuel -> used st s (numbered base m).
Proof.
  induction fuel as [|fuel IH]; intros num H m Hm; [lia|]. cbn [fresh_name] in H.
  destruct (contains st s (numbered base num)) eqn:C; [|discriminate].
  destruct (Nat.eq_dec m num) as [->|D]; [now apply contains_spec|]. apply (IH (S num) H). lia.
Qed.
Lemma fresh_total st s base num : fresh_name st s base num (S (List.length (st_tasks st s))) <> None.
Proof.
  intros H. set (L := List.length (st_tasks st s)) in *.
  assert (Incl : incl (map (numbered base) (seq num (S L))) (map (name_of st) (st_tasks st s))).
  { intros n Hn. apply in_map_iff in Hn as (m & <- & Hm). apply in_seq in Hm.
    destruct (fresh_none _ _ _ _ _ H m) as (i & I & E); [lia|]. rewrite <- E. now apply in_map. }
  assert (ND : NoDup (map (numbered base) (seq num (S L)))).
  { apply Injective_map_NoDup; [|apply seq_NoDup]. intros x y. apply numbered_inj. }
  pose proof (NoDup_incl_length ND Incl) as Len. rewrite !map_length, seq_length in Len. fold L in Len. lia.
Qed.

(** * The checks of a name *)
Theorem check_spec st s n :
  match st_policy st s with
  | PIgnore => check_name st s n = Ok n
  | PRename =>
      exists n', check_name st s n = Ok n' /\ ~ used st s n' /\
        ((n' = n) \/ (used st s n /\ exists k, 1 <= k /\ n' = numbered n k /\
                       forall m, 1 <= m < k -> used st s (numbered n m)))
  | _ => (used st s n -> check_name st s n = Err ValueError) /\ (~ used st s n -> check_name st s n = Ok n)
  end.
Proof.
  unfold check_name, parse_name, validate_name.
  destruct (contains st s n) eqn:C.
  - assert (U : used st s n) by now apply contains_spec.
    destruct (st_policy st s) eqn:P.
    + split; [reflexivity|contradiction].
    + now rewrite C.
    + destruct (fresh_name st s n 1 _) as [n'|] eqn:F; [|exfalso; exact (fresh_total _ _ _ _ F)].
      apply fresh_some in F as (k & K & E & N & A). apply not_contains in N as N'. rewrite N'.
      exists n'. split; [reflexivity|]. split; [exact N|]. right. split; [exact U|]. exists k. auto.
    + rewrite C. split; [reflexivity|contradiction].
    + rewrite C. split; [reflexivity|contradiction].
  - assert (U : ~ used st s n) by now apply not_contains. rewrite C.
    destruct (st_policy st s) eqn:P; try (split; [contradiction|reflexivity]); [reflexivity|].
    exists n. split; [reflexivity|]. split; [exact U|]. now left.
Qed.
Lemma check_fresh st s n n' : st_policy st s <> PIgnore -> check_name st s n = Ok n' -> ~ used st s n'.
Proof.
  intros P H. pose proof (check_spec st s n) as C. destruct (contains st s n) eqn:K.
  - apply contains_spec in K. destruct (st_policy st s); try congruence; try (destruct C as [C _]; rewrite C in H by exact K; discriminate).
    destruct C as (m & E & N & _). congruence.
  - apply not_contains in K. destruct (st_policy st s); try congruence;
      try (destruct C as [_ C]; rewrite C in H by exact K; injection H as <-; exact K).
    destruct C as (m & E & N & _). congruence.
Qed.

(** * Sets *)
Lemma set_add_in i l j : In j (set_add i l) <-> In j l \/ j = i.
Proof.
  unfold set_add. destruct (existsb (Nat.eqb i) l) eqn:E.
  - split; [auto|]. intros [H | ->]; [exact H|]. apply existsb_exists in E as (x & X & Q).
    apply Nat.eqb_eq in Q. now subst.
  - rewrite in_app_iff. cbn. intuition.
Qed.
Lemma set_add_nodup i l : NoDup l -> NoDup (set_add i l).
Proof.
  intros N. unfold set_add. destruct (existsb (Nat.eqb i) l) eqn:E; [exact N|].
  induction l as [|a l IH]; cbn; [constructor; [intros []|constructor]|]. inversion N; subst.
  cbn in E. apply orb_false_iff in E as [E1 E2]. constructor; [|now apply IH].
  rewrite in_app_iff. intros [H | [H | []]]; [contradiction|]. subst. rewrite Nat.eqb_refl in E1. discriminate.
Qed.
Lemma set_remove_ok i l l' : set_remove i l = Ok l' -> In i l /\ (forall j, In j l' <-> In j l /\ j <> i) /\ (NoDup l -> NoDup l').
Proof.
  unfold set_remove. destruct (existsb (Nat.eqb i) l) eqn:E; [|discriminate]. intros [= <-].
  apply existsb_exists in E as (x & X & Q). apply Nat.eqb_eq in Q. subst x. split; [exact X|]. split.
  - intros j. rewrite filter_In. rewrite negb_true_iff, Nat.eqb_neq. reflexivity.
  - apply NoDup_filter.
Qed.

(** * One operation *)
Lemma orderly_less st s l : orderly st s -> (forall j, In j l -> task_of st s j) -> NoDup l -> orderly (set_tasks s l st) s.
Proof.
  intros [[_ U] O] Sub N. unfold orderly, unique_names, task_of, name_of, set_tasks. cbn [st_tasks st_obj st_next].
  rewrite Nat.eqb_refl. split; [split; [exact N|]|].
  - intros i j I J. apply U; now apply Sub.
  - intros i I. apply O. now apply Sub.
Qed.
Lemma orderly_other st s s' l : s' <> s -> orderly st s -> orderly (set_tasks s' l st) s.
Proof.
  intros D O. unfold orderly, unique_names, task_of, name_of, set_tasks. cbn [st_tasks st_obj st_next].
  assert (E : (s =? s') = false) by (apply Nat.eqb_neq; congruence). rewrite E. exact O.
Qed.
Lemma orderly_obj st s i o : orderly st s ->
  (task_of st s i -> o_session o = s /\ (o_name o = name_of st i \/ ~ used st s (o_name o))) ->
  orderly (set_obj i o st) s.
Proof.
  intros [[N U] O] H. unfold orderly, unique_names, task_of, name_of, set_obj in *. cbn [st_tasks st_obj st_next] in *.
  split; [split; [exact N|]|].
  - intros j k J K E. destruct (j =? i) eqn:Ej; destruct (k =? i) eqn:Ek; try apply Nat.eqb_eq in Ej; try apply Nat.eqb_eq in Ek.
    + congruence.
    + subst j. destruct (H J) as [_ [X | X]].
      * rewrite X in E. now apply U.
      * exfalso. apply X. exists k. split; [exact K|]. unfold name_of. congruence.
    + subst k. destruct (H K) as [_ [X | X]].
      * rewrite X in E. now apply U.
      * exfalso. apply X. exists j. split; [exact J|]. unfold name_of. congruence.
    + now apply U.
  - intros j J. destruct (j =? i) eqn:Ej; [|now apply O]. apply Nat.eqb_eq in Ej. subst j.
    split; [now apply H|]. now apply O.
Qed.

Lemma orderly_more st s i : orderly st s -> ~ used st s (name_of st i) -> o_session (st_obj st i) = s -> i < st_next st ->
  orderly (set_tasks s (set_add i (st_tasks st s)) st) s.
Proof.
  intros [[N U] O] F E B. unfold orderly, unique_names, task_of, name_of, set_tasks. cbn [st_tasks st_obj st_next].
  rewrite Nat.eqb_refl. split; [split; [now apply set_add_nodup|]|].
  - intros j k J K X. apply set_add_in in J as [J | ->]; apply set_add_in in K as [K | ->].
    + now apply U.
    + exfalso. apply F. exists j. now split.
    + exfalso. apply F. exists k. now split.
    + reflexivity.
  - intros j J. apply set_add_in in J as [J | ->]; [now apply O|now split].
Qed.
Lemma orderly_add st s s' i : orderly st s -> (task_of st s i -> s' = s) -> i < st_next st ->
  orderly (fst (add_task s' i st)) s.
Proof.
  intros O H B. unfold add_task.
  assert (J : forall st', orderly st' s -> (task_of st' s i -> s' = s) ->
              orderly (set_obj i (with_session s' (st_obj st' i)) st') s).
  { intros st' O' H'. apply orderly_obj; [exact O'|]. intros I. split; [cbn; now apply H'|now left]. }
  destruct (contains st s' (o_name (st_obj st i))) eqn:C.
  - destruct (st_policy st s'); try exact O; try (now apply J).
    destruct (set_remove i (st_tasks st s')) as [l|e] eqn:R; [|exact O]. apply set_remove_ok in R as (I & S & N).
    apply J.
    + destruct (Nat.eq_dec s' s) as [->|D]; [|now apply orderly_other].
      apply orderly_less; [exact O| |].
      * intros j Hj. apply set_add_in in Hj as [Hj | ->]; [now apply S in Hj|exact I].
      * apply set_add_nodup, N, O.
    + unfold task_of, set_tasks. cbn [st_tasks]. destruct (s =? s') eqn:E; [|exact H].
      intros _. apply Nat.eqb_eq in E. congruence.
  - apply not_contains in C. destruct (Nat.eq_dec s' s) as [->|D].
    + pose proof (J st O H) as O1. set (st1 := set_obj i (with_session s (st_obj st i)) st) in *.
      change (orderly (set_tasks s (set_add i (st_tasks st1 s)) st1) s). apply orderly_more.
      * exact O1.
      * intros (j & I & E). apply C. exists j. split; [exact I|].
        unfold name_of, st1, set_obj in E. cbn [st_obj] in E. rewrite Nat.eqb_refl in E. cbn [with_session o_name] in E.
        destruct (j =? i) eqn:Ej; [|exact E]. apply Nat.eqb_eq in Ej. subst j. reflexivity.
      * unfold st1, set_obj. cbn [st_obj]. now rewrite Nat.eqb_refl.
      * exact B.
    + apply J; [now apply orderly_other|]. unfold task_of, set_tasks. cbn [st_tasks].
      assert (E : (s =? s') = false) by (apply Nat.eqb_neq; congruence). now rewrite E.
Qed.
Lemma orderly_new st s s' n c x : orderly st s -> orderly (fst (new_task s' n c x st)) s.
Proof.
  intros O. unfold new_task. destruct (check_name st s' n) as [n'|e]; [|exact O].
  set (i := st_next st). set (st1 := Store _ _ _ _).
  assert (Old : forall j, task_of st s j -> st_obj st1 j = st_obj st j).
  { intros j J. unfold st1. cbn [st_obj]. destruct O as [_ O]. destruct (O j J) as [_ L].
    assert (E : (j =? i) = false) by (apply Nat.eqb_neq; unfold i; lia). now rewrite E. }
  assert (O1 : orderly st1 s).
  { destruct O as [[N U] O]. split; [split; [exact N|]|].
    - intros j k J K. unfold name_of. rewrite (Old j J), (Old k K). now apply U.
    - intros j J. rewrite (Old j J). destruct (O j J). split; [assumption|]. cbn [st1 st_next]. unfold i. lia. }
  apply orderly_add; [exact O1| |cbn [st1 st_next]; lia].
  intros I. exfalso. destruct O as [_ O]. destruct (O i I) as [_ L]. unfold i in L. lia.
Qed.
Lemma orderly_name st s i n : orderly st s -> (task_of st s i -> st_policy st s <> PIgnore) -> orderly (fst (set_name i n st)) s.
Proof.
  intros O P. unfold set_name. destruct (check_name st (o_session (st_obj st i)) n) as [n'|e] eqn:C; [|exact O].
  apply orderly_obj; [exact O|]. intros I. destruct O as [_ O]. destruct (O i I) as [E _]. split; [exact E|].
  right. cbn [with_name o_name]. rewrite E in C. exact (check_fresh _ _ _ _ (P I) C).
Qed.
Lemma orderly_remove st s s' i : orderly st s -> orderly (fst (remove_task s' i st)) s.
Proof.
  intros O. unfold remove_task. destruct (set_remove i (st_tasks st s')) as [l|e] eqn:R; [|exact O].
  apply set_remove_ok in R as (I & S & N). destruct (Nat.eq_dec s' s) as [->|D]; [|now apply orderly_other].
  apply orderly_less; [exact O| |apply N, O]. intros j J. now apply S in J.
Qed.

(** What [include_task] leaves as it was *)
Lemma add_frame s i st : let st' := fst (add_task s i st) in
  st_policy st' = st_policy st /\ st_next st' = st_next st /\
  (forall s' j, s' <> s \/ j <> i -> In j (st_tasks st' s') <-> In j (st_tasks st s')) /\
  (forall j, j <> i -> st_obj st' j = st_obj st j).
Proof.
  cbn zeta. unfold add_task.
  assert (F : forall l, (forall j, j <> i -> In j l <-> In j (st_tasks st s)) ->
     let st' := set_obj i (with_session s (st_obj (set_tasks s l st) i)) (set_tasks s l st) in
     st_policy st' = st_policy st /\ st_next st' = st_next st /\
     (forall s' j, s' <> s \/ j <> i -> In j (st_tasks st' s') <-> In j (st_tasks st s')) /\
     (forall j, j <> i -> st_obj st' j = st_obj st j)).
  { intros l L. cbn zeta. unfold set_obj, set_tasks. cbn [st_policy st_next st_tasks st_obj].
    split; [reflexivity|]. split; [reflexivity|]. split.
    - intros s' j D. destruct (s' =? s) eqn:E; [|reflexivity]. apply Nat.eqb_eq in E. subst s'.
      apply L. destruct D; congruence.
    - intros j D. apply Nat.eqb_neq in D. now rewrite D. }
  assert (Same : st_policy st = st_policy st /\ st_next st = st_next st /\
     (forall s' j, s' <> s \/ j <> i -> In j (st_tasks st s') <-> In j (st_tasks st s')) /\
     (forall j, j <> i -> st_obj st j = st_obj st j)) by (repeat split; auto).
  destruct (contains st s (o_name (st_obj st i))).
  - destruct (st_policy st s); try exact Same.
    + cbn [fst]. unfold set_obj. cbn [st_policy st_next st_tasks st_obj].
      split; [reflexivity|]. split; [reflexivity|]. split; [reflexivity|].
      intros j D. apply Nat.eqb_neq in D. now rewrite D.
    + destruct (set_remove i (st_tasks st s)) as [l|e] eqn:R; [|exact Same]. apply F.
      apply set_remove_ok in R as (_ & S & _). intros j D. rewrite set_add_in, S. intuition.
    + cbn [fst]. unfold set_obj. cbn [st_policy st_next st_tasks st_obj].
      split; [reflexivity|]. split; [reflexivity|]. split; [reflexivity|].
      intros j D. apply Nat.eqb_neq in D. now rewrite D.
  - apply F. intros j D. rewrite set_add_in. intuition.
Qed.
Lemma name_frame i n st : let st' := fst (set_name i n st) in
  st_policy st' = st_policy st /\ st_next st' = st_next st /\ st_tasks st' = st_tasks st /\
  (forall j, j <> i -> st_obj st' j = st_obj st j).
Proof.
  cbn zeta. unfold set_name. destruct (check_name _ _ _); cbn [fst]; [|repeat split; auto].
  unfold set_obj. cbn [st_policy st_next st_tasks st_obj].
  split; [reflexivity|]. split; [reflexivity|]. split; [reflexivity|].
  intros j D. apply Nat.eqb_neq in D. now rewrite D.
Qed.
Lemma include_frame s g i st : let st' := fst (include_task s g i st) in
  st_policy st' = st_policy st /\ st_next st' = st_next st /\
  (forall s' j, s' <> s \/ j <> i -> In j (st_tasks st' s') <-> In j (st_tasks st s')) /\
  (forall j, j <> i -> st_obj st' j = st_obj st j).
Proof.
  cbn zeta. unfold include_task.
  set (m := if String.eqb _ _ then _ else _).
  assert (M : st_policy (fst m) = st_policy st /\ st_next (fst m) = st_next st /\ st_tasks (fst m) = st_tasks st /\
              (forall j, j <> i -> st_obj (fst m) j = st_obj st j)).
  { unfold m. destruct (String.eqb _ _); [cbn [fst]; repeat split; auto|]. apply name_frame. }
  destruct m as [st1 [u|e]]; cbn [fst] in M; destruct M as (M1 & M2 & M3 & M4).
  - match goal with |- context [add_task s i ?x] => pose proof (add_frame s i x) as F; set (st2 := x) in * end.
    cbn zeta in F. destruct F as (F1 & F2 & F3 & F4).
    assert (T2 : st_tasks st2 = st_tasks st) by exact M3.
    split; [rewrite F1; exact M1|]. split; [rewrite F2; exact M2|]. split.
    + intros s' j D. rewrite F3 by exact D. now rewrite T2.
    + intros j D. rewrite F4 by exact D. unfold st2, set_obj. cbn [st_obj]. apply Nat.eqb_neq in D as D'. rewrite D'. now apply M4.
  - cbn [fst]. split; [exact M1|]. split; [exact M2|]. split; [|exact M4]. intros s' j _. now rewrite M3.
Qed.
Lemma orderly_include_task st s s' g i : orderly st s -> i < st_next st ->
  (task_of st s i -> s' = s /\ st_policy st s <> PIgnore) -> orderly (fst (include_task s' g i st)) s.
Proof.
  intros O B H. unfold include_task. set (m := if String.eqb _ _ then _ else _).
  assert (M : orderly (fst m) s /\ st_next (fst m) = st_next st /\ st_tasks (fst m) = st_tasks st).
  { unfold m. destruct (String.eqb _ _); [cbn [fst]; auto|].
    split; [apply orderly_name; [exact O|intros I; now apply H]|].
    destruct (name_frame i (g_prefix g ++ o_name (st_obj st i)) st) as (_ & N & T & _). split; assumption. }
  destruct m as [st1 [u|e]]; cbn [fst] in M; destruct M as (M1 & M2 & M3); [|exact M1].
  match goal with |- context [set_obj i ?x st1] => set (o := x) end.
  assert (Ho : o_session o = o_session (st_obj st1 i) /\ o_name o = o_name (st_obj st1 i)).
  { unfold o. destruct (g_start g); split; reflexivity. }
  destruct Ho as [Ho1 Ho2]. apply orderly_add.
  - apply orderly_obj; [exact M1|]. intros I. split; [|left; exact Ho2]. rewrite Ho1. now apply M1.
  - intros I. apply H. unfold task_of in *. change (st_tasks (set_obj i o st1)) with (st_tasks st1) in I. now rewrite M3 in I.
  - change (st_next (set_obj i o st1)) with (st_next st1). now rewrite M2.
Qed.
Lemma orderly_include st s s' g : forall l, NoDup l -> (forall i, In i l -> i < st_next st) -> orderly st s ->
  (forall i, In i l -> task_of st s i -> s' = s /\ st_policy st s <> PIgnore) ->
  orderly (fst (include_tasks s' g l st)) s.
Proof.
  intros l. revert st. induction l as [|i l IH]; intros st N B O H; [exact O|]. cbn [include_tasks].
  inversion N as [|? ? Ni Nl]; subst.
  pose proof (orderly_include_task st s s' g i O (B i (or_introl eq_refl)) (H i (or_introl eq_refl))) as O1.
  destruct (include_frame s' g i st) as (F1 & F2 & F3 & _).
  destruct (include_task s' g i st) as [st1 [u|e]]; cbn [fst] in *; [|exact O1].
  apply IH; [exact Nl| |exact O1|].
  - intros j J. rewrite F2. apply B. now right.
  - intros j J T. rewrite F1. apply (H j (or_intror J)). unfold task_of in *.
    apply F3; [|exact T]. right. intros ->. contradiction.
Qed.

(** What holds of all sessions *)
Lemma sane_tasks st s l : sane st -> NoDup l -> (forall i, In i l -> i < st_next st) -> sane (set_tasks s l st).
Proof.
  intros S N B s'. unfold set_tasks. cbn [st_tasks st_next]. destruct (s' =? s); [split; assumption|apply S].
Qed.
Lemma sane_add st s i : sane st -> i < st_next st -> sane (fst (add_task s i st)).
Proof.
  intros S B. assert (J : forall o st', sane st' -> sane (set_obj i o st')) by (intros o st' S'; exact S').
  assert (A : forall l, NoDup l -> (forall j, In j l -> j < st_next st) -> sane (set_tasks s (set_add i l) st)).
  { intros l N L. apply sane_tasks; [exact S|now apply set_add_nodup|]. intros j Hj. apply set_add_in in Hj as [Hj | ->]; auto. }
  unfold add_task. destruct (contains st s _).
  - destruct (st_policy st s); try exact S. destruct (set_remove i (st_tasks st s)) as [l|e] eqn:R; [|exact S].
    apply set_remove_ok in R as (_ & E & N). apply J, A; [apply N, S|]. intros j Hj. apply (S s). now apply E.
  - apply J, A; apply S.
Qed.
Lemma sane_name st i n : sane st -> sane (fst (set_name i n st)).
Proof. intros S. unfold set_name. destruct (check_name _ _ _); exact S. Qed.
Lemma sane_include_task st s g i : sane st -> i < st_next st -> sane (fst (include_task s g i st)).
Proof.
  intros S B. unfold include_task. set (m := if String.eqb _ _ then _ else _).
  assert (M : sane (fst m) /\ st_next (fst m) = st_next st).
  { unfold m. destruct (String.eqb _ _); [cbn [fst]; auto|]. split; [now apply sane_name|]. apply name_frame. }
  destruct m as [st1 [u|e]]; cbn [fst] in M; destruct M as (M1 & M2); [|exact M1].
  apply sane_add; [exact M1|]. cbn [set_obj st_next]. now rewrite M2.
Qed.
Lemma sane_include s g : forall l st, sane st -> (forall i, In i l -> i < st_next st) -> sane (fst (include_tasks s g l st)).
Proof.
  induction l as [|i l IH]; intros st S B; [exact S|]. cbn [include_tasks].
  pose proof (sane_include_task st s g i S (B i (or_introl eq_refl))) as S1.
  destruct (include_frame s g i st) as (_ & F2 & _).
  destruct (include_task s g i st) as [st1 [u|e]]; cbn [fst] in *; [|exact S1].
  apply IH; [exact S1|]. intros j J. rewrite F2. apply B. now right.
Qed.
Lemma sane_remove st s i : sane st -> sane (fst (remove_task s i st)).
Proof.
  intros S. unfold remove_task. destruct (set_remove i (st_tasks st s)) as [l|e] eqn:R; [|exact S].
  apply set_remove_ok in R as (_ & E & N). apply sane_tasks; [exact S|apply N, S|]. intros j J. apply (S s). now apply E.
Qed.
Lemma sane_op o st : sane st -> sane (fst (apply_op o st)).
Proof.
  intros S. destruct o as [s n c x|s i|i n|s i|s n|i|s|s p|s g]; cbn [apply_op].
  - unfold new_task. destruct (check_name st s n) as [n'|e]; [|exact S]. apply sane_add; [|cbn [st_next]; lia].
    intros s'. destruct (S s') as [N B]. split; [exact N|]. intros j J. cbn [st_next]. specialize (B j J). lia.
  - destruct (i <? st_next st) eqn:B; [|exact S]. apply sane_add; [exact S|lia].
  - destruct (i <? st_next st); [|exact S]. now apply sane_name.
  - now apply sane_remove.
  - unfold remove_named. destruct (lookup st s n); [now apply sane_remove|exact S].
  - now apply sane_remove.
  - apply sane_tasks; [exact S|constructor|intros i []].
  - exact S.
  - apply sane_include; [exact S|apply S].
Qed.

Theorem orderly_op o st s : sane st -> orderly st s -> keeps_to s o st -> orderly (fst (apply_op o st)) s.
Proof.
  intros S O K. destruct o as [s' n c x|s' i|i n|s' i|s' n|i|s'|s' p|s' g]; cbn [apply_op keeps_to] in *.
  - now apply orderly_new.
  - destruct (i <? st_next st) eqn:B; [|exact O]. apply orderly_add; [exact O|exact K|lia].
  - destruct (i <? st_next st); [|exact O]. now apply orderly_name.
  - now apply orderly_remove.
  - unfold remove_named. destruct (lookup st s' n); [now apply orderly_remove|exact O].
  - now apply orderly_remove.
  - cbn [clear fst]. destruct (Nat.eq_dec s' s) as [->|D]; [|now apply orderly_other].
    apply orderly_less; [exact O|intros j []|constructor].
  - exact O.
  - apply orderly_include; [apply S|apply S|exact O|exact K].
Qed.
Theorem orderly_history s : forall os st, sane st -> orderly st s -> all_keep_to s os st -> orderly (history os st) s.
Proof.
  induction os as [|o os IH]; intros st S O K; [exact O|]. destruct K as [K1 K2]. cbn [history].
  apply IH; [now apply sane_op|now apply orderly_op|exact K2].
Qed.
Lemma empty_sane : sane empty_store.
Proof. intros s. split; [constructor|intros i []]. Qed.
Lemma empty_orderly s : orderly empty_store s.
Proof. split; [split; [constructor|intros i j []]|intros i []]. Qed.
Theorem names_unique s os : all_keep_to s os empty_store ->
  unique_names (history os empty_store) s /\
  forall i, task_of (history os empty_store) s i -> lookup (history os empty_store) s (name_of (history os empty_store) i) = Ok i.
Proof.
  intros K. pose proof (orderly_history s os _ empty_sane (empty_orderly s) K) as [U _].
  split; [exact U|]. intros i I. now apply lookup_unique.
Qed.
Theorem sane_history : forall os st, sane st -> sane (history os st).
Proof. induction os as [|o os IH]; intros st S; [exact S|]. cbn [history]. apply IH. now apply sane_op. Qed.

(** * Creating a task *)
Theorem new_spec st s n c x : orderly st s -> sane st ->
  let '(st', r) := new_task s n c x st in
  let i := st_next st in
  match st_policy st s with
  | PIgnore => r = Ok tt /\ (used st s n -> st_tasks st' s = st_tasks st s) /\
               (~ used st s n -> st_tasks st' s = (st_tasks st s ++ [i])%list /\ name_of st' i = n)
  | PRename => r = Ok tt /\ st_tasks st' s = (st_tasks st s ++ [i])%list /\
      exists n', name_of st' i = n' /\ ~ used st s n' /\
        ((n' = n) \/ (used st s n /\ exists k, 1 <= k /\ n' = numbered n k /\
                       forall m, 1 <= m < k -> used st s (numbered n m)))
  | _ => (used st s n -> r = Err ValueError /\ st' = st) /\
         (~ used st s n -> r = Ok tt /\ st_tasks st' s = (st_tasks st s ++ [i])%list /\ name_of st' i = n)
  end.
Proof.
  intros O Sn. unfold new_task. pose proof (check_spec st s n) as C.
  assert (A : forall n', ~ used st s n' -> let '(st', r) := add_task s (st_next st)
       (Store (fun j => if Nat.eqb j (st_next st) then TObj n' s c x n' else st_obj st j) (Datatypes.S (st_next st)) (st_tasks st) (st_policy st)) in
       r = Ok tt /\ st_tasks st' s = (st_tasks st s ++ [st_next st])%list /\ name_of st' (st_next st) = n').
  { intros n' F. set (i := st_next st). set (st1 := Store _ _ _ _).
    assert (Old : forall j, task_of st s j -> j <> i) by (intros j J; unfold i; destruct (Sn s) as [_ B]; specialize (B j J); lia).
    assert (K : contains st1 s (o_name (st_obj st1 i)) = false).
    { apply not_contains. intros (j & J & E). apply F. exists j. split; [exact J|].
      unfold name_of, st1 in E. cbn [st_obj] in E. rewrite Nat.eqb_refl in E. cbn [o_name] in E.
      pose proof (Old j J) as D. apply Nat.eqb_neq in D. now rewrite D in E. }
    unfold add_task. rewrite K. split; [reflexivity|]. split.
    - unfold set_obj, set_tasks. cbn [st_tasks]. rewrite Nat.eqb_refl. cbn [st1 st_tasks]. unfold set_add.
      destruct (existsb (Nat.eqb i) (st_tasks st s)) eqn:E; [|reflexivity].
      exfalso. apply existsb_exists in E as (y & Y & Q). apply Nat.eqb_eq in Q. subst y. exact (Old i Y eq_refl).
    - unfold name_of, set_obj. cbn [st_obj]. rewrite Nat.eqb_refl. cbn [with_session o_name set_tasks st_obj st1].
      now rewrite Nat.eqb_refl. }
  destruct (st_policy st s) eqn:P.
  1,4,5: destruct C as [C1 C2]; destruct (contains st s n) eqn:K;
    [apply contains_spec in K; rewrite C1 by exact K; split; [auto|contradiction]
    |apply not_contains in K; rewrite C2 by exact K; specialize (A n K); destruct (add_task _ _ _) as [st' r]; split; [contradiction|auto]].
  - rewrite C. destruct (contains st s n) eqn:K.
    + apply contains_spec in K as U. unfold add_task. set (st1 := Store _ _ _ _).
      assert (K1 : contains st1 s (o_name (st_obj st1 (st_next st))) = true).
      { apply contains_spec. destruct U as (j & J & E). exists j. split; [exact J|].
        unfold name_of, st1. cbn [st_obj]. rewrite Nat.eqb_refl. cbn [o_name].
        assert (D : (j =? st_next st) = false) by (apply Nat.eqb_neq; destruct (Sn s) as [_ B]; specialize (B j J); lia).
        rewrite D. exact E. }
      rewrite K1. cbn [st1 st_policy]. rewrite P. split; [reflexivity|]. split; [reflexivity|contradiction].
    + apply not_contains in K as U. specialize (A n U). destruct (add_task _ _ _) as [st' r]. destruct A as (A1 & A2 & A3).
      split; [exact A1|]. split; [contradiction|auto].
  - destruct C as (n' & E & F & C). rewrite E. specialize (A n' F). destruct (add_task _ _ _) as [st' r].
    destruct A as (A1 & A2 & A3). split; [exact A1|]. split; [exact A2|]. exists n'. auto.
Qed.
