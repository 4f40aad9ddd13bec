(** Proofs about hooks and run ids. *)
From Coq Require Import Bool Arith Lia ZifyBool FinFun.
From Verif Require Import Model.Base Model.Hooks Spec.HooksSpec.
Open Scope nat_scope.

Section Hooks.
Context {B : Type}.

Definition kept_ok (k : kept) : Prop := match snd k with Some (Fails _) => False | _ => True end.
Definition kept_ids (ks : list kept) : list nat :=
  map fst (filter (fun k => match snd k with Some _ => true | None => false end) ks).

Lemma prerun_quiet : forall hooks i, (forall h, In h hooks -> no_failure h) ->
  exists ks, prerun (B := B) i hooks = (map Before (seq i (length hooks)), (ks, None)) /\
    Forall kept_ok ks /\ kept_ids ks = resumed i hooks.
Proof.
  induction hooks as [|h hooks IH]; intros i H.
  - exists []. repeat split; constructor.
  - destruct (H h (or_introl eq_refl)) as [HA HC].
    destruct (IH (S i) (fun x I => H x (or_intror I))) as (ks & E & O & R).
    cbn [prerun length seq map resumed]. rewrite HA, E. unfold yielded.
    destruct (hk_code h) as [r|[| |e] b].
    + subst r. exists ks. auto.
    + destruct HC as [_ HC]. exists ((i, Some b) :: ks). split; [reflexivity|]. split.
      * constructor; [|exact O]. unfold kept_ok. cbn. destruct b; auto. apply (HC eq_refl e). reflexivity.
      * unfold kept_ids in *. cbn. rewrite R. reflexivity.
    + exists ((i, None) :: ks). split; [reflexivity|]. split; [constructor; [exact I|exact O]|exact R].
    + destruct HC as [HC _]. exfalso. apply (HC e). reflexivity.
Qed.

Lemma postrun_quiet : forall ks, Forall kept_ok ks ->
  postrun (B := B) ks = (map After (kept_ids ks), None).
Proof.
  induction ks as [|[i [p|]] ks IH]; intros H; [reflexivity| |]; inversion H; subst.
  - cbn [postrun]. rewrite IH by assumption. unfold kept_ids. cbn. destruct p; [reflexivity|reflexivity|destruct H2].
  - cbn [postrun]. rewrite IH by assumption. reflexivity.
Qed.

Theorem paired : forall always (hooks : list hook) (body : list B) r,
  (forall h, In h hooks -> no_failure h) -> always = true \/ r = None ->
  hooked always None None hooks body r =
  (map Before (seq 0 (length hooks)) ++ map During body ++ map After (resumed 0 hooks), r).
Proof.
  intros always hooks body r H A. unfold hooked.
  destruct (prerun_quiet hooks 0 H) as (ks & E & O & R). rewrite E.
  assert (N : negb always && (match r with Some _ => true | None => false end) = false).
  { destruct A as [-> | ->]; [reflexivity|apply andb_false_r]. }
  rewrite N. rewrite postrun_quiet by exact O. rewrite R, app_assoc. reflexivity.
Qed.

(** Whatever raises: hooks run in order, none twice *)
Lemma prerun_any : forall hooks i evs ks f, prerun (B := B) i hooks = (evs, (ks, f)) ->
  exists k, k <= length hooks /\ evs = map Before (seq i k) /\
    (f = None -> k = length hooks /\ kept_ids ks = resumed i hooks).
Proof.
  induction hooks as [|h hooks IH]; intros i evs ks f H; cbn [prerun] in H.
  - injection H as <- <- <-. exists 0. repeat split; auto.
  - destruct (hk_args h) as [e|]; [injection H as <- <- <-; exists 0; split; [lia|]; split; [reflexivity|discriminate]|].
    cbn [resumed]. unfold yielded.
    destruct (prerun (S i) hooks) as [evs' [ks' f']] eqn:E.
    destruct (IH (S i) evs' ks' f' E) as (k & L & EV & D).
    destruct (hk_code h) as [[e|]|[| |e] b].
    + injection H as <- <- <-. exists 1. cbn [length]. split; [lia|]. split; [reflexivity|discriminate].
    + cbn [app] in H. injection H as <- <- <-. exists (S k). cbn [length seq map]. rewrite EV. split; [lia|]. split; [reflexivity|].
      intros F. destruct (D F) as [-> R]. auto.
    + cbn [app] in H. injection H as <- <- <-. exists (S k). cbn [length seq map]. rewrite EV. split; [lia|]. split; [reflexivity|].
      intros F. destruct (D F) as [-> R]. split; [reflexivity|]. unfold kept_ids in *. cbn. rewrite R. reflexivity.
    + cbn [app] in H. injection H as <- <- <-. exists (S k). cbn [length seq map]. rewrite EV. split; [lia|]. split; [reflexivity|].
      intros F. destruct (D F) as [-> R]. auto.
    + injection H as <- <- <-. exists 1. cbn [length]. split; [lia|]. split; [reflexivity|discriminate].
Qed.

Lemma postrun_any : forall ks evs r, postrun (B := B) ks = (evs, r) ->
  exists m, m <= length (kept_ids ks) /\ evs = map After (firstn m (kept_ids ks)).
Proof.
  induction ks as [|[i [p|]] ks IH]; intros evs r H; cbn [postrun] in H.
  - injection H as <- <-. exists 0. split; [lia|reflexivity].
  - unfold kept_ids in *. cbn [filter snd map fst length].
    destruct (postrun ks) as [evs' r']. destruct (IH evs' r' eq_refl) as (m & L & E).
    destruct p as [| |e]; injection H as <- <-.
    + exists (S m). split; [lia|]. rewrite E. reflexivity.
    + exists (S m). split; [lia|]. rewrite E. reflexivity.
    + exists 1. split; [lia|reflexivity].
  - apply (IH evs r H).
Qed.

Theorem in_order : forall always setup finish (hooks : list hook) (body : list B) r evs r',
  hooked always setup finish hooks body r = (evs, r') ->
  exists k m,
    (k <= length hooks /\ evs = map Before (seq 0 k)) \/
    (m <= length (resumed 0 hooks) /\
     evs = map Before (seq 0 (length hooks)) ++ map During body ++ map After (firstn m (resumed 0 hooks))).
Proof.
  intros always setup finish hooks body r evs r' H. unfold hooked in H.
  destruct (prerun 0 hooks) as [before [ks f]] eqn:E. destruct (prerun_any _ _ _ _ _ E) as (k & L & EV & D).
  destruct f as [e|].
  - injection H as <- _. exists k, 0. left. auto.
  - destruct (D eq_refl) as [-> R]. destruct setup as [e|]; [injection H as <- _; exists (length hooks), 0; left; auto|].
    destruct (negb always && _).
    + injection H as <- _. exists 0, 0. right. split; [lia|]. cbn [firstn map]. rewrite app_nil_r, EV. reflexivity.
    + destruct finish as [e|].
      * injection H as <- _. exists 0, 0. right. split; [lia|]. cbn [firstn map]. rewrite app_nil_r, EV. reflexivity.
      * destruct (postrun ks) as [more r2] eqn:P. injection H as <- _.
        destruct (postrun_any _ _ _ P) as (m & Lm & Em). rewrite R in Lm, Em.
        exists 0, m. right. split; [exact Lm|]. rewrite EV, Em, app_assoc. reflexivity.
Qed.

Lemma resumed_ge : forall hooks i j, In j (resumed i hooks) -> i <= j.
Proof.
  induction hooks as [|h hooks IH]; intros i j H; [destruct H|]. cbn [resumed] in H.
  destruct (yielded h); [destruct H as [<- | H]; [lia|]|]; apply IH in H; lia.
Qed.
Lemma resumed_nodup : forall hooks i, NoDup (resumed i hooks).
Proof.
  induction hooks as [|h hooks IH]; intros i; cbn [resumed]; [constructor|]. destruct (yielded h); [|apply IH].
  constructor; [|apply IH]. intros H. apply resumed_ge in H. lia.
Qed.
End Hooks.

Theorem resumed_spec : forall hooks j, In j (resumed 0 hooks) <-> exists h, nth_error hooks j = Some h /\ yielded h = true.
Proof.
  assert (G : forall hooks i j, In j (resumed i hooks) <-> exists k h, j = (i + k)%nat /\ nth_error hooks k = Some h /\ yielded h = true).
  { induction hooks as [|h hooks IH]; intros i j.
    - cbn. split; [intros []|]. intros (k & x & _ & E & _). destruct k; discriminate.
    - cbn [resumed]. split.
      + intros H. destruct (yielded h) eqn:Y.
        * destruct H as [<- | H]; [exists 0, h; split; [lia|auto]|].
          apply IH in H. destruct H as (k & x & -> & E). exists (S k), x. split; [lia|exact E].
        * apply IH in H. destruct H as (k & x & -> & E). exists (S k), x. split; [lia|exact E].
      + intros (k & x & -> & E & Y). destruct k as [|k].
        * cbn in E. injection E as ->. rewrite Y. left. lia.
        * cbn in E. assert (I : In (i + S k) (resumed (S i) hooks)).
          { apply IH. exists k, x. split; [lia|auto]. }
          destruct (yielded h); [right|]; exact I. }
  intros hooks j. rewrite G. split.
  - intros (k & h & -> & H). exists h. exact H.
  - intros (h & H). exists j, h. split; [lia|exact H].
Qed.

(** * Run ids *)

Open Scope Z_scope.

Lemma mem_iff : forall i ids, existsb (Z.eqb i) ids = true <-> In i ids.
Proof.
  intros i ids. rewrite existsb_exists. split.
  - intros (x & H & E). apply Z.eqb_eq in E. subst. exact H.
  - intros H. exists i. split; [exact H|apply Z.eqb_refl].
Qed.

Lemma count_sound : forall fuel ids i j, count_from fuel ids i = Returns j ->
  i <= j /\ ~ In j ids /\ forall k, i <= k < j -> In k ids.
Proof.
  induction fuel as [|fuel IH]; intros ids i j H; cbn [count_from] in H; [discriminate|].
  destruct (existsb (Z.eqb i) ids) eqn:E.
  - apply IH in H. destruct H as (L & N & A). split; [lia|]. split; [exact N|].
    intros k Hk. destruct (Z.eq_dec k i) as [-> | D]; [apply mem_iff; exact E|apply A; lia].
  - injection H as <-. split; [lia|]. split; [rewrite <- mem_iff, E; discriminate|]. intros k Hk. lia.
Qed.

(** Long runs of used ids need long stacks. *)
Lemma used_run : forall n ids i, (forall k, i <= k < i + Z.of_nat n -> In k ids) -> (n <= length ids)%nat.
Proof.
  intros n ids i H.
  assert (E : incl (map (fun m => i + Z.of_nat m) (seq 0 n)) ids).
  { intros x Hx. apply in_map_iff in Hx. destruct Hx as (m & <- & Hm). apply in_seq in Hm. apply H. lia. }
  apply NoDup_incl_length in E; [rewrite map_length, seq_length in E; exact E|].
  apply FinFun.Injective_map_NoDup; [|apply seq_NoDup]. intros a b Hab. lia.
Qed.

Lemma count_complete : forall fuel ids i, (forall j, count_from fuel ids i <> Returns j) ->
  forall k, i <= k < i + Z.of_nat fuel -> In k ids.
Proof.
  induction fuel as [|fuel IH]; intros ids i H k Hk; [lia|]. cbn [count_from] in H.
  destruct (existsb (Z.eqb i) ids) eqn:E; [|exfalso; apply (H i); reflexivity].
  destruct (Z.eq_dec k i) as [-> | D]; [apply mem_iff; exact E|]. apply (IH ids (i + 1) H). lia.
Qed.

Theorem increment_smallest : forall ids, exists i, increment (S (length ids)) ids = Returns i /\
  1 <= i /\ ~ In i ids /\ forall j, 1 <= j < i -> In j ids.
Proof.
  intros ids. unfold increment. destruct (count_from (S (length ids)) ids 1) as [i|e|] eqn:E.
  - exists i. split; [reflexivity|]. apply count_sound in E. exact E.
  - exfalso. pose proof (used_run (S (length ids)) ids 1) as U.
    assert (L : (S (length ids) <= length ids)%nat) by (apply U, count_complete; intros j; rewrite E; discriminate). lia.
  - exfalso. pose proof (used_run (S (length ids)) ids 1) as U.
    assert (L : (S (length ids) <= length ids)%nat) by (apply U, count_complete; intros j; rewrite E; discriminate). lia.
Qed.

Lemma nodup_snoc : forall (l : list Z) i, NoDup l -> ~ In i l -> NoDup (l ++ [i]).
Proof.
  induction l as [|a l IH]; intros i H N; cbn [app]; [repeat constructor; intros []|].
  inversion H; subst. constructor.
  - rewrite in_app_iff. intros [I | [<- | []]]; [contradiction|]. apply N. left. reflexivity.
  - apply IH; [assumption|]. intros I. apply N. right. exact I.
Qed.

Theorem ids_distinct : forall ids, id_history ids -> NoDup ids.
Proof.
  intros ids H. induction H as [|ids ids' H IH S]; [constructor|].
  destruct S as [fuel ids i E|f ids].
  - apply count_sound in E. apply nodup_snoc; [exact IH|]. apply E.
  - apply NoDup_filter. exact IH.
Qed.

(** * Hooks that are not resumed *)

Open Scope nat_scope.

(** A hook that raises before *)
Lemma raising_before : exists hooks (body : list nat) evs,
  hooked true None None hooks body None = (evs, Some ValueError) /\
  In (Before 0) evs /\ In 0 (resumed 0 hooks) /\ ~ In (After 0) evs.
Proof.
  exists [Hook None (Generator Yields Ends); Hook None (Function (Some ValueError))], [7], [Before 0; Before 1].
  split; [reflexivity|]. split; [left; reflexivity|]. split; [left; reflexivity|]. intros [H | [H | []]]; discriminate.
Qed.
(** A hook that raises after *)
Lemma raising_after : exists hooks (body : list nat) evs,
  hooked true None None hooks body None = (evs, Some ValueError) /\
  In (Before 1) evs /\ In 1 (resumed 0 hooks) /\ ~ In (After 1) evs.
Proof.
  exists [Hook None (Generator Yields (Fails ValueError)); Hook None (Generator Yields Ends)], [7],
    [Before 0; Before 1; During 7; After 0].
  split; [reflexivity|]. split; [cbn; auto|]. split; [cbn; auto|]. intros [H | [H | [H | [H | []]]]]; discriminate.
Qed.
(** Parameters that cannot be materialised, or process_finish raising *)
Lemma raising_around : forall setup finish, setup <> None \/ finish <> None ->
  exists hooks (body : list nat) evs e,
  (forall h, In h hooks -> no_failure h) /\
  hooked true setup finish hooks body None = (evs, Some e) /\
  In (Before 0) evs /\ In 0 (resumed 0 hooks) /\ ~ In (After 0) evs.
Proof.
  intros setup finish D.
  assert (Q : forall h, In h [Hook None (Generator Yields Ends)] -> no_failure h).
  { intros h [<- | []]. split; [reflexivity|]. split; intros; discriminate. }
  destruct setup as [e|].
  - exists [Hook None (Generator Yields Ends)], [7], [Before 0], e. split; [exact Q|]. split; [reflexivity|]. split; [left; reflexivity|]. split; [left; reflexivity|].
    intros [H | []]; discriminate.
  - destruct finish as [e|]; [|exfalso; destruct D as [D | D]; apply D; reflexivity].
    exists [Hook None (Generator Yields Ends)], [7], [Before 0; During 7], e.
    split; [exact Q|]. split; [reflexivity|]. split; [left; reflexivity|]. split; [left; reflexivity|].
    intros [H | [H | []]]; discriminate.
Qed.
(** A cycle or a startup that ends in an exception *)
Lemma raising_inside : exists hooks (body : list nat) evs,
  (forall h, In h hooks -> no_failure h) /\
  hooked false None None hooks body (Some ValueError) = (evs, Some ValueError) /\
  In (Before 0) evs /\ In 0 (resumed 0 hooks) /\ ~ In (After 0) evs.
Proof.
  exists [Hook None (Generator Yields Ends)], [7], [Before 0; During 7].
  split. { intros h [<- | []]. split; [reflexivity|]. split; intros; discriminate. }
  split; [reflexivity|]. split; [left; reflexivity|]. split; [left; reflexivity|]. intros [H | [H | []]]; discriminate.
Qed.
