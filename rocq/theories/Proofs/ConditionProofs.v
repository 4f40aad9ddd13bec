From Coq Require Import Bool Arith Lia ZifyBool.
From Verif Require Import Model.Base Model.Condition Spec.ConditionSpec.
Open Scope Z_scope.

(** * Boolean algebra *)

Definition seq_any (a b : observation) : observation :=
  match a with
  | (Ok false, tr) => (fst b, tr ++ snd b)
  | r => r
  end.
Definition seq_all (a b : observation) : observation :=
  match a with
  | (Ok true, tr) => (fst b, tr ++ snd b)
  | r => r
  end.

Lemma any_loop_app : forall obs xs ys,
  any_loop obs (xs ++ ys) = seq_any (any_loop obs xs) (any_loop obs ys).
Proof.
  intros obs xs ys. induction xs as [|x xs IH]; cbn [any_loop app].
  - unfold seq_any. cbn. destruct (any_loop obs ys); reflexivity.
  - destruct (obs x) as [[[|]|e] tr]; [reflexivity| |reflexivity].
    rewrite IH. destruct (any_loop obs xs) as [[[|]|e] tr']; cbn; try reflexivity.
    rewrite app_assoc. reflexivity.
Qed.

Lemma all_loop_app : forall obs xs ys,
  all_loop obs (xs ++ ys) = seq_all (all_loop obs xs) (all_loop obs ys).
Proof.
  intros obs xs ys. induction xs as [|x xs IH]; cbn [all_loop app].
  - unfold seq_all. cbn. destruct (all_loop obs ys); reflexivity.
  - destruct (obs x) as [[[|]|e] tr]; [|reflexivity|reflexivity].
    rewrite IH. destruct (all_loop obs xs) as [[[|]|e] tr']; cbn; try reflexivity.
    rewrite app_assoc. reflexivity.
Qed.

Lemma any_loop_single : forall obs c, any_loop obs [c] = obs c.
Proof. intros obs c. cbn. destruct (obs c) as [[[|]|e] tr]; rewrite ?app_nil_r; reflexivity. Qed.
Lemma all_loop_single : forall obs c, all_loop obs [c] = obs c.
Proof. intros obs c. cbn. destruct (obs c) as [[[|]|e] tr]; rewrite ?app_nil_r; reflexivity. Qed.

Lemma observe_mk_any : forall env args, observe env (mk_any args) = any_loop (observe env) args.
Proof.
  intros env args. unfold mk_any. cbn [observe].
  induction args as [|c args IH]; [reflexivity|].
  unfold any_subs in *. cbn [flat_map]. rewrite any_loop_app, IH.
  change (c :: args) with ([c] ++ args). rewrite (any_loop_app _ [c]).
  f_equal. rewrite any_loop_single. destruct c; try apply any_loop_single. reflexivity.
Qed.

Lemma observe_mk_all : forall env args, observe env (mk_all args) = all_loop (observe env) args.
Proof.
  intros env args. unfold mk_all. cbn [observe].
  induction args as [|c args IH]; [reflexivity|].
  unfold all_subs in *. cbn [flat_map]. rewrite all_loop_app, IH.
  change (c :: args) with ([c] ++ args). rewrite (all_loop_app _ [c]).
  f_equal. rewrite all_loop_single. destruct c; try apply all_loop_single. reflexivity.
Qed.

Lemma observe_or : forall env a b,
  observe env (c_or a b) = seq_any (observe env a) (observe env b).
Proof.
  intros env a b. unfold c_or. rewrite observe_mk_any.
  change [a; b] with ([a] ++ [b]). rewrite any_loop_app, !any_loop_single. reflexivity.
Qed.

Lemma observe_and : forall env a b,
  observe env (c_and a b) = seq_all (observe env a) (observe env b).
Proof.
  intros env a b. unfold c_and. rewrite observe_mk_all.
  change [a; b] with ([a] ++ [b]). rewrite all_loop_app, !all_loop_single. reflexivity.
Qed.

Definition obs_not (o : observation) : observation :=
  match o with (Ok b, tr) => (Ok (negb b), tr) | r => r end.

Lemma observe_not : forall env c, observe env (c_not c) = obs_not (observe env c).
Proof.
  intros env c.
  assert (H : observe env (CNot c) = obs_not (observe env c))
    by (cbn [observe]; destruct (observe env c) as [[b|e] tr]; reflexivity).
  destruct c as [| |n|cs|cs|d]; cbn [c_not]; try exact H.
  cbn [observe]. destruct (observe env d) as [[b|e] tr]; [|reflexivity].
  cbn. rewrite negb_involutive. reflexivity.
Qed.

Lemma shortcut_ok : forall env e, observe env (cbuild e) = shortcut env e.
Proof.
  intros env e. induction e as [| |n|a IHa b IHb|a IHa b IHb|a IHa]; cbn [cbuild shortcut].
  - reflexivity.
  - reflexivity.
  - reflexivity.
  - rewrite observe_and, IHa, IHb. destruct (shortcut env a) as [[[|]|x] tr]; reflexivity.
  - rewrite observe_or, IHa, IHb. destruct (shortcut env a) as [[[|]|x] tr]; reflexivity.
  - rewrite observe_not, IHa. destruct (shortcut env a) as [[b|x] tr]; reflexivity.
Qed.

Lemma shortcut_truth : forall env e, fst (shortcut (fun n => Ok (env n)) e) = Ok (truth env e).
Proof.
  intros env e. induction e as [| |n|a IHa b IHb|a IHa b IHb|a IHa]; cbn [shortcut truth];
    try reflexivity;
    destruct (shortcut _ a) as [ra tra]; cbn [fst] in IHa; subst ra; destruct (truth env a); cbn;
    try reflexivity; exact IHb.
Qed.

Lemma observe_truth : forall env e, fst (observe (fun n => Ok (env n)) (cbuild e)) = Ok (truth env e).
Proof. intros env e. rewrite shortcut_ok. apply shortcut_truth. Qed.

(** An atom that was not looked at does not matter. *)
Lemma shortcut_unseen : forall env env' e,
  (forall n, In n (snd (shortcut env e)) -> env' n = env n) ->
  shortcut env' e = shortcut env e.
Proof.
  intros env env' e. induction e as [| |n|a IHa b IHb|a IHa b IHb|a IHa]; cbn [shortcut]; intros H.
  - reflexivity.
  - reflexivity.
  - rewrite (H n); [reflexivity|]. cbn. left. reflexivity.
  - destruct (shortcut env a) as [[[|]|x] tr] eqn:E; cbn in H |- *.
    + rewrite IHa by (intros n Hn; apply H; apply in_or_app; left; exact Hn).
      rewrite IHb by (intros n Hn; apply H; apply in_or_app; right; exact Hn). reflexivity.
    + rewrite IHa by exact H. reflexivity.
    + rewrite IHa by exact H. reflexivity.
  - destruct (shortcut env a) as [[[|]|x] tr] eqn:E; cbn in H |- *.
    + rewrite IHa by exact H. reflexivity.
    + rewrite IHa by (intros n Hn; apply H; apply in_or_app; left; exact Hn).
      rewrite IHb by (intros n Hn; apply H; apply in_or_app; right; exact Hn). reflexivity.
    + rewrite IHa by exact H. reflexivity.
  - destruct (shortcut env a) as [[v|x] tr] eqn:E; cbn in H |- *; rewrite IHa by exact H; reflexivity.
Qed.

Lemma observe_unseen : forall env env' e,
  (forall n, In n (snd (observe env (cbuild e))) -> env' n = env n) ->
  observe env' (cbuild e) = observe env (cbuild e).
Proof. intros env env' e H. rewrite !shortcut_ok in *. apply shortcut_unseen. exact H. Qed.

Lemma de_morgan_and : forall env a b,
  observe env (c_not (c_and a b)) = observe env (c_or (c_not a) (c_not b)).
Proof.
  intros env a b. rewrite observe_not, observe_and, observe_or, !observe_not.
  destruct (observe env a) as [[[|]|x] tr]; cbn; try reflexivity.
  destruct (observe env b) as [[[|]|x] tr']; reflexivity.
Qed.
Lemma de_morgan_or : forall env a b,
  observe env (c_not (c_or a b)) = observe env (c_and (c_not a) (c_not b)).
Proof.
  intros env a b. rewrite observe_not, observe_and, observe_or, !observe_not.
  destruct (observe env a) as [[[|]|x] tr]; cbn; try reflexivity.
  destruct (observe env b) as [[[|]|x] tr']; reflexivity.
Qed.

(** A failing part that is reached is reported. *)
Lemma observe_error_seen : forall env e x,
  fst (observe env (cbuild e)) = Err x ->
  exists n, In n (snd (observe env (cbuild e))) /\ env n = Err x.
Proof.
  intros env e x. rewrite shortcut_ok. revert x.
  induction e as [| |n|a IHa b IHb|a IHa b IHb|a IHa]; cbn [shortcut]; intros x H; try discriminate.
  - exists n. split; [left; reflexivity|exact H].
  - destruct (shortcut env a) as [[[|]|y] tr]; cbn in H |- *; try discriminate.
    + destruct (IHb x H) as (n & Hn & E). exists n. split; [apply in_or_app; right; exact Hn|exact E].
    + exact (IHa x H).
  - destruct (shortcut env a) as [[[|]|y] tr]; cbn in H |- *; try discriminate.
    + destruct (IHb x H) as (n & Hn & E). exists n. split; [apply in_or_app; right; exact Hn|exact E].
    + exact (IHa x H).
  - destruct (shortcut env a) as [[v|y] tr]; cbn in H |- *; try discriminate. exact (IHa x H).
Qed.

(** * Comparisons *)

Lemma op_eqb_eq : forall a b, op_eqb a b = true <-> a = b.
Proof. intros a b. destruct a, b; cbn; split; intros H; try discriminate; reflexivity. Qed.
Lemma op_eqb_refl : forall a, op_eqb a a = true.
Proof. intros a. apply op_eqb_eq. reflexivity. Qed.
Lemma op_eqb_neq : forall a b, op_eqb a b = false <-> a <> b.
Proof.
  intros a b. destruct (op_eqb a b) eqn:E; split; intros H; try discriminate; try reflexivity.
  - apply op_eqb_eq in E. contradiction.
  - intros Eq. apply op_eqb_eq in Eq. congruence.
Qed.

Lemma int_compare_says : forall op m n, int_compare op m (BInt n) = true <-> says op m n.
Proof. intros op m n. destruct op; cbn; lia. Qed.

Lemma comps_get_set : forall c op v op',
  comps_get (comps_set c op v) op' = if op_eqb op op' then Some v else comps_get c op'.
Proof.
  intros c op v op'. induction c as [|[o w] c IH]; cbn [comps_set comps_get].
  - reflexivity.
  - destruct (op_eqb o op) eqn:E; cbn [comps_get].
    + apply op_eqb_eq in E. subst o. destruct (op_eqb op op'); reflexivity.
    + rewrite IH. destruct (op_eqb o op') eqn:E'; [|reflexivity].
      apply op_eqb_eq in E'. subst o. destruct (op_eqb op op') eqn:E2; [|reflexivity].
      apply op_eqb_eq in E2. subst op'. rewrite op_eqb_refl in E. discriminate.
Qed.

Lemma comps_set_in : forall c op v o, In o (map fst (comps_set c op v)) -> o = op \/ In o (map fst c).
Proof.
  intros c op v o. induction c as [|[o' w] c IH]; cbn.
  - intros [H|[]]. left. congruence.
  - destruct (op_eqb o' op) eqn:E; cbn; intros [H|H]; try tauto.
Qed.

Lemma comps_set_keys : forall c op v, keys_ok c -> keys_ok (comps_set c op v).
Proof.
  unfold keys_ok. intros c op v H. induction c as [|[o w] c IH]; cbn.
  - constructor; [intros []|constructor].
  - cbn in H. inversion H as [|? ? Hn Hd]; subst.
    destruct (op_eqb o op) eqn:E; cbn.
    + constructor; assumption.
    + constructor; [|exact (IH Hd)]. intros Hi. apply comps_set_in in Hi.
      destruct Hi as [-> | Hi]; [rewrite op_eqb_refl in E; discriminate|contradiction].
Qed.

Lemma comps_get_in : forall c op v, keys_ok c -> (comps_get c op = Some v <-> In (op, v) c).
Proof.
  unfold keys_ok. intros c op v. induction c as [|[o w] c IH]; cbn; intros H.
  - split; [discriminate|intros []].
  - inversion H as [|? ? Hn Hd]; subst. destruct (op_eqb o op) eqn:E.
    + apply op_eqb_eq in E. subst o. split.
      * intros Hv. left. congruence.
      * intros [Hv|Hv]; [congruence|]. exfalso. apply Hn.
        apply (in_map fst) in Hv. exact Hv.
    + rewrite (IH Hd). split; [tauto|]. intros [Hv|Hv]; [|exact Hv].
      apply op_eqb_neq in E. congruence.
Qed.

Lemma comp_state_iff : forall c n, keys_ok c ->
  (comp_state c n = true <->
   ((forall op, comps_get c op = None) /\ n > 0) \/
   ((exists op, comps_get c op <> None) /\ obeys (comps_get c) n)).
Proof.
  intros c n K. destruct c as [|[o w] c].
  - cbn. split; [intros H; left; split; [reflexivity|lia]|].
    intros [[_ H]|[[op H] _]]; [lia|contradiction].
  - assert (Hne : comps_get ((o, w) :: c) o <> None) by (cbn; rewrite op_eqb_refl; discriminate).
    change (comp_state ((o, w) :: c) n)
      with (forallb (fun ov => int_compare (fst ov) n (snd ov)) ((o, w) :: c)).
    rewrite forallb_forall. split.
    + intros H. right. split; [exists o; exact Hne|].
      intros op v Hg. apply comps_get_in in Hg; [|exact K]. exact (H (op, v) Hg).
    + intros [[H _]|[_ H]]; [exfalso; apply Hne, H|].
      intros [op v] Hi. cbn. apply H. apply comps_get_in; assumption.
Qed.

Lemma nth_list_update : forall A (l : list A) n f k,
  nth_error (list_update l n f) k =
  if Nat.eqb n k then option_map f (nth_error l k) else nth_error l k.
Proof.
  intros A l. induction l as [|a l IH]; intros n f k; cbn.
  - destruct (Nat.eqb n k); destruct k; reflexivity.
  - destruct n, k; cbn; try reflexivity. apply IH.
Qed.

Lemma list_update_length : forall A (l : list A) n f, length (list_update l n f) = length l.
Proof. intros A l. induction l as [|a l IH]; intros [|n] f; cbn; congruence. Qed.

Lemma nth_error_snoc : forall A (l : list A) a k,
  nth_error (l ++ [a]) k = if Nat.eqb k (length l) then Some a else nth_error l k.
Proof.
  intros A l a k. destruct (Nat.eqb k (length l)) eqn:E.
  - apply Nat.eqb_eq in E. subst k. rewrite nth_error_app2 by lia.
    rewrite Nat.sub_diag. reflexivity.
  - apply Nat.eqb_neq in E. destruct (Nat.lt_ge_cases k (length l)) as [Hl|Hl].
    + apply nth_error_app1. exact Hl.
    + rewrite (proj2 (nth_error_None l k)) by lia. apply nth_error_None.
      rewrite app_length. cbn. lia.
Qed.

Lemma latest_app : forall a b op,
  latest (a ++ b) op = match latest b op with Some v => Some v | None => latest a op end.
Proof.
  intros a b op. unfold latest. rewrite fold_left_app.
  generalize (fold_left (fun acc ov => if op_eqb (fst ov) op then Some (snd ov) else acc) a None).
  induction b as [|[o v] b IH]; intros acc; cbn [fold_left fst snd].
  - reflexivity.
  - destruct (op_eqb o op).
    + rewrite (IH (Some v)).
      match goal with |- context [match ?F with _ => _ end] => destruct F end; reflexivity.
    + apply IH.
Qed.

Lemma latest_keys : forall c op, keys_ok c -> latest c op = comps_get c op.
Proof.
  intros c op. induction c as [|[o v] c IH]; intros K; [reflexivity|].
  change ((o, v) :: c) with ([(o, v)] ++ c). rewrite latest_app.
  unfold keys_ok in K. cbn in K. inversion K as [|? ? Hn Hd]; subst.
  rewrite (IH Hd). cbn. destruct (op_eqb o op) eqn:E.
  - apply op_eqb_eq in E. subst o.
    destruct (comps_get c op) as [w|] eqn:G; [|reflexivity].
    apply comps_get_in in G; [|exact Hd]. exfalso. apply Hn. apply (in_map fst) in G. exact G.
  - destruct (comps_get c op); reflexivity.
Qed.

(** [rel st rs bs]: objects refer to dictionaries the way [rs] says, and each
    dictionary holds the latest bounds of [bs]. *)
Record rel (st : cstate) (rs : list nat) (loc : list nat) (bs : nat -> list (cmp_op * bound)) : Prop := {
  rel_len : length (objs st) = length rs;
  rel_loc : length loc = length rs;
  rel_root : forall o r, nth_error rs o = Some r -> (r <= o)%nat;
  rel_obj : forall o r, nth_error rs o = Some r -> nth_error (objs st) o = nth_error loc r;
  rel_root_root : forall o r, nth_error rs o = Some r -> nth_error rs r = Some r;
  rel_dict : forall r l, nth_error rs r = Some r -> nth_error loc r = Some l ->
     exists c, nth_error (dicts st) l = Some c /\ keys_ok c /\ forall op, comps_get c op = latest (bs r) op;
  rel_inj : forall r r' l, nth_error rs r = Some r -> nth_error rs r' = Some r' ->
     nth_error loc r = Some l -> nth_error loc r' = Some l -> r = r' }.

Lemma fb_cons_other : forall (A : Type) (b : bool) (x y : list A), (if b then x else []) ++ y = (if b then x ++ y else y).
Proof. intros A [|] x y; reflexivity. Qed.

Lemma rel_step_new : forall st rs loc bs c, rel st rs loc bs -> keys_ok c -> bs (length rs) = [] ->
  rel (CState (dicts st ++ [c]) (objs st ++ [length (dicts st)]))
      (rs ++ [length rs]) (loc ++ [length (dicts st)])
      (fun r => bs r ++ if Nat.eqb (length rs) r then c else []).
Proof.
  intros st rs loc bs c R K B0. destruct R as [R1 R2 R3 R4 R5 R6 R7].
  assert (Hlt : forall o r, nth_error rs o = Some r -> (o < length rs)%nat)
    by (intros o r H; apply nth_error_Some; congruence).
  assert (Hroot : forall r, nth_error (rs ++ [length rs]) r = Some r ->
            r = length rs \/ (r <> length rs /\ nth_error rs r = Some r)).
  { intros r H. rewrite nth_error_snoc in H. destruct (Nat.eqb r (length rs)) eqn:E.
    - left. apply Nat.eqb_eq. exact E.
    - right. apply Nat.eqb_neq in E. split; assumption. }
  constructor; cbn [objs dicts].
  - rewrite !app_length. cbn. lia.
  - rewrite !app_length. cbn. lia.
  - intros o r H. rewrite nth_error_snoc in H. destruct (Nat.eqb o (length rs)) eqn:E.
    + injection H as <-. apply Nat.eqb_eq in E. lia.
    + exact (R3 o r H).
  - intros o r H. rewrite nth_error_snoc in H.
    rewrite !nth_error_snoc, R1, R2. destruct (Nat.eqb o (length rs)) eqn:E.
    + injection H as <-. rewrite Nat.eqb_refl. reflexivity.
    + rewrite (R4 o r H). destruct (Nat.eqb r (length rs)) eqn:E'; [|reflexivity].
      apply Nat.eqb_eq in E'. subst r. apply R3 in H as H3. apply Hlt in H. lia.
  - intros o r H. rewrite nth_error_snoc in H. rewrite nth_error_snoc.
    destruct (Nat.eqb o (length rs)) eqn:E.
    + injection H as <-. rewrite Nat.eqb_refl. reflexivity.
    + destruct (Nat.eqb r (length rs)) eqn:E'.
      * apply Nat.eqb_eq in E'. subst r. reflexivity.
      * exact (R5 o r H).
  - intros r l H L. rewrite nth_error_snoc, R2 in L. rewrite nth_error_snoc.
    apply Hroot in H. destruct H as [-> | [Hn H]].
    + rewrite Nat.eqb_refl in L. injection L as <-. rewrite !Nat.eqb_refl, B0.
      exists c. split; [reflexivity|]. split; [exact K|]. intros op. cbn [app].
      symmetry. apply latest_keys. exact K.
    + rewrite (proj2 (Nat.eqb_neq _ _) Hn) in L.
      destruct (R6 r l H L) as (c' & D & K' & G).
      assert (Hl : (l < length (dicts st))%nat) by (apply nth_error_Some; congruence).
      exists c'. destruct (Nat.eqb l (length (dicts st))) eqn:E; [apply Nat.eqb_eq in E; lia|].
      split; [exact D|]. split; [exact K'|]. intros op.
      rewrite (proj2 (Nat.eqb_neq (length rs) r)) by lia. rewrite app_nil_r. apply G.
  - intros r r' l H H' L L'. rewrite nth_error_snoc, R2 in L, L'.
    apply Hroot in H. apply Hroot in H'.
    assert (Hno : forall r, nth_error rs r = Some r -> nth_error loc r = Some (length (dicts st)) -> False).
    { intros q Hq Lq. destruct (R6 q _ Hq Lq) as (c' & D & _).
      assert (length (dicts st) < length (dicts st))%nat by (apply nth_error_Some; congruence). lia. }
    destruct H as [-> | [Hn H]]; destruct H' as [-> | [Hn' H']].
    + reflexivity.
    + rewrite Nat.eqb_refl in L. injection L as <-. rewrite (proj2 (Nat.eqb_neq _ _) Hn') in L'.
      exfalso. exact (Hno _ H' L').
    + rewrite Nat.eqb_refl in L'. injection L' as <-. rewrite (proj2 (Nat.eqb_neq _ _) Hn) in L.
      exfalso. exact (Hno _ H L).
    + rewrite (proj2 (Nat.eqb_neq _ _) Hn) in L. rewrite (proj2 (Nat.eqb_neq _ _) Hn') in L'.
      exact (R7 r r' l H H' L L').
Qed.

Lemma rel_step_compare : forall st rs loc bs o op v r l,
  rel st rs loc bs -> nth_error rs o = Some r -> nth_error (objs st) o = Some l ->
  rel (CState (list_update (dicts st) l (fun c => comps_set c op v)) (objs st ++ [l]))
      (rs ++ [r]) (loc ++ [l])
      (fun q => bs q ++ if Nat.eqb r q then [(op, v)] else []).
Proof.
  intros st rs loc bs o op v r l R Hr Hl. destruct R as [R1 R2 R3 R4 R5 R6 R7].
  assert (Hlt : forall o r, nth_error rs o = Some r -> (o < length rs)%nat)
    by (intros o' r' H; apply nth_error_Some; congruence).
  assert (Ho := Hlt _ _ Hr). assert (Hro := R3 _ _ Hr). assert (Hrr := R5 _ _ Hr).
  assert (Hroot : forall q, nth_error (rs ++ [r]) q = Some q ->
            nth_error rs q = Some q /\ q <> length rs).
  { intros q H. rewrite nth_error_snoc in H. destruct (Nat.eqb q (length rs)) eqn:E.
    - apply Nat.eqb_eq in E. injection H as H. lia.
    - apply Nat.eqb_neq in E. split; assumption. }
  assert (Lr : nth_error loc r = Some l) by (rewrite <- (R4 _ _ Hr); exact Hl).
  constructor; cbn [objs dicts].
  - rewrite !app_length. cbn. lia.
  - rewrite !app_length. cbn. lia.
  - intros o' r' H. rewrite nth_error_snoc in H. destruct (Nat.eqb o' (length rs)) eqn:E.
    + injection H as <-. apply Nat.eqb_eq in E. lia.
    + exact (R3 o' r' H).
  - intros o' r' H. rewrite nth_error_snoc in H. rewrite !nth_error_snoc, R1, R2.
    destruct (Nat.eqb o' (length rs)) eqn:E.
    + injection H as <-. rewrite (proj2 (Nat.eqb_neq r (length rs))) by lia.
      symmetry. exact Lr.
    + apply Hlt in H as H1. apply R3 in H as H3.
      rewrite (proj2 (Nat.eqb_neq r' (length rs))) by lia. exact (R4 o' r' H).
  - intros o' r' H. rewrite nth_error_snoc in H. rewrite nth_error_snoc.
    destruct (Nat.eqb o' (length rs)) eqn:E.
    + injection H as <-. rewrite (proj2 (Nat.eqb_neq r (length rs))) by lia. exact Hrr.
    + apply Hlt in H as H1. apply R3 in H as H3.
      rewrite (proj2 (Nat.eqb_neq r' (length rs))) by lia. exact (R5 o' r' H).
  - intros q l' H L. apply Hroot in H. destruct H as [H Hn].
    rewrite nth_error_snoc, R2, (proj2 (Nat.eqb_neq _ _) Hn) in L.
    destruct (R6 q l' H L) as (c & D & K & G). rewrite nth_list_update.
    destruct (Nat.eqb l l') eqn:E.
    + apply Nat.eqb_eq in E. subst l'. assert (q = r) by exact (R7 q r l H Hrr L Lr). subst q.
      rewrite Nat.eqb_refl, D. cbn. exists (comps_set c op v).
      split; [reflexivity|]. split; [apply comps_set_keys; exact K|].
      intros op'. rewrite comps_get_set, latest_app. cbn.
      destruct (op_eqb op op'); [reflexivity|]. apply G.
    + exists c. split; [exact D|]. split; [exact K|]. intros op'.
      assert (r <> q) by (intros ->; rewrite Lr in L; injection L as ->; rewrite Nat.eqb_refl in E; discriminate).
      rewrite (proj2 (Nat.eqb_neq r q)) by assumption. rewrite app_nil_r. apply G.
  - intros q q' l' H H' L L'. apply Hroot in H. apply Hroot in H'.
    destruct H as [H Hn], H' as [H' Hn'].
    rewrite nth_error_snoc, R2, (proj2 (Nat.eqb_neq _ _) Hn) in L.
    rewrite nth_error_snoc, R2, (proj2 (Nat.eqb_neq _ _) Hn') in L'.
    exact (R7 q q' l' H H' L L').
Qed.

Lemma rel_ext : forall st rs loc bs bs', rel st rs loc bs -> (forall r, bs r = bs' r) -> rel st rs loc bs'.
Proof.
  intros st rs loc bs bs' [R1 R2 R3 R4 R5 R6 R7] E. constructor; try assumption.
  intros r l H L. destruct (R6 r l H L) as (c & D & K & G).
  exists c. split; [exact D|]. split; [exact K|]. intros op. rewrite <- E. apply G.
Qed.

Lemma rel_run : forall evs st rs loc bs,
  rel st rs loc bs -> magic_ok evs -> (forall r, (length rs <= r)%nat -> bs r = []) ->
  exists loc', rel (fold_left cstep evs st) (roots evs rs) loc' (fun r => bs r ++ family_bounds evs rs r).
Proof.
  induction evs as [|ev evs IH]; intros st rs loc bs R M B0.
  - exists loc. cbn. apply rel_ext with bs; [exact R|]. intros r. rewrite app_nil_r. reflexivity.
  - assert (M' : magic_ok evs) by (intros c Hc; apply M; right; exact Hc).
    cbn [fold_left]. destruct ev as [|c|o op v]; cbn [cstep roots family_bounds].
    + destruct (IH _ _ _ _ (rel_step_new st rs loc bs [] R ltac:(constructor) (B0 _ (le_n _))) M') as [loc' R'].
      * intros r Hr. rewrite app_length in Hr. cbn in Hr. rewrite B0 by lia.
        destruct (Nat.eqb (length rs) r); reflexivity.
      * exists loc'. apply (rel_ext _ _ _ _ _ R'). intros r.
        destruct (Nat.eqb (length rs) r); rewrite app_nil_r; reflexivity.
    + destruct (IH _ _ _ _ (rel_step_new st rs loc bs c R (M c (or_introl eq_refl)) (B0 _ (le_n _))) M') as [loc' R'].
      * intros r Hr. rewrite app_length in Hr. cbn in Hr. rewrite B0 by lia.
        rewrite (proj2 (Nat.eqb_neq (length rs) r)) by lia. reflexivity.
      * exists loc'. apply (rel_ext _ _ _ _ _ R'). intros r. rewrite app_assoc. reflexivity.
    + destruct (nth_error rs o) as [r|] eqn:Er.
      * assert (Ho : exists l, nth_error (objs st) o = Some l).
        { assert (o < length (objs st))%nat
            by (rewrite (rel_len _ _ _ _ R); apply nth_error_Some; congruence).
          destruct (nth_error (objs st) o) eqn:E; [eauto|].
          apply nth_error_None in E. lia. }
        destruct Ho as [l Hl]. rewrite Hl.
        destruct (IH _ _ _ _ (rel_step_compare st rs loc bs o op v r l R Er Hl) M') as [loc' R'].
        -- intros q Hq. rewrite app_length in Hq. cbn in Hq. rewrite B0 by lia.
           assert (r < length rs)%nat.
           { apply (rel_root _ _ _ _ R) in Er as E1.
             assert (o < length rs)%nat by (apply nth_error_Some; congruence). lia. }
           rewrite (proj2 (Nat.eqb_neq r q)) by lia. reflexivity.
        -- exists loc'. apply (rel_ext _ _ _ _ _ R'). intros q. rewrite app_assoc. reflexivity.
      * assert (Ho : nth_error (objs st) o = None).
        { apply nth_error_None. apply nth_error_None in Er. rewrite (rel_len _ _ _ _ R). exact Er. }
        rewrite Ho, app_nil_r. exact (IH _ _ _ _ R M' B0).
Qed.

Lemma rel_init : rel (CState [] []) [] [] (fun _ => []).
Proof.
  constructor; cbn; try reflexivity; try (intros [|o] r H; discriminate).
Qed.

(** What an object answers depends on all the bounds put on its relatives. *)
Lemma family_observe : forall evs o r m n,
  magic_ok evs -> nth_error (roots evs []) o = Some r -> count_of m = Some n ->
  exists b, cobserve (crun evs) o m = Some b /\
    (b = true <->
     ((forall op, latest (family_bounds evs [] r) op = None) /\ n > 0) \/
     ((exists op, latest (family_bounds evs [] r) op <> None) /\
      obeys (latest (family_bounds evs [] r)) n)).
Proof.
  intros evs o r m n M Hr Hm.
  destruct (rel_run evs (CState [] []) [] [] (fun _ => []) rel_init M (fun _ _ => eq_refl)) as [loc R].
  fold (crun evs) in R. cbn [app] in R.
  assert (Hrr := rel_root_root _ _ _ _ R _ _ Hr).
  assert (Hl : exists l, nth_error loc r = Some l).
  { assert (r < length loc)%nat by (rewrite (rel_loc _ _ _ _ R); apply nth_error_Some; congruence).
    destruct (nth_error loc r) eqn:E; [eauto|]. apply nth_error_None in E. lia. }
  destruct Hl as [l Hl].
  destruct (rel_dict _ _ _ _ R r l Hrr Hl) as (c & D & K & G).
  unfold cobserve. rewrite (rel_obj _ _ _ _ R _ _ Hr), Hl, D.
  exists (comparable_observe c m). split; [reflexivity|].
  assert (E : comparable_observe c m = comp_state c n)
    by (destruct m; cbn in *; try discriminate; injection Hm as <-; reflexivity).
  rewrite E, (comp_state_iff c n K). unfold obeys.
  split; (intros [[H1 H2]|[[op H1] H2]]; [left|right]);
    (split; [|try exact H2]).
  - intros op. rewrite <- G. apply H1.
  - exists op. rewrite <- G. exact H1.
  - intros op' v Hv. rewrite <- G in Hv. exact (H2 op' v Hv).
  - intros op. rewrite G. apply H1.
  - exists op. rewrite G. exact H1.
  - intros op' v Hv. rewrite G in Hv. exact (H2 op' v Hv).
Qed.

Definition as_bound (on : cmp_op * Z) : cmp_op * bound := (fst on, BInt (snd on)).

Lemma nth_repeat_0 : forall k j, (j < k)%nat -> nth_error (repeat 0%nat k) j = Some 0%nat.
Proof.
  induction k as [|k IH]; intros [|j] H; cbn; try lia; [reflexivity|]. apply IH. lia.
Qed.

Lemma chain_from_roots : forall bs k,
  roots (chain_from k bs) (repeat 0%nat (S k)) = repeat 0%nat (S k + length bs).
Proof.
  induction bs as [|[op n] bs IH]; intros k; cbn [chain_from roots].
  - rewrite Nat.add_0_r. reflexivity.
  - rewrite nth_repeat_0 by lia.
    change [0%nat] with (repeat 0%nat 1). rewrite <- repeat_app.
    replace (S k + 1)%nat with (S (S k)) by lia. rewrite IH.
    f_equal. cbn. lia.
Qed.

Lemma chain_from_bounds : forall bs k,
  family_bounds (chain_from k bs) (repeat 0%nat (S k)) 0 = map as_bound bs.
Proof.
  induction bs as [|[op n] bs IH]; intros k; cbn [chain_from family_bounds].
  - reflexivity.
  - rewrite nth_repeat_0 by lia.
    change [0%nat] with (repeat 0%nat 1). rewrite <- repeat_app.
    replace (S k + 1)%nat with (S (S k)) by lia. rewrite IH. reflexivity.
Qed.

Lemma chain_magic_ok : forall bs k, magic_ok (chain_from k bs).
Proof.
  induction bs as [|[op n] bs IH]; intros k c H; cbn in H; [destruct H|].
  destruct H as [H|H]; [discriminate|]. exact (IH _ _ H).
Qed.

Lemma as_bound_get : forall bs op v, NoDup (map fst bs) ->
  (latest (map as_bound bs) op = Some v <-> exists n, v = BInt n /\ In (op, n) bs).
Proof.
  intros bs op v H.
  assert (K : keys_ok (map as_bound bs)) by (unfold keys_ok; rewrite map_map; exact H).
  rewrite latest_keys, comps_get_in by exact K. rewrite in_map_iff. split.
  - intros [[o n] [E Hi]]. cbn in E. injection E as -> <-. eauto.
  - intros [n [-> Hi]]. exists (op, n). split; [reflexivity|exact Hi].
Qed.

Lemma chain_observe : forall bs m n,
  NoDup (map fst bs) -> count_of m = Some n ->
  exists b, cobserve (crun (chain bs)) (length bs) m = Some b /\
    (b = true <-> (bs = [] /\ n > 0) \/ (bs <> [] /\ forall op k, In (op, k) bs -> says op n k)).
Proof.
  intros bs m n Hd Hm.
  assert (Er : roots (chain bs) [] = repeat 0%nat (S (length bs))) by exact (chain_from_roots bs 0).
  assert (Eb : family_bounds (chain bs) [] 0 = map as_bound bs) by exact (chain_from_bounds bs 0).
  destruct (family_observe (chain bs) (length bs) 0 m n) as (b & Hb & Hiff).
  - intros c [H|H]; [discriminate|]. exact (chain_magic_ok _ _ _ H).
  - rewrite Er. apply nth_repeat_0. lia.
  - exact Hm.
  - exists b. split; [exact Hb|]. rewrite Hiff, Eb. unfold obeys. split.
    + intros [[H1 H2]|[[op H1] H2]].
      * left. split; [|exact H2]. destruct bs as [|[op k] bs]; [reflexivity|exfalso].
        assert (H := proj2 (as_bound_get _ op (BInt k) Hd) (ex_intro _ k (conj eq_refl (or_introl eq_refl)))).
        rewrite H1 in H. discriminate.
      * right. split; [intros ->; apply H1; reflexivity|].
        intros op' k Hi. apply int_compare_says. apply H2. apply as_bound_get; eauto.
    + intros [[-> H2]|[H1 H2]].
      * left. split; [reflexivity|exact H2].
      * right. split.
        -- destruct bs as [|[op k] bs]; [contradiction|]. exists op.
           assert (H := proj2 (as_bound_get _ op (BInt k) Hd) (ex_intro _ k (conj eq_refl (or_introl eq_refl)))).
           rewrite H. discriminate.
        -- intros op v Hv. apply as_bound_get in Hv; [|exact Hd]. destruct Hv as (k & -> & Hi).
           apply int_compare_says. exact (H2 op k Hi).
Qed.

Lemma magic_observe : forall c m n, keys_ok c -> count_of m = Some n ->
  exists b, cobserve (crun [EvMagic c]) 0 m = Some b /\
    (b = true <-> (c = [] /\ n > 0) \/ (c <> [] /\ forall op k, In (op, k) c -> int_compare op n k = true)).
Proof.
  intros c m n K Hm. cbn.
  assert (E : comparable_observe c m = comp_state c n)
    by (destruct m; cbn in *; try discriminate; injection Hm as <-; reflexivity).
  exists (comparable_observe c m). split; [reflexivity|]. rewrite E.
  destruct c as [|ov c].
  - cbn. split; [intros H; left; split; [reflexivity|lia]|intros [[_ H]|[H _]]; [lia|contradiction]].
  - change (comp_state (ov :: c) n) with (forallb (fun ov => int_compare (fst ov) n (snd ov)) (ov :: c)).
    rewrite forallb_forall. split.
    + intros H. right. split; [discriminate|]. intros op k Hi. exact (H (op, k) Hi).
    + intros [[H _]|[_ H]]; [discriminate|]. intros [op k] Hi. exact (H op k Hi).
Qed.

Lemma compare_alters_original : exists m,
  cobserve (crun [EvNew]) 0 m = Some true /\
  cobserve (crun [EvNew; EvCompare 0 OpEq (BInt 0)]) 0 m = Some false.
Proof. exists (MNum 3). split; reflexivity. Qed.

Lemma same_operator_twice : exists m,
  count_of m = Some 1 /\
  cobserve (crun [EvNew; EvCompare 0 OpNe (BInt 1); EvCompare 1 OpNe (BInt 2)]) 2 m = Some true.
Proof. exists (MNum 1). split; reflexivity. Qed.

Lemma foreign_bound : forall op m n, count_of m = Some n ->
  cobserve (crun [EvNew; EvCompare 0 op BOther]) 1 m = Some true.
Proof. intros op m n H. destruct m; try discriminate; destruct op; reflexivity. Qed.

(** Optimisations: what the shortcuts claim. *)
Lemma only_spec : forall c ops, only c ops = true <->
  forall op, comps_get c op <> None -> existsb (op_eqb op) ops = true.
Proof.
  intros c ops. unfold only. rewrite forallb_forall. split.
  - intros H op Hg. specialize (H op). destruct (comps_get c op); [|contradiction].
    cbn in H. apply H. destruct op; cbn; tauto.
  - intros H op _. destruct (comps_get c op) eqn:E; cbn; [|reflexivity]. apply H. rewrite E. discriminate.
Qed.

Lemma bound_is_spec : forall b n, bound_is b n = true <-> b = Some (BInt n).
Proof.
  intros [[m|]|] n; cbn; split; intros H; try discriminate.
  - f_equal. f_equal. lia.
  - injection H as ->. lia.
Qed.

Lemma comps_get_nil : forall c, (forall op, comps_get c op = None) -> c = [].
Proof.
  intros [|[o v] c] H; [reflexivity|]. specialize (H o). cbn in H.
  rewrite op_eqb_refl in H. discriminate.
Qed.

Lemma any_over_zero_sound : forall c n, keys_ok c -> 0 <= n ->
  is_any_over_zero c = true -> comp_state c n = (0 <? n).
Proof.
  intros c n K Hn H. unfold is_any_over_zero in H.
  rewrite !orb_true_iff, !andb_true_iff, !only_spec, !bound_is_spec in H.
  assert (Hiff := comp_state_iff c n K).
  assert (G : comp_state c n = true <-> n > 0); [|destruct (comp_state c n), (0 <? n) eqn:E; lia].
  rewrite Hiff.
  destruct H as [[[H|[H1 H2]]|[H1 H2]]|[[H1 H2] H3]].
  - assert (Hno : forall op, comps_get c op = None).
    { intros op. destruct (comps_get c op) eqn:E; [|reflexivity].
      specialize (H op). rewrite E in H. cbn in H. discriminate H. discriminate. }
    split; [intros [[_ X]|[[op X] _]]; [exact X|rewrite Hno in X; contradiction]|].
    intros X. left. split; assumption.
  - split.
    + intros [[X _]|[_ X]]; [rewrite X in H2; discriminate|].
      specialize (X OpGt _ H2). cbn in X. lia.
    + intros X. right. split; [exists OpGt; congruence|]. intros op v Hv.
      specialize (H1 op). rewrite Hv in H1. specialize (H1 ltac:(discriminate)).
      destruct op; cbn in H1; try discriminate. rewrite H2 in Hv. injection Hv as <-. cbn. lia.
  - split.
    + intros [[X _]|[_ X]]; [rewrite X in H2; discriminate|].
      specialize (X OpGe _ H2). cbn in X. lia.
    + intros X. right. split; [exists OpGe; congruence|]. intros op v Hv.
      specialize (H1 op). rewrite Hv in H1. specialize (H1 ltac:(discriminate)).
      destruct op; cbn in H1; try discriminate. rewrite H2 in Hv. injection Hv as <-. cbn. lia.
  - split.
    + intros [[X _]|[_ X]]; [rewrite X in H2; discriminate|].
      specialize (X OpGt _ H2). cbn in X. lia.
    + intros X. right. split; [exists OpGe; congruence|]. intros op v Hv.
      specialize (H1 op). rewrite Hv in H1. specialize (H1 ltac:(discriminate)).
      destruct op; cbn in H1; try discriminate.
      * rewrite H2 in Hv. injection Hv as <-. cbn. lia.
      * rewrite H3 in Hv. injection Hv as <-. cbn. lia.
Qed.

Lemma equal_zero_sound : forall c n, keys_ok c ->
  is_equal_zero c = true -> comp_state c n = (n =? 0).
Proof.
  intros c n K H. unfold is_equal_zero in H.
  rewrite andb_true_iff, only_spec, bound_is_spec in H. destruct H as [H1 H2].
  assert (G : comp_state c n = true <-> n = 0); [|destruct (comp_state c n), (n =? 0) eqn:E; lia].
  rewrite (comp_state_iff c n K). split.
  - intros [[X _]|[_ X]]; [rewrite X in H2; discriminate|].
    specialize (X OpEq _ H2). cbn in X. lia.
  - intros X. right. split; [exists OpEq; congruence|]. intros op v Hv.
    specialize (H1 op). rewrite Hv in H1. specialize (H1 ltac:(discriminate)).
    destruct op; cbn in H1; try discriminate. rewrite H2 in Hv. injection Hv as <-. cbn. lia.
Qed.

Lemma double_negation : forall env a, observe env (c_not (c_not a)) = observe env a.
Proof.
  intros env a. rewrite !observe_not.
  destruct (observe env a) as [[b|e] tr]; cbn; rewrite ?negb_involutive; reflexivity.
Qed.
