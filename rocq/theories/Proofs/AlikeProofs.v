From Coq Require Import Bool Arith Lia ZifyBool.
From Verif Require Import Model.Base Model.World Model.Params Model.Alike Spec.AlikeSpec.
Local Open Scope Z_scope.

Lemma value_eqb_eq v w : value_eqb v w = true <-> v = w.
Proof.
  destruct v, w; cbn [value_eqb]; try (split; [discriminate|discriminate]); try (split; reflexivity);
    rewrite Z.eqb_eq; (split; [now intros ->|now intros [= ->]]).
Qed.
Lemma value_eqb_sym v w : value_eqb v w = value_eqb w v.
Proof. destruct v, w; cbn [value_eqb]; try reflexivity; apply Z.eqb_sym. Qed.
Lemma value_eqb_refl v : value_eqb v v = true.
Proof. now apply value_eqb_eq. Qed.

Lemma same_class_sym a b : same_class a b = same_class b a.
Proof. destruct a, b; reflexivity. Qed.

Lemma arg_eq_sym n s a b r : arg_eq n s a b = Ok r -> arg_eq n s b a = Ok r.
Proof.
  assert (G : forall x y, (if same_class x y then
      let* v := get_value n s no_kwargs x in let* w := get_value n s no_kwargs y in Ok (value_eqb v w) else Ok false) = Ok r ->
    (if same_class y x then
      let* v := get_value n s no_kwargs y in let* w := get_value n s no_kwargs x in Ok (value_eqb v w) else Ok false) = Ok r).
  { intros x y. rewrite (same_class_sym y x). destruct (same_class x y); [|auto].
    destruct (get_value n s no_kwargs x) as [v|]; [|discriminate].
    destruct (get_value n s no_kwargs y) as [w|]; [|discriminate].
    cbn [bind]. now rewrite (value_eqb_sym w v). }
  destruct a, b; unfold arg_eq; try (intros H; apply G; exact H).
  - now rewrite Z.eqb_sym.
  - now rewrite value_eqb_sym.
Qed.

Lemma param_eq_sym n s p q r : param_eq n s p q = Ok r -> param_eq n s q p = Ok r.
Proof.
  destruct p as [v|a], q as [w|b]; cbn [param_eq].
  - now rewrite value_eqb_sym.
  - destruct b; auto. now rewrite value_eqb_sym.
  - destruct a; auto. now rewrite value_eqb_sym.
  - intros H. assert (E : arg_eq n s a b = Ok r) by (destruct a; exact H).
    apply arg_eq_sym in E. destruct b; exact E.
Qed.

Lemma param_eq_self n s p r : param_eq n s p p = Ok r -> r = true.
Proof.
  destruct p as [v|a]; cbn [param_eq].
  - rewrite value_eqb_refl. congruence.
  - destruct a; unfold arg_eq; cbn [same_class];
      try (match goal with |- context [get_value n s no_kwargs ?x] => destruct (get_value n s no_kwargs x) as [v'|] end;
           cbn [bind]; [rewrite value_eqb_refl; congruence|discriminate]).
    + rewrite Z.eqb_refl. congruence.
    + rewrite value_eqb_refl. congruence.
Qed.

Lemma arg_eq_worth n s a b m cx : settled a -> settled b -> default_of a = default_of b -> for_task cx ->
  arg_eq n s a b = Ok true -> get_value m s cx a = get_value m s cx b.
Proof.
  intros Sa Sb D [t C]. destruct m as [|m]; [reflexivity|].
  destruct a, b; try contradiction; unfold arg_eq; cbn [same_class]; try discriminate.
  - destruct n as [|n]; cbn; [discriminate|]. intros [= E]. apply value_eqb_eq in E. now subst.
  - intros [= E]. apply Z.eqb_eq in E. cbn [default_of] in D. now subst.
  - intros _. cbn [get_value]. rewrite C. destruct (cx_session cx); reflexivity.
  - destruct n as [|n]; cbn [get_value bind]; [discriminate|].
    destruct name as [x|], name0 as [y|]; cbn [no_kwargs cx_session cx_task bind]; try discriminate.
    + destruct default; discriminate.
    + rewrite C. reflexivity.
  - destruct n as [|n]; cbn; discriminate.
  - destruct sig; [|contradiction]. destruct sig0; [|contradiction].
    destruct n as [|n]; cbn [get_value materialize_args bind]; [discriminate|].
    destruct (ss_call s f []) as [v|]; [|discriminate].
    destruct (ss_call s f0 []) as [w|]; [|discriminate].
    cbn [bind]. intros [= E]. apply value_eqb_eq in E. now subst.
  - reflexivity.
  - destruct n as [|n]; cbn [get_value bind]; [discriminate|].
    destruct (or_default default (of_option (dget var (ss_environ s)))) as [v|]; [|discriminate].
    destruct (or_default default0 (of_option (dget var0 (ss_environ s)))) as [w|]; [|discriminate].
    cbn [bind]. intros [= E]. apply value_eqb_eq in E. now subst.
  - destruct n as [|n]; cbn [get_value bind]; [discriminate|].
    destruct (cli_value word default (ss_argv s)) as [v|]; [|discriminate].
    destruct (cli_value word0 default0 (ss_argv s)) as [w|]; [|discriminate].
    cbn [bind]. intros [= E]. apply value_eqb_eq in E. now subst.
  - intros [= E]. apply value_eqb_eq in E. now subst.
Qed.

Lemma param_eq_worth n s p q m cx : comparable p q -> for_task cx ->
  param_eq n s p q = Ok true -> worth (S m) s cx p = worth (S m) s cx q.
Proof.
  intros K T. destruct p as [v|a], q as [w|b]; cbn [param_eq worth].
  - intros [= E]. apply value_eqb_eq in E. now subst.
  - destruct b; try discriminate. intros [= E]. apply value_eqb_eq in E. subst.
    destruct T as [t C]. cbn [get_value]. now rewrite C.
  - destruct a; try discriminate. intros [= E]. apply value_eqb_eq in E. subst.
    destruct T as [t C]. cbn [get_value]. now rewrite C.
  - destruct K as (Sa & Sb & D). intros H.
    apply (arg_eq_worth n); auto. destruct a; exact H.
Qed.

Lemma dget_in {V} k (d : dict V) v : dget k d = Some v -> In (k, v) d.
Proof.
  induction d as [|[k' v'] d IH]; cbn [dget]; [discriminate|].
  destruct (Z.eqb_spec k' k) as [->|N]; [intros [= ->]; now left|right; auto].
Qed.
Lemma in_dget {V} k (d : dict V) v : keys_once d -> In (k, v) d -> dget k d = Some v.
Proof.
  unfold keys_once. induction d as [|[k' v'] d IH]; cbn [map fst dget]; [contradiction|].
  intros N. inversion N as [|x l X N']; subst. intros [H|H].
  - injection H as -> ->. now rewrite Z.eqb_refl.
  - destruct (Z.eqb_spec k' k) as [->|M]; [|now apply IH].
    destruct X. change k with (fst (k, v)). now apply in_map.
Qed.

Lemma entries_eq_true n s a b : entries_eq n s a b = Ok true ->
  forall k i p, In (k, (i, p)) a -> exists j q, dget k b = Some (j, q) /\ (i = j \/ param_eq n s p q = Ok true).
Proof.
  induction a as [|[k0 [i0 p0]] a IH]; cbn [entries_eq]; [contradiction|].
  destruct (dget k0 b) as [[j q]|] eqn:G; [|discriminate].
  destruct (Z.eqb_spec i0 j) as [->|N].
  - intros H k i p [E|I]; [|now apply IH].
    injection E as <- <- <-. exists j, q. split; [exact G|now left].
  - destruct (param_eq n s p0 q) as [[|]|] eqn:Q; cbn [bind]; try discriminate.
    intros H k i p [E|I]; [|now apply IH].
    injection E as <- <- <-. exists j, q. split; [exact G|now right].
Qed.

Lemma keys_back {V W} (a : dict V) (b : dict W) : keys_once a -> length a = length b ->
  (forall k v, In (k, v) a -> exists w, dget k b = Some w) ->
  forall k w, In (k, w) b -> exists v, In (k, v) a.
Proof.
  intros N L F k w I.
  assert (Inc : incl (map fst a) (map fst b)).
  { intros x X. apply in_map_iff in X as [[x' v] [<- Iv]]. destruct (F _ _ Iv) as [w' G].
    apply dget_in in G. change (In (fst (x', w')) (map fst b)). now apply in_map. }
  assert (Inc' : incl (map fst b) (map fst a)).
  { apply NoDup_length_incl; [exact N| |exact Inc]. rewrite !map_length. lia. }
  assert (X : In k (map fst a)) by (apply Inc'; change k with (fst (k, w)); now apply in_map).
  apply in_map_iff in X as [[x v] [E Iv]]. cbn in E. subst. now exists v.
Qed.

Lemma sets_eq_worth n s a b m cx : keys_once a -> keys_once b -> one_object a b -> all_comparable a b -> for_task cx ->
  sets_eq n s a b = Ok true ->
  (forall k p, has a k p -> exists q, has b k q /\ worth (S m) s cx p = worth (S m) s cx q) /\
  (forall k q, has b k q -> exists p, has a k p /\ worth (S m) s cx p = worth (S m) s cx q).
Proof.
  intros Na Nb O K T. unfold sets_eq. destruct (Nat.eqb_spec (length a) (length b)) as [L|]; [|discriminate].
  intros H.
  assert (F : forall k i p, In (k, (i, p)) a -> exists j q, dget k b = Some (j, q) /\ worth (S m) s cx p = worth (S m) s cx q).
  { intros k i p I. destruct (entries_eq_true n s a b H k i p I) as (j & q & G & [->|Q]).
    - exists j, q. split; [exact G|]. now rewrite (O k k j p q I (dget_in _ _ _ G)).
    - exists j, q. split; [exact G|]. apply (param_eq_worth n); auto. apply (K k i p j q I (dget_in _ _ _ G)). }
  split.
  - intros k p [i I]. destruct (F k i p I) as (j & q & G & E). exists q. split; [|exact E]. exists j. now apply dget_in.
  - intros k q [j J].
    destruct (keys_back a b Na L) with (k := k) (w := (j, q)) as [[i p] I]; [|exact J|].
    + intros k' [i' p'] I'. destruct (F k' i' p' I') as (j' & q' & G' & _). eauto.
    + exists p. split; [now exists i|]. destruct (F k i p I) as (j' & q' & G & E).
      rewrite (in_dget k b (j, q) Nb J) in G. injection G as <- <-. exact E.
Qed.

Lemma entries_values n s a b : values_only a -> values_only b -> one_object a b ->
  (forall k i p, In (k, (i, p)) a -> exists j, dget k b = Some (j, p)) -> entries_eq n s a b = Ok true.
Proof.
  intros Va Vb O F. induction a as [|[k [i p]] a IH]; [reflexivity|]. cbn [entries_eq].
  destruct (F k i p (or_introl eq_refl)) as [j G]. rewrite G.
  assert (R : entries_eq n s a b = Ok true).
  { apply IH.
    - intros k' i' p' I. apply (Va k' i' p'). now right.
    - intros k1 k2 i' p' q' I J. apply (O k1 k2 i' p' q'); [now right|exact J].
    - intros k' i' p' I. apply (F k' i' p'). now right. }
  destruct (i =? j); [exact R|].
  destruct (Va k i p (or_introl eq_refl)) as [v ->]. cbn [param_eq bind]. rewrite value_eqb_refl. exact R.
Qed.
Lemma entries_values_ok n s a b : values_only a -> values_only b -> exists r, entries_eq n s a b = Ok r.
Proof.
  intros Va Vb. induction a as [|[k [i p]] a IH]; cbn [entries_eq]; [eauto|].
  assert (R : exists r, entries_eq n s a b = Ok r) by (apply IH; intros k' i' p' I; apply (Va k' i' p'); now right).
  destruct (dget k b) as [[j q]|] eqn:G; [|eauto].
  destruct (i =? j); [exact R|].
  destruct (Va k i p (or_introl eq_refl)) as [v ->]. destruct (Vb k j q (dget_in _ _ _ G)) as [w ->].
  cbn [param_eq bind]. destruct (value_eqb v w); eauto.
Qed.

Lemma sets_values n s a b : keys_once a -> keys_once b -> one_object a b -> values_only a -> values_only b ->
  exists r, sets_eq n s a b = Ok r /\ sets_ne n s a b = Ok (negb r) /\
    (r = true <-> forall k p, has a k p <-> has b k p).
Proof.
  intros Na Nb O Va Vb.
  assert (R : exists r, sets_eq n s a b = Ok r).
  { unfold sets_eq. destruct (Nat.eqb (length a) (length b)); [now apply entries_values_ok|eauto]. }
  destruct R as [r R]. exists r. split; [exact R|]. split; [unfold sets_ne; now rewrite R|].
  split.
  - intros ->.
    assert (K : all_comparable a b).
    { intros k i p j q I J. destruct (Va _ _ _ I) as [v ->]. exact Logic.I. }
    destruct (sets_eq_worth n s a b 0 (Ctx (Some 0) SMissing None) Na Nb O K (ex_intro _ 0 eq_refl) R) as [A B].
    intros k p. split.
    + intros P. destruct (A k p P) as (q & Q & E). destruct P as [i I]. destruct Q as [j J].
      destruct (Va _ _ _ I) as [v ->]. destruct (Vb _ _ _ J) as [w ->]. cbn in E. injection E as ->. now exists j.
    + intros P. destruct (B k p P) as (q & Q & E). destruct P as [i I]. destruct Q as [j J].
      destruct (Vb _ _ _ I) as [v ->]. destruct (Va _ _ _ J) as [w ->]. cbn in E. injection E as ->. now exists j.
  - intros S.
    assert (F : forall k i p, In (k, (i, p)) a -> exists j, dget k b = Some (j, p)).
    { intros k i p I. destruct (proj1 (S k p) (ex_intro _ i I)) as [j J]. exists j. now apply in_dget. }
    assert (Le : (length a <= length b)%nat).
    { rewrite <- (map_length fst a), <- (map_length fst b). apply NoDup_incl_length; [exact Na|].
      intros x X. apply in_map_iff in X as [[x' [i p]] [<- I]]. destruct (proj1 (S x' p) (ex_intro _ i I)) as [j J].
      change (In (fst (x', (j, p))) (map fst b)). now apply in_map. }
    assert (Ge : (length b <= length a)%nat).
    { rewrite <- (map_length fst a), <- (map_length fst b). apply NoDup_incl_length; [exact Nb|].
      intros x X. apply in_map_iff in X as [[x' [i p]] [<- I]]. destruct (proj2 (S x' p) (ex_intro _ i I)) as [j J].
      change (In (fst (x', (j, p))) (map fst a)). now apply in_map. }
    unfold sets_eq in R. replace (Nat.eqb (length a) (length b)) with true in R by (symmetry; apply Nat.eqb_eq; lia).
    rewrite (entries_values n s a b Va Vb O F) in R. now injection R.
Qed.

Lemma default_ignored n m s k v w t : dget k (ss_params s) = None -> v <> w ->
  arg_eq n s (ArgKey k (Some v)) (ArgKey k (Some w)) = Ok true /\
  get_value (S m) s (Ctx (Some t) SMissing None) (ArgKey k (Some v)) = Ok v /\
  get_value (S m) s (Ctx (Some t) SMissing None) (ArgKey k (Some w)) = Ok w.
Proof. intros G _. split; [cbn; now rewrite Z.eqb_refl|]. cbn. rewrite G. split; reflexivity. Qed.

Lemma secrets_piped n m s v w t : v <> w ->
  arg_eq (S (S n)) s (PipeArg [PrivateArg v]) (PipeArg [PrivateArg w]) = Ok true /\
  get_value (S (S m)) s (Ctx (Some t) SMissing None) (PipeArg [PrivateArg v]) = Ok v /\
  get_value (S (S m)) s (Ctx (Some t) SMissing None) (PipeArg [PrivateArg w]) = Ok w.
Proof. intros _. repeat split. Qed.

Lemma not_compared n s :
  (forall t d t' d', arg_eq (S n) s (ReturnArg t d) (ReturnArg t' d') = Err AttributeError) /\
  arg_eq (S n) s FlagArg FlagArg = Err AttributeError /\
  (forall x d x' d', arg_eq (S n) s (TaskArg (Some x) d) (TaskArg (Some x') d') = Err TypeError) /\
  (forall d, arg_eq (S n) s (SessionArg None) (SessionArg d) = Err TypeError).
Proof. repeat split. Qed.

Lemma function_hidden n m s f k v w p t r : ss_call s f [(k, VHidden)] = Ok r ->
  arg_eq (S (S n)) s (FuncArg f [(k, PrivateArg v)] p) (FuncArg f [(k, PrivateArg w)] p) = Ok true /\
  get_value (S (S m)) s (Ctx (Some t) SMissing None) (FuncArg f [(k, PrivateArg v)] p) = ss_call s f [(k, v)] /\
  get_value (S (S m)) s (Ctx (Some t) SMissing None) (FuncArg f [(k, PrivateArg w)] p) = ss_call s f [(k, w)].
Proof.
  intros C. split; [|split; reflexivity].
  unfold arg_eq. cbn [same_class get_value materialize_args bind get_kwargs no_kwargs cx_task].
  rewrite C. cbn [bind]. now rewrite value_eqb_refl.
Qed.
