(** Putting operators and operands together. *)
From Coq Require Import List Bool Arith Lia ZifyBool ZArith Ascii.
From Verif Require Import Model.Base Model.Parse Spec.ParseSpec Proofs.ParseProofs Proofs.ParseTreeProofs.
Import ListNotations.

Lemma iter_inside : forall (A : Type) (f : A -> A) k v, Nat.iter k f (f v) = Nat.iter (S k) f v.
Proof.
  intros A f k v. induction k as [|k IH]; [reflexivity|].
  change (f (Nat.iter k f (f v)) = f (Nat.iter (S k) f v)). now rewrite IH.
Qed.

(** * Indices *)

Lemma index_here : forall (A : Type) (a : list A) x b,
  py_index (a ++ x :: b) (Z.of_nat (length a)) = Ok (length a).
Proof.
  intros A a x b. unfold py_index. rewrite app_length. cbn [length].
  replace (Z.of_nat (length a) <? 0)%Z with false by lia. cbv zeta.
  replace ((Z.of_nat (length a) <? 0) || (Z.of_nat (length a + S (length b)) <=? Z.of_nat (length a)))%Z with false by lia.
  now rewrite Nat2Z.id.
Qed.
Lemma get_here : forall (A : Type) (a : list A) x b i, i = Z.of_nat (length a) ->
  py_get (a ++ x :: b) i = Ok x.
Proof.
  intros A a x b i ->. unfold py_get. rewrite index_here. cbn [bind].
  rewrite nth_error_app2 by lia. now rewrite Nat.sub_diag.
Qed.
Lemma after_here : forall (A : Type) (a : list A) x b, skipn (length a + 1) (a ++ x :: b) = b.
Proof.
  intros A a x b. change (x :: b) with ([x] ++ b). rewrite app_assoc. apply skipn_here. rewrite app_length. reflexivity.
Qed.
Lemma set_here : forall (A : Type) (a : list A) x b i y, i = Z.of_nat (length a) ->
  py_set (a ++ x :: b) i y = Ok (a ++ y :: b).
Proof.
  intros A a x b i y ->. unfold py_set. rewrite index_here. cbn [bind]. now rewrite firstn_here, after_here.
Qed.
Lemma del_here : forall (A : Type) (a : list A) x b i, i = Z.of_nat (length a) ->
  py_del (a ++ x :: b) i = Ok (a ++ b).
Proof.
  intros A a x b i ->. unfold py_del. rewrite index_here. cbn [bind]. now rewrite firstn_here, after_here.
Qed.

Section Passes.
  Context {V : Type}.

  Definition noop (c : ascii) (s : list (elem V)) : Prop := ~ In (EStr c) s.
  Lemma noop_app : forall c a b, noop c a -> noop c b -> noop c (a ++ b).
  Proof. intros c a b A B H. apply in_app_or in H. destruct H; auto. Qed.
  Lemma noop_val : forall c v, noop c [EVal v]. Proof. intros c v [H | []]. discriminate. Qed.
  Lemma noop_other : forall c d, d <> c -> noop c [EStr d].
  Proof. intros c d N [H | []]. injection H as ->. now apply N. Qed.

  Lemma index_skip : forall c (a b : list (elem V)) i, noop c a -> index_of c (a ++ b) i = index_of c b (i + Z.of_nat (length a)).
  Proof.
    induction a as [|e a IH]; intros b i N.
    - cbn. f_equal. lia.
    - cbn [app index_of length]. assert (N' : noop c a) by (intros H; apply N; now right).
      destruct e as [d|v].
      + destruct (Ascii.eqb d c) eqn:E.
        * exfalso. apply Ascii.eqb_eq in E. subst d. apply N. now left.
        * rewrite IH by exact N'. f_equal. lia.
      + rewrite IH by exact N'. f_equal. lia.
  Qed.
  Lemma index_none : forall c (a : list (elem V)) i, noop c a -> index_of c a i = None.
  Proof.
    intros c a i N. rewrite <- (app_nil_r a). rewrite index_skip by exact N. reflexivity.
  Qed.
  Lemma index_found : forall c (b : list (elem V)) i, index_of c (EStr c :: b) i = Some i.
  Proof. intros c b i. cbn [index_of]. now rewrite eqb_refl. Qed.

  Variable o : operator V.
  Notation sym := (op_symbol o).

  Lemma combine_right : forall post v pre w, op_side o = SRight -> op_func o [EVal v] = Ok w ->
    combine_at o (post ++ EVal v :: EStr sym :: pre) (Z.of_nat (length post) + 1) = Ok (post ++ EVal w :: pre).
  Proof.
    intros post v pre w E F. unfold combine_at. rewrite E.
    rewrite get_here by lia. cbn [bind]. rewrite F. cbn [bind].
    rewrite set_here by lia. cbn [bind].
    change (post ++ EVal w :: EStr sym :: pre) with (post ++ [EVal w] ++ EStr sym :: pre).
    rewrite app_assoc, del_here by (rewrite app_length; cbn [length]; lia).
    now rewrite <- app_assoc.
  Qed.
  Lemma combine_both : forall post x y pre w, op_side o = SBoth -> op_func o [x; y] = Ok w ->
    combine_at o (post ++ y :: EStr sym :: x :: pre) (Z.of_nat (length post) + 1) = Ok (post ++ EVal w :: pre).
  Proof.
    intros post x y pre w E F. unfold combine_at. rewrite E.
    replace (py_get (post ++ y :: EStr sym :: x :: pre) (Z.of_nat (length post) + 1 + 1)) with (Ok x).
    2: { symmetry. change (y :: EStr sym :: x :: pre) with ([y; EStr sym] ++ x :: pre).
         rewrite app_assoc. apply get_here. rewrite app_length. cbn [length]. lia. }
    cbn [bind]. rewrite get_here by lia. cbn [bind]. rewrite F. cbn [bind].
    replace (py_set (post ++ y :: EStr sym :: x :: pre) (Z.of_nat (length post) + 1) (EVal w))
      with (Ok (post ++ y :: EVal w :: x :: pre)).
    2: { symmetry. change (y :: EStr sym :: x :: pre) with ([y] ++ EStr sym :: x :: pre).
         rewrite app_assoc, set_here by (rewrite app_length; cbn [length]; lia).
         now rewrite <- app_assoc. }
    cbn [bind]. rewrite del_here by lia. cbn [bind].
    change (EVal w :: x :: pre) with ([EVal w] ++ x :: pre).
    rewrite app_assoc, del_here by (rewrite app_length; cbn [length]; lia).
    now rewrite <- app_assoc.
  Qed.

  (** A part of the (reversed) list that the operator's pass turns into another. *)
  Definition collapses (X X' : list (elem V)) : Prop :=
    noop sym X' /\ exists n, n <= length X /\
      forall post pre fuel, noop sym post -> n <= fuel ->
        assemble_loop fuel o (post ++ X ++ pre) = assemble_loop (fuel - n) o (post ++ X' ++ pre).

  Lemma collapses_refl : forall X, noop sym X -> collapses X X.
  Proof.
    intros X N. split; [exact N|]. exists 0. split; [lia|]. intros. now rewrite Nat.sub_0_r.
  Qed.
  Lemma collapses_app : forall X X' Y Y', collapses X X' -> collapses Y Y' -> collapses (X ++ Y) (X' ++ Y').
  Proof.
    intros X X' Y Y' (N & n & L & H) (N' & n' & L' & H'). split; [now apply noop_app|].
    exists (n + n'). split; [rewrite app_length; lia|]. intros post pre fuel Np F.
    rewrite <- !app_assoc. rewrite H by (trivial; lia). rewrite app_assoc.
    rewrite H' by (try lia; now apply noop_app). rewrite <- !app_assoc. f_equal. lia.
  Qed.
  Lemma collapses_done : forall X X', collapses X X' -> assemble_oper o (rev X) = Returns (rev X').
  Proof.
    intros X X' (N & n & L & H). unfold assemble_oper. rewrite rev_involutive, rev_length.
    specialize (H [] [] (length X) (fun h => h) L). cbn [app] in H. rewrite !app_nil_r in H. rewrite H.
    replace (assemble_loop (length X - n) o X') with (Returns X'); [reflexivity|].
    symmetry. destruct (length X - n); cbn [assemble_loop]; now rewrite index_none.
  Qed.

  Fixpoint joinR (c : ascii) (l : list (list (elem V))) : list (elem V) :=
    match l with
    | [] => []
    | [x] => x
    | x :: l => x ++ EStr c :: joinR c l
    end.
  Lemma joinR_cons : forall c x y l, joinR c (x :: y :: l) = x ++ EStr c :: joinR c (y :: l).
  Proof. reflexivity. Qed.

  Lemma collapses_join : forall c l l', c <> sym -> Forall2 collapses l l' -> collapses (joinR c l) (joinR c l').
  Proof.
    intros c l l' N H. induction H as [|x x' l l' Hx H IH].
    - apply collapses_refl. intros [].
    - destruct H as [|y y' l l' Hy H].
      + exact Hx.
      + rewrite !joinR_cons. apply collapses_app; [exact Hx|].
        change (EStr c :: joinR c (y :: l)) with ([EStr c] ++ joinR c (y :: l)).
        change (EStr c :: joinR c (y' :: l')) with ([EStr c] ++ joinR c (y' :: l')).
        apply collapses_app; [|exact IH]. apply collapses_refl. now apply noop_other.
  Qed.

  (** The prefix operator. *)
  Lemma collapses_prefix : forall f, op_side o = SRight -> (forall v, op_func o [EVal v] = Ok (f v)) ->
    forall k v, collapses (EVal v :: repeat (EStr sym) k) [EVal (Nat.iter k f v)].
  Proof.
    intros f E F. intros k v. split; [apply noop_val|]. exists k.
    split; [cbn [length]; rewrite repeat_length; lia|].
    revert v. induction k as [|k IH]; intros v post pre fuel N L.
    - cbn [repeat app Nat.iter nat_rect]. now rewrite Nat.sub_0_r.
    - destruct fuel as [|fuel]; [lia|]. cbn [repeat app assemble_loop].
      rewrite index_skip by exact N. cbn [index_of]. rewrite eqb_refl.
      replace (0 + Z.of_nat (length post) + 1)%Z with (Z.of_nat (length post) + 1)%Z by lia.
      rewrite (combine_right _ _ _ _ E (F v)). cbn [lift obind].
      change (EVal (f v) :: repeat (EStr sym) k ++ pre) with ((EVal (f v) :: repeat (EStr sym) k) ++ pre).
      rewrite (IH (f v) post pre fuel N) by lia.
      change (S fuel - S k) with (fuel - k). rewrite iter_inside. reflexivity.
  Qed.

  (** The operators between two operands, combining from the right. *)
  Fixpoint fold_values (y : V) (zs : list V) : result V :=
    match zs with
    | [] => Ok y
    | z :: zs => let* w := op_func o [EVal z; EVal y] in fold_values w zs
    end.
  Lemma collapses_chain : op_side o = SBoth -> forall zs y w, fold_values y zs = Ok w ->
    collapses (joinR sym (map (fun v => [EVal v]) (y :: zs))) [EVal w].
  Proof.
    intros E zs y w F. split; [apply noop_val|]. exists (length zs).
    assert (Len : forall zs y, length zs <= length (joinR sym (map (fun v => [EVal v]) (y :: zs)))).
    { clear. induction zs as [|z zs IH]; intros y; [cbn; lia|].
      cbn [map]. rewrite joinR_cons. cbn [app length]. specialize (IH z). cbn [map] in IH. lia. }
    split; [apply Len|]. clear Len.
    revert y F. induction zs as [|z zs IH]; intros y F post pre fuel N L.
    - cbn [fold_values] in F. injection F as ->. cbn [length]. now rewrite Nat.sub_0_r.
    - cbn [fold_values] in F. destruct (op_func o [EVal z; EVal y]) as [w'|x] eqn:G; cbn [bind] in F; [|discriminate].
      destruct fuel as [|fuel]; [cbn in L; lia|]. cbn [map]. rewrite joinR_cons. cbn [app].
      cbn [assemble_loop]. rewrite index_skip by exact N. cbn [index_of]. rewrite eqb_refl.
      replace (0 + Z.of_nat (length post) + 1)%Z with (Z.of_nat (length post) + 1)%Z by lia.
      assert (S1 : forall h, exists rest, joinR sym ([EVal h] :: map (fun v => [EVal v]) zs) = EVal h :: rest).
      { intros h. destruct zs as [|z2 zs]; cbn [map joinR]; eexists; cbn [app]; reflexivity. }
      assert (S2 : exists rest, joinR sym ([EVal z] :: map (fun v => [EVal v]) zs) = EVal z :: rest /\
                                joinR sym ([EVal w'] :: map (fun v => [EVal v]) zs) = EVal w' :: rest).
      { destruct zs as [|z2 zs]; cbn [map]; eexists; (split; [|]); [reflexivity..| |];
          rewrite joinR_cons; cbn [app]; reflexivity. }
      destruct S2 as (rest & R1 & R2). rewrite R1. cbn [app].
      rewrite (combine_both _ _ _ _ _ E G). cbn [lift obind].
      specialize (IH w' F post pre fuel N ltac:(cbn [length] in L; lia)).
      cbn [map] in IH. rewrite R2 in IH. cbn [app] in IH. rewrite IH. reflexivity.
  Qed.
End Passes.

(** * Expressions *)

Section Assembly.
  Context {V : Type}.
  Variable item : list ascii -> result V.
  Variable neg : bool.
  Variable not_op and_op or_op : operator V.
  Variable inv : V -> V.
  Hypothesis not_sym : op_symbol not_op = sym_not.
  Hypothesis not_side : op_side not_op = SRight.
  Hypothesis not_func : forall v, op_func not_op [EVal v] = Ok (inv v).
  Hypothesis and_sym : op_symbol and_op = sym_and.
  Hypothesis and_side : op_side and_op = SBoth.
  Hypothesis or_sym : op_symbol or_op = sym_or.
  Hypothesis or_side : op_side or_op = SBoth.

  Definition ops : list (operator V) := (if neg then [not_op] else []) ++ [and_op; or_op].

  (** What it is for a value to be right for an expression. *)
  Variable M : V -> bexp -> Prop.
  Hypothesis M_not : neg = true -> forall v e, M v e -> M (inv v) (BNot e).
  Hypothesis M_and : forall a b x y, M x a -> M y b ->
    exists w, op_func and_op [EVal x; EVal y] = Ok w /\ M w (BAnd a b).
  Hypothesis M_or : forall a b x y, M x a -> M y b ->
    exists w, op_func or_op [EVal x; EVal y] = Ok w /\ M w (BOr a b).
  Hypothesis M_and_assoc : forall v a b c, M v (BAnd a (BAnd b c)) -> M v (BAnd (BAnd a b) c).
  Hypothesis M_or_assoc : forall v a b c, M v (BOr a (BOr b c)) -> M v (BOr (BOr a b) c).

  Definition unitR (u : V * nat) : list (elem V) := EVal (fst u) :: repeat (EStr sym_not) (snd u).
  Definition unit_value (u : V * nat) : V := Nat.iter (snd u) inv (fst u).

  (** Units, conjunctions and disjunctions, the last first. *)
  Definition is_unit (u : V * nat) (e : bexp) : Prop :=
    (neg = false -> snd u = 0) /\ M (unit_value u) e.
  Inductive is_all : list (V * nat) -> bexp -> Prop :=
  | all_one : forall u e, is_unit u e -> is_all [u] e
  | all_more : forall u us e e', is_all us e -> is_unit u e' -> is_all (u :: us) (BAnd e e').
  Inductive is_any : list (list (V * nat)) -> bexp -> Prop :=
  | any_one : forall us e, is_all us e -> is_any [us] e
  | any_more : forall us uss e e', is_any uss e -> is_all us e' -> is_any (us :: uss) (BOr e e').

  Definition allR (us : list (V * nat)) : list (elem V) := joinR sym_and (map unitR us).
  Definition anyR (uss : list (list (V * nat))) : list (elem V) := joinR sym_or (map allR uss).

  (** Folding values that are right. *)
  Inductive vals_and : list V -> bexp -> Prop :=
  | va_one : forall v e, M v e -> vals_and [v] e
  | va_more : forall v vs e e', vals_and vs e -> M v e' -> vals_and (v :: vs) (BAnd e e').
  Inductive vals_or : list V -> bexp -> Prop :=
  | vo_one : forall v e, M v e -> vals_or [v] e
  | vo_more : forall v vs e e', vals_or vs e -> M v e' -> vals_or (v :: vs) (BOr e e').

  Lemma fold_and : forall zs e1, vals_and zs e1 -> forall y e2, M y e2 ->
    exists w, fold_values and_op y zs = Ok w /\ M w (BAnd e1 e2).
  Proof.
    intros zs e1 H. induction H as [v e Hv|v vs e e' H IH Hv]; intros y e2 Y; cbn [fold_values].
    - destruct (M_and e e2 v y Hv Y) as (w & E & W). rewrite E. cbn [bind]. now exists w.
    - destruct (M_and e' e2 v y Hv Y) as (w & E & W). rewrite E. cbn [bind].
      destruct (IH w _ W) as (w2 & E2 & W2). exists w2. split; [exact E2|now apply M_and_assoc].
  Qed.
  Lemma fold_or : forall zs e1, vals_or zs e1 -> forall y e2, M y e2 ->
    exists w, fold_values or_op y zs = Ok w /\ M w (BOr e1 e2).
  Proof.
    intros zs e1 H. induction H as [v e Hv|v vs e e' H IH Hv]; intros y e2 Y; cbn [fold_values].
    - destruct (M_or e e2 v y Hv Y) as (w & E & W). rewrite E. cbn [bind]. now exists w.
    - destruct (M_or e' e2 v y Hv Y) as (w & E & W). rewrite E. cbn [bind].
      destruct (IH w _ W) as (w2 & E2 & W2). exists w2. split; [exact E2|now apply M_or_assoc].
  Qed.

  Lemma all_values : forall us e, is_all us e -> vals_and (map unit_value us) e.
  Proof.
    intros us e H. induction H as [u e (_ & U)|u us e e' H IH (_ & U)]; [now apply va_one|now apply va_more].
  Qed.
  Lemma and_result : forall us e, is_all us e ->
    exists w, M w e /\ collapses and_op (joinR sym_and (map (fun v => [EVal v]) (map unit_value us))) [EVal w].
  Proof.
    intros us e H. apply all_values in H. rewrite <- and_sym.
    inversion H as [v e0 Hv E1 E2|v vs e0 e' Hs Hv E1 E2]; subst; rewrite <- ?E1.
    - exists v. split; [exact Hv|]. now apply collapses_chain.
    - destruct (fold_and vs e0 Hs v e' Hv) as (w & F & W). exists w. split; [exact W|].
      now apply collapses_chain.
  Qed.

  Lemma any_results : forall uss e, is_any uss e ->
    exists ws, vals_or ws e /\
      Forall2 (collapses and_op) (map (fun us => joinR sym_and (map (fun v => [EVal v]) (map unit_value us))) uss)
        (map (fun w => [EVal w]) ws).
  Proof.
    intros uss e H. induction H as [us e U|us uss e e' H (ws & W & F) U].
    - destruct (and_result us e U) as (w & W & C). exists [w]. split; [now apply vo_one|].
      constructor; [exact C|constructor].
    - destruct (and_result us e' U) as (w & W' & C). exists (w :: ws). split; [now apply vo_more|].
      constructor; assumption.
  Qed.
  Lemma or_result : forall ws e, vals_or ws e ->
    exists w, M w e /\ collapses or_op (joinR sym_or (map (fun v => [EVal v]) ws)) [EVal w].
  Proof.
    intros ws e H. rewrite <- or_sym. inversion H as [v e0 Hv E1 E2|v vs e0 e' Hs Hv E1 E2]; subst.
    - exists v. split; [exact Hv|]. now apply collapses_chain.
    - destruct (fold_or vs e0 Hs v e' Hv) as (w & F & W). exists w. split; [exact W|]. now apply collapses_chain.
  Qed.

  Lemma not_pass : forall uss e, is_any uss e ->
    assemble_all (if neg then [not_op] else []) (rev (anyR uss))
    = Returns (rev (joinR sym_or (map (fun us => joinR sym_and (map (fun v => [EVal v]) (map unit_value us))) uss))).
  Proof.
    intros uss e H. destruct neg eqn:Hneg.
    - cbn [assemble_all]. rewrite (collapses_done not_op (anyR uss)
        (joinR sym_or (map (fun us => joinR sym_and (map (fun v => [EVal v]) (map unit_value us))) uss))); [reflexivity|].
      apply collapses_join; [rewrite not_sym; discriminate|]. clear H.
      induction uss as [|us uss IH]; constructor; [|exact IH].
      apply collapses_join; [rewrite not_sym; discriminate|].
      clear IH. induction us as [|(v, k) us IH]; constructor; [|exact IH].
      unfold unitR, unit_value. cbn [fst snd]. rewrite <- not_sym. now apply collapses_prefix.
    - cbn [assemble_all]. do 2 f_equal. unfold anyR. f_equal.
      induction H as [us e U|us uss e e' H IH U].
      + cbn [map]. f_equal. clear - U Hneg. unfold allR. f_equal.
        induction U as [u e (Z & _)|u us e e' H IH (Z & _)]; cbn [map]; f_equal; trivial;
          unfold unitR, unit_value; rewrite (Z Hneg); reflexivity.
      + cbn [map]. f_equal; [|exact IH]. clear - U Hneg. unfold allR. f_equal.
        induction U as [u e0 (Z & _)|u us e0 e1 H IH (Z & _)]; cbn [map]; f_equal; trivial;
          unfold unitR, unit_value; rewrite (Z Hneg); reflexivity.
  Qed.

  Lemma assemble_all_app : forall xs ys (s : list (elem V)),
    assemble_all (xs ++ ys) s = obind (assemble_all xs s) (assemble_all ys).
  Proof.
    induction xs as [|x xs IH]; intros ys s; [reflexivity|]. cbn [app assemble_all].
    destruct (assemble_oper x s); cbn [obind]; trivial.
  Qed.

  Lemma assembled : forall uss e, is_any uss e ->
    exists w, M w e /\ assemble ops (rev (anyR uss)) = Returns (EVal w).
  Proof.
    intros uss e H. unfold assemble, ops. rewrite assemble_all_app, (not_pass uss e H). cbn [obind assemble_all].
    destruct (any_results uss e H) as (ws & W & F).
    rewrite (collapses_done and_op _ (joinR sym_or (map (fun w => [EVal w]) ws))).
    2: { apply collapses_join; [rewrite and_sym; discriminate|exact F]. }
    cbn [obind]. destruct (or_result ws e W) as (w & W' & C).
    rewrite (collapses_done or_op _ _ C). cbn [obind rev app]. now exists w.
  Qed.

  (** * From the grammar to pieces *)

  Variable val : list ascii -> V.
  Hypothesis M_item : forall t, M (val t) (BItem t).

  Definition valued (p : piece) (e : elem V) : Prop := reduce ops (ptree val p) = Returns e.

  Lemma reduce_list : forall ps es, Forall2 valued ps es ->
    reduce ops (PList (map (ptree val) ps)) = assemble ops es.
  Proof.
    intros ps es H. cbn [reduce].
    match goal with |- obind (?go ?l) _ = _ => assert (E : go l = Returns es) end.
    { induction H as [|p e ps es Hp H IH]; [reflexivity|]. cbn [map]. rewrite Hp. cbn [obind].
      rewrite IH. reflexivity. }
    rewrite E. reflexivity.
  Qed.

  Notation syms := (map op_symbol ops).
  Lemma syms_three : forall c, In c syms -> In c [sym_not; sym_and; sym_or].
  Proof using not_sym and_sym or_sym.
    clear M_not. intros c H. unfold ops in H. destruct neg; cbn [app map In] in H;
      rewrite ?not_sym, and_sym, or_sym in H; cbn [In]; tauto.
  Qed.
  Lemma and_in : In sym_and syms.
  Proof using and_sym. unfold ops. rewrite map_app. apply in_or_app. right. left. exact and_sym. Qed.
  Lemma or_in : In sym_or syms.
  Proof using or_sym. unfold ops. rewrite map_app. apply in_or_app. right. right. left. exact or_sym. Qed.
  Lemma not_in : neg = true -> In sym_not syms.
  Proof using not_sym. intros H. unfold ops. rewrite H. left. exact not_sym. Qed.

  Lemma valued_op : forall a c b, valued (PcOp a c b) (EStr c). Proof using. reflexivity. Qed.

  Lemma allR_cons : forall u us, us <> [] -> allR (u :: us) = unitR u ++ EStr sym_and :: allR us.
  Proof using. intros u [|u' us] N; [contradiction|]. reflexivity. Qed.
  Lemma anyR_cons : forall us uss, uss <> [] -> anyR (us :: uss) = allR us ++ EStr sym_or :: anyR uss.
  Proof using. intros u [|u' us] N; [contradiction|]. reflexivity. Qed.
  Lemma is_all_some : forall us e, is_all us e -> us <> [].
  Proof using. intros us e []; discriminate. Qed.
  Lemma is_any_some : forall us e, is_any us e -> us <> [].
  Proof using. intros us e []; discriminate. Qed.

  Definition structured (l : level) (es : list (elem V)) (e : bexp) : Prop :=
    match l with
    | LUnit => exists u, rev es = unitR u /\ is_unit u e
    | LAll => exists us, rev es = allR us /\ is_all us e
    | LAny => exists uss, rev es = anyR uss /\ is_any uss e
    end.

  Lemma grammar_pieces : forall l s e, reads neg l s e ->
    exists ps es, ok syms ps /\ ptexts ps = s /\ allitems ps = items e /\
      Forall2 valued ps es /\ structured l es e.
  Proof.
    intros l s e H.
    induction H as [a t b A B I|a b s e Hn A B H (ps & es & O & T & It & F & u & R & U)
                   |s e H (ps & es & O & T & It & F & uss & R & U)
                   |s e H (ps & es & O & T & It & F & u & R & U)
                   |s e a b s' e' A B H (ps & es & O & T & It & F & us & R & U) H' (ps' & es' & O' & T' & It' & F' & u & R' & U')
                   |s e H (ps & es & O & T & It & F & us & R & U)
                   |s e a b s' e' A B H (ps & es & O & T & It & F & uss & R & U) H' (ps' & es' & O' & T' & It' & F' & us & R' & U')].
    - exists [PcItem a t b], [EVal (val t)]. split.
      { apply ok_item; [now apply blanks_spaces|now apply blanks_spaces|exact I|exact Logic.I|apply ok_nil]. }
      split; [cbn; apply app_nil_r|]. split; [reflexivity|]. split; [constructor; [reflexivity|constructor]|].
      exists (val t, 0). split; [reflexivity|]. split; [reflexivity|]. apply M_item.
    - exists (PcOp a sym_not b :: ps), (EStr sym_not :: es). split.
      { apply ok_op; [now apply blanks_spaces|now apply blanks_spaces|now apply not_in|exact O]. }
      split. { cbn [ptexts flat_map ptext]. fold (ptexts ps). rewrite T, <- app_assoc. reflexivity. }
      split; [exact It|]. split; [constructor; [apply valued_op|exact F]|].
      destruct u as (v, k). exists (v, S k). split.
      { cbn [rev]. rewrite R. unfold unitR. cbn [fst snd app]. f_equal. symmetry. apply repeat_cons. }
      split; [intros K; rewrite Hn in K; discriminate|]. destruct U as (_ & U).
      change (unit_value (v, S k)) with (inv (unit_value (v, k))). apply M_not; [exact Hn|exact U].
    - exists [PcSub ps]. destruct (assembled uss e U) as (w & W & E).
      exists [EVal w]. split; [apply ok_sub; [exact O|exact I|apply ok_nil]|].
      split. { cbn [ptexts flat_map ptext]. fold (ptexts ps). rewrite T, app_nil_r. reflexivity. }
      split. { cbn [allitems flat_map pitems]. fold (allitems ps). rewrite It. apply app_nil_r. }
      split. { constructor; [|constructor]. unfold valued. cbn [ptree]. rewrite (reduce_list ps es F).
               rewrite <- (rev_involutive es), R. exact E. }
      exists (w, 0). split; [reflexivity|]. split; [reflexivity|exact W].
    - exists ps, es. split; [exact O|]. split; [exact T|]. split; [exact It|]. split; [exact F|].
      exists [u]. split; [exact R|now apply all_one].
    - exists (ps ++ PcOp a sym_and b :: ps'), (es ++ EStr sym_and :: es'). split.
      { apply ok_app_op; trivial; [now apply blanks_spaces|now apply blanks_spaces|apply and_in]. }
      split. { rewrite ptexts_app. cbn [ptexts flat_map ptext]. fold (ptexts ps'). rewrite T, T', <- app_assoc. reflexivity. }
      split. { rewrite allitems_app, It. exact (f_equal (app (items e)) It'). }
      split. { apply Forall2_app; [exact F|]. constructor; [apply valued_op|exact F']. }
      exists (u :: us). split; [|now apply all_more].
      rewrite rev_app_distr. cbn [rev]. rewrite R, R', <- app_assoc. cbn [app].
      symmetry. apply allR_cons. now apply is_all_some with e.
    - exists ps, es. split; [exact O|]. split; [exact T|]. split; [exact It|]. split; [exact F|].
      exists [us]. split; [exact R|now apply any_one].
    - exists (ps ++ PcOp a sym_or b :: ps'), (es ++ EStr sym_or :: es'). split.
      { apply ok_app_op; trivial; [now apply blanks_spaces|now apply blanks_spaces|apply or_in]. }
      split. { rewrite ptexts_app. cbn [ptexts flat_map ptext]. fold (ptexts ps'). rewrite T, T', <- app_assoc. reflexivity. }
      split. { rewrite allitems_app, It. exact (f_equal (app (items e)) It'). }
      split. { apply Forall2_app; [exact F|]. constructor; [apply valued_op|exact F']. }
      exists (us :: uss). split; [|now apply any_more].
      rewrite rev_app_distr. cbn [rev]. rewrite R, R', <- app_assoc. cbn [app].
      symmetry. apply anyR_cons. now apply is_any_some with e.
  Qed.

  Lemma instruction_ok : forall s e, reads neg LAny s e ->
    (forall t, In t (items e) -> item t = Ok (val t)) ->
    exists w, M w e /\ instruction item ops s = Returns (EVal w).
  Proof.
    intros s e H K. destruct (grammar_pieces LAny s e H) as (ps & es & O & T & It & F & uss & R & U).
    destruct (assembled uss e U) as (w & W & E). exists w. split; [exact W|].
    unfold instruction.
    destruct (to_list_ok syms syms_three (S (length s)) ps []) as (ns & L & N).
    { exact O. } { intros x []. } { cbn [app]. rewrite T. lia. }
    cbn [app] in L, N. rewrite T in L. rewrite L. cbn [obind].
    rewrite <- parse_strip. unfold symbols. rewrite N.
    rewrite (parse_pieces item syms syms_three val ps O) by (rewrite It; exact K). cbn [lift obind].
    rewrite (reduce_list ps es F), <- (rev_involutive es), R. exact E.
  Qed.

  Lemma instruction_unknown : forall s e x, reads neg LAny s e -> first_unknown item (items e) x ->
    instruction item ops s = Raises x.
  Proof.
    intros s e x H K. destruct (grammar_pieces LAny s e H) as (ps & es & O & T & It & F & uss & R & U).
    unfold instruction.
    destruct (to_list_ok syms syms_three (S (length s)) ps []) as (ns & L & N).
    { exact O. } { intros y []. } { cbn [app]. rewrite T. lia. }
    cbn [app] in L, N. rewrite T in L. rewrite L. cbn [obind].
    rewrite <- parse_strip. unfold symbols. rewrite N.
    rewrite (parse_unknown item syms syms_three ps O x) by (rewrite It; exact K). reflexivity.
  Qed.
End Assembly.
