(** Condition strings and time strings. *)
From Coq Require Import List Bool Arith Lia ZifyBool ZArith Ascii String.
From Verif Require Import Model.Base Model.Parse Spec.ParseSpec.
From Verif Require Model.Condition Model.Period Spec.AlgebraSpec Proofs.ConditionProofs Proofs.AlgebraProofs
  Proofs.PeriodProofs.
From Verif Require Import Proofs.ParseProofs Proofs.ParseTreeProofs Proofs.ParseAssemblyProofs Proofs.ParseBalanceProofs.
Import ListNotations.

(** * Printing *)

Lemma printed_reads : forall e, (forall t, In t (items e) -> item_text t) -> reads true LUnit (printed e) e.
Proof.
  assert (Nil : blanks []) by (intros c []).
  assert (One : blanks [" "%char]).
  { intros c [<- | []]. unfold white. cbn. tauto. }
  induction e as [t|e IH|a IHa b IHb|a IHa b IHb]; intros K; cbn [printed].
  - rewrite <- (app_nil_r t) at 1. change (t ++ []) with ([] ++ t ++ []).
    apply rd_item; trivial. apply K. now left.
  - change ("("%char :: "~"%char :: printed e ++ [")"%char]) with ("("%char :: ([] ++ "~"%char :: [] ++ printed e) ++ [")"%char]).
    apply rd_group, rd_all, rd_unit. apply rd_not; trivial. apply IH. exact K.
  - replace ("("%char :: printed a ++ " "%char :: "&"%char :: " "%char :: printed b ++ [")"%char])
      with ("("%char :: (printed a ++ [" "%char] ++ "&"%char :: [" "%char] ++ printed b) ++ [")"%char])
      by (cbn [app]; rewrite <- !app_assoc; reflexivity).
    apply rd_group, rd_all. apply rd_and; trivial.
    + apply rd_unit, IHa. intros t Ht. apply K. cbn [items]. apply in_or_app. now left.
    + apply IHb. intros t Ht. apply K. cbn [items]. apply in_or_app. now right.
  - replace ("("%char :: printed a ++ " "%char :: "|"%char :: " "%char :: printed b ++ [")"%char])
      with ("("%char :: (printed a ++ [" "%char] ++ "|"%char :: [" "%char] ++ printed b) ++ [")"%char])
      by (cbn [app]; rewrite <- !app_assoc; reflexivity).
    apply rd_group. apply rd_or; trivial.
    + apply rd_all, rd_unit, IHa. intros t Ht. apply K. cbn [items]. apply in_or_app. now left.
    + apply rd_unit, IHb. intros t Ht. apply K. cbn [items]. apply in_or_app. now right.
Qed.

(** * Conditions *)

Section Conditions.
  Import Condition ConditionProofs.
  Variable item : list ascii -> result cond.
  Variable text_atom : ascii -> nat.
  Variable known : list ascii -> cond.

  Definition right_cond (c : cond) (e : bexp) : Prop := forall env, observe env c = answer env known e.

  Lemma answer_and : forall env a b, answer env known (BAnd a b) = seq_all (answer env known a) (answer env known b).
  Proof.
    intros env a b. cbn [answer]. unfold seq_all. destruct (answer env known a) as [[[|]|x] tr]; try reflexivity.
    now destruct (answer env known b).
  Qed.
  Lemma answer_or : forall env a b, answer env known (BOr a b) = seq_any (answer env known a) (answer env known b).
  Proof.
    intros env a b. cbn [answer]. unfold seq_any. destruct (answer env known a) as [[[|]|x] tr]; try reflexivity.
    now destruct (answer env known b).
  Qed.
  Lemma seq_all_assoc : forall a b c, seq_all a (seq_all b c) = seq_all (seq_all a b) c.
  Proof.
    intros [[[|]|x] tr] [[[|]|y] tr'] [r tr'']; cbn; rewrite ?app_assoc; reflexivity.
  Qed.
  Lemma seq_any_assoc : forall a b c, seq_any a (seq_any b c) = seq_any (seq_any a b) c.
  Proof.
    intros [[[|]|x] tr] [[[|]|y] tr'] [r tr'']; cbn; rewrite ?app_assoc; reflexivity.
  Qed.
  Lemma all_subs_again : forall env args, all_loop (observe env) (all_subs args) = all_loop (observe env) args.
  Proof. intros env args. exact (observe_mk_all env args). Qed.
  Lemma any_subs_again : forall env args, any_loop (observe env) (any_subs args) = any_loop (observe env) args.
  Proof. intros env args. exact (observe_mk_any env args). Qed.

  Notation not_o := (Operator sym_not SRight (parse_not text_atom)).
  Notation and_o := (Operator sym_and SBoth (parse_all text_atom)).
  Notation or_o := (Operator sym_or SBoth (parse_any text_atom)).

  Lemma r_not : forall v e, right_cond v e -> right_cond (c_not v) (BNot e).
  Proof.
    intros v e H env. rewrite observe_not, (H env). cbn [answer]. now destruct (answer env known e) as [[b|x] tr].
  Qed.
  Lemma r_and : forall a b x y, right_cond x a -> right_cond y b ->
    exists w, op_func and_o [EVal x; EVal y] = Ok w /\ right_cond w (BAnd a b).
  Proof.
    intros a b x y A B. eexists. split; [reflexivity|]. intros env. rewrite observe_mk_all, all_subs_again.
    cbn [map as_cond]. change [x; y] with ([x] ++ [y]). rewrite all_loop_app, !all_loop_single, answer_and.
    now rewrite (A env), (B env).
  Qed.
  Lemma r_or : forall a b x y, right_cond x a -> right_cond y b ->
    exists w, op_func or_o [EVal x; EVal y] = Ok w /\ right_cond w (BOr a b).
  Proof.
    intros a b x y A B. eexists. split; [reflexivity|]. intros env. rewrite observe_mk_any, any_subs_again.
    cbn [map as_cond]. change [x; y] with ([x] ++ [y]). rewrite any_loop_app, !any_loop_single, answer_or.
    now rewrite (A env), (B env).
  Qed.
  Lemma r_and_assoc : forall v a b c, right_cond v (BAnd a (BAnd b c)) -> right_cond v (BAnd (BAnd a b) c).
  Proof. intros v a b c H env. rewrite (H env), !answer_and. apply seq_all_assoc. Qed.
  Lemma r_or_assoc : forall v a b c, right_cond v (BOr a (BOr b c)) -> right_cond v (BOr (BOr a b) c).
  Proof. intros v a b c H env. rewrite (H env), !answer_or. apply seq_any_assoc. Qed.
  Lemma r_item : forall t, right_cond (known t) (BItem t). Proof. intros t env. reflexivity. Qed.

  Lemma condition_string : forall s e, reads true LAny s e ->
    (forall t, In t (items e) -> item t = Ok (known t)) ->
    exists c, parse_condition item text_atom s = Returns c /\ forall env, observe env c = answer env known e.
  Proof.
    intros s e H K.
    destruct (instruction_ok item true not_o and_o or_o c_not eq_refl eq_refl (fun v => eq_refl) eq_refl eq_refl
                eq_refl eq_refl right_cond (fun _ => r_not) r_and r_or r_and_assoc r_or_assoc known r_item s e H K) as (w & W & E).
    exists w. split; [|exact W]. unfold parse_condition.
    change (condition_operators text_atom) with (ops true not_o and_o or_o). rewrite E. reflexivity.
  Qed.

  (** A single item gives its own condition. *)
  Lemma condition_single : forall t, item_text t -> item t = Ok (known t) ->
    parse_condition item text_atom t = Returns (known t).
  Proof.
    intros t T K.
    assert (R : reads true LAny t (BItem t)).
    { apply rd_all, rd_unit. rewrite <- (app_nil_r t) at 1. change (t ++ []) with ([] ++ t ++ []).
      apply rd_item; [intros c []|intros c []|exact T]. }
    set (M := fun (v : cond) e => forall u, e = BItem u -> v = known u).
    assert (No : forall v e, (forall u, e <> BItem u) -> M v e).
    { intros v e N u E. now elim (N u). }
    destruct (instruction_ok item true not_o and_o or_o c_not eq_refl eq_refl (fun v => eq_refl) eq_refl eq_refl
                eq_refl eq_refl M) with (val := known) (s := t) (e := BItem t) as (w & W & E).
    - intros _ v e _. apply No. discriminate.
    - intros a b x y _ _. eexists. split; [reflexivity|]. apply No. discriminate.
    - intros a b x y _ _. eexists. split; [reflexivity|]. apply No. discriminate.
    - intros v a b c _. apply No. discriminate.
    - intros v a b c _. apply No. discriminate.
    - intros u v E. now injection E as ->.
    - exact R.
    - intros u [<- | []]. exact K.
    - unfold parse_condition.
      change (condition_operators text_atom) with (ops true not_o and_o or_o). rewrite E.
      now rewrite (W t eq_refl).
  Qed.

  Lemma condition_printed : forall e, (forall t, In t (items e) -> item_text t /\ item t = Ok (known t)) ->
    exists c, parse_condition item text_atom (printed e) = Returns c /\ forall env, observe env c = answer env known e.
  Proof.
    intros e K. apply condition_string.
    - apply rd_all, rd_unit, printed_reads. intros t Ht. apply K, Ht.
    - intros t Ht. apply K, Ht.
  Qed.

  Lemma condition_unknown : forall s e x, reads true LAny s e -> first_unknown item (items e) x ->
    parse_condition item text_atom s = Raises x.
  Proof.
    intros s e x H K.
    pose proof (instruction_unknown item true not_o and_o or_o c_not eq_refl eq_refl (fun v => eq_refl) eq_refl eq_refl
                eq_refl eq_refl right_cond (fun _ => r_not) r_and r_or r_and_assoc r_or_assoc known r_item s e x H K) as E.
    unfold parse_condition.
    change (condition_operators text_atom) with (ops true not_o and_o or_o). rewrite E. reflexivity.
  Qed.

  Lemma condition_ends : forall s, parse_condition item text_atom s <> OutOfFuel.
  Proof.
    intros s H. unfold parse_condition in H.
    destruct (instruction item (condition_operators text_atom) s) as [[c|c]|x|] eqn:E; cbn [obind] in H; try discriminate.
    now apply instruction_ends in E.
  Qed.

  Lemma condition_unbalanced : (forall t, In ")"%char t -> exists x, item t = Err x) ->
    forall s, occurrences "("%char s <> occurrences ")"%char s ->
    exists x, parse_condition item text_atom s = Raises x.
  Proof.
    intros K s H. destruct (unbalanced item (condition_operators text_atom)) with (s := s) as (x & E).
    - intros [X | [X | [X | []]]]; discriminate.
    - exact K.
    - exact H.
    - exists x. unfold parse_condition. rewrite E. reflexivity.
  Qed.
  Lemma condition_unclosed : forall s, (occurrences ")"%char s < occurrences "("%char s)%nat ->
    parse_condition item text_atom s = Raises ValueError.
  Proof. intros s H. unfold parse_condition. rewrite unclosed by exact H. reflexivity. Qed.
End Conditions.

(** * Periods *)

Section Times.
  Import Period AlgebraSpec AlgebraProofs PeriodProofs.
  Variable item : list ascii -> result tperiod.
  Variable known : list ascii -> tperiod.
  Hypothesis known_solid : forall t, solid (known t).

  Definition right_time (p : tperiod) (e : bexp) : Prop :=
    solid p /\ forall t, (p_min <= t < p_max)%Z -> (moments p t <-> spans known e t).

  Notation and_o := (Operator sym_and SBoth time_all).
  Notation or_o := (Operator sym_or SBoth time_any).

  Definition all_parts (p : tperiod) : list tperiod := match p with PAll ps => ps | _ => [p] end.
  Definition any_parts (p : tperiod) : list tperiod := match p with PAny ps => ps | _ => [p] end.

  Lemma flat_all_two : forall x y, flat_all [EVal x; EVal y] = Ok (all_parts x ++ all_parts y).
  Proof. intros x y. destruct x, y; cbn; rewrite ?app_nil_r; reflexivity. Qed.
  Lemma flat_any_two : forall x y, flat_any [EVal x; EVal y] = Ok (any_parts x ++ any_parts y).
  Proof. intros x y. destruct x, y; cbn; rewrite ?app_nil_r; reflexivity. Qed.

  Definition all_member (q : tperiod) : Prop := q <> PAlways /\ forall qs, q <> PAll qs.
  Definition any_member (q : tperiod) : Prop := forall qs, q <> PAny qs.

  Lemma solid_all_parts : forall p, solid p -> all_parts p <> [] /\ forall q, In q (all_parts p) -> all_member q.
  Proof.
    intros p S. destruct p; cbn [all_parts solid] in *;
      try (split; [discriminate|intros q [<- | []]; split; [discriminate|intros qs; discriminate]]).
    - contradiction.
    - exact S.
  Qed.
  Lemma solid_any_parts : forall p, solid p -> any_parts p <> [] /\ forall q, In q (any_parts p) -> any_member q.
  Proof.
    intros p S. destruct p; cbn [any_parts solid] in *;
      try (split; [discriminate|intros q [<- | []] qs; discriminate]).
    destruct S as (N & K). split; [exact N|]. intros q Hq qs. now apply K.
  Qed.

  Lemma all_members_same : forall l, (forall q, In q l -> all_member q) -> all_members l = l.
  Proof.
    induction l as [|q l IH]; intros H; [reflexivity|].
    destruct (H q (or_introl eq_refl)) as (A & B).
    assert (E : all_members l = l) by (apply IH; intros p Hp; apply H; now right).
    destruct q; cbn [all_members]; rewrite ?E; try reflexivity; [now destruct A|now destruct (B ps)].
  Qed.

  Lemma any_members_kind : forall l acc, (forall q, In q acc -> any_member q) -> (forall q, In q l -> any_member q) ->
    acc ++ l <> [] ->
    any_members acc l <> [] /\ (forall q, In q (any_members acc l) -> any_member q).
  Proof.
    induction l as [|q l IH]; intros acc A H N.
    - cbn [any_members]. rewrite app_nil_r in N. split; assumption.
    - assert (Step : any_members (acc ++ [q]) l <> [] /\ (forall p, In p (any_members (acc ++ [q]) l) -> any_member p)).
      { apply IH.
        - intros p Hp. apply in_app_or in Hp. destruct Hp as [Hp | [<- | []]]; [now apply A|apply H; now left].
        - intros p Hp. apply H. now right.
        - destruct acc; discriminate. }
      destruct q; cbn [any_members]; try exact Step.
      + split; [discriminate|]. intros p [<- | []] qs. discriminate.
      + exfalso. exact (H (PAny ps) (or_introl eq_refl) ps eq_refl).
  Qed.

  Lemma parts_all_moments : forall x y t, (forall q, In q (all_parts x ++ all_parts y) -> moments q t) <->
    moments x t /\ moments y t.
  Proof.
    intros x y t.
    assert (P : forall p, (forall q, In q (all_parts p) -> moments q t) <-> moments p t).
    { intros p. destruct p; cbn [all_parts];
        try (split; [intros H; apply H; now left|intros H q [<- | []]; exact H]).
      symmetry. apply moments_all. }
    rewrite <- (P x), <- (P y). split.
    - intros H. split; intros q Hq; apply H, in_or_app; auto.
    - intros (H1 & H2) q Hq. apply in_app_or in Hq. destruct Hq; auto.
  Qed.
  Lemma parts_any_moments : forall x y t, (exists q, In q (any_parts x ++ any_parts y) /\ moments q t) <->
    moments x t \/ moments y t.
  Proof.
    intros x y t.
    assert (P : forall p, (exists q, In q (any_parts p) /\ moments q t) <-> moments p t).
    { intros p. destruct p; cbn [any_parts];
        try (split; [intros (q & [<- | []] & H); exact H|intros H; eexists; split; [left; reflexivity|exact H]]).
      symmetry. apply moments_any. }
    rewrite <- (P x), <- (P y). split.
    - intros (q & Hq & H). apply in_app_or in Hq. destruct Hq as [Hq | Hq]; [left|right]; now exists q.
    - intros [(q & Hq & H) | (q & Hq & H)]; exists q; (split; [apply in_or_app; auto|exact H]).
  Qed.

  Lemma t_and : forall a b x y, right_time x a -> right_time y b ->
    exists w, op_func and_o [EVal x; EVal y] = Ok w /\ right_time w (BAnd a b).
  Proof.
    intros a b x y (Sx & A) (Sy & B). cbn [op_func]. unfold time_all. rewrite flat_all_two. cbn [bind].
    destruct (solid_all_parts x Sx) as (Nx & Kx). destruct (solid_all_parts y Sy) as (Ny & Ky).
    assert (K : forall q, In q (all_parts x ++ all_parts y) -> all_member q).
    { intros q Hq. apply in_app_or in Hq. destruct Hq; auto. }
    assert (N : all_parts x ++ all_parts y <> []) by (destruct (all_parts x); [contradiction|discriminate]).
    unfold mk_all. rewrite (all_members_same _ K).
    exists (PAll (all_parts x ++ all_parts y)). split.
    { destruct (all_parts x ++ all_parts y); [contradiction|reflexivity]. }
    split; [split; [exact N|exact K]|]. intros t Ht. cbn [spans].
    rewrite moments_all, parts_all_moments, (A t Ht), (B t Ht). reflexivity.
  Qed.
  Lemma t_or : forall a b x y, right_time x a -> right_time y b ->
    exists w, op_func or_o [EVal x; EVal y] = Ok w /\ right_time w (BOr a b).
  Proof.
    intros a b x y (Sx & A) (Sy & B). cbn [op_func]. unfold time_any. rewrite flat_any_two. cbn [bind].
    destruct (solid_any_parts x Sx) as (Nx & Kx). destruct (solid_any_parts y Sy) as (Ny & Ky).
    assert (K : forall q, In q (any_parts x ++ any_parts y) -> any_member q).
    { intros q Hq. apply in_app_or in Hq. destruct Hq; auto. }
    assert (N : any_parts x ++ any_parts y <> []) by (destruct (any_parts x); [contradiction|discriminate]).
    unfold mk_any.
    exists (PAny (any_members [] (any_parts x ++ any_parts y))). split.
    { destruct (any_parts x ++ any_parts y); [contradiction|reflexivity]. }
    destruct (any_members_kind (any_parts x ++ any_parts y) []) as (N' & K'); [intros q []|exact K|exact N|].
    split. { split; [exact N'|]. intros q qs Hq. now apply K'. }
    intros t Ht. cbn [spans]. rewrite (any_members_moments _ t Ht []).
    rewrite !moments_any, parts_any_moments, (A t Ht), (B t Ht).
    split; [intros [(q & [] & _) | H]; exact H|intros H; now right].
  Qed.
  Lemma t_and_assoc : forall v a b c, right_time v (BAnd a (BAnd b c)) -> right_time v (BAnd (BAnd a b) c).
  Proof. intros v a b c (S & H). split; [exact S|]. intros t Ht. rewrite (H t Ht). cbn [spans]. tauto. Qed.
  Lemma t_or_assoc : forall v a b c, right_time v (BOr a (BOr b c)) -> right_time v (BOr (BOr a b) c).
  Proof. intros v a b c (S & H). split; [exact S|]. intros t Ht. rewrite (H t Ht). cbn [spans]. tauto. Qed.
  Lemma t_item : forall t, right_time (known t) (BItem t).
  Proof. intros t. split; [apply known_solid|]. intros u _. reflexivity. Qed.

  Definition no_op : operator tperiod :=
    Operator sym_not SRight (fun args => match args with [EVal v] => Ok v | _ => Err TypeError end).

  Lemma time_string : forall s e, reads false LAny s e ->
    (forall t, In t (items e) -> item t = Ok (known t)) ->
    exists p, parse_time item s = Returns (EVal p) /\ solid p /\
      forall t, (p_min <= t < p_max)%Z -> (moments p t <-> spans known e t).
  Proof.
    intros s e H K.
    assert (NN : false = true -> forall v e, right_time v e -> right_time v (BNot e)) by discriminate.
    destruct (instruction_ok item false no_op and_o or_o (fun v => v) eq_refl eq_refl (fun v => eq_refl) eq_refl eq_refl
                eq_refl eq_refl right_time NN t_and t_or t_and_assoc t_or_assoc known t_item s e H K) as (w & W & E).
    exists w. split; [exact E|exact W].
  Qed.

  Lemma time_unknown : forall s e x, reads false LAny s e -> first_unknown item (items e) x ->
    parse_time item s = Raises x.
  Proof.
    intros s e x H K.
    assert (NN : false = true -> forall v e, right_time v e -> right_time v (BNot e)) by discriminate.
    exact (instruction_unknown item false no_op and_o or_o (fun v => v) eq_refl eq_refl (fun v => eq_refl) eq_refl eq_refl
                eq_refl eq_refl right_time NN t_and t_or t_and_assoc t_or_assoc known t_item s e x H K).
  Qed.
End Times.

Lemma time_ends : forall item s, parse_time item s <> OutOfFuel.
Proof. intros item s. apply instruction_ends. Qed.
