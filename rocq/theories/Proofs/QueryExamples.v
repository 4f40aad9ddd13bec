(** Concrete queries. *)
From Coq Require Import Ascii String.
From Verif Require Import Model.Base Model.Query Spec.QuerySpec Proofs.QueryProofs.
Open Scope Z_scope.
Open Scope string_scope.
Open Scope list_scope.

Definition ex_pd (s : string) : result Z := if String.eqb s "2021-07-01" then Ok 100 else Err ParserError.
Definition ex_ft (i : Z) : result Z := Ok (i * 10 ^ 6).
Definition ex_rx (p s : string) : result bool := Ok (String.eqb p s).
Definition ex_item : item := [("a", VInt 3); ("s", VStr "this"); ("day", VDate 150)].
Lemma ex_distinct : keys_distinct ex_item.
Proof. repeat constructor; cbn; intuition discriminate. Qed.
(** (Key a <= 5) & (2021-07-01 <= Key day) & ~(Key s == that) *)
Definition ex_expr : expr :=
  Both (Both (Is CLe (OKey "a") (OLit (VInt 5))) (Is CLe (OLit (VStr "2021-07-01")) (OKey "day")))
       (Neither (Is CEq (OKey "s") (OLit (VStr "that")))).
Lemma ex_decided : decided ex_pd ex_ft ex_rx ex_item ex_expr.
Proof.
  split; [split|].
  - exists (VInt 3), (VInt 5), (VInt 3), (VInt 5). split; [now left|]. split; [reflexivity|]. split; [|now right; right].
    left. repeat split; discriminate.
  - exists (VStr "2021-07-01"), (VDate 150), (VDate 100), (VDate 150). split; [reflexivity|]. split; [now right; right; left|].
    split; [|now right; right]. right. split; [right; now exists 150|]. exists 100, 150. repeat split.
  - exists (VStr "this"), (VStr "that"), (VStr "this"), (VStr "that"). split; [now right; left|]. split; [reflexivity|]. split; [|now left].
    left. repeat split; discriminate.
Qed.
(** A comparison of an integer of the item *)
Ltac int_decided :=
  match goal with |- decided _ _ _ ?d (Is ?c (OKey ?k) (OLit (VInt ?n))) =>
    let x := eval vm_compute in (dict_get k d) in
    match x with Some (VInt ?m) =>
      exists (VInt m), (VInt n), (VInt m), (VInt n); split; [cbn; tauto|]; split; [reflexivity|]; split; [|right; right; exact I];
      left; split; [discriminate|]; split; [discriminate|]; split; reflexivity
    end
  end.
Definition ex_criteria : list criterion := [Criterion "a" AtLeast (VInt 1); Criterion "a" AtMost (VInt 5); Criterion "s" Fits (VStr "this")].
Lemma ex_criteria_decided : Forall (fun c => decided ex_pd ex_ft ex_rx ex_item (required c)) ex_criteria.
Proof.
  apply Forall_cons; [unfold required; cbn [cr_sort cr_key cr_value]; int_decided|].
  apply Forall_cons; [unfold required; cbn [cr_sort cr_key cr_value]; int_decided|].
  apply Forall_cons; [|apply Forall_nil]. exists "this", "this", true. split; [reflexivity|]. split; [now right; left|reflexivity].
Qed.
Definition ex_kwargs : list (string * kwarg) :=
  [("a", KTuple [VInt 1; VNone]); ("b", KList [VInt 7; VInt 8])].
Definition ex_ints : item := [("a", VInt 3); ("b", VInt 8)].
Lemma ex_ints_distinct : keys_distinct ex_ints.
Proof. repeat constructor; cbn; intuition discriminate. Qed.
Lemma ex_kwargs_decided : Forall (kw_decided ex_pd ex_ft ex_rx ex_ints) ex_kwargs.
Proof.
  apply Forall_cons; [|apply Forall_cons; [|apply Forall_nil]].
  - change (Forall (decided ex_pd ex_ft ex_rx ex_ints) [Is CGe (OKey "a") (OLit (VInt 1))]).
    apply Forall_cons; [int_decided|apply Forall_nil].
  - change (Forall (fun v => decided ex_pd ex_ft ex_rx ex_ints (Is CEq (OKey "b") (OLit v))) [VInt 7; VInt 8]).
    apply Forall_cons; [int_decided|]. apply Forall_cons; [int_decided|apply Forall_nil].
Qed.

(** * Two repeated keys *)
Definition two_keys : list criterion :=
  [Criterion "a" Equals (VInt 1); Criterion "a" Equals (VInt 2); Criterion "b" Equals (VInt 3); Criterion "b" Equals (VInt 4)].
Lemma ints_say pd ft rx d k m n : keys_distinct d -> In (k, VInt m) d -> says pd ft rx d (Is CEq (OKey k) (OLit (VInt n))) -> m = n.
Proof.
  intros K I (a & b & a' & b' & Ha & Hb & T & R). cbn [has] in Hb. subst b. pose proof (has_one d (OKey k) a (VInt m) K Ha I) as ->.
  destruct T as [(_ & _ & -> & ->)|([[t [=]]|[t [=]]] & _)]. cbn in R. congruence.
Qed.
Lemma two_repeated : forall pd ft rx, exists cs q d, Forall (fun c => plain (cr_key c)) cs /\ keys_distinct d /\
  Forall (fun c => decided pd ft rx d (required c)) cs /\ from_tuples (map entry cs) = Ok q /\
  match_ pd ft rx d q = Ok true /\
  ~ (forall c, In c cs -> exists c', In c' cs /\ fst (entry c') = fst (entry c) /\ says pd ft rx d (required c')).
Proof.
  intros pd ft rx. exists two_keys. eexists. exists [("a", VInt 1); ("b", VInt 9)].
  split; [repeat (apply Forall_cons; [cbn; intros [H|[]]; discriminate H|]); apply Forall_nil|].
  assert (K : keys_distinct [("a", VInt 1); ("b", VInt 9)]) by (repeat constructor; cbn; intuition discriminate).
  split; [exact K|]. split; [repeat (apply Forall_cons; [unfold required; cbn [cr_sort cr_key cr_value]; int_decided|]); apply Forall_nil|].
  split; [reflexivity|]. split; [reflexivity|]. intros H.
  destruct (H (Criterion "b" Equals (VInt 3))) as (c & I & E & S); [now right; right; left|].
  destruct I as [<- | [<- | [<- | [<- | []]]]]; try discriminate E;
    (apply (ints_say _ _ _ _ "b" 9 _ K) in S; [discriminate S|now right; left]).
Qed.

(** * Keyword forms that lose something *)
Definition ex_sevens : item := [("a", VInt 3)].
Lemma ex_sevens_distinct : keys_distinct ex_sevens.
Proof. repeat constructor; cbn; intuition discriminate. Qed.
Lemma overwritten : forall pd ft rx, exists s s' kw q d, Forall simple_ok [s; s'] /\ keys_distinct d /\
  Forall (fun x => decided pd ft rx d (simple_expr x)) [s; s'] /\
  to_pykwargs (written (Both (simple_expr s) (simple_expr s'))) = Ok kw /\ from_kwargs kw = Ok q /\
  match_ pd ft rx d (written (Both (simple_expr s) (simple_expr s'))) = Ok false /\ match_ pd ft rx d q = Ok true.
Proof.
  intros pd ft rx. exists (Simple "a" CGe (VInt 5)), (Simple "a" CGe (VInt 1)). eexists. eexists. exists ex_sevens.
  split; [repeat (apply Forall_cons; [right; split; [now left|discriminate]|]); apply Forall_nil|].
  split; [exact ex_sevens_distinct|].
  split; [repeat (apply Forall_cons; [unfold simple_expr; cbn [si_cmp si_key si_value]; int_decided|]); apply Forall_nil|].
  split; [reflexivity|]. split; [reflexivity|]. split; reflexivity.
Qed.
Lemma reversed : forall pd ft rx, exists c n k kw q d, keys_distinct d /\
  to_pykwargs (QCmp c (OLit (VInt n)) (OKey k)) = Ok kw /\ from_kwargs kw = Ok q /\
  match_ pd ft rx d (QCmp c (OLit (VInt n)) (OKey k)) = Ok true /\ match_ pd ft rx d q = Ok false.
Proof.
  intros pd ft rx. exists CLe, 2, "a". eexists. eexists. exists ex_sevens. split; [exact ex_sevens_distinct|].
  split; [reflexivity|]. split; [reflexivity|]. split; reflexivity.
Qed.
