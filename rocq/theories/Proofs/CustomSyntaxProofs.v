(** Custom syntaxes: matching and the table of a session. *)
From Coq Require Import List Bool Arith Lia ZifyBool Ascii String ZArith.
From Verif Require Import Model.Base Model.Statement Model.Custom Spec.StatementSpec Spec.CustomSpec
  Proofs.StatementProofs Proofs.StatementResults Proofs.StatementConverse.
From Verif Require Model.Duration.
Import ListNotations.
Local Open Scope list_scope.
Local Open Scope nat_scope.

(** ** Matching gives a reading, and finds one if there is one *)

Lemma match_reads : forall p s r, fullmatch p s = Some r -> read_as p s r.
Proof.
  induction p as [|x p IH]; intros s r H.
  - cbn in H. destruct s; [injection H as <-; constructor|discriminate].
  - destruct x as [c|g|g|g ss|t]; cbn [fullmatch] in H.
    + destruct s as [|d s]; [discriminate|]. destruct (Ascii.eqb_spec c d) as [E|]; [|discriminate].
      subst d. constructor. now apply IH.
    + apply put_some in H. destruct H as (m & r' & H & ->). apply greedy_some in H.
      destruct H as (rest & -> & N & K & F). constructor; [now apply dots_text|now apply IH].
    + apply put_some in H. destruct H as (m & r' & H & ->). apply greedy_some in H.
      destruct H as (rest & -> & N & K & F). constructor; [|now apply IH].
      split; [exact N|]. intros c I. rewrite forallb_forall in F. apply digit_of_is. now apply F.
    + apply put_some in H. destruct H as (m & r' & H & ->). apply alternatives_some in H.
      destruct H as (rest & I & -> & K). constructor; [exact I|now apply IH].
    + destruct (strip_prefix t s) as [rest|] eqn:S.
      * apply strip_some in S. subst s. destruct (fullmatch p rest) as [r'|] eqn:K.
        { injection H as <-. apply read_with. now apply IH. }
        { apply read_without. now apply IH. }
      * apply read_without. now apply IH.
Qed.

Lemma greedy_finds : forall (A : Type) ok (k : list ascii -> option A) m rest,
  m <> [] -> forallb ok m = true -> k rest <> None -> greedy ok k (m ++ rest) <> None.
Proof.
  intros A ok k m. induction m as [|c m IH]; intros rest N F K; [congruence|].
  cbn [forallb] in F. apply andb_true_iff in F. destruct F as [F1 F2]. cbn [app greedy]. rewrite F1.
  destruct (greedy ok k (m ++ rest)) as [[m' r']|] eqn:G; [discriminate|].
  destruct m as [|d m].
  - cbn [app]. destruct (k rest) as [r|]; [discriminate|congruence].
  - exfalso. revert G. apply IH; [discriminate|exact F2|exact K].
Qed.
Lemma alternatives_finds : forall (A : Type) (k : list ascii -> option A) ss x rest,
  In x ss -> k rest <> None -> alternatives k (x ++ rest) ss <> None.
Proof.
  intros A k ss x rest I K. induction ss as [|t ss IH]; [destruct I|]. cbn [alternatives].
  destruct I as [E|I].
  - subst t. assert (S : strip_prefix x (x ++ rest) = Some rest) by now apply strip_some.
    rewrite S. destruct (k rest); [discriminate|congruence].
  - destruct (strip_prefix t (x ++ rest)) as [r|]; [|now apply IH].
    destruct (k r); [discriminate|now apply IH].
Qed.
Lemma put_finds : forall g o, o <> None -> put g o <> None.
Proof. intros g [[m r]|] H; [discriminate|congruence]. Qed.

Lemma text_dots : forall m, some_text m -> forallb dot m = true.
Proof.
  intros m [_ L]. apply forallb_forall. intros c I. unfold dot.
  destruct (Ascii.eqb_spec c (ascii_of_nat 10)) as [E|]; [|reflexivity]. subst c. now destruct (L I).
Qed.
Lemma reads_match : forall p s r, read_as p s r -> fullmatch p s <> None.
Proof.
  intros p s r H. induction H as [ |c p s gs _ IH|g p x s gs T _ IH|g p x s gs D _ IH|g ss p x s gs I _ IH
                                  |t p s gs _ IH|t p s gs _ IH]; cbn [fullmatch].
  - discriminate.
  - rewrite Ascii.eqb_refl. exact IH.
  - apply put_finds, greedy_finds; [exact (proj1 T)|now apply text_dots|exact IH].
  - apply put_finds, greedy_finds; [exact (proj1 D)| |exact IH].
    apply forallb_forall. intros c I. destruct (proj2 D c I) as [n N]. exact (proj1 (digit_is c n N)).
  - now apply put_finds, alternatives_finds.
  - assert (S : strip_prefix t (t ++ s) = Some s) by now apply strip_some.
    rewrite S. destruct (fullmatch p s); [discriminate|congruence].
  - destruct (strip_prefix t s) as [rest|]; [|exact IH]. destruct (fullmatch p rest); [discriminate|exact IH].
Qed.

Lemma matches_fits : forall st s r, matches st s = Some r -> fits st s r.
Proof.
  intros [t|p] s r H; cbn [matches] in H.
  - destruct (list_eq_dec ascii_dec t s) as [E|]; [|discriminate]. subst s. injection H as <-. constructor.
  - constructor. now apply match_reads.
Qed.
Lemma fits_matches : forall st s r, fits st s r -> matches st s <> None.
Proof.
  intros st s r H. destruct H as [t|p s gs H]; cbn [matches].
  - destruct (list_eq_dec ascii_dec t t); [discriminate|congruence].
  - exact (reads_match p s gs H).
Qed.
Lemma no_fit : forall st s, (forall gs, ~ fits st s gs) -> matches st s = None.
Proof.
  intros st s H. destruct (matches st s) as [r|] eqn:M; [|reflexivity].
  destruct (H r (matches_fits st s r M)).
Qed.
Lemma only_matches : forall st s gs, only_as st s gs -> matches st s = Some gs.
Proof.
  intros st s gs [F U]. destruct (matches st s) as [r|] eqn:M.
  - f_equal. exact (U r (matches_fits st s r M)).
  - destruct (fits_matches st s gs F M).
Qed.

(** ** The table *)

Section Table.
  Context {P V A : Type}.
  Implicit Types (s : csession P V A) (d : list (statement * entry V A)).

  Lemma find_skip : forall d d' t, (forall st e, In (st, e) d -> matches st t = None) ->
    find_entry (d ++ d') t = find_entry d' t.
  Proof.
    induction d as [|[st e] d IH]; intros d' t H; [reflexivity|]. cbn [app find_entry].
    rewrite (H st e (or_introl eq_refl)). apply IH. intros st' e' I. apply (H st' e'). now right.
  Qed.
  Lemma find_none : forall d t, (forall st, In st (map fst d) -> matches st t = None) -> find_entry d t = None.
  Proof.
    induction d as [|[st e] d IH]; intros t H; [reflexivity|]. cbn [find_entry].
    rewrite (H st (or_introl eq_refl)). apply IH. intros st' I. apply H. now right.
  Qed.
  (** An entry that is the only one to fit is found. *)
  Lemma find_only : forall d st e t gs, NoDup (map fst d) -> In (st, e) d -> matches st t = Some gs ->
    (forall st', In st' (map fst d) -> st' <> st -> matches st' t = None) ->
    find_entry d t = Some (e, gs).
  Proof.
    induction d as [|[st' e'] d IH]; intros st e t gs N I M O; [destruct I|]. cbn [find_entry].
    cbn [map fst] in N. apply NoDup_cons_iff in N. destruct N as [N1 N2]. destruct I as [E|I].
    - injection E as -> ->. now rewrite M.
    - rewrite (O st'); [|now left|].
      + apply (IH st); [exact N2|exact I|exact M|]. intros st2 I2. apply O. now right.
      + intros ->. apply N1. apply in_map_iff. exists (st, e). now split.
  Qed.

  Lemma set_keys_in : forall st e d x, In x (map fst (set_entry st e d)) <-> x = st \/ In x (map fst d).
  Proof.
    intros st e d. induction d as [|[st' e'] d IH]; intros x; cbn [set_entry].
    - cbn. intuition.
    - destruct (statement_dec st' st) as [E|N]; cbn [map fst In].
      + subst st'. intuition.
      + rewrite IH. intuition.
  Qed.
  Lemma set_nodup : forall st e d, NoDup (map fst d) -> NoDup (map fst (set_entry st e d)).
  Proof.
    intros st e d. induction d as [|[st' e'] d IH]; intros N; cbn [set_entry].
    - cbn. constructor; [intros []|constructor].
    - cbn [map fst] in N. apply NoDup_cons_iff in N. destruct N as [N1 N2].
      destruct (statement_dec st' st) as [E|D]; cbn [map fst]; constructor; try assumption.
      + intros I. apply set_keys_in in I. now destruct I.
      + now apply IH.
  Qed.
  Lemma set_here : forall st e d, In (st, e) (set_entry st e d).
  Proof.
    intros st e d. induction d as [|[st' e'] d IH]; cbn [set_entry]; [now left|].
    destruct (statement_dec st' st) as [E|D]; [subst st'; now left|now right].
  Qed.
  Lemma set_other : forall st e st' e' d, st' <> st -> In (st', e') (set_entry st e d) <-> In (st', e') d.
  Proof.
    intros st e st' e' d D. induction d as [|[s2 e2] d IH]; cbn [set_entry].
    - cbn. intuition congruence.
    - destruct (statement_dec s2 st) as [E|N]; cbn [In].
      + subst s2. intuition congruence.
      + rewrite IH. reflexivity.
  Qed.

  Lemma with_app : forall a b s, with_syntaxes (a ++ b) s = with_syntaxes b (with_syntaxes a s).
  Proof. induction a as [|[st e] a IH]; intros b s; [reflexivity|]. apply IH. Qed.
  Lemma with_nodup : forall regs s, NoDup (map fst (cs_parsers s)) ->
    NoDup (map fst (cs_parsers (with_syntaxes regs s))).
  Proof.
    induction regs as [|[st e] regs IH]; intros s N; [exact N|]. cbn [with_syntaxes]. apply IH.
    cbn. now apply set_nodup.
  Qed.
  Lemma with_keys : forall regs s x, In x (map fst (cs_parsers (with_syntaxes regs s))) <->
    In x (map fst regs) \/ In x (map fst (cs_parsers s)).
  Proof.
    induction regs as [|[st e] regs IH]; intros s x; cbn [with_syntaxes map fst In]; [intuition|].
    rewrite IH. cbn [register cs_parsers]. rewrite set_keys_in. intuition.
  Qed.
  Lemma with_still : forall regs s st e, ~ In st (map fst regs) ->
    In (st, e) (cs_parsers (with_syntaxes regs s)) <-> In (st, e) (cs_parsers s).
  Proof.
    induction regs as [|[st' e'] regs IH]; intros s st e N; cbn [with_syntaxes]; [reflexivity|].
    cbn [map fst In] in N. rewrite IH by intuition. cbn [register cs_parsers]. apply set_other. intuition.
  Qed.
  Lemma with_registered : forall regs s st e, registered regs st e ->
    In (st, e) (cs_parsers (with_syntaxes regs s)).
  Proof.
    intros regs s st e (before & after & -> & N). rewrite with_app. cbn [with_syntaxes].
    apply with_still; [exact N|]. cbn. apply set_here.
  Qed.
  Lemma with_rest : forall regs s, cs_cache (with_syntaxes regs s) = cs_cache s /\
    cs_tasks (with_syntaxes regs s) = cs_tasks s.
  Proof.
    induction regs as [|[st e] regs IH]; intros s; [now split|]. cbn [with_syntaxes].
    destruct (IH (register st e s)) as [-> ->]. now split.
  Qed.

  (** The built-in syntaxes *)
  Definition keys : list statement := Eval vm_compute in map fst cond_parsers.
  Lemma keys_ok : map fst cond_parsers = keys.
  Proof. vm_compute. reflexivity. Qed.
  Fixpoint distinct (l : list statement) : bool :=
    match l with
    | [] => true
    | x :: l => negb (existsb (fun y => if statement_dec x y then true else false) l) && distinct l
    end.
  Lemma distinct_ok : forall l, distinct l = true -> NoDup l.
  Proof.
    induction l as [|x l IH]; intros H; [constructor|]. cbn [distinct] in H. apply andb_true_iff in H.
    destruct H as [H1 H2]. constructor; [|now apply IH]. intros I. apply negb_true_iff in H1.
    assert (T : existsb (fun y => if statement_dec x y then true else false) l = true).
    { apply existsb_exists. exists x. split; [exact I|]. now destruct (statement_dec x x). }
    congruence.
  Qed.
  Lemma builtin_keys : forall (s := new_session (P:=P) (V:=V) (A:=A)), map fst (cs_parsers s) = map fst cond_parsers.
  Proof. cbn [new_session cs_parsers]. rewrite map_map. reflexivity. Qed.
  Lemma builtin_nodup : NoDup (map fst (cs_parsers (new_session (P:=P) (V:=V) (A:=A)))).
  Proof. rewrite builtin_keys, keys_ok. apply distinct_ok. vm_compute. reflexivity. Qed.
  Lemma find_builtin : forall (d : list (statement * parser)) t,
    find_entry (map (fun sq => (fst sq, Builtin (snd sq))) d) t =
    match find_parser d t with Some (q, gs) => Some (Builtin (V:=V) (A:=A) q, gs) | None => None end.
  Proof.
    induction d as [|[st q] d IH]; intros t; [reflexivity|]. cbn [map fst snd find_entry find_parser].
    destruct (matches st t); [reflexivity|apply IH].
  Qed.
  Lemma no_sentence_matches : forall t st, ~ sentence t -> In st (map fst cond_parsers) -> matches st t = None.
  Proof.
    intros t st N I. destruct (matches st t) as [r|] eqn:M; [|reflexivity]. exfalso. apply N.
    apply in_map_iff in I. destruct I as ([st' q] & E & I). cbn in E. subst st'.
    assert (F : find_parser cond_parsers t <> None).
    { revert I. generalize cond_parsers. induction l as [|[st2 q2] l IH]; intros I; [destruct I|].
      cbn [find_parser]. destruct I as [E|I].
      - injection E as -> ->. rewrite M. discriminate.
      - destruct (matches st2 t); [discriminate|now apply IH]. }
    destruct (find_parser cond_parsers t) as [[q' r']|] eqn:G; [|congruence].
    exact (found_sentence t q' r' G).
  Qed.
End Table.
