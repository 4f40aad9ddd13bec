(** Concrete sentences. *)
From Coq Require Import List Bool Arith Lia Ascii String ZArith.
From Verif Require Import Model.Base Model.Calendar Model.Anchored Model.Statement Spec.StatementSpec Spec.ParseSpec.
From Verif Require Model.Condition Model.Depend Model.Parse.
From Verif Require Import Proofs.StatementProofs Proofs.StatementResults.
Import ListNotations.
Local Open Scope list_scope.
Local Open Scope nat_scope.

Ltac is_word := (split; [discriminate|]);
  split; intros K; cbn in K; repeat (destruct K as [K|K]; [discriminate K|]); exact K.

(** Nothing in the calls fails: the calls themselves stand for the periods. *)
Definition plain (c : pcall) : result pcall := Ok c.

Lemma no_and_short : forall x, List.length x < 4 -> no_and x.
Proof.
  intros x L pre post E. apply (f_equal (@List.length ascii)) in E.
  rewrite !app_length in E. cbn [List.length txt list_ascii_of_string] in E. lia.
Qed.
Lemma no_and_text : forall x, (forall c, In c x -> c <> "a"%char) -> no_and x.
Proof.
  intros x H pre post E.
  assert (I : In "a"%char (" "%char :: x)).
  { rewrite E. apply in_or_app. right. cbn. tauto. }
  destruct I as [I|I]; [discriminate|]. now elim (H "a"%char I).
Qed.

Definition ex_daily : list ascii := txt "daily between 10:00 and 12:00".
Definition ex_after : list ascii := txt "after tasks 'fetch', 'clean' failed".
Definition ex_time : list ascii := txt "time of week on Monday".
Definition ex_sentences : list ascii :=
  txt "daily between 10:00 and 12:00 & ~(after tasks 'fetch', 'clean' failed | time of week on Monday)".
Definition ex_tree : bexp := BAnd (BItem ex_daily) (BNot (BOr (BItem ex_after) (BItem ex_time))).
Definition ex_meant (t : list ascii) : tree pcall :=
  if list_eq_dec ascii_dec t ex_daily
  then KAtom (AExecutable (TimeOf TDay (Some (txt "10:00")) (Some (txt "12:00")) false false))
  else if list_eq_dec ascii_dec t ex_after
  then KAll [KAtom (ADepend Depend.RFailure (txt "fetch")); KAtom (ADepend Depend.RFailure (txt "clean"))]
  else KAtom (AIsPeriod (TimeOf TWeek (Some (txt "Monday")) None true false)).

Lemma ex_item : forall t, t <> [] ->
  forallb (fun c => negb (existsb (Ascii.eqb c) ["("; ")"; "&"; "|"; "~"]%char)) t = true ->
  (match t with c :: _ => negb (existsb (Nat.eqb (nat_of_ascii c)) [9; 10; 11; 12; 13; 28; 29; 30; 31; 32]) | [] => true end) = true ->
  (match rev t with c :: _ => negb (existsb (Nat.eqb (nat_of_ascii c)) [9; 10; 11; 12; 13; 28; 29; 30; 31; 32]) | [] => true end) = true ->
  item_text t.
Proof.
  assert (Wh : forall c, negb (existsb (Nat.eqb (nat_of_ascii c)) [9; 10; 11; 12; 13; 28; 29; 30; 31; 32]) = true ->
                 ~ white c).
  { intros c H W. unfold white in W. apply negb_true_iff in H. rewrite <- not_true_iff_false in H. apply H.
    apply existsb_exists. exists (nat_of_ascii c). split; [exact W|apply Nat.eqb_refl]. }
  intros t N R A B. split; [exact N|]. split.
  - intros c I Rc. rewrite forallb_forall in R. specialize (R c I). apply negb_true_iff in R.
    rewrite <- not_true_iff_false in R. apply R. apply existsb_exists. exists c.
    split; [exact Rc|apply Ascii.eqb_refl].
  - split.
    + intros c rest ->. now apply Wh.
    + intros c rest ->. rewrite rev_unit in B. now apply Wh.
Qed.

Lemma ex_daily_says : says plain ex_daily (Ok (ex_meant ex_daily)).
Proof.
  apply (say_cycle_between plain "daily"%string TDay (txt "10:00") (txt "12:00")).
  - unfold cycle_word. cbn. tauto.
  - is_word.
  - is_word.
  - apply no_and_text. intros c I. cbn in I. intros ->.
    repeat (destruct I as [I|I]; [discriminate I|]). exact I.
Qed.
Lemma ex_after_says : says plain ex_after (Ok (ex_meant ex_after)).
Proof.
  apply (say_after_all plain [txt "fetch"; txt "clean"] " failed"%string Depend.RFailure).
  - discriminate.
  - intros n [<- | [<- | []]]; is_word.
  - unfold outcome_word. cbn. tauto.
Qed.
Lemma ex_time_says : says plain ex_time (Ok (ex_meant ex_time)).
Proof.
  apply (say_time_on plain "week"%string TWeek (txt "Monday")).
  - unfold unit_word. cbn. tauto.
  - now right.
  - is_word.
Qed.
Lemma ex_string_ok : reads true LAny ex_sentences ex_tree /\
  (forall t, In t (items ex_tree) -> says plain t (Ok (ex_meant t))) /\
  (forall num text_atom, Parse.parse_condition (numbered_item plain num) text_atom ex_sentences =
     Returns (Condition.CAll
       [Condition.CAtom (num (AExecutable (TimeOf TDay (Some (txt "10:00")) (Some (txt "12:00")) false false)));
        Condition.CNot (Condition.CAny
          [Condition.CAll [Condition.CAtom (num (ADepend Depend.RFailure (txt "fetch")));
                           Condition.CAtom (num (ADepend Depend.RFailure (txt "clean")))];
           Condition.CAtom (num (AIsPeriod (TimeOf TWeek (Some (txt "Monday")) None true false)))])])).
Proof.
  assert (B : blanks [" "%char]) by (intros c [<- | []]; unfold white; cbn; tauto).
  assert (B0 : blanks []) by (intros c []).
  assert (It : forall t, item_text t -> reads true LUnit t (BItem t)).
  { intros t T. rewrite <- (app_nil_r t) at 1. change (t ++ []) with ([] ++ t ++ []).
    apply rd_item; trivial. }
  split; [|split].
  - apply rd_all.
    change ex_sentences with (ex_daily ++ [" "%char] ++ "&"%char :: [" "%char] ++
      ([] ++ "~"%char :: [] ++ ("("%char :: (ex_after ++ [" "%char] ++ "|"%char :: [" "%char] ++ ex_time) ++ [")"%char]))).
    apply rd_and; try assumption.
    + apply rd_unit, It. apply ex_item; (discriminate || reflexivity).
    + apply rd_not; trivial. apply rd_group. apply rd_or; try assumption.
      * apply rd_all, rd_unit, It. apply ex_item; (discriminate || reflexivity).
      * apply rd_unit, It. apply ex_item; (discriminate || reflexivity).
  - intros t [<- | [<- | [<- | []]]].
    + exact ex_daily_says.
    + exact ex_after_says.
    + exact ex_time_says.
  - intros num text_atom. vm_compute. reflexivity.
Qed.

Lemma ex_other : forall w rest, In w openings -> txt "dayly after 10:00" <> txt w ++ rest.
Proof.
  intros w rest I E. cbn in I.
  repeat (destruct I as [<-|I]; [cbn in E; discriminate E|]). exact I.
Qed.

(** * What goes wrong *)

Section Wrong.
  Context {P : Type}.
  Variable make : pcall -> result P.
  Local Notation item s := (condition_item make cond_parsers s).

  Lemma after_terminated : forall n, word n ->
    item (txt "after task '" ++ n ++ txt "' terminated") = Err ParserError.
  Proof.
    intros n W. unfold condition_item.
    pose (sh := map SC (txt "after task '") ++ SV Word n :: map SC (txt "' terminated")).
    assert (F : fine sh).
    { unfold sh. cbn [map txt list_ascii_of_string app]. fine_here. }
    change (txt "after task '" ++ n ++ txt "' terminated") with (text sh).
    rewrite table_ok.
    assert (N : find_parser table (text sh) = None); [|now rewrite N].
    assert (A : forallb (fun x => match match fst x with SPat p => solve p sh | SText t => solve (map PChar t) sh end
                                  with No => true | _ => false end) table = true) by (vm_compute; reflexivity).
    revert A. generalize table. induction l as [|[st q] d IH]; intros A; [reflexivity|].
    cbn [forallb find_parser fst] in *. apply andb_true_iff in A. destruct A as [O A].
    assert (M : matches st (text sh) = None); [|rewrite M; exact (IH A)].
    destruct st as [t|p].
    - rewrite text_match. pose proof (solve_ok (List.length (map PChar t)) (map PChar t) (le_n _) sh F) as D.
      destruct (solve (map PChar t) sh); try discriminate. exact D.
    - pose proof (solve_ok (List.length p) p (le_n _) sh F) as D. destruct (solve p sh); try discriminate. exact D.
  Qed.

  Lemma not_conditions : item (txt "always") = Err TypeError /\ item (txt "never") = Err TypeError /\
    forall d p, word d -> make (DeltaOf d) = Ok p -> item (txt "past " ++ d) = Err AttributeError.
  Proof.
    split; [|split].
    - sentence. reflexivity.
    - sentence. reflexivity.
    - intros d p W M. sentence. cbn. unfold is_period. rewrite M. reflexivity.
  Qed.

  Lemma param_exists : forall n, word n ->
    item (txt "param '" ++ n ++ txt "' exists") = Ok (KAtom (AParam (map (fun c => [c]) n) [])).
  Proof. intros n W. sentence. reflexivity. Qed.

  Lemma starting : forall task w a v c s, proper_subject task -> action_word w a -> span_word v c -> word s ->
    item (subject task ++ txt "has " ++ txt w ++ txt " " ++ txt v ++ txt " starting " ++ s) =
      w_between make (WStatus a task) c s s.
  Proof.
    intros task w a v c s T A V S.
    destruct task as [n|]; cbn [subject proper_subject app] in *; rewrite <- ?app_assoc;
      one_of A; one_of V; sentence; reflexivity.
  Qed.

  (** Commas without a blank do not separate names. *)
  Lemma comma : item (txt "after tasks 'a','b'") = Ok (KAll [KAtom (ADepend Depend.RSuccess (txt "a','b"))]).
  Proof. vm_compute. reflexivity. Qed.
End Wrong.

Definition monday (s : list ascii) : aval := VUnit 0%Z None.
Lemma starting_differs :
  exists s p q, s = txt "has succeeded this week starting Monday" /\
    condition_item (fixed_periods monday) cond_parsers s = Ok (KAtom (AStatus Succeeded (Some p) None [])) /\
    w_starting (fixed_periods monday) (WStatus Succeeded None) TWeek (txt "Monday") =
      Ok (KAtom (AStatus Succeeded (Some q) None [])) /\
    exists t, acontains q t = true /\ acontains p t = false.
Proof.
  exists (txt "has succeeded this week starting Monday"),
    (Anchored TWeek 0%Z us_day), (Anchored TWeek 0%Z 0%Z).
  split; [reflexivity|]. split; [vm_compute; reflexivity|]. split; [vm_compute; reflexivity|].
  exists (mk_datetime 2022 7 6 12 0 0 0)%Z. split; vm_compute; reflexivity.
Qed.

Lemma operators_in_names : forall P (make : pcall -> result P) num text_atom,
  condition_item make cond_parsers (txt "task 'R&D' is running") = Ok (KAtom (ARunning (Some (txt "R&D")))) /\
  Parse.parse_condition (numbered_item make num) text_atom (txt "task 'R&D' is running") = Raises ParserError /\
  Parse.parse_condition (numbered_item make num) text_atom (txt "task 'load (daily)' is running") = Raises ParserError.
Proof. intros P make num text_atom. split; [|split]; vm_compute; reflexivity. Qed.
