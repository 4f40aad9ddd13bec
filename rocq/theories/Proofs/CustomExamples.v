(** Concrete custom conditions. *)
From Coq Require Import List Bool Arith Lia ZifyBool Ascii String ZArith.
From Verif Require Import Model.Base Model.Anchored Model.Period Model.Statement Model.Custom Spec.StatementSpec Spec.ParseSpec
  Spec.CustomSpec Proofs.StatementConverse Proofs.StatementExamples Proofs.CustomSyntaxProofs Proofs.CustomResults
  Proofs.CustomTaskProofs.
From Verif Require Model.Condition Model.Params Model.World.
Import ListNotations.
Local Open Scope list_scope.

(** ** Readings *)

Lemma read_lit : forall t p s gs, read_as (lit t ++ p) s gs -> exists r, s = txt t ++ r /\ read_as p r gs.
Proof.
  intros t p. unfold lit. induction (txt t) as [|c l IH]; intros s gs H; [exists s; now split|].
  cbn [map app] in H. inversion H as [|c' p' s' gs' H'| | | | |]; subst. destruct (IH s' gs H') as (r & -> & R).
  exists r. now split.
Qed.
Lemma lit_read : forall t p s gs, read_as p s gs -> read_as (lit t ++ p) (txt t ++ s) gs.
Proof.
  intros t p s gs H. unfold lit. induction (txt t) as [|c l IH]; [exact H|]. cbn [map app]. now constructor.
Qed.
Lemma only_last : forall t g x, some_text x -> only_as (SPat (lit t ++ [PAny g])) (txt t ++ x) [(g, x)].
Proof.
  intros t g x T. split.
  - constructor. apply lit_read. rewrite <- (app_nil_r x) at 1. constructor; [exact T|constructor].
  - intros gs H. inversion H as [|p s gs' R]; subst. apply read_lit in R. destruct R as (r & E & R).
    apply app_inv_head in E. subst r. inversion R as [ | |g' p' x' s' gs' T' R' E1 E2 E3| | | | ]; subst.
    inversion R'; subst. now rewrite app_nil_r.
Qed.
Ltac plain_text := split; [discriminate|]; intros I; cbn in I;
  repeat (destruct I as [I|I]; [discriminate I|]); exact I.
Ltac no_such_sentence := intros H; apply sentence_opening in H; destruct H as (w & rest & I & E); cbn in I;
  repeat (destruct I as [<-|I]; [cbn in E; discriminate E|]); exact I.

(** ** Functions

    Values are texts; the argument [Session()] stands for the session. *)
Definition ex_arg : Type := string.
Definition ex_resolve (a : ex_arg) : result (list ascii) := Ok (txt "the session").
Definition ex_object (a : ex_arg) : list ascii := txt "an argument".
Definition same_text (a b : list ascii) : bool := if list_eq_dec ascii_dec a b then true else false.
(** def is_foo(myval, mode="strict", session=Session()): true for a house and the session *)
Definition ex_sig : signature (list ascii) ex_arg :=
  [("myval", Required); ("mode", Plain (txt "strict")); ("session", FromArg "Session()")]%string.
Definition ex_body (kw : list (string * list ascii)) : result bool :=
  match kw with
  | [(_, v); (_, m); (_, s)] =>
      Ok (same_text v (txt "house") && same_text m (txt "strict") && same_text s (txt "the session"))
  | _ => Err TypeError
  end.
Definition ex_foo : func_cond (list ascii) ex_arg := FuncCond ex_sig ex_body [] [].
Definition ex_bar : func_cond (list ascii) ex_arg := FuncCond [] (fun _ => Ok false) [] [].
Definition ex_syntax : statement := SPat (lit "is foo in " ++ [PAny "myval"]).
Definition ex_regs : list (statement * entry (list ascii) ex_arg) :=
  [(SText (txt "is bar"), Recreate ex_bar); (ex_syntax, Recreate ex_bar); (ex_syntax, Recreate ex_foo)].
Definition ex_text : list ascii := txt "is foo in house".
Definition ex_groups : groups := [("myval"%string, txt "house")].

Lemma ex_custom : registered ex_regs ex_syntax (Recreate ex_foo) /\ only_as ex_syntax ex_text ex_groups /\
  ~ sentence ex_text /\ no_other ex_regs ex_syntax ex_text.
Proof.
  split; [|split; [|split]].
  - exists [(SText (txt "is bar"), Recreate ex_bar); (ex_syntax, Recreate ex_bar)], []. split; [reflexivity|intros []].
  - apply (only_last "is foo in " "myval" (txt "house")). plain_text.
  - no_such_sentence.
  - intros st gs [<- | [<- | [<- | []]]] D F; [|now destruct D|now destruct D]. inversion F.
Qed.
Lemma ex_builtin : forall st, In st (map fst ex_regs) -> ~ In st (map fst cond_parsers).
Proof.
  intros st I J. rewrite keys_ok in J.
  assert (T : existsb (fun x => if statement_dec st x then true else false) keys = true).
  { apply existsb_exists. exists st. split; [exact J|]. now destruct (statement_dec st st). }
  destruct I as [<- | [<- | [<- | []]]]; vm_compute in T; discriminate T.
Qed.
Lemma ex_unknown : ~ sentence (txt "is foo") /\
  forall st gs, In st (map fst ex_regs) -> ~ fits st (txt "is foo") gs.
Proof.
  split; [no_such_sentence|].
  assert (N : forall gs, ~ fits ex_syntax (txt "is foo") gs).
  { intros gs F. inversion F as [|p s gs' R]; subst.
    destruct (read_lit "is foo in " [PAny "myval"] _ _ R) as (r & E & _). discriminate E. }
  intros st gs [<- | [<- | [<- | []]]]; [|apply N|apply N]. intros F. inversion F.
Qed.
Lemma ex_value : function_signature ex_sig /\
  proper_values ex_sig (given_to ex_sig [] [("myval"%string, txt "house")]) /\
  called_with ex_resolve ex_sig (given_to ex_sig [] [("myval"%string, txt "house")])
    [("myval", txt "house"); ("mode", txt "strict"); ("session", txt "the session")]%string /\
  ex_body [("myval", txt "house"); ("mode", txt "strict"); ("session", txt "the session")]%string = Ok true.
Proof.
  assert (N : function_signature ex_sig).
  { unfold function_signature. cbn. repeat constructor; cbn; intuition discriminate. }
  split; [exact N|]. split; [|split; [|reflexivity]].
  - split; [cbn; repeat constructor; intros []|]. intros k [<- | []]. exists Required. split; [now left|discriminate].
  - unfold called_with, ex_sig. constructor; [|constructor; [|constructor; [|constructor]]]; (split; [reflexivity|]).
    + left. now left.
    + right. split; [cbn; intuition discriminate|]. left. reflexivity.
    + right. split; [cbn; intuition discriminate|]. right. exists "Session()"%string. now split.
Qed.
Lemma ex_position : proper_values ex_sig (given_to ex_sig [txt "house"] [("mode"%string, txt "lax")]) /\
  called_with ex_resolve ex_sig (given_to ex_sig [txt "house"] [("mode"%string, txt "lax")])
    [("myval", txt "house"); ("mode", txt "lax"); ("session", txt "the session")]%string.
Proof.
  split.
  - split; [cbn; repeat constructor; cbn; intuition discriminate|].
    intros k [<- | [<- | []]].
    + exists Required. split; [now left|discriminate].
    + exists (Plain (txt "strict")). split; [right; now left|discriminate].
  - unfold called_with, ex_sig. constructor; [|constructor; [|constructor; [|constructor]]]; (split; [reflexivity|]).
    + left. now left.
    + left. right. now left.
    + right. split; [cbn; intuition discriminate|]. right. exists "Session()"%string. now split.
Qed.
Lemma ex_resolves : forall k a, In (k, FromArg a) ex_sig -> exists v, ex_resolve a = Ok v.
Proof. intros k a _. eexists. reflexivity. Qed.
Lemma ex_errors : In "place"%string (map fst [("place"%string, txt "house")]) /\
  ~ In "place"%string (map fst ex_sig) /\ In ("myval"%string, Required) ex_sig /\
  ~ In "myval"%string (map fst (given_to ex_sig [] [("mode"%string, txt "lax")])).
Proof.
  split; [now left|]. split; [cbn; intuition discriminate|]. split; [now left|]. cbn. intuition discriminate.
Qed.

(** A string: is foo in house & daily *)
Definition ex_mixed : list ascii := txt "is foo in house & daily".
Definition ex_mixed_tree : bexp := BAnd (BItem ex_text) (BItem (txt "daily")).
Definition ex_mixed_meant (num : atom pcall -> nat) (num_func : func_cond (list ascii) ex_arg -> nat)
    (t : list ascii) : Condition.cond :=
  if list_eq_dec ascii_dec t ex_text
  then Condition.CAtom (num_func (FuncCond ex_sig ex_body [] [("myval"%string, txt "house")]))
  else Condition.CAtom (num (AWrapper TDay)).
Lemma ex_mixed_ok : forall num num_func, reads true LAny ex_mixed ex_mixed_tree /\
  forall t, In t (items ex_mixed_tree) ->
    (exists k, says plain t (Ok k) /\ ex_mixed_meant num num_func t = as_condition num k) \/
    (exists st c gs, registered ex_regs st (Recreate c) /\ only_as st t gs /\ ~ sentence t /\ no_other ex_regs st t /\
       ex_mixed_meant num num_func t = Condition.CAtom (num_func (FuncCond (fc_sig c) (fc_body c) []
                                 (map (fun kv => (fst kv, snd kv)) gs)))).
Proof.
  intros num num_func.
  assert (B : blanks [" "%char]) by (intros c [<- | []]; unfold white; cbn; tauto).
  assert (It : forall t, item_text t -> reads true LUnit t (BItem t)).
  { intros t T. rewrite <- (app_nil_r t) at 1. change (t ++ []) with ([] ++ t ++ []).
    apply rd_item; trivial; intros c []. }
  split.
  - apply rd_all. change ex_mixed with (ex_text ++ [" "%char] ++ "&"%char :: [" "%char] ++ txt "daily").
    apply rd_and; try assumption.
    + apply rd_unit, It. apply ex_item; (discriminate || reflexivity).
    + apply It. apply ex_item; (discriminate || reflexivity).
  - intros t [<- | [<- | []]].
    + right. exists ex_syntax, ex_foo, ex_groups. destruct ex_custom as (R & F & N & O).
      split; [exact R|]. split; [exact F|]. split; [exact N|]. split; [exact O|]. reflexivity.
    + left. exists (cyclic TDay). split; [|reflexivity]. apply (say_cycle plain "daily"%string TDay).
      unfold cycle_word. cbn. tauto.
Qed.

(** A syntax that a built-in one hides *)
Lemma hidden : forall P V A (make : pcall -> result P) (of_text : list ascii -> V) (c : func_cond V A),
  exists st, fits st (txt "every blue moon") [] /\ ~ In st (map fst cond_parsers) /\
    snd (parse_item make of_text (txt "every blue moon") (register st (Recreate c) new_session)) =
      let* t := every make (txt "blue moon") OnRun in Ok (MTree t).
Proof.
  intros P V A make of_text c. exists (SText (txt "every blue moon")). split; [constructor|].
  assert (N : ~ In (SText (txt "every blue moon")) (map fst cond_parsers)).
  { rewrite keys_ok. intros J.
    assert (T : existsb (fun x => if statement_dec (SText (txt "every blue moon")) x then true else false) keys = true).
    { apply existsb_exists. eexists. split; [exact J|]. now destruct (statement_dec _ _). }
    vm_compute in T. discriminate T. }
  split; [exact N|].
  change (register (SText (txt "every blue moon")) (Recreate c) new_session)
    with (with_syntaxes [(SText (txt "every blue moon"), Recreate c)] (new_session (P:=P) (V:=V) (A:=A))).
  rewrite (builtin_condition make of_text _ _ (every make (txt "blue moon") OnRun)); [reflexivity| |].
  - apply (say_every make (txt "blue moon")). split; [discriminate|].
    split; intros I; cbn in I; repeat (destruct I as [I|I]; [discriminate I|]); exact I.
  - intros st [<- | []]. exact N.
Qed.

(** bool(cond) and the scheduler do not agree. *)
Lemma bool_differs : exists c : func_cond (list ascii) ex_arg,
  observe_func ex_object ex_resolve c = Ok true /\ bool_func ex_object c = Ok false.
Proof. exists (FuncCond ex_sig ex_body [] [("myval"%string, txt "house")]). split; reflexivity. Qed.

(** ** Checks made by tasks *)

Definition ex_task : task_cond := TaskCond "is_foo".
Definition ex_task_syntax : statement := SPat (lit "is foo at " ++ [PAny "place"]).
Definition ex_task_regs : list (statement * entry (list ascii) ex_arg) :=
  [(SText (txt "is bar"), Recreate ex_bar); (ex_task_syntax, SetTask ex_task)].
Lemma ex_task_fits : forall x, some_text x -> ~ sentence (txt "is foo at " ++ x) ->
  registered ex_task_regs ex_task_syntax (SetTask ex_task) /\
  only_as ex_task_syntax (txt "is foo at " ++ x) [("place"%string, x)] /\
  ~ sentence (txt "is foo at " ++ x) /\ no_other ex_task_regs ex_task_syntax (txt "is foo at " ++ x).
Proof.
  intros x T N. split; [|split; [|split]].
  - exists [(SText (txt "is bar"), Recreate ex_bar)], []. split; [reflexivity|intros []].
  - now apply only_last.
  - exact N.
  - intros st gs [<- | [<- | []]] D F; [|now destruct D]. inversion F.
Qed.
Lemma ex_home : some_text (txt "home") /\ ~ sentence (txt "is foo at " ++ txt "home").
Proof. split; [plain_text|no_such_sentence]. Qed.
Lemma ex_work : some_text (txt "work") /\ ~ sentence (txt "is foo at " ++ txt "work").
Proof. split; [plain_text|no_such_sentence]. Qed.
Lemma ex_tasks :
  registered ex_task_regs ex_task_syntax (SetTask ex_task) /\
  only_as ex_task_syntax (txt "is foo at home") [("place"%string, txt "home")] /\
  ~ sentence (txt "is foo at home") /\ no_other ex_task_regs ex_task_syntax (txt "is foo at home") /\
  only_as ex_task_syntax (txt "is foo at work") [("place"%string, txt "work")] /\
  ~ sentence (txt "is foo at work") /\ no_other ex_task_regs ex_task_syntax (txt "is foo at work").
Proof.
  destruct ex_home as [T N]. destruct (ex_task_fits _ T N) as (A & B & C & D).
  destruct ex_work as [T' N']. destruct (ex_task_fits _ T' N') as (_ & B' & C' & D').
  split; [exact A|]. split; [exact B|]. split; [exact C|]. split; [exact D|]. split; [exact B'|].
  split; [exact C'|exact D'].
Qed.

Definition ex_checks : list check := [Checked 10 false; NotChecked; Checked 100 true; NotChecked]%Z.
Lemma ex_latest : latest ex_checks (Some (100%Z, true)).
Proof.
  apply (latest_some [Checked 10 false; NotChecked]%Z 100%Z true [NotChecked]). intros c [<- | []]. reflexivity.
Qed.
Lemma ex_active : pcontains 0 (use_reference (mk_delta (Some 50) None None) 120) 100 = Returns true /\
  pcontains 0 (use_reference (mk_delta (Some 50) None None) 200) 100 = Returns false.
Proof. split; reflexivity. Qed.
Lemma ex_idle : latest [NotChecked; NotChecked] None.
Proof. constructor. intros c [<- | [<- | []]]; reflexivity. Qed.

(** The value is lost with the process. *)
Lemma restart_loses : exists cs t d now, latest cs (Some (t, true)) /\ (now - Z.abs d <= t <= now)%Z /\
  task_cond_state 0 (mk_delta (Some d) None None) now (after_checks cs) = Returns true /\
  forall fuel, task_cond_state fuel (mk_delta (Some d) None None) now (restarted (after_checks cs)) = Returns false.
Proof.
  exists ex_checks, 100%Z, 50%Z, 120%Z. split; [exact ex_latest|]. split; [lia|]. split; [reflexivity|].
  intros fuel. reflexivity.
Qed.

(** ** Parameters *)

Import Params.
Definition ex_sess (p : dict param) : sess :=
  Sess p [] [] [] [] false (fun _ => World.XMain) (fun _ _ => Err TypeError) (VEvent 0).
Lemma ex_env : has_param 5 (ex_sess [(1, PVal (VData 3)); (7, PArg (SimpleArg (VData 42)))]%Z) 7 (VData 42) /\
  has_param 5 (ex_sess [(1, PVal (VData 3)); (7, PArg (SimpleArg (VData 42)))]%Z) 1 (VData 3).
Proof. split; eexists; (split; reflexivity). Qed.
Definition value_differs (v w : value) : bool :=
  match v, w with
  | VData m, VData n => negb (Z.eqb m n)
  | VHidden, VHidden | VSession, VSession | VNone, VNone => false
  | VTask m, VTask n => negb (Z.eqb m n)
  | VEvent m, VEvent n => negb (Z.eqb m n)
  | _, _ => true
  end.
Lemma differs_ok : forall v w, value_differs v w = false <-> v = w.
Proof.
  intros v w. destruct v, w; cbn; try (split; [reflexivity || discriminate | reflexivity || discriminate]);
    rewrite negb_false_iff, Z.eqb_eq; (split; [now intros -> | now intros [= ->]]).
Qed.
Lemma ex_exists : param_bool 5 (ex_sess [(1, PVal (VData 3)); (7, PVal (VData 42))]%Z) value_differs [7%Z]
  [(1%Z, VData 3)] = Ok true.
Proof. reflexivity. Qed.
Theorem exists_observed : exists n s keys vals o,
  (forall k, In k keys -> exists v, has_param n s k v) /\ (forall k v, In (k, v) vals -> has_param n s k v) /\
  keys <> [] /\ vals <> [] /\ param_bool n s value_differs keys vals = Ok true /\
  param_observe keys vals = Ok o /\ truth o = false.
Proof.
  exists 5%nat, (ex_sess [(1, PVal (VData 3)); (7, PVal (VData 42))]%Z), [7%Z], [(1%Z, VData 3)], ONone.
  split; [intros k [<- | []]; eexists; eexists; split; reflexivity|].
  split; [intros k v [I | []]; injection I as <- <-; eexists; split; reflexivity|].
  split; [discriminate|]. split; [discriminate|]. split; [reflexivity|]. now split.
Qed.
