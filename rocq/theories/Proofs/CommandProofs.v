(** Proofs about command tasks. *)
From Coq Require Import Bool Arith Lia ZifyBool String Ascii.
From Verif Require Import Model.Base Model.Command Spec.CommandSpec.
Local Open Scope string_scope.

Lemma app_assoc_s a b c : (a ++ b) ++ c = a ++ (b ++ c).
Proof. induction a as [|x a IH]; [reflexivity|]. cbn. now rewrite IH. Qed.
Lemma app_nil_s a : a ++ "" = a.
Proof. induction a as [|x a IH]; [reflexivity|]. cbn. now rewrite IH. Qed.

Lemma option_ok f p v ps : formed f ((p, v) :: ps) -> option_name f p = Ok (named f p) /\ formed f ps.
Proof.
  intros F. split.
  - unfold option_name, named. destruct (String.prefix "-" p) eqn:E; [reflexivity|].
    destruct F as [F|F]; [|rewrite (F p v (or_introl eq_refl)) in E; discriminate].
    unfold dashes, dash. destruct f; [reflexivity|reflexivity|congruence].
  - destruct F as [F|F]; [now left|]. right. intros q w I. apply (F q w). now right.
Qed.

Theorem string_run f : forall ps s, formed f ps -> execute f (CStr s) ps = (CStr s, Ok (expected f (CStr s) ps)).
Proof.
  unfold execute. induction ps as [|[p v] ps IH]; intros s F; cbn [add_options expected line fold_right]; [now rewrite app_nil_s|].
  apply option_ok in F as [-> F]. rewrite IH by exact F. cbn [expected]. f_equal. f_equal. f_equal.
  rewrite !app_assoc_s. cbn [fst snd]. reflexivity.
Qed.
Theorem list_run f : forall ps l, formed f ps ->
  execute f (CList l) ps = (expected f (CList l) ps, Ok (expected f (CList l) ps)).
Proof.
  unfold execute. induction ps as [|[p v] ps IH]; intros l F; cbn [add_options].
  - cbn [expected words flat_map]. now rewrite app_nil_r.
  - apply option_ok in F as [-> F]. rewrite IH by exact F. cbn [expected]. unfold words. cbn [flat_map fst snd].
    rewrite <- app_assoc. reflexivity.
Qed.
Theorem one_run f c ps : formed f ps -> snd (execute f c ps) = Ok (expected f c ps).
Proof. intros F. destruct c; [now rewrite string_run|now rewrite list_run]. Qed.

(** A command that is a string, or a run without parameters, leaves the command
    as it was. *)
Theorem same_runs f c : forall rs, (forall ps, In ps rs -> formed f ps) ->
  is_string c \/ (forall ps, In ps rs -> ps = []) -> runs f c rs = map (fun ps => Ok (expected f c ps)) rs.
Proof.
  induction rs as [|ps rs IH]; intros F H; [reflexivity|]. cbn [runs map].
  assert (E : execute f c ps = (c, Ok (expected f c ps))).
  { destruct H as [[s ->]|H]; [apply string_run, F; now left|]. rewrite (H ps (or_introl eq_refl)).
    destruct c; cbn; now rewrite ?app_nil_s, ?app_nil_r. }
  rewrite E. f_equal. apply IH; [intros q Q; apply F; now right|]. destruct H as [H|H]; [now left|].
  right. intros q Q. apply H. now right.
Qed.

(** A list grows by the parameters of every run. *)
Theorem list_runs f : forall rs l, (forall ps, In ps rs -> formed f ps) ->
  forall k ps, nth_error rs k = Some ps ->
  nth_error (runs f (CList l) rs) k = Some (Ok (CList (l ++ flat_map (words f) (firstn k rs) ++ words f ps)%list)).
Proof.
  induction rs as [|ps rs IH]; intros l F k qs H; [destruct k; discriminate|]. cbn [runs].
  rewrite list_run by (apply F; now left). destruct k as [|k]; cbn [nth_error] in *.
  - injection H as <-. reflexivity.
  - cbn [expected]. rewrite (IH _ (fun q Q => F q (or_intror Q)) k qs H). cbn [firstn flat_map].
    now rewrite <- !app_assoc.
Qed.

(** Without a form the first option that needs one raises. *)
Theorem no_form : forall ps c p v, In (p, v) ps -> String.prefix "-" p = false ->
  snd (execute FNone c ps) = Err TypeError.
Proof.
  unfold execute. induction ps as [|[q w] ps IH]; intros c p v I E; [destruct I|]. cbn [add_options].
  unfold option_name. destruct (String.prefix "-" q) eqn:Q; [|reflexivity].
  destruct I as [I|I]; [injection I as -> ->; congruence|].
  destruct c as [s|l]; [|exact (IH _ p v I E)].
  specialize (IH (CStr (s ++ " " ++ q ++ " " ++ quote ++ w ++ quote)) p v I E).
  destruct (add_options _ _ ps) as [c r]. exact IH.
Qed.
