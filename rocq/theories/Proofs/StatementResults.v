(** Every sentence builds the condition of the call it stands for. *)
From Coq Require Import List Bool Arith Lia ZifyBool Ascii String ZArith.
From Verif Require Import Model.Base Model.Anchored Model.Statement Spec.StatementSpec Proofs.StatementProofs.
From Verif Require Model.Duration Model.Condition Model.Depend Model.Parse.
From Verif Require Import Spec.ParseSpec Proofs.ParseResults.
Import ListNotations.
Local Open Scope list_scope.
Local Open Scope nat_scope.

Definition table : list (statement * parser) := Eval vm_compute in cond_parsers.
Lemma table_ok : cond_parsers = table.
Proof. vm_compute. reflexivity. Qed.

Lemma item_of : forall P (make : pcall -> result P) sh q r, fine sh -> look table sh = Some (q, r) ->
  condition_item make cond_parsers (text sh) = call make q r.
Proof.
  intros P make sh q r F L. unfold condition_item. rewrite table_ok, (look_ok table sh q r F L). reflexivity.
Qed.

(** ** Words *)

Lemma word_dots : forall x, ~ In line_feed x -> dots x.
Proof.
  intros x H. unfold dots. apply forallb_forall. intros c I. unfold dot.
  destruct (Ascii.eqb_spec c (ascii_of_nat 10)) as [->|N]; [now elim H|reflexivity].
Qed.
Lemma word_good : forall x, word x -> good (SV Word x).
Proof. intros x (A & B & C). repeat split; [exact A|now apply word_dots|exact B]. Qed.
Lemma last_good : forall x, word x -> no_and x -> good (SV LastWord x).
Proof. intros x (A & B & C) N. split; [exact A|]. split; [now apply word_dots|]. now split. Qed.

(** ** Numbers *)

Lemma digit_is : forall c n, digit_of c n -> Duration.is_digit c = true /\ Duration.digit c = n.
Proof.
  intros c n [-> R]. assert (C : (n = 0 \/ n = 1 \/ n = 2 \/ n = 3 \/ n = 4 \/ n = 5 \/ n = 6 \/
                              n = 7 \/ n = 8 \/ n = 9)%Z) by lia.
  repeat (destruct C as [->|C]; [now split|]). subst. now split.
Qed.
Lemma number_is : forall s n, number s n ->
  s <> [] /\ forallb Duration.is_digit s = true /\ Duration.digits s = n.
Proof.
  intros s n H. induction H as [c n D|s m c n H (A & B & C) D]; apply digit_is in D; destruct D as [D E].
  - split; [discriminate|]. split; [cbn; now rewrite D|]. unfold Duration.digits. cbn [fold_left]. lia.
  - split; [intros K; apply app_eq_nil in K; tauto|]. split.
    + rewrite forallb_app, B. cbn. now rewrite D.
    + unfold Duration.digits in *. rewrite fold_left_app. cbn [fold_left]. rewrite C, E. reflexivity.
Qed.
Lemma digit_dot : forall c, Duration.is_digit c = true -> dot c = true.
Proof.
  intros c H. unfold dot. destruct (Ascii.eqb_spec c (ascii_of_nat 10)) as [->|N]; [discriminate|reflexivity].
Qed.
Lemma number_good : forall s n, number s n -> good (SV Digits s).
Proof.
  intros s n H. apply number_is in H. destruct H as (A & B & _). split; [exact A|]. split; [|exact B].
  unfold dots. rewrite forallb_forall in *. intros c I. apply digit_dot. now apply B.
Qed.

(** ** Lists of names *)

Lemma listed_cons : forall n m ns, listed (n :: m :: ns) = n ++ txt "', '" ++ listed (m :: ns).
Proof. reflexivity. Qed.
Lemma listed_dots : forall ns, (forall n, In n ns -> word n) -> dots (listed ns).
Proof.
  induction ns as [|n ns IH]; intros W; [reflexivity|]. destruct ns as [|m ns].
  - apply word_dots. apply W. now left.
  - rewrite listed_cons. unfold dots. rewrite !forallb_app. apply andb_true_iff. split.
    + apply word_dots. apply W. now left.
    + cbn [forallb txt list_ascii_of_string]. apply andb_true_iff. split; [reflexivity|].
      apply IH. intros k I. apply W. now right.
Qed.
Lemma names_good : forall ns, ns <> [] -> (forall n, In n ns -> word n) -> good (SV Names (listed ns)).
Proof.
  intros ns N W. split; [|split; [now apply listed_dots|exact I]].
  destruct ns as [|n ns]; [congruence|]. destruct (W n) as (A & _); [now left|].
  destruct ns as [|m ns]; [exact A|]. rewrite listed_cons. intros E. apply app_eq_nil in E. tauto.
Qed.

Lemma split_listed : forall ns n acc fuel, word n \/ (~ In quote n) -> (forall m, In m ns -> word m) ->
  length (listed (n :: ns)) < fuel -> split_sep fuel acc (listed (n :: ns)) = (acc ++ n) :: ns.
Proof.
  induction ns as [|m ns IHns].
  - intros n. induction n as [|c n IHn]; intros acc fuel Q W L.
    + destruct fuel as [|fuel]; [cbn in L; lia|]. cbn. now rewrite app_nil_r.
    + assert (Q' : ~ In quote (c :: n)) by (destruct Q as [(_ & Q & _)|Q]; exact Q).
      destruct fuel as [|fuel]; [cbn in L; lia|]. cbn [listed split_sep list_sep strip_prefix].
      destruct (Ascii.eqb_spec "'"%char c) as [<-|N]; [elim Q'; now left|].
      change n with (listed [n]) at 1. rewrite IHn.
      * now rewrite <- app_assoc.
      * right. intros I. apply Q'. now right.
      * exact W.
      * cbn in L |- *. lia.
  - intros n. induction n as [|c n IHn]; intros acc fuel Q W L.
    + destruct fuel as [|fuel]; [cbn in L; lia|]. rewrite listed_cons in *. cbn [app] in *.
      cbn [split_sep]. change (strip_prefix list_sep (txt "', '" ++ listed (m :: ns))) with
        (Some (listed (m :: ns))). cbv iota. rewrite app_nil_r. f_equal.
      rewrite IHns; [reflexivity| | |].
      * left. apply W. now left.
      * intros k I. apply W. now right.
      * rewrite app_length in L. cbn [length txt list_ascii_of_string] in L. lia.
    + assert (Q' : ~ In quote (c :: n)) by (destruct Q as [(_ & Q & _)|Q]; exact Q).
      destruct fuel as [|fuel]; [cbn in L; lia|]. rewrite listed_cons in *.
      change ((c :: n) ++ txt "', '" ++ listed (m :: ns)) with (c :: n ++ txt "', '" ++ listed (m :: ns)) in *.
      cbn [split_sep list_sep strip_prefix].
      destruct (Ascii.eqb_spec "'"%char c) as [<-|N]; [elim Q'; now left|].
      rewrite <- listed_cons in *. rewrite IHn.
      * now rewrite <- app_assoc.
      * right. intros I. apply Q'. now right.
      * exact W.
      * cbn [length] in L. lia.
Qed.
Lemma split_names_listed : forall ns, ns <> [] -> (forall n, In n ns -> word n) -> split_names (listed ns) = ns.
Proof.
  intros [|n ns] N W; [congruence|]. unfold split_names. rewrite split_listed.
  - reflexivity.
  - left. apply W. now left.
  - intros m I. apply W. now right.
  - lia.
Qed.

(** ** The sentences *)

Ltac fine_here :=
  repeat (apply Forall_cons;
          [first [exact eq_refl | now apply word_good | now apply last_good
                 | now apply names_good | eapply number_good; eassumption ]|]);
  apply Forall_nil.
Ltac by_table sh :=
  match goal with
  | |- condition_item ?make cond_parsers ?s = ?r =>
      let sh' := eval cbv [map txt list_ascii_of_string app] in sh in
      let v := eval vm_compute in (look table sh') in
      match v with
      | Some (?q, ?g) =>
          let F := fresh "F" in
          assert (F : fine sh') by fine_here;
          let L := fresh "L" in
          assert (L : look table sh' = Some (q, g)) by (vm_compute; reflexivity);
          change (condition_item make cond_parsers (text sh') = r);
          rewrite (item_of _ make sh' q g F L); clear F L
      end
  end.
Ltac one_of H := cbn [In] in H; repeat (destruct H as [H|H]; [injection H as <- <-|]); [..|destruct H].

Ltac var_kind x :=
  match goal with
  | _ : number x _ |- _ => Digits
  | _ : no_and x |- _ => LastWord
  | _ : word x |- _ => Word
  end.
Ltac shape s :=
  match s with
  | txt ?t => constr:(map SC (txt t))
  | txt ?t ++ ?r => let h := shape r in constr:(map SC (txt t) ++ h)
  | listed ?ns => constr:([SV Names (listed ns)])
  | listed ?ns ++ ?r => let h := shape r in constr:(SV Names (listed ns) :: h)
  | ?x ++ ?r => let k := var_kind x in let h := shape r in constr:(SV k x :: h)
  | ?x => let k := var_kind x in constr:([SV k x])
  end.
Ltac sentence :=
  match goal with
  | |- condition_item ?make cond_parsers ?s = ?r => let h := shape s in by_table h
  end.

Theorem sentences : forall P (make : pcall -> result P) s r, says make s r ->
  condition_item make cond_parsers s = r.
Proof.
  intros P make s r H. destruct H.
  - sentence. reflexivity.
  - sentence. reflexivity.
  - sentence. reflexivity.
  - sentence. reflexivity.
  - one_of H; sentence; reflexivity.
  - one_of H; sentence; reflexivity.
  - one_of H; sentence; reflexivity.
  - one_of H; sentence; reflexivity.
  - one_of H; sentence; reflexivity.
  - one_of H; sentence; reflexivity.
  - sentence. reflexivity.
  - sentence. reflexivity.
  - one_of H; sentence; reflexivity.
  - one_of H; sentence; reflexivity.
  - one_of H; sentence; reflexivity.
  - one_of H; destruct H0 as [E|E]; try discriminate; clear E; sentence; reflexivity.
  - destruct task as [n|]; cbn [subject proper_subject app] in *; rewrite <- ?app_assoc;
      one_of H0; sentence; reflexivity.
  - destruct task as [n|]; cbn [subject proper_subject app] in *; rewrite <- ?app_assoc;
      one_of H0; one_of H1; sentence; reflexivity.
  - destruct task as [n|]; cbn [subject proper_subject app] in *; rewrite <- ?app_assoc;
      one_of H0; one_of H1; sentence; reflexivity.
  - destruct task as [n|]; cbn [subject proper_subject app] in *; rewrite <- ?app_assoc;
      one_of H0; one_of H1; sentence; reflexivity.
  - destruct task as [n|]; cbn [subject proper_subject app] in *; rewrite <- ?app_assoc;
      one_of H0; one_of H1; sentence; reflexivity.
  - destruct task as [n|]; cbn [subject proper_subject app] in *; rewrite <- ?app_assoc;
      one_of H0; one_of H1; sentence; reflexivity.
  - destruct task as [n|]; cbn [subject proper_subject app] in *; rewrite <- ?app_assoc;
      one_of H0; sentence; reflexivity.
  - destruct task as [n|]; cbn [subject proper_subject app] in *; rewrite <- ?app_assoc;
      one_of H0; sentence; reflexivity.
  - sentence. reflexivity.
  - sentence. reflexivity.
  - one_of H0; sentence; reflexivity.
  - one_of H1; sentence; cbn [call arg group String.eqb]; 
      unfold after_all, all_of; rewrite <- (split_names_listed ns) at 2 by assumption; reflexivity.
  - one_of H1; sentence; cbn [call arg group String.eqb]; 
      unfold after_any, any_of; rewrite <- (split_names_listed ns) at 2 by assumption; reflexivity.
  - sentence. rewrite <- (proj2 (proj2 (number_is s n H))). reflexivity.
  - sentence. rewrite <- (proj2 (proj2 (number_is s n H))). reflexivity.
  - sentence. rewrite <- (proj2 (proj2 (number_is s n H))). reflexivity.
  - sentence. cbn. unfold scheduler_started. destruct (make (DeltaOf d)); reflexivity.
  - sentence. reflexivity.
  - sentence. reflexivity.
  - sentence. reflexivity.
Qed.

(** ** Strings of sentences *)

Theorem sentence_string : forall P (make : pcall -> result P) num text_atom meant s e,
  reads true LAny s e -> (forall t, In t (items e) -> says make t (Ok (meant t))) ->
  exists c, Parse.parse_condition (numbered_item make num) text_atom s = Returns c /\
    forall env, Condition.observe env c = answer env (fun t => as_condition num (meant t)) e.
Proof.
  intros P make num text_atom meant s e R M. apply condition_string; [exact R|].
  intros t I. unfold numbered_item. rewrite (sentences P make t _ (M t I)). reflexivity.
Qed.

(** A sentence by itself. *)
Lemma one_sentence : forall P (make : pcall -> result P) num text_atom s r,
  says make s r -> item_text s ->
  Parse.parse_condition (numbered_item make num) text_atom s =
    match r with Ok t => Returns (as_condition num t) | Err x => Raises x end.
Proof.
  intros P make num text_atom s r H T. apply sentences in H.
  assert (R : reads true LAny s (BItem s)).
  { apply rd_all, rd_unit. rewrite <- (app_nil_r s) at 1. change (s ++ []) with ([] ++ s ++ []).
    apply rd_item; [intros c []|intros c []|exact T]. }
  destruct r as [t|x].
  - pose proof (condition_single (numbered_item make num) text_atom (fun _ => as_condition num t) s) as C.
    apply C; [exact T|]. unfold numbered_item. now rewrite H.
  - apply (condition_unknown (numbered_item make num) text_atom (fun _ => Condition.CTrue) s (BItem s) x R).
    exists [], s, []. split; [reflexivity|]. split; [intros u []|]. unfold numbered_item. now rewrite H.
Qed.

(** ** Other strings *)

Fixpoint lead (p : pattern) : list ascii :=
  match p with PChar c :: p => c :: lead p | _ => [] end.
Lemma lead_ok : forall p s r, fullmatch p s = Some r -> exists rest, s = lead p ++ rest.
Proof.
  induction p as [|x p IH]; intros s r H; [exists s; reflexivity|].
  destruct x as [c|g|g|g ss|t]; try (exists s; reflexivity).
  apply char_match in H. destruct H as (s' & -> & H). destruct (IH s' r H) as [rest ->]. now exists rest.
Qed.
Definition lead_of (st : statement) : list ascii := match st with SPat p => lead p | SText t => t end.
Definition opened (st : statement) : bool :=
  existsb (fun w => match strip_prefix (txt w) (lead_of st) with Some _ => true | None => false end) openings.
Lemma opened_ok : forall st s r, opened st = true -> matches st s = Some r ->
  exists w rest, In w openings /\ s = txt w ++ rest.
Proof.
  intros st s r O M. apply existsb_exists in O. destruct O as (w & I & O).
  destruct (strip_prefix (txt w) (lead_of st)) as [a|] eqn:S; [|discriminate]. apply strip_some in S.
  assert (L : exists rest, s = lead_of st ++ rest).
  { destruct st as [t|p]; cbn [matches lead_of] in *.
    - destruct (list_eq_dec ascii_dec t s) as [E|]; [|discriminate]. exists []. now rewrite app_nil_r.
    - exact (lead_ok p s r M). }
  destruct L as [rest ->]. exists w, (a ++ rest). split; [exact I|]. now rewrite S, app_assoc.
Qed.
Theorem other_strings : forall P (make : pcall -> result P) s,
  (forall w rest, In w openings -> s <> txt w ++ rest) ->
  condition_item make cond_parsers s = Err ParserError.
Proof.
  intros P make s H. unfold condition_item. rewrite table_ok.
  assert (A : forallb (fun x => opened (fst x)) table = true) by (vm_compute; reflexivity).
  assert (N : find_parser table s = None); [|now rewrite N].
  revert A. generalize table. induction l as [|[st q] d IH]; intros A; [reflexivity|].
  cbn [forallb find_parser fst] in *. apply andb_true_iff in A. destruct A as [O A].
  destruct (matches st s) as [r|] eqn:M; [|exact (IH A)].
  destruct (opened_ok st s r O M) as (w & rest & I & E). now elim (H w rest I).
Qed.
