(** Parentheses that do not match, and termination. *)
From Coq Require Import List Bool Arith Lia ZifyBool ZArith Ascii.
From Verif Require Import Model.Base Model.Parse Spec.ParseSpec Proofs.ParseProofs Proofs.ParseTreeProofs.
Import ListNotations.

Notation opens := (occurrences "("%char).
Notation closes := (occurrences ")"%char).

Lemma occ_app : forall c a b, occurrences c (a ++ b) = occurrences c a + occurrences c b.
Proof. intros c a b. induction a as [|d a IH]; [reflexivity|]. cbn [app occurrences]. rewrite IH. lia. Qed.
Lemma occ_in : forall c s, In c s <-> 1 <= occurrences c s.
Proof.
  intros c s. induction s as [|d s IH]; cbn [In occurrences].
  - split; [intros []|lia].
  - destruct (Ascii.eqb d c) eqn:E.
    + apply Ascii.eqb_eq in E. split; [lia|now left].
    + apply Ascii.eqb_neq in E. rewrite IH. split; [intros [H | H]; [contradiction|lia]|intros H; right; lia].
Qed.

Lemma firstn_before : forall (A : Type) n (a b : list A), n <= length a -> firstn n (a ++ b) = firstn n a.
Proof. intros A n a b H. rewrite firstn_app. replace (n - length a) with 0 by lia. apply app_nil_r. Qed.
Lemma skipn_before : forall (A : Type) n (a b : list A), n <= length a -> skipn n (a ++ b) = skipn n a ++ b.
Proof. intros A n a b H. rewrite skipn_app. now replace (n - length a) with 0 by lia. Qed.

Lemma find_outer_spec : forall s done st en a b,
  find_outer s (length done) (opens done) (closes done) st en = Ok (a, b) ->
  (1 <= opens done -> st < length done /\ opens (firstn st done) = 0) ->
  (1 <= closes done -> en < length done /\ closes (skipn (en + 1) done) = 0) ->
  ((opens done = 0) \/ closes done < opens done \/ (1 <= opens done /\ 1 <= closes (firstn st done))) ->
  exists more rest, s = more ++ rest /\
    opens (done ++ more) = closes (done ++ more) /\ 1 <= opens (done ++ more) /\
    b < length (done ++ more) /\ closes (skipn (b + 1) (done ++ more)) = 0 /\
    a < length (done ++ more) /\
    (1 <= closes (firstn a (done ++ more)) \/ b + 1 = length (done ++ more)).
Proof.
  induction s as [|d s IH]; intros done st en a b F Hst Hen K; [discriminate|].
  cbn [find_outer] in F.
  assert (Len : length (done ++ [d]) = S (length done)) by (rewrite app_length; cbn [length]; lia).
  destruct (Ascii.eqb d opening) eqn:E1.
  - apply Ascii.eqb_eq in E1. subst d.
    assert (O1 : opens (done ++ [opening]) = S (opens done)) by (rewrite occ_app; cbn; lia).
    assert (C1 : closes (done ++ [opening]) = closes done) by (rewrite occ_app; cbn; lia).
    destruct (Nat.eqb (S (opens done)) (closes done)) eqn:E2.
    + injection F as Ea Eb. apply Nat.eqb_eq in E2.
      destruct Hen as (Hen1 & Hen2); [lia|]. subst b.
      exists [opening], s. split; [reflexivity|]. split; [lia|]. split; [lia|]. split; [lia|].
      split. { rewrite skipn_before by lia. rewrite occ_app, Hen2. reflexivity. }
      destruct (Nat.eqb (opens done) 0) eqn:E3.
      * apply Nat.eqb_eq in E3. subst a. split; [lia|]. left.
        rewrite firstn_before by lia. rewrite firstn_all. lia.
      * apply Nat.eqb_neq in E3. subst a. destruct Hst as (Hst1 & Hst2); [lia|]. split; [lia|]. left.
        rewrite firstn_before by lia. destruct K as [K | [K | (_ & K)]]; [lia|lia|exact K].
    + apply Nat.eqb_neq in E2. rewrite <- Len, <- O1, <- C1 in F.
      apply IH in F.
      * destruct F as (more & rest & -> & R). exists (opening :: more), rest. split; [reflexivity|].
        rewrite <- app_assoc in R. exact R.
      * intros _. destruct (Nat.eqb (opens done) 0) eqn:E3.
        -- apply Nat.eqb_eq in E3. split; [lia|]. rewrite firstn_before by lia. now rewrite firstn_all.
        -- apply Nat.eqb_neq in E3. destruct Hst as (Hst1 & Hst2); [lia|]. split; [lia|].
           now rewrite firstn_before by lia.
      * intros H. destruct Hen as (Hen1 & Hen2); [lia|]. split; [lia|].
        rewrite skipn_before by lia. rewrite occ_app, Hen2. reflexivity.
      * destruct (Nat.eqb (opens done) 0) eqn:E3.
        -- apply Nat.eqb_eq in E3. destruct (Nat.eq_dec (closes done) 0) as [Z|Z].
           ++ right. left. lia.
           ++ right. right. split; [lia|]. rewrite firstn_before by lia. rewrite firstn_all. lia.
        -- apply Nat.eqb_neq in E3. right. destruct K as [K | [K | (_ & K)]]; [lia|left; lia|].
           right. split; [lia|]. rewrite firstn_before; [exact K|]. destruct Hst; lia.
  - destruct (Ascii.eqb d closing) eqn:E2.
    + apply Ascii.eqb_eq in E2. subst d.
      assert (O1 : opens (done ++ [closing]) = opens done) by (rewrite occ_app; cbn; lia).
      assert (C1 : closes (done ++ [closing]) = S (closes done)) by (rewrite occ_app; cbn; lia).
      destruct (Nat.eqb (opens done) (S (closes done))) eqn:E3.
      * injection F as Ea Eb. apply Nat.eqb_eq in E3. subst a b. destruct Hst as (Hst1 & Hst2); [lia|].
        exists [closing], s. split; [reflexivity|]. split; [lia|]. split; [lia|]. split; [lia|].
        split. { rewrite skipn_all2 by lia. reflexivity. }
        split; [lia|]. right. lia.
      * apply Nat.eqb_neq in E3. rewrite <- Len, <- O1, <- C1 in F.
        apply IH in F.
        -- destruct F as (more & rest & -> & R). exists (closing :: more), rest. split; [reflexivity|].
           rewrite <- app_assoc in R. exact R.
        -- intros H. destruct Hst as (Hst1 & Hst2); [lia|]. split; [lia|]. now rewrite firstn_before by lia.
        -- intros _. split; [lia|]. rewrite skipn_all2 by lia. reflexivity.
        -- destruct K as [K | [K | (K1 & K)]]; [left; lia|right; left; lia|right; right].
           split; [lia|]. rewrite firstn_before; [exact K|]. destruct Hst; lia.
    + assert (O1 : opens (done ++ [d]) = opens done).
      { rewrite occ_app. cbn [occurrences]. unfold opening in E1. rewrite E1. lia. }
      assert (C1 : closes (done ++ [d]) = closes done).
      { rewrite occ_app. cbn [occurrences]. unfold closing in E2. rewrite E2. lia. }
      rewrite <- Len, <- O1, <- C1 in F. apply IH in F.
      * destruct F as (more & rest & -> & R). exists (d :: more), rest. split; [reflexivity|].
        rewrite <- app_assoc in R. exact R.
      * intros H. destruct Hst as (Hst1 & Hst2); [lia|]. split; [lia|]. now rewrite firstn_before by lia.
      * intros H. destruct Hen as (Hen1 & Hen2); [lia|]. split; [lia|].
        rewrite skipn_before by lia. rewrite occ_app, Hen2. cbn [occurrences]. unfold closing in E2. rewrite E2. reflexivity.
      * destruct K as [K | [K | (K1 & K)]]; [left; lia|right; left; lia|right; right].
        split; [lia|]. rewrite firstn_before; [exact K|]. destruct Hst; lia.
Qed.

Lemma outer_counts : forall s a b, find_outer s 0 0 0 0 0 = Ok (a, b) ->
  opens (firstn (b + 1) s) <= closes (firstn (b + 1) s) /\
  (closes (firstn a s) = 0 -> opens (firstn (b + 1) s) = closes (firstn (b + 1) s)).
Proof.
  intros s a b F. destruct (find_outer_spec s [] 0 0 a b F) as (more & rest & E & Eq & Pos & Hb & Tail & Ha & Alt).
  - cbn. lia.
  - cbn. lia.
  - left. reflexivity.
  - cbn [app] in *. subst s. rewrite !firstn_before by lia.
    pose proof (occ_app "("%char (firstn (b + 1) more) (skipn (b + 1) more)) as X.
    pose proof (occ_app ")"%char (firstn (b + 1) more) (skipn (b + 1) more)) as Y.
    rewrite firstn_skipn in X, Y. split; [lia|]. intros Z. destruct Alt as [Alt | Alt]; [lia|].
    rewrite Alt. rewrite firstn_all. exact Eq.
Qed.
Lemma outer_in : forall s a b, find_outer s 0 0 0 0 0 = Ok (a, b) -> b < length s.
Proof.
  intros s a b F. destruct (find_outer_spec s [] 0 0 a b F) as (more & rest & E & _ & _ & Hb & _);
    [cbn; lia|cbn; lia|now left|]. subst s. cbn [app] in Hb. rewrite app_length. lia.
Qed.

Lemma counts_split : forall c n s, occurrences c s = occurrences c (firstn n s) + occurrences c (skipn n s).
Proof. intros c n s. rewrite <- occ_app. now rewrite firstn_skipn. Qed.

Lemma to_list_opens : forall n s ns, to_list n s = Returns ns -> opens s <= closes s.
Proof.
  induction n as [|n IH]; intros s ns H; [discriminate|]. cbn [to_list] in H.
  destruct (contains opening s) eqn:C.
  - destruct (find_outer s 0 0 0 0 0) as [(a, b)|x] eqn:F; cbn [lift obind] in H; [|discriminate].
    destruct (to_list n (firstn (b - (a + 1)) (skipn (a + 1) s))) as [sub|x|]; cbn [obind] in H; try discriminate.
    destruct (to_list n (skipn (b + 1) s)) as [rest|x|] eqn:R; cbn [obind] in H; try discriminate.
    apply IH in R. destruct (outer_counts s a b F) as (L & _).
    rewrite (counts_split "("%char (b + 1) s), (counts_split ")"%char (b + 1) s). lia.
  - assert (Z : opens s = 0).
    { destruct (opens s) eqn:E; [reflexivity|]. exfalso.
      assert (I : In opening s) by (apply occ_in; unfold opening; lia).
      apply contains_iff in I. congruence. }
    lia.
Qed.

Fixpoint texts (n : node) : list (list ascii) :=
  match n with Text s => [s] | Sub ns => flat_map texts ns end.

Lemma to_list_closes : forall n s ns, to_list n s = Returns ns ->
  (forall t, In t (flat_map texts ns) -> ~ In closing t) -> opens s = closes s.
Proof.
  induction n as [|n IH]; intros s ns H N; [discriminate|]. cbn [to_list] in H.
  destruct (contains opening s) eqn:C.
  - destruct (find_outer s 0 0 0 0 0) as [(a, b)|x] eqn:F; cbn [lift obind] in H; [|discriminate].
    destruct (to_list n (firstn (b - (a + 1)) (skipn (a + 1) s))) as [sub|x|]; cbn [obind] in H; try discriminate.
    destruct (to_list n (skipn (b + 1) s)) as [rest|x|] eqn:R; cbn [obind] in H; try discriminate.
    injection H as <-.
    apply IH in R.
    2: { intros t Ht. apply N. rewrite flat_map_app. apply in_or_app. right. cbn [flat_map]. apply in_or_app. now right. }
    destruct (outer_counts s a b F) as (_ & L).
    assert (Z : closes (firstn a s) = 0).
    { destruct (firstn a s) as [|d r] eqn:E; [reflexivity|].
      destruct (closes (d :: r)) eqn:Z; [reflexivity|]. exfalso.
      apply (N (d :: r)).
      - rewrite flat_map_app. apply in_or_app. left. left. reflexivity.
      - apply occ_in. unfold closing. lia. }
    specialize (L Z).
    rewrite (counts_split "("%char (b + 1) s), (counts_split ")"%char (b + 1) s). lia.
  - assert (Z : opens s = 0).
    { destruct (opens s) eqn:E; [reflexivity|]. exfalso.
      assert (I : In opening s) by (apply occ_in; unfold opening; lia).
      apply contains_iff in I. congruence. }
    rewrite Z. destruct (closes s) eqn:E; [reflexivity|]. exfalso.
    injection H as <-. assert (I : In closing s) by (apply occ_in; unfold closing; lia).
    destruct s as [|d r]; [destruct I|]. exact (N (d :: r) (or_introl eq_refl) I).
Qed.

Lemma find_outer_err : forall s i o c st en x, find_outer s i o c st en = Err x -> x = ValueError.
Proof.
  induction s as [|d s IH]; intros i o c st en x H; cbn [find_outer] in H; [congruence|].
  destruct (Ascii.eqb d opening).
  - destruct (Nat.eqb (S o) c); [discriminate|]. now apply IH in H.
  - destruct (Ascii.eqb d closing).
    + destruct (Nat.eqb o (S c)); [discriminate|]. now apply IH in H.
    + now apply IH in H.
Qed.
Lemma to_list_err : forall n s x, to_list n s = Raises x -> x = ValueError.
Proof.
  induction n as [|n IH]; intros s x H; [discriminate|]. cbn [to_list] in H.
  destruct (contains opening s); [|discriminate].
  destruct (find_outer s 0 0 0 0 0) as [(a, b)|y] eqn:F; cbn [lift obind] in H.
  2: { injection H as <-. now apply find_outer_err in F. }
  destruct (to_list n (firstn (b - (a + 1)) (skipn (a + 1) s))) as [sub|y|] eqn:E; cbn [obind] in H; try discriminate.
  2: { injection H as <-. now apply IH in E. }
  destruct (to_list n (skipn (b + 1) s)) as [rest|y|] eqn:R; cbn [obind] in H; try discriminate.
  injection H as <-. now apply IH in R.
Qed.
Lemma to_list_ends : forall n s, length s < n -> to_list n s <> OutOfFuel.
Proof.
  induction n as [|n IH]; intros s L H; [lia|]. cbn [to_list] in H.
  destruct (contains opening s) eqn:C; [|discriminate].
  assert (P : 1 <= length s) by (destruct s; [discriminate|cbn; lia]).
  destruct (find_outer s 0 0 0 0 0) as [(a, b)|y] eqn:F; cbn [lift obind] in H; [|discriminate].
  destruct (to_list n (firstn (b - (a + 1)) (skipn (a + 1) s))) as [sub|y|] eqn:E; cbn [obind] in H; try discriminate.
  - destruct (to_list n (skipn (b + 1) s)) as [rest|y|] eqn:R; cbn [obind] in H; try discriminate.
    apply IH in R; [exact R|]. rewrite skipn_length. lia.
  - apply IH in E; [exact E|]. rewrite firstn_length, skipn_length. lia.
Qed.

Section Ends.
  Context {V : Type}.
  Variable item : list ascii -> result V.
  Variable operators : list (operator V).

  Lemma index_lt : forall (A : Type) (s : list A) i n, py_index s i = Ok n -> n < length s.
  Proof.
    intros A s i n H. unfold py_index in H.
    destruct ((((if (i <? 0)%Z then (i + Z.of_nat (length s))%Z else i) <? 0) ||
       (Z.of_nat (length s) <=? (if (i <? 0)%Z then (i + Z.of_nat (length s))%Z else i)))%Z) eqn:E; [discriminate|].
    injection H as <-. lia.
  Qed.
  Lemma set_length : forall (A : Type) (s : list A) i x s', py_set s i x = Ok s' -> length s' = length s.
  Proof.
    intros A s i x s' H. unfold py_set in H. destruct (py_index s i) as [n|e] eqn:E; cbn [bind] in H; [|discriminate].
    injection H as <-. apply index_lt in E. rewrite app_length. cbn [length]. rewrite firstn_length, skipn_length. lia.
  Qed.
  Lemma del_length : forall (A : Type) (s : list A) i s', py_del s i = Ok s' -> S (length s') = length s.
  Proof.
    intros A s i s' H. unfold py_del in H. destruct (py_index s i) as [n|e] eqn:E; cbn [bind] in H; [|discriminate].
    injection H as <-. apply index_lt in E. rewrite app_length, firstn_length, skipn_length. lia.
  Qed.
  Lemma combine_length : forall o (s : list (elem V)) pos s', combine_at o s pos = Ok s' -> length s' < length s.
  Proof.
    intros o s pos s' H. unfold combine_at in H. destruct (op_side o).
    - destruct (py_get s (pos + 1)) as [l|e]; cbn [bind] in H; [|discriminate].
      destruct (py_get s (pos - 1)) as [r|e]; cbn [bind] in H; [|discriminate].
      destruct (op_func o [l; r]) as [v|e]; cbn [bind] in H; [|discriminate].
      destruct (py_set s pos (EVal v)) as [s1|e] eqn:E1; cbn [bind] in H; [|discriminate].
      destruct (py_del s1 (pos - 1)) as [s2|e] eqn:E2; cbn [bind] in H; [|discriminate].
      apply set_length in E1. apply del_length in E2. apply del_length in H. lia.
    - destruct (py_get s (pos - 1)) as [r|e]; cbn [bind] in H; [|discriminate].
      destruct (op_func o [r]) as [v|e]; cbn [bind] in H; [|discriminate].
      destruct (py_set s (pos - 1) (EVal v)) as [s1|e] eqn:E1; cbn [bind] in H; [|discriminate].
      apply set_length in E1. apply del_length in H. lia.
    - destruct (py_get s (pos + 1)) as [r|e]; cbn [bind] in H; [|discriminate].
      destruct (op_func o [r]) as [v|e]; cbn [bind] in H; [|discriminate].
      destruct (py_set s (pos + 1) (EVal v)) as [s1|e] eqn:E1; cbn [bind] in H; [|discriminate].
      apply set_length in E1. apply del_length in H. lia.
  Qed.
  Lemma loop_ends : forall fuel o (s : list (elem V)), length s <= fuel -> assemble_loop fuel o s <> OutOfFuel.
  Proof.
    induction fuel as [|fuel IH]; intros o s L H; cbn [assemble_loop] in H.
    - destruct s; [discriminate|cbn in L; lia].
    - destruct (index_of (op_symbol o) s 0) as [pos|]; [|discriminate].
      destruct (combine_at o s pos) as [s'|e] eqn:E; cbn [lift obind] in H; [|discriminate].
      apply combine_length in E. now apply (IH o s') in H; [|lia].
  Qed.
  Lemma oper_ends : forall o (s : list (elem V)), assemble_oper o s <> OutOfFuel.
  Proof.
    intros o s H. unfold assemble_oper in H.
    destruct (assemble_loop (length s) o (rev s)) eqn:E; cbn [obind] in H; try discriminate.
    apply loop_ends in E; [exact E|]. now rewrite rev_length.
  Qed.
  Lemma all_ends : forall os (s : list (elem V)), assemble_all os s <> OutOfFuel.
  Proof.
    induction os as [|o os IH]; intros s H; [discriminate|]. cbn [assemble_all] in H.
    destruct (assemble_oper o s) eqn:E; cbn [obind] in H; try discriminate; [now apply IH in H|now apply oper_ends in E].
  Qed.
  Lemma assemble_ends : forall s, assemble operators s <> OutOfFuel.
  Proof.
    intros s H. unfold assemble in H. destruct (assemble_all operators s) as [l|e|] eqn:E; cbn [obind] in H; try discriminate.
    - destruct l; discriminate.
    - now apply all_ends in E.
  Qed.

  Section PnodeInd.
    Variable P : pnode V -> Prop.
    Hypothesis HE : forall e, P (PElem e).
    Hypothesis HL : forall ps, Forall P ps -> P (PList ps).
    Fixpoint pnode_induction (p : pnode V) : P p :=
      match p with
      | PElem e => HE e
      | PList ps => HL ps ((fix go (ps : list (pnode V)) : Forall P ps :=
                              match ps with [] => Forall_nil P | p :: ps => Forall_cons p (pnode_induction p) (go ps) end) ps)
      end.
  End PnodeInd.

  Lemma reduce_ends : forall p, reduce operators p <> OutOfFuel.
  Proof.
    apply pnode_induction; [discriminate|]. intros ps F H. cbn [reduce] in H.
    match type of H with obind (?go ?l) _ = _ => assert (N : go l <> OutOfFuel); [|destruct (go l) as [es|e|] eqn:E] end.
    - clear H. induction F as [|p ps Hp F IH]; [discriminate|].
      destruct (reduce operators p) as [e|x|]; cbn [obind]; [|discriminate|now destruct Hp].
      match goal with |- obind (?go ?l) _ <> _ => destruct (go l) end; cbn [obind]; [discriminate|discriminate|].
      exact IH.
    - cbn [obind] in H. now apply assemble_ends in H.
    - cbn [obind] in H. discriminate.
    - now apply N.
  Qed.

  Lemma instruction_ends : forall s, instruction item operators s <> OutOfFuel.
  Proof.
    intros s H. unfold instruction in H.
    destruct (to_list (S (length s)) s) as [ns|x|] eqn:E; cbn [obind] in H; [|discriminate|].
    - destruct (parse_nodes item (flat_map (split_node (symbols operators)) ns)) as [ps|x]; cbn [lift obind] in H; [|discriminate].
      now apply reduce_ends in H.
    - apply to_list_ends in E; [exact E|lia].
  Qed.

  (** A parenthesis that is never closed. *)
  Lemma unclosed : forall s, closes s < opens s -> instruction item operators s = Raises ValueError.
  Proof.
    intros s H. unfold instruction. destruct (to_list (S (length s)) s) as [ns|x|] eqn:E.
    - apply to_list_opens in E. lia.
    - apply to_list_err in E. now subst x.
    - apply to_list_ends in E; [destruct E|lia].
  Qed.

  (** A parenthesis that was never opened. *)
  Hypothesis no_paren : ~ In closing (symbols operators).
  Hypothesis item_closing : forall t, In closing t -> exists x, item t = Err x.

  Lemma strip_keeps : forall c s, is_space c = false -> In c s -> In c (strip s).
  Proof.
    intros c s N H. destruct (strip_split s) as (a & b & A & B & E). rewrite E in H.
    apply in_app_or in H. destruct H as [H | H]; [apply A in H; congruence|].
    apply in_app_or in H. destruct H as [H | H]; [exact H|apply B in H; congruence].
  Qed.
  Lemma split_keeps : forall syms c s, is_in c syms = false -> In c s ->
    exists p, In p (split_syms syms s) /\ In c p.
  Proof.
    intros syms c s N. induction s as [|d s IH]; intros H; [destruct H|]. cbn [split_syms].
    destruct H as [<- | H].
    - rewrite N. destruct (split_syms syms s) as [|p ps]; eexists; (split; [left; reflexivity|left; reflexivity]).
    - destruct (IH H) as (p & Hp & Hc). destruct (is_in d syms).
      + exists p. split; [right; right; exact Hp|exact Hc].
      + destruct (split_syms syms s) as [|q qs]; [destruct Hp|]. destruct Hp as [-> | Hp].
        * exists (d :: p). split; [left; reflexivity|right; exact Hc].
        * exists p. split; [right; exact Hp|exact Hc].
  Qed.
  Lemma operations_keep : forall s, In closing s ->
    exists p, In p (split_operations (symbols operators) s) /\ In closing p.
  Proof using no_paren.
    intros s H. apply (strip_keeps closing) in H; [|reflexivity]. unfold split_operations.
    destruct (existsb (fun c => is_in c (symbols operators)) (strip s)).
    - destruct (split_keeps (symbols operators) closing (strip s)) as (p & Hp & Hc); [|exact H|].
      { destruct (is_in closing (symbols operators)) eqn:E; [|reflexivity]. apply is_in_iff in E. contradiction. }
      exists p. split; [|exact Hc]. apply filter_In. split; [exact Hp|].
      apply (strip_keeps closing) in Hc; [|reflexivity]. destruct (strip p); [destruct Hc|reflexivity].
    - exists (strip s). split; [left; reflexivity|exact H].
  Qed.
  Lemma parse_closing : forall s, In closing s -> exists x, parse_string item s = Err x.
  Proof using item_closing.
    intros s H. apply (strip_keeps closing) in H; [|reflexivity]. unfold parse_string.
    destruct (item_closing (strip s) H) as (x & E).
    destruct (strip s) as [|c [|d r]] eqn:S1; [destruct H| |].
    - destruct H as [-> | []]. change (is_in closing [sym_and; sym_or; sym_not]) with false. cbv iota.
      rewrite E. now exists x.
    - rewrite E. now exists x.
  Qed.

  Lemma nodes_bad : forall ns, (exists n, In n ns /\ exists x, parse_node item n = Err x) ->
    exists x, parse_nodes item ns = Err x.
  Proof.
    induction ns as [|m ns IH]; intros (n & Hn & x & E); [destruct Hn|]. cbn [parse_nodes].
    destruct Hn as [-> | Hn].
    - rewrite E. now exists x.
    - destruct (parse_node item m) as [p|y]; cbn [bind]; [|now exists y].
      destruct (IH (ex_intro _ n (conj Hn (ex_intro _ x E)))) as (z & E'). rewrite E'. now exists z.
  Qed.

  Lemma node_bad : forall n, (exists t, In t (texts n) /\ In closing t) ->
    exists m, In m (split_node (symbols operators) n) /\ exists x, parse_node item m = Err x.
  Proof using no_paren item_closing.
    intros n. pattern n. apply node_induction; clear n.
    - intros s (t & [<- | []] & Hc). destruct (operations_keep s Hc) as (p & Hp & Hc').
      exists (Text p). split; [cbn [split_node]; now apply in_map|].
      destruct (parse_closing p Hc') as (x & E). exists x. cbn [parse_node]. now rewrite E.
    - intros ns F (t & Ht & Hc). cbn [texts] in Ht. apply in_flat_map in Ht. destruct Ht as (n & Hn & Ht).
      rewrite Forall_forall in F. destruct (F n Hn (ex_intro _ t (conj Ht Hc))) as (m & Hm & B).
      eexists. split; [cbn [split_node]; left; reflexivity|]. rewrite parse_nodes_sub.
      destruct (nodes_bad (flat_map (split_node (symbols operators)) ns)) as (x & E).
      { exists m. split; [apply in_flat_map; now exists n|exact B]. }
      rewrite E. now exists x.
  Qed.

  Lemma unopened : forall s, opens s < closes s -> exists x, instruction item operators s = Raises x.
  Proof using no_paren item_closing.
    intros s H. unfold instruction. destruct (to_list (S (length s)) s) as [ns|x|] eqn:E.
    - cbn [obind].
      assert (B : exists t, In t (flat_map texts ns) /\ In closing t).
      { destruct (existsb (fun t => contains closing t) (flat_map texts ns)) eqn:X.
        - apply existsb_exists in X. destruct X as (t & Ht & Hc). exists t. split; [exact Ht|now apply contains_iff].
        - exfalso. apply to_list_closes in E; [lia|]. intros t Ht Hc.
          assert (Y : existsb (fun t => contains closing t) (flat_map texts ns) = true).
          { apply existsb_exists. exists t. split; [exact Ht|now apply contains_iff]. }
          congruence. }
      destruct B as (t & Ht & Hc). apply in_flat_map in Ht. destruct Ht as (n & Hn & Ht).
      destruct (node_bad n (ex_intro _ t (conj Ht Hc))) as (m & Hm & Bm).
      destruct (nodes_bad (flat_map (split_node (symbols operators)) ns)) as (x & Ex).
      { exists m. split; [apply in_flat_map; now exists n|exact Bm]. }
      rewrite Ex. now exists x.
    - now exists x.
    - apply to_list_ends in E; [destruct E|lia].
  Qed.

  Lemma unbalanced : forall s, opens s <> closes s -> exists x, instruction item operators s = Raises x.
  Proof using no_paren item_closing.
    intros s H. destruct (lt_dec (opens s) (closes s)) as [L|L]; [now apply unopened|].
    exists ValueError. apply unclosed. lia.
  Qed.
End Ends.
