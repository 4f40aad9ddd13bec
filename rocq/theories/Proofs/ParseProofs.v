(** Taking strings apart: pieces, closures and tokens. *)
From Coq Require Import List Bool Arith Lia ZifyBool ZArith Ascii.
From Verif Require Import Model.Base Model.Parse Spec.ParseSpec.
Import ListNotations.

(** * Characters *)

Lemma space_white : forall c, is_space c = true <-> white c.
Proof.
  intros c. unfold is_space, white. cbn [In]. generalize (nat_of_ascii c). intros n. cbv zeta.
  split; intros H; lia.
Qed.

Lemma eqb_refl : forall c, Ascii.eqb c c = true. Proof. intros c. apply Ascii.eqb_refl. Qed.

Lemma is_in_iff : forall c cs, is_in c cs = true <-> In c cs.
Proof.
  intros c cs. unfold is_in. rewrite existsb_exists. split.
  - intros (d & Hin & E). apply Ascii.eqb_eq in E. now subst.
  - intros Hin. exists c. split; [exact Hin|apply eqb_refl].
Qed.
Lemma contains_iff : forall c s, contains c s = true <-> In c s.
Proof. intros c s. exact (is_in_iff c s). Qed.
Lemma contains_not : forall c s, ~ In c s -> contains c s = false.
Proof. intros c s H. destruct (contains c s) eqn:E; [|reflexivity]. apply contains_iff in E. contradiction. Qed.

(** * strip *)

Definition spaces (s : list ascii) : Prop := forall c, In c s -> is_space c = true.
Lemma blanks_spaces : forall s, blanks s <-> spaces s.
Proof. intros s. split; intros H c Hc; apply space_white, H, Hc. Qed.
Lemma spaces_nil : spaces []. Proof. intros c []. Qed.
Lemma spaces_app : forall a b, spaces a -> spaces b -> spaces (a ++ b).
Proof. intros a b A B c H. apply in_app_or in H. destruct H; auto. Qed.
Lemma spaces_rev : forall a, spaces a -> spaces (rev a).
Proof. intros a A c H. apply A. now apply in_rev. Qed.

Lemma lstrip_split : forall s, exists a, spaces a /\ s = a ++ lstrip s.
Proof.
  induction s as [|c s (a & A & E)]; cbn [lstrip].
  - exists []. split; [apply spaces_nil|reflexivity].
  - destruct (is_space c) eqn:C.
    + exists (c :: a). split; [|cbn [app]; now f_equal].
      intros d [<- | H]; [exact C|auto].
    + exists []. split; [apply spaces_nil|reflexivity].
Qed.
Lemma strip_split : forall s, exists a b, spaces a /\ spaces b /\ s = a ++ strip s ++ b.
Proof.
  intros s. destruct (lstrip_split s) as (a & A & E).
  destruct (lstrip_split (rev (lstrip s))) as (b & B & F).
  exists a, (rev b). split; [exact A|]. split; [now apply spaces_rev|].
  unfold strip, rstrip. rewrite <- rev_app_distr, <- F, rev_involutive. exact E.
Qed.

Lemma lstrip_spaces : forall a s, spaces a -> lstrip (a ++ s) = lstrip s.
Proof.
  induction a as [|c a IH]; intros s A; [reflexivity|]. cbn [app lstrip].
  rewrite (A c (or_introl eq_refl)). apply IH. intros d H. apply A. now right.
Qed.
Lemma lstrip_all : forall a, spaces a -> lstrip a = [].
Proof. intros a A. rewrite <- (app_nil_r a), lstrip_spaces by exact A. reflexivity. Qed.
(** A text that is empty or begins and ends with something visible. *)
Definition tight (t : list ascii) : Prop := lstrip t = t /\ lstrip (rev t) = rev t.
Lemma tight_strip : forall t, tight t -> strip t = t.
Proof. intros t (A & B). unfold strip, rstrip. now rewrite A, B, rev_involutive. Qed.
Lemma lstrip_app : forall t b, t <> [] -> lstrip t = t -> lstrip (t ++ b) = t ++ b.
Proof.
  intros [|c t] b N E; [contradiction|]. cbn [lstrip app] in *. destruct (is_space c) eqn:C; [|reflexivity].
  exfalso. assert (H : length (lstrip t) <= length t).
  { destruct (lstrip_split t) as (x & _ & F). rewrite F at 2. rewrite app_length. lia. }
  rewrite E in H. cbn [length] in H. lia.
Qed.
Lemma strip_around : forall a t b, spaces a -> spaces b -> t <> [] -> tight t -> strip (a ++ t ++ b) = t.
Proof.
  intros a t b A B N (L & R). unfold strip, rstrip. rewrite lstrip_spaces by exact A.
  rewrite (lstrip_app t b N L), rev_app_distr, lstrip_spaces by now apply spaces_rev.
  rewrite R. apply rev_involutive.
Qed.
Lemma strip_blank : forall a, spaces a -> strip a = [].
Proof. intros a A. unfold strip, rstrip. rewrite (lstrip_all a) by exact A. reflexivity. Qed.

Lemma lstrip_idem : forall s, lstrip (lstrip s) = lstrip s.
Proof.
  induction s as [|c s IH]; [reflexivity|]. cbn [lstrip]. destruct (is_space c) eqn:C; [exact IH|].
  cbn [lstrip]. now rewrite C.
Qed.
Lemma lstrip_head : forall s, lstrip s = s <-> (forall c r, s = c :: r -> is_space c = false).
Proof.
  intros [|c s]; cbn [lstrip].
  - split; [discriminate|reflexivity].
  - split.
    + intros H d r E. injection E as <- <-. destruct (is_space c) eqn:C; [|reflexivity].
      exfalso. assert (K : length (lstrip s) <= length s).
      { destruct (lstrip_split s) as (x & _ & F). rewrite F at 2. rewrite app_length. lia. }
      rewrite H in K. cbn [length] in K. lia.
    + intros H. now rewrite (H c s eq_refl).
Qed.
Lemma strip_tight : forall s, tight (strip s).
Proof.
  intros s. unfold tight, strip, rstrip. rewrite rev_involutive. split; [|apply lstrip_idem].
  destruct (lstrip_split (rev (lstrip s))) as (b & B & F).
  apply lstrip_head. intros c r E.
  assert (G : lstrip s = rev (lstrip (rev (lstrip s))) ++ rev b).
  { rewrite <- rev_app_distr, <- F. symmetry. apply rev_involutive. }
  rewrite E in G. cbn [app] in G.
  exact (proj1 (lstrip_head (lstrip s)) (lstrip_idem s) c _ G).
Qed.
Lemma strip_idem : forall s, strip (strip s) = strip s.
Proof. intros s. apply tight_strip, strip_tight. Qed.

Lemma item_tight : forall t, item_text t -> tight t.
Proof.
  intros t (N & _ & L & R). split; apply lstrip_head.
  - intros c r E. destruct (is_space c) eqn:C; [|reflexivity]. apply space_white in C. now destruct (L c r E).
  - intros c r E. destruct (is_space c) eqn:C; [|reflexivity]. apply space_white in C.
    assert (F : t = rev r ++ [c]). { rewrite <- (rev_involutive t), E. reflexivity. }
    now destruct (R c (rev r) F).
Qed.
Lemma strip_item : forall a t b, spaces a -> spaces b -> item_text t -> strip (a ++ t ++ b) = t.
Proof. intros a t b A B I. apply strip_around; [exact A|exact B|exact (proj1 I)|now apply item_tight]. Qed.

(** * Pieces *)

Inductive piece : Type :=
| PcItem (a t b : list ascii)
| PcOp (a : list ascii) (c : ascii) (b : list ascii)
| PcSub (ps : list piece).

Fixpoint ptext (p : piece) : list ascii :=
  match p with
  | PcItem a t b => a ++ t ++ b
  | PcOp a c b => a ++ c :: b
  | PcSub ps => opening :: flat_map ptext ps ++ [closing]
  end.
Definition ptexts (ps : list piece) : list ascii := flat_map ptext ps.

(** What a piece is once taken out. *)
Fixpoint pnodes (p : piece) : node :=
  match p with
  | PcItem _ t _ => Text t
  | PcOp _ c _ => Text [c]
  | PcSub ps => Sub (map pnodes ps)
  end.

Section Lex.
  Variable syms : list ascii.
  Hypothesis syms_ok : forall c, In c syms -> In c [sym_not; sym_and; sym_or].

  Definition is_op (p : piece) : Prop := match p with PcOp _ _ _ => True | _ => False end.
  Definition next_op (ps : list piece) : Prop := match ps with [] => True | p :: _ => is_op p end.

  Inductive ok : list piece -> Prop :=
  | ok_nil : ok []
  | ok_item : forall a t b ps, spaces a -> spaces b -> item_text t -> next_op ps -> ok ps ->
      ok (PcItem a t b :: ps)
  | ok_op : forall a c b ps, spaces a -> spaces b -> In c syms -> ok ps -> ok (PcOp a c b :: ps)
  | ok_sub : forall q ps, ok q -> next_op ps -> ok ps -> ok (PcSub q :: ps).

  Lemma ok_app_op : forall ps a c b qs, ok ps -> spaces a -> spaces b -> In c syms -> ok qs ->
    ok (ps ++ PcOp a c b :: qs).
  Proof.
    intros ps a c b qs H A B C Q. induction H; cbn [app].
    - now apply ok_op.
    - apply ok_item; trivial. destruct ps; [exact I|assumption].
    - now apply ok_op.
    - apply ok_sub; trivial. destruct ps; [exact I|assumption].
  Qed.

  Definition plain (s : list ascii) : Prop := ~ In opening s /\ ~ In closing s.
  Lemma plain_nil : plain []. Proof. split; intros []. Qed.
  Lemma plain_app : forall a b, plain a -> plain b -> plain (a ++ b).
  Proof.
    intros a b (A & A') (B & B'). split; intros H; apply in_app_or in H; destruct H; auto.
  Qed.
  Lemma plain_spaces : forall a, spaces a -> plain a.
  Proof. intros a A. split; intros H; apply A in H; discriminate. Qed.
  Lemma plain_item : forall t, item_text t -> plain t.
  Proof.
    intros t (_ & R & _). split; intros H; apply (R _ H); [left; reflexivity|right; left; reflexivity].
  Qed.
  Lemma plain_op : forall c, In c syms -> plain [c].
  Proof.
    intros c H. apply syms_ok in H.
    split; intros [E | []]; subst c; destruct H as [E | [E | [E | []]]]; discriminate.
  Qed.
  Lemma plain_piece : forall p ps, ok (p :: ps) -> match p with PcSub _ => True | _ => plain (ptext p) end.
  Proof.
    intros p ps H. inversion H; subst; cbn [ptext]; [| |exact I].
    - apply plain_app; [now apply plain_spaces|]. apply plain_app; [now apply plain_item|now apply plain_spaces].
    - apply plain_app; [now apply plain_spaces|].
      change (c :: b) with ([c] ++ b). apply plain_app; [now apply plain_op|now apply plain_spaces].
  Qed.

  (** * The scan *)

  Lemma scan_plain : forall x rest i o c st en, plain x ->
    find_outer (x ++ rest) i o c st en = find_outer rest (i + length x) o c st en.
  Proof.
    induction x as [|d x IH]; intros rest i o c st en (A & B).
    - cbn [app length]. now rewrite Nat.add_0_r.
    - cbn [app find_outer length].
      destruct (Ascii.eqb d opening) eqn:E1. { apply Ascii.eqb_eq in E1. subst d. destruct A. now left. }
      destruct (Ascii.eqb d closing) eqn:E2. { apply Ascii.eqb_eq in E2. subst d. destruct B. now left. }
      rewrite IH. { f_equal. lia. } split; intros H; [apply A|apply B]; now right.
  Qed.

  Lemma scan_open : forall rest i o c st en, c < o ->
    find_outer (opening :: rest) i o c st en = find_outer rest (S i) (S o) c st en.
  Proof.
    intros rest i o c st en H. cbn [find_outer]. change (Ascii.eqb opening opening) with true. cbv iota.
    replace (Nat.eqb o 0) with false by lia. replace (Nat.eqb (S o) c) with false by lia. reflexivity.
  Qed.
  Lemma scan_close : forall rest i o c st en, S c < o ->
    find_outer (closing :: rest) i o c st en = find_outer rest (S i) o (S c) st i.
  Proof.
    intros rest i o c st en H. cbn [find_outer].
    change (Ascii.eqb closing opening) with false. change (Ascii.eqb closing closing) with true. cbv iota.
    replace (Nat.eqb o (S c)) with false by lia. reflexivity.
  Qed.

  Lemma scan_ok : forall ps, ok ps -> forall rest i o c st en, c < o ->
    exists k en', find_outer (ptexts ps ++ rest) i o c st en =
                  find_outer rest (i + length (ptexts ps)) (o + k) (c + k) st en'.
  Proof.
    intros ps H. induction H as [|a t b ps A B I N H IH|a c0 b ps A B C H IH|q ps Q IHq N H IH];
      intros rest i o c st en Lt.
    - exists 0, en. cbn. now rewrite !Nat.add_0_r.
    - destruct (IH rest (i + length (ptext (PcItem a t b))) o c st en Lt) as (k & en' & E).
      exists k, en'. cbn [ptexts flat_map]. fold (ptexts ps). rewrite <- app_assoc, scan_plain.
      + rewrite E, app_length. f_equal. lia.
      + exact (plain_piece (PcItem a t b) ps (ok_item a t b ps A B I N H)).
    - destruct (IH rest (i + length (ptext (PcOp a c0 b))) o c st en Lt) as (k & en' & E).
      exists k, en'. cbn [ptexts flat_map]. fold (ptexts ps). rewrite <- app_assoc, scan_plain.
      + rewrite E, app_length. f_equal. lia.
      + exact (plain_piece (PcOp a c0 b) ps (ok_op a c0 b ps A B C H)).
    - cbn [ptexts flat_map]. fold (ptexts ps). cbn [ptext]. fold (ptexts q).
      destruct (IHq (closing :: ptexts ps ++ rest) (S i) (S o) c st en ltac:(lia)) as (k & en1 & E1).
      destruct (IH rest (S (S i + length (ptexts q))) (S o + k) (S (c + k)) st (S i + length (ptexts q)) ltac:(lia))
        as (k2 & en2 & E2).
      exists (S k + k2), en2.
      cbn [app]. rewrite <- !app_assoc. cbn [app].
      rewrite scan_open by exact Lt. rewrite E1, scan_close by lia. rewrite E2.
      f_equal; cbn [length]; rewrite ?app_length; cbn [length]; rewrite ?app_length; cbn [length]; lia.
  Qed.

  Lemma find_closure : forall x q rest, plain x -> ok q ->
    find_outer (x ++ opening :: ptexts q ++ closing :: rest) 0 0 0 0 0
    = Ok (length x, length x + 1 + length (ptexts q)).
  Proof.
    intros x q rest X Q. rewrite scan_plain by exact X. cbn [find_outer].
    change (Ascii.eqb opening opening) with true. cbv iota.
    change (Nat.eqb 0 0) with true. change (Nat.eqb 1 0) with false. cbv iota.
    destruct (scan_ok q Q (closing :: rest) (S (0 + length x)) 1 0 (0 + length x) 0 ltac:(lia)) as (k & en & E).
    rewrite E. cbn [find_outer].
    change (Ascii.eqb closing opening) with false. change (Ascii.eqb closing closing) with true. cbv iota.
    replace (Nat.eqb (1 + k) (S (0 + k))) with true by lia. f_equal. f_equal. lia.
  Qed.

  (** * Tokens *)

  Definition visible (s : list ascii) : bool := match strip s with [] => false | _ => true end.
  Definition tokens (s : list ascii) : list (list ascii) :=
    map strip (filter visible (split_syms syms s)).

  Lemma visible_strip : forall s s', strip s = strip s' -> visible s = visible s'.
  Proof. intros s s' E. unfold visible. now rewrite E. Qed.

  Lemma split_nonempty : forall s, split_syms syms s <> [].
  Proof.
    intros [|c s]; cbn [split_syms]; [discriminate|]. destruct (is_in c syms); [discriminate|].
    destruct (split_syms syms s); discriminate.
  Qed.

  Definition nosyms (s : list ascii) : Prop := forall c, In c s -> is_in c syms = false.

  Lemma split_prefix : forall x s, nosyms x ->
    split_syms syms (x ++ s) = (x ++ hd [] (split_syms syms s)) :: tl (split_syms syms s).
  Proof.
    induction x as [|c x IH]; intros s N.
    - cbn [app]. pose proof (split_nonempty s). now destruct (split_syms syms s).
    - cbn [app split_syms]. rewrite (N c (or_introl eq_refl)).
      rewrite IH by (intros d H; apply N; now right). reflexivity.
  Qed.

  Lemma spaces_nosyms : forall a, spaces a -> nosyms a.
  Proof.
    intros a A c H. destruct (is_in c syms) eqn:E; [|reflexivity]. apply is_in_iff, syms_ok in E.
    apply A in H. destruct E as [<- | [<- | [<- | []]]]; discriminate.
  Qed.
  Lemma item_nosyms : forall t, item_text t -> nosyms t.
  Proof.
    intros t (_ & R & _) c H. destruct (is_in c syms) eqn:E; [|reflexivity]. apply is_in_iff, syms_ok in E.
    destruct (R c H). destruct E as [<- | [<- | [<- | []]]];
      [do 4 right|do 2 right|do 3 right]; left; reflexivity.
  Qed.
  Lemma nosyms_app : forall a b, nosyms a -> nosyms b -> nosyms (a ++ b).
  Proof. intros a b A B c H. apply in_app_or in H. destruct H; auto. Qed.

  Lemma strip_lead : forall a s, spaces a -> strip (a ++ s) = strip s.
  Proof. intros a s A. unfold strip. now rewrite lstrip_spaces. Qed.
  Lemma strip_trail : forall s a, spaces a -> strip (s ++ a) = strip s.
  Proof.
    intros s a A. destruct (lstrip_split s) as (x & X & E). unfold strip.
    destruct (lstrip s) as [|c r] eqn:L.
    - rewrite E, app_nil_r. rewrite lstrip_all; [reflexivity|]. now apply spaces_app.
    - rewrite E, <- app_assoc, lstrip_spaces by exact X.
      rewrite lstrip_app; [|discriminate|rewrite <- L; apply lstrip_idem].
      unfold rstrip. rewrite rev_app_distr, lstrip_spaces by now apply spaces_rev. reflexivity.
  Qed.

  Lemma tokens_lead : forall a s, spaces a -> tokens (a ++ s) = tokens s.
  Proof.
    intros a s A. unfold tokens. rewrite split_prefix by now apply spaces_nosyms.
    pose proof (split_nonempty s) as N. destruct (split_syms syms s) as [|p ps]; [contradiction|].
    cbn [hd tl filter]. rewrite (visible_strip (a ++ p) p) by now apply strip_lead.
    destruct (visible p); [|reflexivity]. cbn [map]. now rewrite strip_lead.
  Qed.

  Lemma split_suffix : forall s b, nosyms b ->
    exists ps p, split_syms syms s = ps ++ [p] /\ split_syms syms (s ++ b) = ps ++ [p ++ b].
  Proof.
    induction s as [|c s IH]; intros b N.
    - exists [], []. split; [reflexivity|]. rewrite <- (app_nil_r b) at 1. cbn [app].
      rewrite split_prefix by exact N. cbn. now rewrite app_nil_r.
    - destruct (IH b N) as (ps & p & E & F). cbn [app split_syms]. destruct (is_in c syms) eqn:C.
      + exists ([] :: [c] :: ps), p. rewrite E, F. split; reflexivity.
      + rewrite E, F. destruct ps as [|q ps].
        * exists [], (c :: p). split; reflexivity.
        * exists ((c :: q) :: ps), p. split; reflexivity.
  Qed.
  Lemma tokens_trail : forall s b, spaces b -> tokens (s ++ b) = tokens s.
  Proof.
    intros s b B. unfold tokens. destruct (split_suffix s b (spaces_nosyms b B)) as (ps & p & E & F).
    rewrite E, F, !filter_app, !map_app. f_equal. cbn [filter].
    rewrite (visible_strip (p ++ b) p) by now apply strip_trail.
    destruct (visible p); [|reflexivity]. cbn [map]. now rewrite strip_trail.
  Qed.
  Lemma tokens_strip : forall s, tokens (strip s) = tokens s.
  Proof.
    intros s. destruct (strip_split s) as (a & b & A & B & E). rewrite E at 2.
    now rewrite tokens_lead, tokens_trail.
  Qed.

  Lemma no_symbol : forall s, existsb (fun c => is_in c syms) s = false <-> nosyms s.
  Proof.
    intros s. unfold nosyms. induction s as [|c s IH]; cbn [existsb].
    - split; [intros _ c []|reflexivity].
    - rewrite orb_false_iff, IH. split.
      + intros (A & B) d [<- | H]; auto.
      + intros H. split; [apply H; now left|]. intros d Hd. apply H. now right.
  Qed.
  Lemma tokens_plain : forall s, nosyms s -> strip s <> [] -> tokens s = [strip s].
  Proof.
    intros s N V. unfold tokens. rewrite <- (app_nil_r s) at 1. rewrite split_prefix by exact N.
    cbn [split_syms hd tl filter]. rewrite app_nil_r. unfold visible.
    destruct (strip s) eqn:E; [contradiction|]. cbn [map]. now rewrite E.
  Qed.

  Lemma split_tokens : forall s, tokens s <> [] -> map strip (split_operations syms s) = tokens s.
  Proof.
    intros s V. unfold split_operations.
    destruct (existsb (fun c => is_in c syms) (strip s)) eqn:X.
    - change (map strip (filter visible (split_syms syms (strip s))) = tokens s).
      exact (tokens_strip s).
    - apply no_symbol in X. cbn [map]. rewrite strip_idem.
      rewrite <- (tokens_strip s). rewrite tokens_plain; rewrite ?strip_idem; try assumption; [reflexivity|].
      intros E. apply V. rewrite <- tokens_strip, E. reflexivity.
  Qed.

  (** * Runs of pieces without parentheses *)

  Definition flat (p : piece) : Prop := match p with PcSub _ => False | _ => True end.
  Definition token (p : piece) : list ascii :=
    match p with PcItem _ t _ => t | PcOp _ c _ => [c] | PcSub _ => [] end.

  Lemma op_strip : forall c, In c syms -> strip [c] = [c].
  Proof. intros c H. apply syms_ok in H. destruct H as [<- | [<- | [<- | []]]]; reflexivity. Qed.

  Lemma tokens_op : forall x c s, nosyms x -> In c syms ->
    tokens (x ++ c :: s) = (if visible x then [strip x] else []) ++ [c] :: tokens s.
  Proof.
    intros x c s N C. unfold tokens. rewrite split_prefix by exact N.
    cbn [split_syms]. rewrite (proj2 (is_in_iff c syms) C). cbn [hd tl filter]. rewrite app_nil_r.
    assert (W : visible [c] = true) by (unfold visible; now rewrite (op_strip c C)).
    rewrite W. destruct (visible x); cbn [map app]; rewrite (op_strip c C); reflexivity.
  Qed.

  Lemma tokens_run : forall r rest, ok (r ++ rest) -> (forall p, In p r -> flat p) ->
    tokens (ptexts r) = map token r.
  Proof.
    induction r as [|p r IH]; intros rest H F; [reflexivity|].
    assert (F' : forall p, In p r -> flat p) by (intros q Hq; apply F; now right).
    cbn [app] in H. inversion H; subst.
    - rename H2 into A, H3 into B, H4 into I0, H5 into Nx, H6 into Hr.
      cbn [ptexts flat_map ptext map token]. fold (ptexts r).
      destruct r as [|p2 r].
      + cbn [ptexts flat_map map]. rewrite app_nil_r. rewrite tokens_plain.
        * now rewrite strip_item.
        * apply nosyms_app; [now apply spaces_nosyms|]. apply nosyms_app; [now apply item_nosyms|now apply spaces_nosyms].
        * rewrite strip_item by assumption. exact (proj1 I0).
      + cbn [app next_op] in Nx. destruct p2 as [| a2 c2 b2|]; try contradiction.
        cbn [app] in Hr. inversion Hr; subst.
        specialize (IH rest Hr F'). cbn [ptexts flat_map ptext map token] in IH |- *.
        fold (ptexts r) in IH |- *. rewrite <- !app_assoc in IH |- *. cbn [app] in IH |- *.
        rewrite tokens_op in IH; [|now apply spaces_nosyms|assumption].
        unfold visible in IH. rewrite strip_blank in IH by assumption. cbn [app] in IH.
        transitivity (tokens ((a ++ t ++ b ++ a2) ++ c2 :: (b2 ++ ptexts r))).
        { f_equal. rewrite <- !app_assoc. reflexivity. }
        rewrite tokens_op; [| |assumption].
        2: { repeat apply nosyms_app; try (now apply spaces_nosyms). now apply item_nosyms. }
        rewrite IH. unfold visible.
        rewrite strip_item by (try assumption; now apply spaces_app).
        pose proof (proj1 I0) as Nt. destruct t; [contradiction|reflexivity].
    - cbn [ptexts flat_map ptext map token]. fold (ptexts r). rewrite <- app_assoc. cbn [app].
      rewrite tokens_op; [|now apply spaces_nosyms|assumption].
      unfold visible. rewrite strip_blank by assumption. cbn [app]. f_equal.
      rewrite tokens_lead by assumption. now apply IH with rest.
    - exfalso. exact (F _ (or_introl eq_refl)).
  Qed.
End Lex.
