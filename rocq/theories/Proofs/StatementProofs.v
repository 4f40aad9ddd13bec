(** Matching the registered patterns against sentences with unknown parts. *)
From Coq Require Import List Bool Arith Lia Ascii String ZArith.
From Verif Require Import Model.Base Model.Anchored Model.Statement Spec.StatementSpec.
From Verif Require Model.Duration.
Import ListNotations.
Local Open Scope list_scope.
Local Open Scope nat_scope.

(** * The matcher *)

Lemma greedy_some : forall (A : Type) ok (k : list ascii -> option A) s m r,
  greedy ok k s = Some (m, r) ->
  exists rest, s = m ++ rest /\ m <> [] /\ k rest = Some r /\ forallb ok m = true.
Proof.
  intros A ok k s. induction s as [|c s IH]; intros m r H; [discriminate|].
  cbn [greedy] in H. destruct (ok c) eqn:O; [|discriminate].
  destruct (greedy ok k s) as [[m' r']|] eqn:G.
  - injection H as <- <-. destruct (IH m' r' eq_refl) as (rest & E & _ & K & F).
    exists rest. split; [cbn; now rewrite E|]. split; [discriminate|]. split; [exact K|].
    cbn. now rewrite O, F.
  - destruct (k s) as [r'|] eqn:K; [|discriminate]. injection H as <- <-.
    exists s. split; [reflexivity|]. split; [discriminate|]. split; [exact K|]. cbn. now rewrite O.
Qed.

Lemma greedy_none : forall (A : Type) ok (k : list ascii -> option A) s,
  (forall m rest, s = m ++ rest -> m <> [] -> forallb ok m = true -> k rest = None) ->
  greedy ok k s = None.
Proof.
  intros A ok k s H. destruct (greedy ok k s) as [[m r]|] eqn:G; [|reflexivity].
  destruct (greedy_some A ok k s m r G) as (rest & E & N & K & F).
  rewrite (H m rest E N F) in K. discriminate.
Qed.

Lemma greedy_last : forall (A : Type) ok (k : list ascii -> option A) m rest r,
  m <> [] -> forallb ok m = true -> k rest = Some r ->
  (forall m' rest', rest = m' ++ rest' -> m' <> [] -> forallb ok m' = true -> k rest' = None) ->
  greedy ok k (m ++ rest) = Some (m, r).
Proof.
  intros A ok k m. induction m as [|c m IH]; intros rest r N O K L; [congruence|].
  cbn [forallb] in O. apply andb_true_iff in O. destruct O as [Oc Om].
  cbn [app greedy]. rewrite Oc. destruct m as [|d m].
  - cbn [app]. rewrite (greedy_none A ok k rest L), K. reflexivity.
  - rewrite (IH rest r); try assumption; try discriminate. reflexivity.
Qed.

Lemma put_some : forall g o r, put g o = Some r -> exists m r', o = Some (m, r') /\ r = (g, m) :: r'.
Proof. intros g [[m r']|] r H; [|discriminate]. injection H as <-. eauto. Qed.

Lemma strip_some : forall t s rest, strip_prefix t s = Some rest <-> s = t ++ rest.
Proof.
  induction t as [|c t IH]; intros s rest; cbn [strip_prefix app].
  - split; [now injection 1|now intros ->].
  - destruct s as [|d s]; [split; discriminate|]. destruct (Ascii.eqb_spec c d) as [<-|N].
    + rewrite IH. split; [now intros ->|now injection 1].
    + split; [discriminate|]. injection 1 as E _. congruence.
Qed.

Lemma alternatives_some : forall (A : Type) (k : list ascii -> option A) s ss m r,
  alternatives k s ss = Some (m, r) -> exists rest, In m ss /\ s = m ++ rest /\ k rest = Some r.
Proof.
  intros A k s ss. induction ss as [|t ss IH]; intros m r H; [discriminate|].
  cbn [alternatives] in H. destruct (strip_prefix t s) as [rest|] eqn:S.
  - destruct (k rest) as [r'|] eqn:K.
    + injection H as <- <-. exists rest. split; [now left|]. split; [now apply strip_some|exact K].
    + destruct (IH m r H) as (rest' & I & E & K'). exists rest'. split; [now right|]. now split.
  - destruct (IH m r H) as (rest' & I & E & K'). exists rest'. split; [now right|]. now split.
Qed.

(** * Quotes *)

Definition is_quote (c : ascii) : bool := Ascii.eqb c quote.
Definition quotes (s : list ascii) : nat := length (filter is_quote s).
Lemma quotes_app : forall a b, quotes (a ++ b) = quotes a + quotes b.
Proof. intros a b. unfold quotes. rewrite filter_app, app_length. reflexivity. Qed.
Lemma quotes_free : forall s, ~ In quote s -> quotes s = 0.
Proof.
  induction s as [|c s IH]; intros H; [reflexivity|]. unfold quotes. cbn [filter].
  unfold is_quote at 1. destruct (Ascii.eqb_spec c quote) as [->|N]; [elim H; now left|].
  apply IH. intros I. apply H. now right.
Qed.
Lemma quotes_in : forall s, quotes s = 0 -> ~ In quote s.
Proof.
  induction s as [|c s IH]; intros H; [intros [] |]. intros [E | I].
  - subst c. discriminate.
  - apply (IH); [|exact I]. unfold quotes in *. cbn [filter] in H. destruct (is_quote c); [discriminate|exact H].
Qed.

(** The quotes a match needs. *)
Fixpoint needed (p : pattern) : nat :=
  match p with
  | [] => 0
  | PChar c :: p => (if is_quote c then 1 else 0) + needed p
  | _ :: p => needed p
  end.
Lemma needed_ok : forall p s r, fullmatch p s = Some r -> needed p <= quotes s.
Proof.
  induction p as [|x p IH]; intros s r H; [cbn; lia|].
  destruct x as [c|g|g|g ss|t]; cbn [fullmatch needed] in *.
  - destruct s as [|d s]; [discriminate|]. destruct (Ascii.eqb_spec c d) as [<-|N]; [|discriminate].
    specialize (IH s r H). unfold quotes in *. cbn [filter]. destruct (is_quote c); cbn [length]; lia.
  - apply put_some in H. destruct H as (m & r' & H & _). apply greedy_some in H.
    destruct H as (rest & -> & _ & K & _). specialize (IH rest r' K). rewrite quotes_app. lia.
  - apply put_some in H. destruct H as (m & r' & H & _). apply greedy_some in H.
    destruct H as (rest & -> & _ & K & _). specialize (IH rest r' K). rewrite quotes_app. lia.
  - apply put_some in H. destruct H as (m & r' & H & _). apply alternatives_some in H.
    destruct H as (rest & _ & -> & K). specialize (IH rest r' K). rewrite quotes_app. lia.
  - destruct (strip_prefix t s) as [rest|] eqn:S; [|now apply IH in H].
    destruct (fullmatch p rest) as [r'|] eqn:F; [|now apply IH in H].
    apply strip_some in S. subst s. specialize (IH rest r' F). rewrite quotes_app. lia.
Qed.

(** Patterns that match no string with a quote. *)
Fixpoint closed (p : pattern) : bool :=
  match p with
  | [] => true
  | PChar c :: p => negb (is_quote c) && closed p
  | POpt t :: p => (quotes t =? 0) && closed p
  | _ => false
  end.
Lemma closed_ok : forall p s r, closed p = true -> fullmatch p s = Some r -> quotes s = 0.
Proof.
  induction p as [|x p IH]; intros s r C H.
  - cbn in H. destruct s; [reflexivity|discriminate].
  - destruct x as [c|g|g|g ss|t]; cbn [closed fullmatch] in *; try discriminate.
    + apply andb_true_iff in C. destruct C as [Q C].
      destruct s as [|d s]; [discriminate|]. destruct (Ascii.eqb_spec c d) as [<-|N]; [|discriminate].
      specialize (IH s r C H). unfold quotes in *. cbn [filter]. destruct (is_quote c); [discriminate|exact IH].
    + apply andb_true_iff in C. destruct C as [Q C]. apply Nat.eqb_eq in Q.
      destruct (strip_prefix t s) as [rest|] eqn:S; [|now apply (IH s r C)].
      destruct (fullmatch p rest) as [r'|] eqn:F; [|now apply (IH s r C)].
      apply strip_some in S. subst s. specialize (IH rest r' C F). rewrite quotes_app. lia.
Qed.

(** * Sentences with unknown parts *)

(** Unknown parts: a word, a word without [and], the digits of a number, or several names. *)
Inductive kind : Type := Word | LastWord | Digits | Names.
Inductive seg : Type := SC (c : ascii) | SV (k : kind) (x : list ascii).

Definition seg_text (g : seg) : list ascii := match g with SC c => [c] | SV _ x => x end.
Fixpoint text (sh : list seg) : list ascii :=
  match sh with
  | [] => []
  | [g] => seg_text g
  | g :: sh => seg_text g ++ text sh
  end.
Lemma text_cons : forall g sh, text (g :: sh) = seg_text g ++ text sh.
Proof. intros g [|h sh]; [cbn; now rewrite app_nil_r|reflexivity]. Qed.
Lemma text_app : forall a b, text (a ++ b) = text a ++ text b.
Proof.
  induction a as [|g a IH]; intros b; [reflexivity|]. cbn [app]. now rewrite !text_cons, IH, app_assoc.
Qed.

Definition dots (s : list ascii) : Prop := forallb dot s = true.
Definition good (g : seg) : Prop :=
  match g with
  | SC c => dot c = true
  | SV k x => x <> [] /\ dots x /\
      match k with
      | Word => ~ In quote x
      | LastWord => ~ In quote x /\ no_and x
      | Digits => forallb Duration.is_digit x = true
      | Names => True
      end
  end.
Definition fine (sh : list seg) : Prop := Forall good sh.

Lemma digits_quotes : forall x, forallb Duration.is_digit x = true -> quotes x = 0.
Proof.
  induction x as [|c x IH]; intros H; [reflexivity|]. cbn [forallb] in H. apply andb_true_iff in H.
  destruct H as [D H]. unfold quotes. cbn [filter]. unfold is_quote at 1.
  destruct (Ascii.eqb_spec c quote) as [->|N]; [discriminate|]. exact (IH H).
Qed.
Lemma good_text : forall g, good g -> seg_text g <> [] /\ dots (seg_text g).
Proof.
  intros [c|k x] H; cbn in *.
  - split; [discriminate|]. unfold dots. cbn. now rewrite H.
  - tauto.
Qed.
Lemma fine_dots : forall sh, fine sh -> dots (text sh).
Proof.
  induction sh as [|g sh IH]; intros H; [reflexivity|]. inversion_clear H as [|? ? G F].
  rewrite text_cons. unfold dots. rewrite forallb_app. apply andb_true_iff. split.
  - apply (proj2 (good_text g G)).
  - exact (IH F).
Qed.
Lemma fine_some : forall g sh, fine (g :: sh) -> text (g :: sh) <> [].
Proof.
  intros g sh H. inversion_clear H as [|? ? G F]. rewrite text_cons.
  intros E. apply app_eq_nil in E. now apply (good_text g G).
Qed.

(** The quotes of a sentence, when they can be counted. *)
Fixpoint count (sh : list seg) : option nat :=
  match sh with
  | [] => Some 0
  | SC c :: sh => match count sh with Some n => Some ((if is_quote c then 1 else 0) + n) | None => None end
  | SV Names _ :: _ => None
  | SV _ _ :: sh => count sh
  end.
Lemma count_ok : forall sh n, fine sh -> count sh = Some n -> quotes (text sh) = n.
Proof.
  induction sh as [|g sh IH]; intros n F C; [cbn in C; now injection C|].
  inversion_clear F as [|? ? G Fs]. rewrite text_cons, quotes_app.
  destruct g as [c|k x]; cbn [count seg_text] in *.
  - destruct (count sh) as [m|]; [|discriminate]. injection C as <-. rewrite (IH m Fs eq_refl).
    unfold quotes. cbn [filter]. destruct (is_quote c); reflexivity.
  - destruct G as (_ & _ & G). destruct k; try discriminate; rewrite (IH n Fs C).
    + now rewrite (quotes_free x G).
    + now rewrite (quotes_free x (proj1 G)).
    + now rewrite (digits_quotes x G).
Qed.

(** * Deciding a match *)

Inductive verdict : Type := Yes (r : groups) | No | Unclear.
Definition with_group (g : string) (x : list ascii) (v : verdict) : verdict :=
  match v with Yes r => Yes ((g, x) :: r) | v => v end.

(** A literal at the beginning of a sentence. *)
Inductive begun : Type := Rest (sh : list seg) | Differs | Open.
Fixpoint begins (t : list ascii) (sh : list seg) : begun :=
  match t with
  | [] => Rest sh
  | c :: t => match sh with
              | [] => Differs
              | SC d :: sh => if Ascii.eqb c d then begins t sh else Differs
              | SV _ _ :: _ => Open
              end
  end.
Lemma begins_ok : forall t sh, match begins t sh with
                               | Rest sh' => strip_prefix t (text sh) = Some (text sh') /\
                                             (fine sh -> fine sh')
                               | Differs => strip_prefix t (text sh) = None
                               | Open => True
                               end.
Proof.
  induction t as [|c t IH]; intros sh; [now split|]. cbn [begins strip_prefix].
  destruct sh as [|[d|k x] sh]; [reflexivity| |exact I].
  rewrite text_cons. cbn [seg_text app]. destruct (Ascii.eqb c d); [|reflexivity].
  specialize (IH sh). destruct (begins t sh) as [sh'| |]; [|exact IH|exact I].
  destruct IH as [E F]. split; [exact E|]. intros H. inversion_clear H. auto.
Qed.

(** The sentence cut at its last quote, when nothing after it can have one. *)
Fixpoint cut (sh : list seg) : option (list seg * list seg) :=
  match sh with
  | [] => None
  | g :: sh =>
      match cut sh with
      | Some (a, b) => Some (g :: a, b)
      | None => match g with
                | SC c => if is_quote c then match count sh with Some 0 => Some ([], sh) | _ => None end
                          else None
                | _ => None
                end
      end
  end.
Lemma cut_ok : forall sh a b, cut sh = Some (a, b) -> sh = a ++ SC quote :: b /\ count b = Some 0.
Proof.
  induction sh as [|g sh IH]; intros a b H; [discriminate|]. cbn [cut] in H.
  destruct (cut sh) as [[a' b']|] eqn:C.
  - injection H as <- <-. destruct (IH a' b' eq_refl) as [-> N]. now split.
  - destruct g as [c|k x]; [|discriminate]. unfold is_quote in H.
    destruct (Ascii.eqb_spec c quote) as [->|N]; [|discriminate].
    destruct (count sh) as [[|n]|] eqn:K; try discriminate. injection H as <- <-. now split.
Qed.

(** The fixed characters a pattern is made of. *)
Fixpoint fixed (p : pattern) : option (list ascii) :=
  match p with
  | [] => Some []
  | PChar c :: p => match fixed p with Some t => Some (c :: t) | None => None end
  | _ => None
  end.
Lemma fixed_ok : forall p t, fixed p = Some t -> forall s,
  (s = t -> fullmatch p s = Some []) /\ (s <> t -> fullmatch p s = None).
Proof.
  induction p as [|x p IH]; intros t H s.
  - injection H as <-. cbn. destruct s; split; congruence.
  - destruct x as [c|g|g|g ss|o]; try discriminate. cbn [fixed] in H.
    destruct (fixed p) as [t'|] eqn:F; [|discriminate]. injection H as <-. cbn [fullmatch].
    destruct s as [|d s]; [split; congruence|]. destruct (IH t' eq_refl s) as [Y N].
    destruct (Ascii.eqb_spec c d) as [<-|D].
    + split; [injection 1 as E; auto|]. intros E. apply N. congruence.
    + split; [|reflexivity]. injection 1 as E _. congruence.
Qed.
Definition chars_of (sh : list seg) : option (list ascii) :=
  fold_right (fun g o => match g, o with SC c, Some t => Some (c :: t) | _, _ => None end) (Some []) sh.
Lemma chars_ok : forall sh t, chars_of sh = Some t -> text sh = t /\ length sh = length t.
Proof.
  induction sh as [|g sh IH]; intros t H; [injection H as <-; now split|].
  cbn in H. destruct g as [c|k x]; [|discriminate]. destruct (chars_of sh) as [t'|] eqn:C.
  - fold (chars_of sh) in H. rewrite C in H. injection H as <-. destruct (IH t' eq_refl) as [<- L].
    rewrite text_cons. cbn [seg_text app length]. now rewrite L.
  - fold (chars_of sh) in H. rewrite C in H. discriminate.
Qed.

Definition and_word : list ascii := txt " and ".
Definition word_kind (k : kind) : bool := match k with Names => false | _ => true end.

(** Any characters, then the pattern [p]. *)
Section AnyThen.
  Variable solve : list seg -> verdict.        (* for [p] without its first character *)
  Variable g : string.
  Definition solve_any (p : pattern) (sh : list seg) : verdict :=
    match p with
    | [] => match sh with [] => No | _ => Yes [(g, text sh)] end
    | PChar q :: p' =>
        if is_quote q then
          match sh with
          | SV k x :: SC q' :: tail =>
              if word_kind k && is_quote q' &&
                 match count tail with Some n => n <=? needed p' | None => false end
              then with_group g x (solve tail)
              else if closed p' then
                     match cut sh with
                     | Some (a, b) => match a with [] => Unclear | _ => with_group g (text a) (solve b) end
                     | None => Unclear
                     end
                   else Unclear
          | _ => if closed p' then
                   match cut sh with
                   | Some (a, b) => match a with [] => Unclear | _ => with_group g (text a) (solve b) end
                   | None => Unclear
                   end
                 else Unclear
          end
        else
          match fixed p with
          | Some t =>
              let n := length sh - length t in
              match chars_of (skipn n sh) with
              | Some t' =>
                  if length t =? length t' then
                    match firstn n sh with
                    | [] => Unclear
                    | a => if list_eq_dec ascii_dec t t' then Yes [(g, text a)] else No
                    end
                  else Unclear
              | None => Unclear
              end
          | None =>
              match p, sh with
              | [PChar c1; PChar c2; PChar c3; PChar c4; PChar c5; PAny h],
                [SV _ a; SC d1; SC d2; SC d3; SC d4; SC d5; SV LastWord b] =>
                  if list_eq_dec ascii_dec [c1; c2; c3; c4; c5] and_word then
                    if list_eq_dec ascii_dec [d1; d2; d3; d4; d5] and_word then
                      Yes [(g, a); (h, b)]
                    else Unclear
                  else Unclear
              | _, _ => Unclear
              end
          end
    | _ => Unclear
    end.
End AnyThen.

Fixpoint solve (p : pattern) (sh : list seg) {struct p} : verdict :=
  match p with
  | [] => match sh with [] => Yes [] | _ => No end
  | PChar c :: p =>
      match sh with
      | [] => No
      | SC d :: sh => if Ascii.eqb c d then solve p sh else No
      | SV Digits _ :: _ => if Duration.is_digit c then Unclear else No
      | SV _ _ :: _ => Unclear
      end
  | PAny g :: p => solve_any (fun sh => match p with _ :: p' => solve p' sh | [] => Unclear end) g p sh
  | PDigits g :: p =>
      match sh with
      | SC d :: _ => if Duration.is_digit d then Unclear else No
      | SV Digits x :: SC d :: sh' =>
          if Duration.is_digit d then Unclear
          else match p with
               | PChar c :: _ => if Duration.is_digit c then Unclear
                                 else with_group g x (solve p (SC d :: sh'))
               | _ => Unclear
               end
      | _ => Unclear
      end
  | PAlt g ss :: p =>
      (fix go (ss : list (list ascii)) : verdict :=
         match ss with
         | [] => No
         | t :: ss => match begins t sh with
                      | Open => Unclear
                      | Differs => go ss
                      | Rest sh' => match solve p sh' with
                                    | Yes r => Yes ((g, t) :: r)
                                    | No => go ss
                                    | Unclear => Unclear
                                    end
                      end
         end) ss
  | POpt t :: p =>
      match begins t sh with
      | Open => Unclear
      | Differs => solve p sh
      | Rest sh' => match solve p sh' with
                    | Yes r => Yes r
                    | No => solve p sh
                    | Unclear => Unclear
                    end
      end
  end.

Definition decides (v : verdict) (o : option groups) : Prop :=
  match v with Yes r => o = Some r | No => o = None | Unclear => True end.

Lemma first_split : forall (q : ascii) x T m R, ~ In q x -> x ++ q :: T = m ++ q :: R ->
  (m = x /\ R = T) \/ exists y, m = x ++ q :: y /\ T = y ++ q :: R.
Proof.
  intros q x. induction x as [|c x IH]; intros T m R N E.
  - cbn [app] in E. destruct m as [|d m].
    + left. cbn in E. injection E as E. now split.
    + right. cbn in E. injection E as <- E. exists m. now split.
  - destruct m as [|d m].
    + cbn in E. injection E as E _. elim N. now left.
    + cbn in E. injection E as <- E. destruct (IH T m R) as [[-> ->]|(y & -> & ->)].
      * intros I. apply N. now right.
      * exact E.
      * now left.
      * right. exists y. now split.
Qed.

Lemma last_split : forall (q : ascii) A B m R, ~ In q B -> A ++ q :: B = m ++ q :: R ->
  (m = A /\ R = B) \/ exists y, A = m ++ q :: y /\ R = y ++ q :: B.
Proof.
  intros q A. induction A as [|c A IH]; intros B m R N E.
  - cbn [app] in E. destruct m as [|d m].
    + left. cbn in E. injection E as E. now split.
    + cbn in E. injection E as <- E. elim N. rewrite E. apply in_or_app. right. now left.
  - destruct m as [|d m].
    + right. cbn in E. injection E as <- E. exists A. now split.
    + cbn in E. injection E as <- E. destruct (IH B m R N E) as [[-> ->]|(y & -> & ->)].
      * now left.
      * right. exists y. now split.
Qed.

Lemma char_match : forall c p s r, fullmatch (PChar c :: p) s = Some r ->
  exists s', s = c :: s' /\ fullmatch p s' = Some r.
Proof.
  intros c p [|d s] r H; [discriminate|]. cbn [fullmatch] in H.
  destruct (Ascii.eqb_spec c d) as [<-|N]; [|discriminate]. eauto.
Qed.
Lemma char_here : forall c p s, fullmatch (PChar c :: p) (c :: s) = fullmatch p s.
Proof. intros c p s. cbn [fullmatch]. now rewrite Ascii.eqb_refl. Qed.

Lemma none_or : forall (A : Type) (o : option A), (forall r, o <> Some r) -> o = None.
Proof. intros A [r|] H; [now elim (H r)|reflexivity]. Qed.

Lemma fine_app : forall a b, fine (a ++ b) <-> fine a /\ fine b.
Proof. intros a b. apply Forall_app. Qed.

(** Rule A *)
Lemma any_first : forall g p x T v, x <> [] -> dots x -> ~ In quote x -> quotes T <= needed p ->
  decides v (fullmatch p T) ->
  decides (with_group g x v) (fullmatch (PAny g :: PChar quote :: p) (x ++ quote :: T)).
Proof.
  intros g p x T v X D Q N V.
  assert (L : forall y R, T = y ++ quote :: R -> fullmatch p R = None).
  { intros y R E. apply none_or. intros r F. apply needed_ok in F.
    rewrite E, quotes_app in N. unfold quotes in N at 2. cbn [filter] in N.
    change (is_quote quote) with true in N. cbn [length] in N. unfold quotes in *. lia. }
  destruct v as [r| |]; cbn [with_group decides] in *; [| |exact I].
  - change (put g (greedy dot (fullmatch (PChar quote :: p)) (x ++ quote :: T)) = Some ((g, x) :: r)).
    rewrite (greedy_last _ dot _ x (quote :: T) r); [reflexivity| | | |]; try assumption.
    intros m' R E M _. apply none_or. intros r' F. apply char_match in F.
      destruct F as (R' & -> & F). destruct m' as [|c m']; [congruence|].
      cbn [app] in E. injection E as <- E. rewrite (L m' R' E) in F. discriminate.
  - change (put g (greedy dot (fullmatch (PChar quote :: p)) (x ++ quote :: T)) = None).
    rewrite greedy_none; [reflexivity|].
    intros m R E M _. apply none_or. intros r' F. apply char_match in F.
    destruct F as (R' & -> & F). apply first_split in E; [|exact Q].
    destruct E as [[-> ->]|(y & -> & E)]; [congruence|]. rewrite (L y R' E) in F. discriminate.
Qed.

(** Rule B *)
Lemma any_last : forall g p A B v, A <> [] -> dots A -> quotes B = 0 -> closed p = true ->
  decides v (fullmatch p B) ->
  decides (with_group g A v) (fullmatch (PAny g :: PChar quote :: p) (A ++ quote :: B)).
Proof.
  intros g p A B v X D Q C V. pose proof (quotes_in B Q) as QB.
  destruct v as [r| |]; cbn [with_group decides] in *; [| |exact I].
  - change (put g (greedy dot (fullmatch (PChar quote :: p)) (A ++ quote :: B)) = Some ((g, A) :: r)).
    rewrite (greedy_last _ dot _ A (quote :: B) r); [reflexivity| | | |]; try assumption.
    intros m' R E M _. apply none_or. intros r' F. apply char_match in F.
      destruct F as (R' & -> & F). destruct m' as [|c m']; [congruence|].
      cbn [app] in E. injection E as <- E. elim QB. rewrite E. apply in_or_app. right. now left.
  - change (put g (greedy dot (fullmatch (PChar quote :: p)) (A ++ quote :: B)) = None).
    rewrite greedy_none; [reflexivity|].
    intros m R E M _. apply none_or. intros r' F. apply char_match in F.
    destruct F as (R' & -> & F). apply last_split in E; [|exact QB].
    destruct E as [[-> ->]|(y & -> & ->)]; [congruence|].
    apply closed_ok in F; [|exact C]. rewrite quotes_app in F. unfold quotes in F at 2.
    cbn [filter] in F. change (is_quote quote) with true in F. cbn [length] in F. lia.
Qed.

(** Rule C *)
Lemma any_fixed : forall g p t A t', fixed p = Some t -> A <> [] -> dots A ->
  length t = length t' ->
  fullmatch (PAny g :: p) (A ++ t') = if list_eq_dec ascii_dec t t' then Some [(g, A)] else None.
Proof.
  intros g p t A t' F X D L.
  change (put g (greedy dot (fullmatch p) (A ++ t')) = if list_eq_dec ascii_dec t t' then Some [(g, A)] else None).
  destruct (list_eq_dec ascii_dec t t') as [Et|N].
  - subst t'. rewrite (greedy_last _ dot (fullmatch p) A t []); [reflexivity| | | |]; try assumption.
    + now apply (fixed_ok p t F t).
    + intros m' R E M _. apply (fixed_ok p t F R). intros ->.
      apply (f_equal (@length ascii)) in E. rewrite app_length in E. destruct m'; [congruence|]. cbn in E. lia.
  - rewrite greedy_none; [reflexivity|]. intros m R E M _. apply (fixed_ok p t F R). intros ->.
    apply N. clear - E L. revert m E. induction A as [|c A IH]; intros m E.
    + cbn [app] in E. pose proof (f_equal (@length ascii) E) as EL. rewrite app_length in EL.
      destruct m; [cbn in E; congruence|]. cbn in EL. lia.
    + destruct m as [|d m].
      * cbn [app] in E. pose proof (f_equal (@length ascii) E) as EL.
        cbn [length] in EL. rewrite app_length in EL. lia.
      * cbn [app] in E. injection E as _ E. exact (IH m E).
Qed.

(** The rule for [between] *)
Lemma any_and : forall g h a b, a <> [] -> dots a -> b <> [] -> dots b -> no_and b ->
  fullmatch (PAny g :: lit " and " ++ [PAny h]) (a ++ and_word ++ b) = Some [(g, a); (h, b)].
Proof.
  intros g h a b A DA B DB N.
  change (put g (greedy dot (fullmatch (lit " and " ++ [PAny h])) (a ++ and_word ++ b)) = Some [(g, a); (h, b)]).
  rewrite (greedy_last _ dot _ a (and_word ++ b) [(h, b)]); [reflexivity| | | |]; try assumption.
  - change (fullmatch (lit " and " ++ [PAny h]) (and_word ++ b)) with
      (put h (greedy dot (fullmatch []) b)).
    rewrite <- (app_nil_r b) at 1. rewrite (greedy_last _ dot (fullmatch []) b [] []); [reflexivity| | |reflexivity|]; try assumption.
    intros m' R E M _. symmetry in E. apply app_eq_nil in E. tauto.
  - intros m' R E M _. apply none_or. intros r F.
    assert (Rr : exists b', R = and_word ++ b').
    { change (lit " and " ++ [PAny h]) with
        [PChar " "%char; PChar "a"%char; PChar "n"%char; PChar "d"%char; PChar " "%char; PAny h] in F.
      do 5 (apply char_match in F; destruct F as (? & -> & F)). eexists. reflexivity. }
    destruct Rr as [b' ->]. change (and_word ++ b) with (" " :: "a" :: "n" :: "d" :: " " :: b)%char in E.
    destruct m' as [|c1 m']; [congruence|]. cbn [app] in E. injection E as _ E.
    destruct m' as [|c2 m']; [discriminate|]. cbn [app] in E. injection E as _ E.
    destruct m' as [|c3 m']; [discriminate|]. cbn [app] in E. injection E as _ E.
    destruct m' as [|c4 m']; [discriminate|]. cbn [app] in E. injection E as _ E.
    exact (N m' b' E).
Qed.

Lemma is_quote_eq : forall c, is_quote c = true -> c = quote.
Proof. intros c H. unfold is_quote in H. now apply Ascii.eqb_eq in H. Qed.

Lemma any_cut : forall g p sh, fine sh -> closed p = true ->
  (forall sh, fine sh -> decides (solve p sh) (fullmatch p (text sh))) ->
  decides (match cut sh with
           | Some (a, b) => match a with [] => Unclear | _ => with_group g (text a) (solve p b) end
           | None => Unclear
           end) (fullmatch (PAny g :: PChar quote :: p) (text sh)).
Proof.
  intros g p sh F C IH. destruct (cut sh) as [[a b]|] eqn:K; [|exact I].
  apply cut_ok in K. destruct K as [-> K]. apply fine_app in F. destruct F as [Fa Fb].
  inversion_clear Fb as [|? ? _ Fb']. destruct a as [|x a]; [exact I|].
  rewrite text_app, (text_cons (SC quote) b). cbn [seg_text].
  change ([quote] ++ text b) with (quote :: text b). apply any_last.
  - apply fine_some. exact Fa.
  - apply fine_dots. exact Fa.
  - exact (count_ok b 0 Fb' K).
  - exact C.
  - exact (IH b Fb').
Qed.

Lemma seg_word : forall k x, word_kind k = true -> good (SV k x) -> ~ In quote x.
Proof.
  intros k x W (_ & _ & G). destruct k; try discriminate.
  - exact G.
  - exact (proj1 G).
  - apply quotes_in. exact (digits_quotes x G).
Qed.

Lemma any_ok : forall g p sh, fine sh ->
  (forall c p', p = PChar c :: p' -> forall sh, fine sh -> decides (solve p' sh) (fullmatch p' (text sh))) ->
  decides (solve (PAny g :: p) sh) (fullmatch (PAny g :: p) (text sh)).
Proof.
  intros g p sh F IH.
  change (solve (PAny g :: p) sh) with
    (solve_any (fun sh => match p with _ :: p' => solve p' sh | [] => Unclear end) g p sh).
  destruct p as [|x p']; [|destruct x as [q|h|h|h ss|t]; try exact I].
  - cbn [solve_any]. destruct sh as [|s sh]; [reflexivity|]. cbn [decides].
    change (put g (greedy dot (fullmatch []) (text (s :: sh))) = Some [(g, text (s :: sh))]).
    rewrite <- (app_nil_r (text (s :: sh))) at 1.
    rewrite (greedy_last _ dot (fullmatch []) (text (s :: sh)) [] []); [reflexivity| | |reflexivity|].
    + apply fine_some. exact F.
    + apply fine_dots. exact F.
    + intros m' R E M _. symmetry in E. apply app_eq_nil in E. tauto.
  - specialize (IH q p' eq_refl). cbn [solve_any]. destruct (is_quote q) eqn:Q.
    + apply is_quote_eq in Q. subst q.
      assert (CUT : decides (if closed p' then
                     match cut sh with
                     | Some (a, b) => match a with [] => Unclear | _ => with_group g (text a) (solve p' b) end
                     | None => Unclear
                     end else Unclear) (fullmatch (PAny g :: PChar quote :: p') (text sh))).
      { destruct (closed p') eqn:C; [|exact I]. now apply any_cut. }
      destruct sh as [|[c|k x] sh]; try exact CUT. destruct sh as [|[q'|k' x'] tail]; try exact CUT.
      destruct (word_kind k && is_quote q' && match count tail with Some n => n <=? needed p' | None => false end) eqn:B;
        [|exact CUT]. clear CUT.
      apply andb_true_iff in B. destruct B as [B N]. apply andb_true_iff in B. destruct B as [W Q'].
      apply is_quote_eq in Q'. subst q'. destruct (count tail) as [n|] eqn:K; [|discriminate].
      inversion_clear F as [|? ? Gx Ft]. inversion_clear Ft as [|? ? _ Ft'].
      rewrite !text_cons. cbn [seg_text]. change ([quote] ++ text tail) with (quote :: text tail).
      apply any_first.
      * exact (proj1 Gx).
      * exact (proj1 (proj2 Gx)).
      * exact (seg_word k x W Gx).
      * rewrite (count_ok tail n Ft' K). now apply Nat.leb_le.
      * exact (IH tail Ft').
    + destruct (fixed (PChar q :: p')) as [t|] eqn:Fx.
      * cbv zeta. set (n := length sh - length t).
        destruct (chars_of (skipn n sh)) as [t'|] eqn:Ch; [|exact I].
        destruct (length t =? length t') eqn:L; [|exact I]. apply Nat.eqb_eq in L.
        destruct (firstn n sh) as [|a0 a] eqn:Fi; [exact I|].
        assert (E : text sh = text (a0 :: a) ++ t').
        { rewrite <- Fi. rewrite <- (proj1 (chars_ok _ _ Ch)), <- text_app, firstn_skipn. reflexivity. }
        assert (Fa : fine (a0 :: a)).
        { rewrite <- Fi. apply (fine_app (firstn n sh) (skipn n sh)). now rewrite firstn_skipn. }
        rewrite E, (any_fixed g (PChar q :: p') t (text (a0 :: a)) t' Fx (fine_some a0 a Fa) (fine_dots _ Fa) L).
        destruct (list_eq_dec ascii_dec t t'); reflexivity.
      * destruct p' as [|[c2| | | |] p']; try exact I. destruct p' as [|[c3| | | |] p']; try exact I.
        destruct p' as [|[c4| | | |] p']; try exact I. destruct p' as [|[c5| | | |] p']; try exact I.
        destruct p' as [|[| h | | |] p']; try exact I. destruct p' as [|]; try exact I.
        destruct sh as [|[|k a] sh]; try exact I. destruct sh as [|[d1|] sh]; try exact I.
        destruct sh as [|[d2|] sh]; try exact I. destruct sh as [|[d3|] sh]; try exact I.
        destruct sh as [|[d4|] sh]; try exact I. destruct sh as [|[d5|] sh]; try exact I.
        destruct sh as [|[|k' b] sh]; try exact I. destruct k'; try exact I.
        destruct sh as [|]; [|exact I].
        destruct (list_eq_dec ascii_dec [q; c2; c3; c4; c5] and_word) as [E1|]; [|exact I].
        destruct (list_eq_dec ascii_dec [d1; d2; d3; d4; d5] and_word) as [E2|]; [|exact I].
        injection E1 as -> -> -> -> ->. injection E2 as -> -> -> -> ->.
        inversion_clear F as [|? ? Ga F1]. do 5 (inversion_clear F1 as [|? ? _ F2]; rename F2 into F1).
        inversion_clear F1 as [|? ? Gb _]. destruct Ga as (A1 & A2 & _). destruct Gb as (B1 & B2 & _ & B3).
        exact (any_and g h a b A1 A2 B1 B2 B3).
Qed.

Lemma digits_ok : forall g p sh, fine sh ->
  (forall sh, fine sh -> decides (solve p sh) (fullmatch p (text sh))) ->
  decides (solve (PDigits g :: p) sh) (fullmatch (PDigits g :: p) (text sh)).
Proof.
  intros g p sh F IH.
  change (fullmatch (PDigits g :: p) (text sh)) with (put g (greedy Duration.is_digit (fullmatch p) (text sh))).
  destruct sh as [|[d|k x] sh]; [exact I| |].
  - cbn [solve]. destruct (Duration.is_digit d) eqn:D; [exact I|]. rewrite text_cons. cbn. now rewrite D.
  - destruct k; try exact I. destruct sh as [|[d|k' x'] sh]; try exact I.
    cbn [solve]. destruct (Duration.is_digit d) eqn:D; [exact I|].
    destruct p as [|[c|h|h|h ss|t] p]; try exact I. destruct (Duration.is_digit c) eqn:Cd; [exact I|].
    inversion_clear F as [|? ? Gx Ft]. destruct Gx as (X & _ & Dx).
    specialize (IH (SC d :: sh) Ft). rewrite (text_cons (SV Digits x)). cbn [seg_text].
    set (T := text (SC d :: sh)) in *.
    assert (ET : T = d :: text sh). { unfold T. now rewrite text_cons. }
    destruct (solve (PChar c :: p) (SC d :: sh)) as [r| |]; cbn [with_group decides] in *; [| |exact I].
    + rewrite (greedy_last _ _ _ x T r); [reflexivity| | | |]; try assumption.
      intros m' R E M O. rewrite ET in E. destruct m' as [|c' m']; [congruence|]. cbn [app] in E.
      injection E as <- E. cbn in O. rewrite D in O. discriminate.
    + rewrite greedy_none; [reflexivity|]. intros m R E M O. apply none_or. intros r Fm.
      apply char_match in Fm. destruct Fm as (R' & -> & Fm). rewrite ET in E.
      clear - E IH ET O D Cd Dx Fm. revert m E O. induction x as [|y x IHx]; intros m E O.
      * cbn [app] in E. destruct m as [|c' m].
        { cbn [app] in E. injection E as <- <-. rewrite ET, char_here, Fm in IH. discriminate. }
        { cbn [app] in E. injection E as <- E. cbn in O. rewrite D in O. discriminate. }
      * cbn [forallb] in Dx. apply andb_true_iff in Dx. destruct Dx as [Dy Dx]. destruct m as [|c' m].
        { cbn [app] in E. injection E as <- E. congruence. }
        { cbn [app] in E. injection E as <- E. cbn [forallb] in O. apply andb_true_iff in O.
          exact (IHx Dx m E (proj2 O)). }
Qed.

Lemma solve_ok : forall n p, length p <= n -> forall sh, fine sh ->
  decides (solve p sh) (fullmatch p (text sh)).
Proof.
  induction n as [|n IHn]; intros p Lp sh F.
  - destruct p; [|cbn in Lp; lia]. destruct sh as [|s sh]; [reflexivity|]. cbn [solve decides fullmatch].
    pose proof (fine_some s sh F) as X. destruct (text (s :: sh)); [congruence|reflexivity].
  - destruct p as [|x p].
    { destruct sh as [|s sh]; [reflexivity|]. cbn [solve decides fullmatch].
      pose proof (fine_some s sh F) as X. destruct (text (s :: sh)); [congruence|reflexivity]. }
    cbn [length] in Lp. assert (IH : forall sh, fine sh -> decides (solve p sh) (fullmatch p (text sh))).
    { intros sh' F'. apply IHn; [lia|exact F']. }
    destruct x as [c|g|g|g ss|t].
    + cbn [solve fullmatch]. destruct sh as [|[d|k y] sh]; [reflexivity| |].
      * rewrite text_cons. cbn [seg_text app]. inversion_clear F as [|? ? _ Fs].
        destruct (Ascii.eqb c d); [exact (IH sh Fs)|reflexivity].
      * destruct k; try exact I. destruct (Duration.is_digit c) eqn:D; [exact I|].
        inversion_clear F as [|? ? Gy Fs]. destruct Gy as (Y & _ & Dy). rewrite text_cons. cbn [seg_text].
        destruct y as [|d y]; [congruence|]. cbn [app]. cbn [forallb] in Dy. apply andb_true_iff in Dy.
        destruct (Ascii.eqb_spec c d) as [<-|N]; [|reflexivity]. destruct Dy. congruence.
    + apply any_ok; [exact F|]. intros c p' -> sh' F'. apply IHn; [cbn [length] in Lp; lia|exact F'].
    + apply digits_ok; assumption.
    + cbn [solve fullmatch]. induction ss as [|t ss IHs]; [reflexivity|]. cbn [alternatives].
      pose proof (begins_ok t sh) as B. destruct (begins t sh) as [sh'| |]; [| |exact I].
      * destruct B as [B Fb]. rewrite B. specialize (IH sh' (Fb F)).
        destruct (solve p sh') as [r| |]; cbn [decides] in IH |- *; [| |exact I].
        { now rewrite IH. } { rewrite IH. exact IHs. }
      * rewrite B. exact IHs.
    + cbn [solve fullmatch]. pose proof (begins_ok t sh) as B.
      destruct (begins t sh) as [sh'| |]; [| |exact I].
      * destruct B as [B Fb]. rewrite B. pose proof (IH sh' (Fb F)) as IH'.
        destruct (solve p sh') as [r| |]; cbn [decides] in IH' |- *; [| |exact I].
        { now rewrite IH'. } { rewrite IH'. exact (IH sh F). }
      * rewrite B. exact (IH sh F).
Qed.

(** * The table *)

Fixpoint look (d : list (statement * parser)) (sh : list seg) : option (parser * groups) :=
  match d with
  | [] => None
  | (st, q) :: d =>
      match match st with SPat p => solve p sh | SText t => solve (map PChar t) sh end with
      | Yes r => Some (q, r)
      | No => look d sh
      | Unclear => None
      end
  end.

Lemma fixed_map : forall t, fixed (map PChar t) = Some t.
Proof. induction t as [|c t IH]; [reflexivity|]. cbn. now rewrite IH. Qed.

Lemma text_match : forall t s, matches (SText t) s = fullmatch (map PChar t) s.
Proof.
  intros t s. cbn [matches]. destruct (fixed_ok _ _ (fixed_map t) s) as [Y N].
  destruct (list_eq_dec ascii_dec t s) as [<-|X]; [now rewrite Y|]. now rewrite N by congruence.
Qed.

Lemma look_ok : forall d sh q r, fine sh -> look d sh = Some (q, r) -> find_parser d (text sh) = Some (q, r).
Proof.
  intros d sh q r F. induction d as [|[st q'] d IH]; intros H; [discriminate|].
  cbn [look find_parser] in *.
  assert (M : decides match st with SPat p => solve p sh | SText t => solve (map PChar t) sh end
                (matches st (text sh))).
  { destruct st as [t|p].
    - rewrite text_match. now apply (solve_ok (length (map PChar t))).
    - now apply (solve_ok (length p)). }
  destruct (match st with SPat p => solve p sh | SText t => solve (map PChar t) sh end) as [r'| |];
    cbn [decides] in M; [| |discriminate]; rewrite M.
  - exact H.
  - exact (IH H).
Qed.
