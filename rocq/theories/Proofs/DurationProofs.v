(** Duration strings (C45). *)
From Coq Require Import Bool Arith Lia ZifyBool Ascii String QArith Qabs Qround Lqa.
From Verif Require Import Model.Base Model.Duration Spec.DurationSpec.
Open Scope Z_scope.

(** * Characters *)
Ltac each_char H := cbn in H; repeat (destruct H as [<- | H]; [|]); [..|contradiction].
Lemma digit_facts c : digit_char c -> is_digit c = true /\ is_numeric c = true /\ is_wordbreak c = false /\
  c_eqb c "." = false /\ c_eqb c ":" = false /\ c_eqb c "-" = false /\ c_eqb c "+" = false /\ digit c = place c.
Proof. intros H. cbn in H. repeat (destruct H as [<- | H]; [repeat split; reflexivity|]). contradiction. Qed.
Lemma separator_facts c : separator c -> is_wordbreak c = true /\ is_numeric c = false /\ c_eqb c "-" = false /\ c_eqb c "+" = false.
Proof. intros H. cbn in H. repeat (destruct H as [<- | H]; [repeat split; reflexivity|]). contradiction. Qed.
Definition number_char (c : ascii) : Prop := digit_char c \/ c = "."%char.
Lemma number_char_facts c : number_char c -> is_numeric c = true /\ is_wordbreak c = false /\ c_eqb c ":" = false /\
  c_eqb c "-" = false /\ c_eqb c "+" = false.
Proof. intros [H| ->]; [|now repeat split]. destruct (digit_facts c H) as (_ & ? & ? & _ & ? & ? & ? & _). auto. Qed.
Lemma number_chars n : number_ok n -> Forall number_char (number_text n).
Proof.
  unfold number_char. destruct n as [i|i f]; cbn [number_ok number_text]; intros [_ H].
  - eapply Forall_impl; [|exact H]. auto.
  - apply Forall_app in H as [Hi Hf]. apply Forall_app. split; [eapply Forall_impl; [|exact Hi]; auto|].
    constructor; [auto|]. eapply Forall_impl; [|exact Hf]; auto.
Qed.
Lemma number_nonempty n : number_ok n -> number_text n <> [].
Proof. destruct n as [i|i f]; cbn; intros [H _]; [exact H|]. now destruct i. Qed.

(** * Reading *)
Lemma skip_seps seps c rest : Forall separator seps -> is_wordbreak c = false ->
  skip_wordbreak (seps ++ c :: rest) = Ok (c :: rest).
Proof.
  intros S C. induction S as [|x seps Sx _ IH]; cbn [app].
  - cbn [skip_wordbreak]. rewrite C. now destruct rest.
  - destruct (separator_facts x Sx) as (W & _). cbn [skip_wordbreak]. rewrite W.
    destruct (seps ++ c :: rest)%list eqn:E; [now destruct seps|]. exact IH.
Qed.
Lemma skip_all seps : Forall separator seps -> seps <> [] -> exists c, separator c /\ skip_wordbreak seps = Ok [c].
Proof.
  intros S N. induction S as [|x seps Sx S IH]; [congruence|]. destruct (separator_facts x Sx) as (W & _).
  cbn [skip_wordbreak]. destruct seps as [|y seps]; [exists x; auto|]. rewrite W. apply IH. discriminate.
Qed.
Lemma read_number num c rest : Forall number_char num -> is_numeric c = false ->
  get_number (num ++ c :: rest) = Ok (num, c :: rest).
Proof.
  intros N C. induction N as [|x num Nx _ IH]; cbn [app].
  - cbn [get_number]. rewrite C. now destruct rest.
  - destruct (number_char_facts x Nx) as (X & _). cbn [get_number]. rewrite X, IH.
    destruct (num ++ c :: rest)%list eqn:E; [now destruct num|]. reflexivity.
Qed.
Lemma read_only_number num : Forall number_char num -> num <> [] ->
  exists c, number_char c /\ get_number num = Ok (num, [c]).
Proof.
  intros N E. induction N as [|x num Nx N IH]; [congruence|]. destruct (number_char_facts x Nx) as (X & _).
  cbn [get_number]. destruct num as [|y num]; [exists x; rewrite X; auto|]. destruct IH as (c & C & G); [discriminate|].
  exists c. split; [exact C|]. rewrite X, G. reflexivity.
Qed.
Definition plain (c : ascii) : Prop := is_numeric c = false /\ is_wordbreak c = false.
Definition stops (s : list ascii) : Prop :=
  match s with [] => True | c :: _ => is_numeric c = true \/ is_wordbreak c = true end.
Lemma read_unit u rest : Forall plain u -> stops rest -> unit_chars (u ++ rest) = (u, rest).
Proof.
  intros U R. induction U as [|x u [X1 X2] _ IH]; cbn [app].
  - destruct rest as [|c rest]; [reflexivity|]. cbn [unit_chars]. cbn [stops] in R.
    destruct (is_numeric c); [reflexivity|]. destruct (is_wordbreak c); [reflexivity|]. now destruct R.
  - cbn [unit_chars]. rewrite X1, X2, IH. reflexivity.
Qed.
Lemma s_eqb_eq a b : s_eqb a b = true <-> a = b.
Proof. unfold s_eqb. destruct (list_eq_dec ascii_dec a b); split; congruence. Qed.

(** * Units *)
Lemma worth_unit u us : worth u us -> exists d, find_unit (chars u) = Ok d /\ microseconds d = us /\
  Forall plain (chars u) /\ chars u <> [].
Proof.
  intros (names & I & J). cbn in I.
  repeat (destruct I as [I|I];
    [injection I as <- <-; cbn in J;
     repeat (destruct J as [<- | J];
       [eexists; split; [reflexivity|]; split; [reflexivity|]; split; [repeat constructor|discriminate]|]); contradiction|]).
  contradiction.
Qed.
Lemma unit_worth u d : find_unit (chars u) = Ok d -> worth u (microseconds d).
Proof.
  unfold find_unit. destruct (find _ abbrs) as [[n d']|] eqn:F; [|discriminate]. intros E; injection E as <-.
  apply find_some in F as [I E]. cbn [fst] in E. apply s_eqb_eq in E.
  assert (N : n = u). { rewrite <- (string_of_list_ascii_of_string n), <- (string_of_list_ascii_of_string u). unfold chars in E. now rewrite E. }
  subst n. clear E. unfold abbrs in I. unfold worth. cbn [In] in I.
  repeat (destruct I as [I|I]; [injection I as <- <-; eexists; split; [cbn; repeat (try (left; reflexivity); right)|cbn; tauto]|]).
  contradiction.
Qed.

(** * Numbers *)
Lemma fold_digits s n : fold_left (fun n c => 10 * n + digit c) s n = n * 10 ^ Z.of_nat (length s) + digits s.
Proof.
  unfold digits. revert n. induction s as [|c s IH]; intros n; [cbn; lia|].
  cbn [fold_left]. rewrite (IH (10 * n + digit c)), (IH (10 * 0 + digit c)). cbn [length]. rewrite Nat2Z.inj_succ, Z.pow_succ_r by lia. ring.
Qed.
Lemma digits_positional s : Forall digit_char s -> digits s = positional s.
Proof.
  induction 1 as [|c s C _ IH]; [reflexivity|]. unfold digits. cbn [fold_left positional].
  rewrite fold_digits, IH. destruct (digit_facts c C) as (_ & _ & _ & _ & _ & _ & _ & D). rewrite D. ring.
Qed.
Lemma positional_app a b : positional (a ++ b) = positional a * 10 ^ Z.of_nat (length b) + positional b.
Proof.
  induction a as [|c a IH]; cbn [app positional]; [ring|]. rewrite IH, app_length, Nat2Z.inj_add, Z.pow_add_r by lia. ring.
Qed.
Lemma split_none x s : Forall (fun c => c_eqb c x = false) s -> split_at x s = [s].
Proof. induction 1 as [|c s C _ IH]; [reflexivity|]. cbn [split_at]. now rewrite IH, C. Qed.
Lemma split_app x a b : Forall (fun c => c_eqb c x = false) a -> split_at x (a ++ x :: b) = a :: split_at x b.
Proof.
  assert (N : forall s, split_at x s <> []).
  { induction s as [|c s IH]; [discriminate|]. cbn [split_at]. destruct (split_at x s); [congruence|]. now destruct (c_eqb c x). }
  induction 1 as [|c a C _ IH]; cbn [app split_at].
  - unfold c_eqb. rewrite Ascii.eqb_refl. destruct (split_at x b) eqn:E; [now apply N in E|reflexivity].
  - now rewrite IH, C.
Qed.
Lemma all_digits s : Forall digit_char s -> forallb is_digit s = true.
Proof. intros H. apply forallb_forall. intros c I. rewrite Forall_forall in H. now apply digit_facts, H. Qed.
Lemma no_char x s : (forall c, digit_char c -> c_eqb c x = false) -> Forall digit_char s -> Forall (fun c => c_eqb c x = false) s.
Proof. intros H. apply Forall_impl. exact H. Qed.
Lemma no_dot c : digit_char c -> c_eqb c "." = false.
Proof. intros H. now destruct (digit_facts c H) as (_ & _ & _ & ? & _). Qed.
Lemma no_colon c : number_char c -> c_eqb c ":" = false.
Proof. intros H. now destruct (number_char_facts c H) as (_ & _ & ? & _). Qed.

Section Parse.
Context (oi : list ascii -> result Z) (ofl : list ascii -> result Q).

Lemma float_number n : number_ok n -> exists q, float_of ofl (number_text n) = Ok q /\ (q == number_value n)%Q.
Proof.
  destruct n as [i|i f]; cbn [number_ok number_text number_value]; intros [N H]; unfold float_of.
  - rewrite (split_none _ _ (no_char _ _ no_dot H)), (all_digits _ H). destruct i as [|c i]; [congruence|].
    eexists. split; [reflexivity|]. now rewrite digits_positional.
  - pose proof H as H'. apply Forall_app in H as [Hi Hf].
    rewrite (split_app _ _ _ (no_char _ _ no_dot Hi)), (split_none _ _ (no_char _ _ no_dot Hf)), (all_digits _ Hi), (all_digits _ Hf).
    cbn [andb]. destruct (i ++ f)%list as [|c d] eqn:E; [congruence|]. eexists. split; [reflexivity|].
    rewrite (digits_positional _ H'), <- E, positional_app, inject_Z_plus, inject_Z_mult.
    assert (P : ~ (inject_Z (10 ^ Z.of_nat (length f)) == 0)%Q).
    { unfold Qeq. cbn [inject_Z Qnum Qden]. assert (0 < 10 ^ Z.of_nat (length f)) by (apply Z.pow_pos_nonneg; lia). lia. }
    field. exact P.
Qed.
Lemma int_digits s : s <> [] -> Forall digit_char s -> int_of oi s = Ok (positional s).
Proof. intros N H. unfold int_of. rewrite (all_digits _ H). destruct s as [|c s]; [congruence|]. now rewrite digits_positional. Qed.

(** * One element *)
Lemma element_step e rest fuel ms : element_ok e -> stops rest ->
  exists q, elements oi ofl (Datatypes.S fuel) (element_text e ++ rest) ms = elements oi ofl fuel rest (ms + inject_Z (e_worth e) * q)%Q /\
    (q == number_value (e_number e))%Q.
Proof.
  intros (B & N & G & C & W) R. destruct (float_number _ N) as (q & F & V). exists q. split; [|exact V].
  destruct (worth_unit _ _ W) as (d & FU & MU & PU & NU).
  pose proof (number_chars _ N) as NC. pose proof (number_nonempty _ N) as NE.
  unfold element_text. rewrite <- !app_assoc. fold chars.
  assert (U : exists c u, chars (e_unit e) = c :: u /\ plain c).
  { destruct (chars (e_unit e)) as [|c u]; [congruence|]. exists c, u. split; [reflexivity|]. now inversion PU. }
  destruct U as (uc & us & UE & [UP1 UP2]).
  (* what follows the number *)
  assert (A : exists c r, (e_between e ++ chars (e_unit e) ++ rest)%list = c :: r /\ is_numeric c = false /\ c_eqb c ":" = false /\
            skip_wordbreak (c :: r) = Ok (chars (e_unit e) ++ rest)%list).
  { destruct (e_between e) as [|c g] eqn:GE.
    - rewrite UE. cbn [app]. exists uc, (us ++ rest)%list. repeat split; auto.
      + unfold c_eqb. destruct (Ascii.eqb_spec uc ":"); [subst; discriminate UP2|reflexivity].
      + apply (skip_seps [] uc); auto.
    - cbn [app]. exists c, (g ++ chars (e_unit e) ++ rest)%list. repeat split; auto.
      + inversion G; subst. now apply separator_facts.
      + unfold c_eqb. destruct (Ascii.eqb_spec c ":"); [|reflexivity]. cbn in C. congruence.
      + rewrite UE. cbn [app]. apply (skip_seps (c :: g) uc); auto. }
  destruct A as (c & r & AE & CN & CC & SK). rewrite AE.
  assert (NX : exists x xs, number_text (e_number e) = x :: xs /\ is_wordbreak x = false).
  { destruct (number_text (e_number e)) as [|x xs]; [congruence|]. exists x, xs. split; [reflexivity|].
    inversion NC; subst. now apply number_char_facts. }
  destruct NX as (x & xs & NXE & XW).
  assert (SK1 : skip_wordbreak (e_before e ++ number_text (e_number e) ++ c :: r) = Ok (number_text (e_number e) ++ c :: r)%list).
  { rewrite NXE. cbn [app]. now apply skip_seps. }
  pose proof (read_number (number_text (e_number e)) c r NC CN) as RN.
  assert (GU : get_unit (chars (e_unit e) ++ rest) = Ok (d, rest)).
  { unfold get_unit. rewrite (read_unit _ _ PU R), FU. rewrite UE. reflexivity. }
  cbn [elements].
  destruct (e_before e ++ number_text (e_number e) ++ c :: r)%list as [|y ys] eqn:SE.
  { exfalso. rewrite NXE in SE. now destruct (e_before e). }
  rewrite SK1. cbn [bind]. rewrite RN. cbn [bind]. rewrite CC, SK. cbn [bind]. rewrite GU. cbn [bind]. rewrite F. cbn [bind].
  now rewrite MU.
Qed.

Lemma element_starts e : element_ok e -> stops (element_text e) /\ element_text e <> [].
Proof.
  intros (B & N & _). pose proof (number_chars _ N) as NC. pose proof (number_nonempty _ N) as NE. unfold element_text.
  destruct (e_before e) as [|c b].
  - cbn [app]. destruct (number_text (e_number e)) as [|x xs]; [congruence|]. cbn. split; [|discriminate]. inversion NC; subst.
    left. now apply number_char_facts.
  - cbn. split; [|discriminate]. inversion B; subst. right. now apply separator_facts.
Qed.
Lemma text_stops es rest : Forall element_ok es -> stops rest -> stops (text es ++ rest).
Proof.
  intros E R. destruct E as [|e es Oe _]; [exact R|]. unfold text. cbn [map concat]. destruct (element_starts e Oe) as [S N].
  destruct (element_text e); [congruence|exact S].
Qed.
Lemma text_length es : Forall element_ok es -> (length es <= length (text es))%nat.
Proof.
  induction 1 as [|e es Oe _ IH]; [auto|]. unfold text in *. cbn [map concat length]. rewrite app_length.
  destruct (element_starts e Oe) as [_ N]. destruct (element_text e); [congruence|]. cbn [length]. lia.
Qed.
Lemma elements_text es rest fuel ms : Forall element_ok es -> stops rest ->
  exists q, elements oi ofl (length es + fuel) (text es ++ rest) ms = elements oi ofl fuel rest q /\ (q == ms + total es)%Q.
Proof.
  intros E R. revert ms. induction E as [|e es Oe E IH]; intros ms.
  - exists ms. split; [reflexivity|]. cbn. ring.
  - unfold text. cbn [map concat]. fold (text es). rewrite <- app_assoc. cbn [length Nat.add].
    destruct (element_step e (text es ++ rest)%list (length es + fuel) ms Oe (text_stops es rest E R)) as (q & S & V).
    rewrite S. destruct (IH (ms + inject_Z (e_worth e) * q)%Q) as (q' & S' & V'). exists q'. split; [exact S'|].
    rewrite V', V. cbn [total fold_right]. fold (total es). ring.
Qed.

(** More rounds change nothing once it ended *)
Lemma elements_more fuel fuel' s ms : (fuel <= fuel')%nat -> elements oi ofl fuel s ms <> OutOfFuel ->
  elements oi ofl fuel' s ms = elements oi ofl fuel s ms.
Proof.
  revert fuel' s ms. induction fuel as [|fuel IH]; intros fuel' s ms L N.
  - destruct s as [|c s]; [now destruct fuel'|]. now cbn in N.
  - destruct fuel' as [|fuel']; [lia|]. cbn [elements] in *. destruct s as [|c s]; [reflexivity|].
    match goal with |- match ?r with _ => _ end = _ => destruct r as [[s1 ms1]|e]; [|reflexivity] end. apply IH; [lia|exact N].
Qed.

(** Reading always comes to an end. *)
Lemma skip_shorter s s' : skip_wordbreak s = Ok s' -> (length s' <= length s)%nat.
Proof.
  induction s as [|c s IH]; [discriminate|]. cbn [skip_wordbreak]. destruct s as [|c' s]; [intros E; injection E as <-; auto|].
  destruct (is_wordbreak c); [intros E; apply IH in E; cbn [length] in *; lia|intros E; injection E as <-; auto].
Qed.
Lemma number_shorter s n s' : get_number s = Ok (n, s') -> (length s' <= length s)%nat /\ s' <> [].
Proof.
  revert n s'. induction s as [|c s IH]; [discriminate|]. intros n s'. cbn [get_number]. destruct s as [|c' s].
  { intros E; injection E as _ <-. split; [auto|discriminate]. }
  destruct (is_numeric c).
  - destruct (get_number (c' :: s)) as [[n1 s1]|] eqn:G; [|discriminate]. cbn [bind]. intros E; injection E as <- <-.
    destruct (IH _ _ eq_refl) as [L N]. split; [cbn [length] in *; lia|exact N].
  - intros E; injection E as <- <-. split; [auto|discriminate].
Qed.
Lemma unit_chars_app s a r : unit_chars s = (a, r) -> s = (a ++ r)%list.
Proof.
  revert a r. induction s as [|c s IH]; intros a r; cbn [unit_chars]; [intros E; now injection E as <- <-|].
  destruct (is_numeric c || is_wordbreak c); [intros E; now injection E as <- <-|].
  destruct (unit_chars s) as [a1 r1]. intros E; injection E as <- <-. cbn [app]. now rewrite (IH _ _ eq_refl).
Qed.
Lemma unit_shorter s u s' : get_unit s = Ok (u, s') -> (length s' < length s)%nat.
Proof.
  unfold get_unit. destruct s as [|c s]; [discriminate|]. destruct (unit_chars (c :: s)) as [a r] eqn:E.
  apply unit_chars_app in E. destruct (find_unit a) as [d|] eqn:F; [|discriminate]. cbn [bind]. intros H; injection H as _ <-.
  rewrite E, app_length. destruct a; [discriminate F|]. cbn [length]. lia.
Qed.
Lemma elements_end fuel s ms : (length s <= fuel)%nat -> elements oi ofl fuel s ms <> OutOfFuel.
Proof.
  revert s ms. induction fuel as [|fuel IH]; intros s ms L.
  - destruct s; [discriminate|cbn in L; lia].
  - cbn [elements]. destruct s as [|c s]; [discriminate|].
    destruct (skip_wordbreak (c :: s)) as [s1|] eqn:E1; cbn [bind]; [|discriminate]. apply skip_shorter in E1.
    destruct (get_number s1) as [[n s2]|] eqn:E2; cbn [bind]; [|discriminate]. apply number_shorter in E2 as [E2 _].
    destruct s2 as [|c2 s2]; [discriminate|]. destruct (c_eqb c2 ":").
    + destruct (get_hhmmss oi ofl _); cbn [bind]; [|discriminate]. now destruct fuel.
    + destruct (skip_wordbreak (c2 :: s2)) as [s3|] eqn:E3; cbn [bind]; [|discriminate]. apply skip_shorter in E3.
      destruct (get_unit s3) as [[u s4]|] eqn:E4; cbn [bind]; [|discriminate]. apply unit_shorter in E4.
      destruct (float_of ofl n); cbn [bind]; [|discriminate]. apply IH. cbn [length] in *. lia.
Qed.
Lemma terminates s : string_to_timedelta oi ofl s <> OutOfFuel.
Proof.
  unfold string_to_timedelta. destruct (signs false s) as [[neg s']|]; [|discriminate].
  pose proof (elements_end (length s') s' 0 (Nat.le_refl _)) as N. destruct (elements oi ofl (length s') s' 0); [|discriminate|congruence].
  unfold timedelta. now destruct (_ && _).
Qed.

(** * Hours, minutes and seconds *)
Lemma clock_step k fuel ms : clock_ok k ->
  exists q, elements oi ofl (Datatypes.S fuel) (clock_text k) ms = Returns (ms + q)%Q /\ (q == clock_value k)%Q.
Proof.
  intros (B & HN & HD & MN & MD & SO). destruct (float_number _ SO) as (x & F & V).
  assert (HC : Forall number_char (k_hours k)) by (eapply Forall_impl; [|exact HD]; now left).
  assert (MC : Forall number_char (k_minutes k)) by (eapply Forall_impl; [|exact MD]; now left).
  pose proof (number_chars _ SO) as SC.
  set (tail := (k_minutes k ++ ":"%char :: number_text (k_seconds k))%list).
  assert (E : get_hhmmss oi ofl (k_hours k ++ ":"%char :: tail) =
    Ok (inject_Z (microseconds Second) * x + inject_Z (microseconds Minute * positional (k_minutes k)) + inject_Z (microseconds Hour * positional (k_hours k)))%Q).
  { unfold get_hhmmss, tail. rewrite split_app by (eapply Forall_impl; [|exact HC]; apply no_colon).
    rewrite split_app by (eapply Forall_impl; [|exact MC]; apply no_colon).
    rewrite split_none by (eapply Forall_impl; [|exact SC]; apply no_colon).
    rewrite (int_digits _ HN HD), (int_digits _ MN MD). cbn [bind]. rewrite F. reflexivity. }
  eexists. split.
  - unfold clock_text. fold tail. cbn [elements].
    assert (HX : exists y ys, k_hours k = y :: ys /\ is_wordbreak y = false).
    { destruct (k_hours k) as [|y ys]; [congruence|]. exists y, ys. split; [reflexivity|]. inversion HC; subst. now apply number_char_facts. }
    destruct HX as (y & ys & HE & YW).
    destruct (k_before k ++ k_hours k ++ ":"%char :: tail)%list as [|z zs] eqn:SE.
    { exfalso. rewrite HE in SE. now destruct (k_before k). }
    rewrite <- SE.
    assert (SK : skip_wordbreak (k_before k ++ k_hours k ++ ":"%char :: tail) = Ok (k_hours k ++ ":"%char :: tail)%list).
    { rewrite HE. cbn [app]. now apply skip_seps. }
    rewrite SK. cbn [bind]. rewrite (read_number _ ":"%char tail HC eq_refl). cbn [bind].
    change (c_eqb ":" ":") with true. cbv iota. rewrite E. cbn [bind]. destruct fuel; reflexivity.
  - unfold clock_value. rewrite V. cbn [microseconds]. rewrite !inject_Z_plus, !inject_Z_mult. change (10 ^ 6)%Z with 1000000%Z. change (inject_Z (3600 * 1000000)) with (inject_Z 3600000000).
    change (inject_Z 3600000000) with (inject_Z 3600 * inject_Z 1000000)%Q. change (inject_Z 60000000) with (inject_Z 60 * inject_Z 1000000)%Q. ring.
Qed.
Lemma clock_starts k : clock_ok k -> stops (clock_text k) /\ clock_text k <> [].
Proof.
  intros (B & HN & HD & _). unfold clock_text. destruct (k_before k) as [|c b].
  - cbn [app]. destruct (k_hours k) as [|x xs]; [congruence|]. cbn. split; [|discriminate]. inversion HD; subst. left. now apply digit_facts.
  - cbn. split; [|discriminate]. inversion B; subst. right. now apply separator_facts.
Qed.

(** * Signs *)
Definition unsigned (s : list ascii) : Prop := match s with [] => False | c :: _ => c_eqb c "-" = false /\ c_eqb c "+" = false end.
Lemma stops_unsigned s : stops s -> s <> [] -> unsigned s.
Proof.
  destruct s as [|c s]; [congruence|]. intros S _. cbn in *. unfold c_eqb.
  split; [destruct (Ascii.eqb_spec c "-") as [-> |]|destruct (Ascii.eqb_spec c "+") as [-> |]]; try reflexivity; now destruct S.
Qed.
Lemma signs_read neg sg s : Forall sign_char sg -> unsigned s ->
  exists neg', signs neg (sg ++ s) = Ok (neg', s) /\ forall q, ((if neg then - signed sg q else signed sg q) == (if neg' then - q else q))%Q.
Proof.
  intros SG U. revert neg. induction SG as [|c sg C SG IH]; intros neg.
  - exists neg. destruct s as [|x s]; [contradiction|]. destruct U as [U1 U2]. cbn [app signs signed]. rewrite U1, U2.
    split; [reflexivity|]. intros q. reflexivity.
  - cbn [app signs signed]. assert (NE : (sg ++ s)%list <> []) by (destruct sg; [now destruct s|discriminate]).
    cbn in C. destruct C as [<- | [<- | []]]; cbn [c_eqb].
    + change (c_eqb "+" "-") with false. change (c_eqb "+" "+") with true. change (Ascii.eqb "+" "-") with false. cbn [orb].
      destruct (sg ++ s)%list as [|y ys] eqn:E; [congruence|]. apply IH.
    + change (c_eqb "-" "-") with true. change (Ascii.eqb "-" "-") with true. cbn [orb].
      destruct (sg ++ s)%list as [|y ys] eqn:E; [congruence|]. destruct (IH (negb neg)) as (neg' & S & V).
      exists neg'. split; [exact S|]. intros q. rewrite <- V. destruct neg; cbn [negb]; ring.
Qed.

(** * Rounding *)
Lemma round_nearest q : nearest q (round_even q).
Proof.
  unfold round_even, nearest. pose proof (Qfloor_le q) as L. pose proof (Qlt_floor q) as H.
  set (f := Qfloor q) in *. rewrite inject_Z_plus in H.
  assert (A1 : forall x, (0 <= x)%Q -> (Qabs x == x)%Q) by (intros; now apply Qabs_pos).
  assert (A2 : forall x, (x <= 0)%Q -> (Qabs x == - x)%Q) by (intros; now apply Qabs_neg).
  change (inject_Z 1) with 1%Q in H.
  destruct (Qcompare_spec (q - inject_Z f) (1 # 2)) as [E|E|E].
  - destruct (Z.even f) eqn:EV.
    + split; [rewrite A1 by lra; lra|]. intros _. exact EV.
    + rewrite inject_Z_plus. change (inject_Z 1) with 1%Q. split; [rewrite A2 by lra; lra|].
      intros _. rewrite Z.even_add, EV. reflexivity.
  - split; [rewrite A1 by lra; lra|]. intros D. rewrite A1 in D by lra. lra.
  - rewrite inject_Z_plus. change (inject_Z 1) with 1%Q. split; [rewrite A2 by lra; lra|].
    intros D. rewrite A2 in D by lra. lra.
Qed.
Lemma nearest_eq p q us : (p == q)%Q -> nearest p us -> nearest q us.
Proof. intros E [H1 H2]. split; [now rewrite <- E|]. intros D. apply H2. now rewrite E. Qed.
Lemma nearest_unique q a b : nearest q a -> nearest q b -> a = b.
Proof.
  intros [A1 A2] [B1 B2]. apply Qabs_Qle_condition in A1 as [A3 A4]. apply Qabs_Qle_condition in B1 as [B3 B4].
  assert (D : forall a b, (q - inject_Z a <= 1 # 2)%Q -> (-(1 # 2) <= q - inject_Z b)%Q -> a + 1 >= b).
  { intros x y Hx Hy. assert (L : (inject_Z y <= inject_Z (x + 1))%Q) by (rewrite inject_Z_plus; change (inject_Z 1) with 1%Q; lra).
    rewrite <- Zle_Qle in L. lia. }
  pose proof (D a b A4 B3) as D1. pose proof (D b a B4 A3) as D2. clear D.
  destruct (Z.eq_dec a b) as [E|N]; [exact E|exfalso].
  assert (K : forall x y, x + 1 = y -> (q - inject_Z x <= 1 # 2)%Q -> (-(1 # 2) <= q - inject_Z y)%Q ->
     (Qabs (q - inject_Z x) == 1 # 2)%Q /\ (Qabs (q - inject_Z y) == 1 # 2)%Q).
  { intros x y <- Hx Hy. rewrite inject_Z_plus in *. change (inject_Z 1) with 1%Q in *. split.
    - rewrite Qabs_pos by lra. lra.
    - rewrite Qabs_neg by lra. lra. }
  destruct (Z.lt_ge_cases a b) as [L|L].
  - assert (E : a + 1 = b) by lia. destruct (K a b E A4 B3) as [K1 K2]. pose proof (A2 K1) as EA. pose proof (B2 K2) as EB.
    rewrite <- E, Z.even_add, EA in EB. discriminate EB.
  - assert (E : b + 1 = a) by lia. destruct (K b a E B4 A3) as [K1 K2]. pose proof (B2 K1) as EB. pose proof (A2 K2) as EA.
    rewrite <- E, Z.even_add, EB in EA. discriminate EA.
Qed.
Lemma nearest_opp q us : nearest q us -> nearest (- q) (- us).
Proof.
  intros [H1 H2]. assert (E : (Qabs (- q - inject_Z (- us)) == Qabs (q - inject_Z us))%Q).
  { rewrite inject_Z_opp. rewrite <- (Qabs_opp (q - inject_Z us)). apply Qabs_wd. ring. }
  split; [now rewrite E|]. rewrite E. intros D. rewrite Z.even_opp. auto.
Qed.
Lemma nearest_whole us : nearest (inject_Z us) us.
Proof. split; (assert (E : (inject_Z us - inject_Z us == 0)%Q) by ring); rewrite E; [discriminate|intros D; discriminate D]. Qed.
Lemma timedelta_gives p q : (p == q)%Q -> gives (timedelta p) q.
Proof.
  intros E. exists (round_even p). split; [apply (nearest_eq p q _ E), round_nearest|].
  unfold timedelta, holdable, max_days. cbn [microseconds].
  destruct ((- (999999999) * 86400000000 <=? round_even p) && (round_even p <? (999999999 + 1) * 86400000000)) eqn:B; [left|right];
    (split; [lia|reflexivity]).
Qed.

(** * The whole string *)
Lemma whole sg body q : Forall sign_char sg -> unsigned body ->
  (exists p, elements oi ofl (length body) body 0 = Returns p /\ (p == q)%Q) ->
  gives (string_to_timedelta oi ofl (sg ++ body)) (signed sg q).
Proof.
  intros SG U (p & E & V). destruct (signs_read false sg body SG U) as (neg & S & SV). unfold string_to_timedelta. rewrite S, E.
  apply timedelta_gives. rewrite (SV q). destruct neg; now rewrite V.
Qed.
Theorem parse_sum sg es : Forall sign_char sg -> Forall element_ok es -> es <> [] ->
  gives (string_to_timedelta oi ofl (sg ++ text es)) (signed sg (total es)).
Proof.
  intros SG E N. pose proof (text_length es E) as TL.
  assert (TN : text es <> []) by (destruct es; [congruence|]; destruct (text _); [cbn in TL; lia|discriminate]).
  apply whole; [exact SG| |].
  - apply stops_unsigned; [|exact TN]. rewrite <- (app_nil_r (text es)). now apply text_stops.
  - destruct (elements_text es [] 0 0 E I) as (q & S & V). rewrite app_nil_r in S. exists q.
    rewrite (elements_more (length es + 0) (length (text es))); [|lia|rewrite S; discriminate].
    split; [exact S|]. rewrite V. ring.
Qed.
Theorem parse_clock sg es k : Forall sign_char sg -> Forall element_ok es -> clock_ok k ->
  gives (string_to_timedelta oi ofl (sg ++ text es ++ clock_text k)) (signed sg (total es + clock_value k)%Q).
Proof.
  intros SG E K. destruct (clock_starts k K) as [KS KN]. pose proof (text_length es E) as TL. apply whole; [exact SG| |].
  - apply stops_unsigned; [now apply text_stops|]. destruct (text es); [exact KN|discriminate].
  - destruct (elements_text es (clock_text k) 1 0 E KS) as (q & S & V). destruct (clock_step k 0 q K) as (x & S' & V').
    exists (q + x)%Q. rewrite (elements_more (length es + 1)); [| |rewrite S, S'; discriminate].
    + rewrite S, S'. split; [reflexivity|]. rewrite V, V'. ring.
    + rewrite app_length. destruct (clock_text k); [congruence|]. cbn [length]. lia.
Qed.

(** * What is not accepted *)
Lemma raise_after es tail e : Forall element_ok es -> stops tail -> tail <> [] ->
  (forall fuel q, elements oi ofl (Datatypes.S fuel) tail q = Raises e) ->
  forall sg, Forall sign_char sg -> string_to_timedelta oi ofl (sg ++ text es ++ tail) = Raises e.
Proof.
  intros E T TN R sg SG. pose proof (text_length es E) as TL.
  destruct (elements_text es tail 1 0 E T) as (q & S & _). rewrite R in S.
  assert (U : unsigned (text es ++ tail)).
  { apply stops_unsigned; [now apply text_stops|]. destruct (text es); [exact TN|discriminate]. }
  destruct (signs_read false sg (text es ++ tail) SG U) as (neg & SS & _). unfold string_to_timedelta. rewrite SS.
  rewrite (elements_more (length es + 1)), S; [reflexivity| |rewrite S; discriminate].
  rewrite app_length. destruct tail; [congruence|]. cbn [length]. lia.
Qed.
Theorem trailing sg es seps : Forall sign_char sg -> Forall element_ok es -> Forall separator seps -> seps <> [] ->
  exists e, (e = KeyError \/ e = ValueError) /\ string_to_timedelta oi ofl (sg ++ text es ++ seps) = Raises e.
Proof.
  intros SG E S N. destruct (skip_all seps S N) as (c & C & SK). destruct (separator_facts c C) as (CW & CN & _).
  assert (R : exists e, (e = KeyError \/ e = ValueError) /\ forall fuel q, elements oi ofl (Datatypes.S fuel) seps q = Raises e).
  { destruct (Ascii.eqb_spec c ":") as [-> |NC].
    - exists ValueError. split; [now right|]. intros fuel q. cbn [elements]. destruct seps as [|x xs]; [congruence|]. rewrite SK. reflexivity.
    - exists KeyError. split; [now left|]. intros fuel q. cbn [elements]. destruct seps as [|x xs]; [congruence|]. rewrite SK. cbn [bind get_number].
      rewrite CN. cbn [bind]. assert (CC : c_eqb c ":" = false) by now apply Ascii.eqb_neq. rewrite CC. cbn [skip_wordbreak bind get_unit unit_chars].
      rewrite CN, CW. reflexivity. }
  destruct R as (e & K & R). exists e. split; [exact K|]. apply raise_after; auto.
  destruct seps as [|x xs]; [congruence|]. cbn. right. inversion S; subst. now apply separator_facts.
Qed.
Theorem no_unit sg es seps n : Forall sign_char sg -> Forall element_ok es -> Forall separator seps -> number_ok n ->
  string_to_timedelta oi ofl (sg ++ text es ++ seps ++ number_text n) = Raises KeyError.
Proof.
  intros SG E S N. pose proof (number_chars _ N) as NC. pose proof (number_nonempty _ N) as NE.
  destruct (read_only_number _ NC NE) as (c & C & G). destruct (number_char_facts c C) as (CN & CW & CC & _).
  assert (SK : skip_wordbreak (seps ++ number_text n) = Ok (number_text n)).
  { destruct (number_text n) as [|x xs]; [congruence|]. apply skip_seps; [exact S|]. inversion NC; subst. now apply number_char_facts. }
  apply raise_after; auto.
  - destruct seps as [|x xs]; cbn [app].
    + destruct (number_text n); [congruence|]. inversion NC; subst. left. now apply number_char_facts.
    + inversion S; subst. right. now apply separator_facts.
  - destruct seps; [exact NE|discriminate].
  - intros fuel q. cbn [elements]. destruct (seps ++ number_text n)%list as [|y ys] eqn:SE; [now destruct seps|]. rewrite SK. cbn [bind]. rewrite G.
    cbn [bind]. rewrite CC. cbn [skip_wordbreak bind get_unit unit_chars]. rewrite CN. reflexivity.
Qed.
Theorem unknown_unit sg es seps n gap u rest : Forall sign_char sg -> Forall element_ok es -> Forall separator seps -> number_ok n ->
  Forall separator gap -> hd " "%char gap <> ":"%char ->
  u <> [] -> Forall plain u -> stops rest -> (forall us, ~ worth (string_of_list_ascii u) us) ->
  string_to_timedelta oi ofl (sg ++ text es ++ seps ++ number_text n ++ gap ++ u ++ rest) = Raises KeyError.
Proof.
  intros SG E S N G HG UN UP R W. pose proof (number_chars _ N) as NC. pose proof (number_nonempty _ N) as NE.
  assert (FU : find_unit u = Err KeyError).
  { destruct (find_unit u) as [d|e] eqn:F; [|unfold find_unit in F; destruct (find _ abbrs) as [[? ?]|]; [discriminate|now injection F as <-]].
    exfalso. apply (W (microseconds d)). apply unit_worth. unfold chars. now rewrite list_ascii_of_string_of_list_ascii. }
  destruct u as [|uc us]; [congruence|]. assert (UP' : plain uc) by now inversion UP. destruct UP' as [UP1 UP2].
  assert (SK : skip_wordbreak (seps ++ number_text n ++ gap ++ (uc :: us) ++ rest) = Ok (number_text n ++ gap ++ (uc :: us) ++ rest)%list).
  { destruct (number_text n) as [|x xs]; [congruence|]. apply (skip_seps seps x); [exact S|]. inversion NC; subst. now apply number_char_facts. }
  assert (A : exists c r, (gap ++ (uc :: us) ++ rest)%list = c :: r /\ is_numeric c = false /\ c_eqb c ":" = false /\
            skip_wordbreak (c :: r) = Ok ((uc :: us) ++ rest)%list).
  { destruct gap as [|c g].
    - exists uc, (us ++ rest)%list. repeat split; auto.
      + unfold c_eqb. destruct (Ascii.eqb_spec uc ":"); [subst; discriminate UP2|reflexivity].
      + apply (skip_seps [] uc); auto.
    - exists c, (g ++ (uc :: us) ++ rest)%list. repeat split; auto.
      + inversion G; subst. now apply separator_facts.
      + unfold c_eqb. destruct (Ascii.eqb_spec c ":"); [|reflexivity]. cbn in HG. congruence.
      + apply (skip_seps (c :: g) uc); auto. }
  destruct A as (c & r & AE & CN & CC & SK2). rewrite AE in *.
  apply raise_after; auto.
  - destruct seps as [|x xs]; cbn [app].
    + destruct (number_text n); [congruence|]. inversion NC; subst. left. now apply number_char_facts.
    + inversion S; subst. right. now apply separator_facts.
  - destruct seps; [destruct (number_text n); [congruence|discriminate]|discriminate].
  - intros fuel q. cbn [elements]. destruct (seps ++ number_text n ++ c :: r)%list as [|y ys] eqn:SE.
    { exfalso. destruct seps; [destruct (number_text n)|]; discriminate. }
    rewrite SK. cbn [bind]. rewrite (read_number _ _ _ NC CN). cbn [bind]. rewrite CC, SK2. cbn [bind].
    unfold get_unit. rewrite (read_unit _ _ UP R), FU. reflexivity.
Qed.

(** * A leading minus *)
Lemma signs_minus s neg : signs true s = match signs neg s with Ok (b, r) => Ok (if neg then b else negb b, r) | Err e => Err e end.
Proof.
  destruct neg; [destruct (signs true s) as [[b r]|]; reflexivity|].
  assert (K : forall n, signs (negb n) s = match signs n s with Ok (b, r) => Ok (negb b, r) | Err e => Err e end); [|exact (K false)].
  induction s as [|c s IH]; intros n; [reflexivity|]. cbn [signs]. destruct (c_eqb c "-"); cbn [orb].
  - destruct s as [|c' s]; [reflexivity|]. apply IH.
  - destruct (c_eqb c "+"); [|reflexivity]. destruct s as [|c' s]; [reflexivity|]. apply IH.
Qed.
Lemma timedelta_value q us : timedelta q = Returns us -> us = round_even q /\ holdable us.
Proof.
  unfold timedelta, holdable, max_days. cbn [microseconds].
  destruct ((- (999999999) * 86400000000 <=? round_even q) && (round_even q <? (999999999 + 1) * 86400000000)) eqn:B; [|discriminate].
  intros E; injection E as <-. split; [reflexivity|lia].
Qed.
Lemma round_opp p q : (p == - q)%Q -> round_even p = - round_even q.
Proof.
  intros E. apply (nearest_unique (- q)); [apply (nearest_eq p _ _ E), round_nearest|apply nearest_opp, round_nearest].
Qed.
Theorem negated s us : string_to_timedelta oi ofl s = Returns us -> Z.abs us <= 999999999 * 86400 * 10 ^ 6 ->
  string_to_timedelta oi ofl ("-"%char :: s) = Returns (- us).
Proof.
  unfold string_to_timedelta. intros H L.
  assert (S : signs false ("-"%char :: s) = match signs false s with Ok (b, r) => Ok (negb b, r) | Err e => Err e end).
  { destruct s as [|c s]; [discriminate H|]. change (signs false ("-"%char :: c :: s)) with (signs true (c :: s)). exact (signs_minus (c :: s) false). }
  rewrite S. destruct (signs false s) as [[b r]|]; [|discriminate]. destruct (elements oi ofl (length r) r 0) as [q| |]; try discriminate.
  apply timedelta_value in H as [-> H]. unfold timedelta, max_days. cbn [microseconds].
  assert (E : round_even (if negb b then - q else q) = - round_even (if b then - q else q)) by (apply round_opp; destruct b; cbn [negb]; ring).
  rewrite E. set (r0 := round_even (if b then - q else q)) in *. change (10 ^ 6) with 1000000 in *.
  destruct ((- (999999999) * 86400000000 <=? - r0) && (- r0 <? (999999999 + 1) * 86400000000)) eqn:B; [reflexivity|lia].
Qed.
End Parse.

(** * Letters *)
Lemma is_digit_char c : is_digit c = true -> digit_char c.
Proof. destruct c as [[] [] [] [] [] [] [] []]; intros H; first [discriminate H|cbn; tauto]. Qed.
Lemma is_separator c : is_wordbreak c = true -> separator c.
Proof. destruct c as [[] [] [] [] [] [] [] []]; intros H; first [discriminate H|cbn; tauto]. Qed.
Lemma letter_plain c : letter c -> plain c.
Proof.
  intros (D & P & S). unfold plain, is_numeric. split.
  - destruct (is_digit c) eqn:E; [now apply is_digit_char in E|]. unfold c_eqb. now apply Ascii.eqb_neq.
  - destruct (is_wordbreak c) eqn:E; [now apply is_separator in E|reflexivity].
Qed.
Lemma ends_stops s : unit_ends s -> stops s.
Proof.
  destruct s as [|c s]; [auto|]. cbn. intros L. unfold is_numeric.
  destruct (is_digit c) eqn:D; [now left|]. destruct (c_eqb c ".") eqn:P; [now left|]. right. destruct (is_wordbreak c) eqn:S; [reflexivity|].
  exfalso. apply L. repeat split.
  - intros H. apply digit_facts in H as (H & _). congruence.
  - intros ->. discriminate P.
  - intros H. apply separator_facts in H as (H & _). congruence.
Qed.
Theorem unknown_unit_raises oi ofl sg es seps n gap u rest : Forall sign_char sg -> Forall element_ok es -> Forall separator seps -> number_ok n ->
  Forall separator gap -> hd " "%char gap <> ":"%char ->
  u <> EmptyString -> Forall letter (list_ascii_of_string u) -> unit_ends rest -> (forall us, ~ worth u us) ->
  string_to_timedelta oi ofl (sg ++ text es ++ seps ++ number_text n ++ gap ++ list_ascii_of_string u ++ rest) = Raises KeyError.
Proof.
  intros. apply unknown_unit; auto.
  - now destruct u.
  - eapply Forall_impl; [|eassumption]. exact letter_plain.
  - now apply ends_stops.
  - now rewrite string_of_list_ascii_of_string.
Qed.

(** * Timeouts *)
Theorem timeout_number oi ofl q : exists r, gives r (inject_Z (10 ^ 6) * q) /\ config_timeout oi ofl (TNumber q) = Some r /\
  task_timeout oi ofl (TNumber q) = own r.
Proof.
  exists (timedelta (inject_Z (microseconds Second) * q)). split; [now apply timedelta_gives|]. split; reflexivity.
Qed.
Theorem timeout_string oi ofl s : s <> list_ascii_of_string "never" ->
  config_timeout oi ofl (TString s) = Some (string_to_timedelta oi ofl s) /\
  task_timeout oi ofl (TString s) = own (string_to_timedelta oi ofl s).
Proof.
  intros N. split; [reflexivity|]. cbn [task_timeout]. destruct (s_eqb s (chars "never")) eqn:E; [now apply s_eqb_eq in E|].
  reflexivity.
Qed.
Theorem timeout_delta oi ofl us : config_timeout oi ofl (TDelta us) = Some (Returns us) /\ task_timeout oi ofl (TDelta us) = own (Returns us).
Proof. split; reflexivity. Qed.
Theorem never_task_only oi ofl :
  (exists us, task_timeout oi ofl (TString (list_ascii_of_string "never")) = Returns (Some us) /\ holdable us /\ ~ holdable (us + 1)) /\
  config_timeout oi ofl (TString (list_ascii_of_string "never")) = Some (Raises KeyError).
Proof.
  split; [|vm_compute; reflexivity]. exists max_timeout. split; [vm_compute; reflexivity|].
  change max_timeout with 86399999999999999999. unfold holdable. lia.
Qed.
(** * For the examples *)
Ltac here := cbn; repeat first [left; reflexivity|right].
Ltac chars_ok := repeat (apply Forall_cons; [here|]); apply Forall_nil.
Ltac element_here := unfold element_ok; cbn [e_before e_number e_between e_unit e_worth];
  split; [chars_ok|]; split; [split; [discriminate|chars_ok]|]; split; [chars_ok|]; split; [discriminate|];
  eexists; split; here.
Definition ex_ten : list element := [Element [] (Whole ["1"%char; "0"%char]) [" "%char] "sec" (10 ^ 6)].
Lemma ex_ten_ok : Forall element_ok ex_ten.
Proof. apply Forall_cons; [element_here|apply Forall_nil]. Qed.
Theorem trailing_refused : exists oi ofl es seps us e, Forall element_ok es /\ Forall separator seps /\
  string_to_timedelta oi ofl (text es) = Returns us /\ string_to_timedelta oi ofl (text es ++ seps) = Raises e.
Proof.
  exists (fun _ => Err ValueError), (fun _ => Err ValueError), ex_ten, [" "%char], 10000000, KeyError.
  split; [exact ex_ten_ok|]. split; [chars_ok|]. split; vm_compute; reflexivity.
Qed.
Theorem colon_refused : exists oi ofl number seps seps' unit us e, number_ok number /\ worth unit us /\
  Forall separator seps /\ Forall separator seps' /\
  string_to_timedelta oi ofl (number_text number ++ seps ++ list_ascii_of_string unit) = Returns (10 * us) /\
  string_to_timedelta oi ofl (number_text number ++ seps' ++ list_ascii_of_string unit) = Raises e.
Proof.
  exists (fun _ => Err ValueError), (fun _ => Err ValueError), (Whole ["1"%char; "0"%char]), [","%char; ":"%char], [":"%char], "sec"%string, (10 ^ 6), ValueError.
  split; [split; [discriminate|chars_ok]|]. split; [eexists; split; here|]. split; [chars_ok|]. split; [chars_ok|]. split; vm_compute; reflexivity.
Qed.
