(** Proofs about durations written as text. *)
From Coq Require Import Ascii String QArith Bool Lia ZifyBool.
From Verif Require Import Model.Base Model.Duration Model.Spelling Spec.DurationSpec Spec.SpellingSpec Proofs.DurationProofs.
Local Open Scope Z_scope.
Local Open Scope list_scope.

Lemma tsize_lasts : forall u, tsize u = lasts u.
Proof. intros []; reflexivity. Qed.

Lemma lasts_positive : forall u, 0 < lasts u.
Proof. intros []; reflexivity. Qed.

(** * The parts *)
Lemma components_sum : forall units us, together (components (units ++ [Microseconds]) us) = us.
Proof.
  induction units as [|u units IH]; intros us; cbn [app components together fold_right fst snd].
  - change (tsize Microseconds) with 1. change (lasts Microseconds) with 1. rewrite Z.div_1_r. lia.
  - fold (together (components (units ++ [Microseconds]) (us - us / tsize u * tsize u))). rewrite IH, tsize_lasts. lia.
Qed.

Lemma dict_sum : forall seen pre us, seen us = us -> together (timedelta_to_dict seen (pre ++ [Microseconds]) us) = us.
Proof. intros seen pre us E. unfold timedelta_to_dict. rewrite E. apply components_sum. Qed.

Ltac Zify.zify_post_hook ::= Z.div_mod_to_equations.
Lemma dict_parts : forall seen us, seen us = us -> exists d h m s ms mus,
  timedelta_to_dict seen fixed_units us =
    [(Days, d); (Hours, h); (Minutes, m); (Seconds, s); (Milliseconds, ms); (Microseconds, mus)] /\
  0 <= h < 24 /\ 0 <= m < 60 /\ 0 <= s < 60 /\ 0 <= ms < 1000 /\ 0 <= mus < 1000 /\
  us = d * 86400000000 + h * 3600000000 + m * 60000000 + s * 1000000 + ms * 1000 + mus.
Proof.
  intros seen us E. unfold timedelta_to_dict, fixed_units. rewrite E. cbn [components].
  change (tsize Days) with 86400000000. change (tsize Hours) with 3600000000. change (tsize Minutes) with 60000000.
  change (tsize Seconds) with 1000000. change (tsize Milliseconds) with 1000. change (tsize Microseconds) with 1.
  remember (us / 86400000000) as d eqn:D. remember (us - d * 86400000000) as r1 eqn:R1.
  assert (B1 : 0 <= r1 < 86400000000) by lia.
  remember (r1 / 3600000000) as h eqn:H. remember (r1 - h * 3600000000) as r2 eqn:R2.
  assert (B2 : 0 <= r2 < 3600000000) by (clear - H R2; lia). assert (C2 : 0 <= h < 24) by (clear - H B1; lia).
  remember (r2 / 60000000) as m eqn:M. remember (r2 - m * 60000000) as r3 eqn:R3.
  assert (B3 : 0 <= r3 < 60000000) by (clear - M R3; lia). assert (C3 : 0 <= m < 60) by (clear - M B2; lia).
  remember (r3 / 1000000) as s eqn:S. remember (r3 - s * 1000000) as r4 eqn:R4.
  assert (B4 : 0 <= r4 < 1000000) by (clear - S R4; lia). assert (C4 : 0 <= s < 60) by (clear - S B3; lia).
  remember (r4 / 1000) as ms eqn:Ms. remember (r4 - ms * 1000) as r5 eqn:R5.
  assert (B5 : 0 <= r5 < 1000) by (clear - Ms R5; lia). assert (C5 : 0 <= ms < 1000) by (clear - Ms B4; lia).
  exists d, h, m, s, ms, r5. rewrite Z.div_1_r. split; [reflexivity|]. split; [exact C2|]. split; [exact C3|]. split; [exact C4|]. split; [exact C5|]. split; [exact B5|].
  clear - R1 R2 R3 R4 R5. rewrite R5, R4, R3, R2, R1. ring.
Qed.

(** * Numbers in decimal *)
Lemma digit_of_facts : forall d, 0 <= d < 10 -> digit_char (digit_of d) /\ place (digit_of d) = d.
Proof.
  intros d H.
  assert (C : d = 0 \/ d = 1 \/ d = 2 \/ d = 3 \/ d = 4 \/ d = 5 \/ d = 6 \/ d = 7 \/ d = 8 \/ d = 9) by lia.
  repeat (destruct C as [->|C]; [split; [vm_compute; tauto|reflexivity]|]). subst d. split; [vm_compute; tauto|reflexivity].
Qed.

Lemma decimal_from_spec : forall fuel n acc, 0 <= n < 2 ^ Z.of_nat fuel -> (0 < fuel)%nat -> Forall digit_char acc ->
  Forall digit_char (decimal_from fuel n acc) /\ decimal_from fuel n acc <> [] /\
  positional (decimal_from fuel n acc) = n * 10 ^ Z.of_nat (List.length acc) + positional acc.
Proof.
  induction fuel as [|fuel IH]; intros n acc N F A; [lia|]. cbn [decimal_from].
  destruct (digit_of_facts (n mod 10) ltac:(lia)) as [C P].
  assert (A' : Forall digit_char (digit_of (n mod 10) :: acc)) by (constructor; assumption).
  destruct (n / 10 =? 0) eqn:Z.
  - split; [exact A'|]. split; [discriminate|]. cbn [positional]. rewrite P.
    assert (n mod 10 = n) as -> by lia. reflexivity.
  - assert (B : 0 <= n / 10 < 2 ^ Z.of_nat fuel).
    { rewrite Nat2Z.inj_succ, Z.pow_succ_r in N by lia. lia. }
    assert (G : (0 < fuel)%nat). { destruct fuel; [|lia]. cbn in B. lia. }
    destruct (IH (n / 10) _ B G A') as (I1 & I2 & I3). split; [exact I1|]. split; [exact I2|]. rewrite I3.
    cbn [List.length positional]. rewrite P, Nat2Z.inj_succ, Z.pow_succ_r by lia.
    set (q := 10 ^ Z.of_nat (List.length acc)). assert (n = 10 * (n / 10) + n mod 10) by lia. nia.
Qed.
Ltac Zify.zify_post_hook ::= idtac.

Lemma decimal_spec : forall n, 0 <= n -> number_ok (Whole (decimal n)) /\ positional (decimal n) = n.
Proof.
  intros n H. unfold decimal. destruct (n <? 0) eqn:L; [lia|].
  destruct (decimal_from_spec (S (Z.to_nat (Z.log2 n))) n []) as (I1 & I2 & I3).
  - split; [exact H|]. rewrite Nat2Z.inj_succ, Z2Nat.id by apply Z.log2_nonneg.
    destruct (Z.eq_dec n 0) as [->|N]; [reflexivity|]. apply Z.log2_spec. lia.
  - lia.
  - constructor.
  - split; [split; assumption|]. rewrite I3. cbn. lia.
Qed.

(** * The window that is written *)
Fixpoint strip (cs : list (tunit * Z)) : list (tunit * Z) :=
  match cs with [] => [] | (u, v) :: cs' => if v =? 0 then strip cs' else cs end.
Definition window (cs : list (tunit * Z)) : list (tunit * Z) := rev (strip (rev (strip cs))).

Lemma together_app : forall a b, together (a ++ b) = together a + together b.
Proof. unfold together. induction a as [|p a IH]; intros b; cbn [app fold_right]; [lia|]. rewrite IH. lia. Qed.
Lemma together_rev : forall a, together (rev a) = together a.
Proof.
  induction a as [|p a IH]; [reflexivity|]. cbn [rev]. rewrite together_app, IH. unfold together. cbn [fold_right]. lia.
Qed.
Lemma together_strip : forall a, together (strip a) = together a.
Proof.
  induction a as [|[u v] a IH]; [reflexivity|]. cbn [strip]. destruct (v =? 0) eqn:E; [|reflexivity].
  rewrite IH. unfold together. cbn [fold_right fst snd]. assert (v = 0) as -> by lia. lia.
Qed.
Lemma together_window : forall a, together (window a) = together a.
Proof. intros a. unfold window. rewrite together_rev, together_strip, together_rev. apply together_strip. Qed.

Lemma strip_in : forall a x, In x (strip a) -> In x a.
Proof. induction a as [|[u v] a IH]; cbn [strip]; [tauto|]. intros x H. destruct (v =? 0); [right; auto|exact H]. Qed.
Lemma in_strip : forall a x, In x a -> snd x <> 0 -> In x (strip a).
Proof.
  induction a as [|[u v] a IH]; cbn [strip]; [tauto|]. intros x H N. destruct (v =? 0) eqn:E; [|exact H].
  destruct H as [<-|H]; [cbn [snd] in N; lia|auto].
Qed.
Lemma window_in : forall a x, In x (window a) -> In x a.
Proof. unfold window. intros a x H. apply in_rev in H. apply strip_in in H. apply in_rev in H. apply strip_in. exact H. Qed.
Lemma in_window : forall a x, In x a -> snd x <> 0 -> In x (window a).
Proof. unfold window. intros a x H N. apply in_rev. rewrite rev_involutive. apply in_strip; [|exact N]. apply -> in_rev. apply in_strip; assumption. Qed.

(** The text of some parts *)
Definition part (f : tformat) (first : bool) (p : tunit * Z) : list ascii :=
  (if first then [] else [","%char; " "%char]) ++ decimal (snd p) ++ unit_text f (fst p).
Definition others (f : tformat) (ps : list (tunit * Z)) : list ascii := concat (map (part f false) ps).
Definition spelled (f : tformat) (ps : list (tunit * Z)) : list ascii :=
  match ps with [] => [] | p :: ps => part f true p ++ others f ps end.

Lemma spell_window : forall f d h m s ms mus,
  let cs := [(Days, d); (Hours, h); (Minutes, m); (Seconds, s); (Milliseconds, ms); (Microseconds, mus)] in
  together cs <> 0 -> spell f (max_unit cs) (min_unit cs) false cs = spelled f (window cs).
Proof.
  intros f d h m s ms mus. cbv zeta. unfold window.
  cbn [max_unit min_unit fold_left fst snd strip].
  destruct (d =? 0) eqn:D, (h =? 0) eqn:H, (m =? 0) eqn:M, (s =? 0) eqn:S, (ms =? 0) eqn:Ms, (mus =? 0) eqn:Mus; intros N;
    try (exfalso; apply N; unfold together; cbn [fold_right fst snd]; lia); clear N;
    repeat (progress (cbn [rev app strip]; rewrite ?D, ?H, ?M, ?S, ?Ms, ?Mus));
    cbn [spell tunit_eqb orb spelled others part map concat fst snd app];
    unfold part; cbn [fst snd app]; rewrite ?app_nil_r; reflexivity.
Qed.

(** * Reading it *)
Definition gap (f : tformat) : list ascii := match f with Short => [] | _ => [" "%char] end.
Definition name (f : tformat) (u : tunit) : string :=
  match f, u with
  | (Full | Semishort), Years => "years" | (Full | Semishort), Months => "months" | (Full | Semishort), Weeks => "weeks"
  | (Full | Semishort), Days => "days"
  | Full, Hours => "hours" | Full, Minutes => "minutes" | Full, Seconds => "seconds"
  | Full, Milliseconds => "milliseconds" | Full, Microseconds => "microseconds"
  | Semishort, Hours => "hrs" | Semishort, Minutes => "mins" | Semishort, Seconds => "secs"
  | Semishort, Milliseconds => "ms" | Semishort, Microseconds => String mu "s"
  | Short, Years => "Y" | Short, Months => "M" | Short, Weeks => "W" | Short, Days => "d" | Short, Hours => "h"
  | Short, Minutes => "m" | Short, Seconds => "s" | Short, Milliseconds => "ms" | Short, Microseconds => String mu "s"
  end%string.
Definition known (f : tformat) (u : tunit) : bool :=
  match u with
  | Days | Hours | Minutes | Seconds => true
  | Milliseconds => match f with Full => false | _ => true end
  | _ => false
  end.

Lemma unit_text_split : forall f u, unit_text f u = gap f ++ list_ascii_of_string (name f u).
Proof. intros [] []; reflexivity. Qed.

Lemma known_worth : forall f u, known f u = true -> worth (name f u) (lasts u).
Proof.
  intros f u K. unfold worth.
  destruct f, u; cbn in K; try discriminate K;
    (eexists; split; [unfold unit_names; cbn [In]; 
       first [left; reflexivity | right; left; reflexivity | right; right; left; reflexivity | right; right; right; left; reflexivity
             | right; right; right; right; left; reflexivity] | cbn [In]; tauto]).
Qed.

Lemma unknown_name : forall f u, known f u = false ->
  name f u <> EmptyString /\ Forall letter (list_ascii_of_string (name f u)) /\ (forall us, ~ worth (name f u) us).
Proof.
  intros f u K. destruct f, u; cbn in K; try discriminate K;
    (split; [discriminate|]; split;
     [repeat (apply Forall_cons; [repeat split; [cbn; intuition discriminate|discriminate|cbn; intuition discriminate]|]); constructor
     |intros us (names & H & I); cbn in H;
      repeat (destruct H as [H|H]; [injection H as <- <-; cbn in I; intuition discriminate|]); exact H]).
Qed.

Lemma gap_facts : forall f, Forall separator (gap f) /\ hd " "%char (gap f) <> ":"%char.
Proof. intros []; (split; [repeat (apply Forall_cons; [vm_compute; tauto|]); apply Forall_nil|discriminate]). Qed.

Definition element_of (f : tformat) (first : bool) (p : tunit * Z) : element :=
  Element (if first then [] else [","%char; " "%char]) (Whole (decimal (snd p))) (gap f) (name f (fst p)) (lasts (fst p)).
Definition elements_of (f : tformat) (ps : list (tunit * Z)) : list element :=
  match ps with [] => [] | p :: ps => element_of f true p :: map (element_of f false) ps end.

Lemma before_ok : forall first : bool, Forall separator (if first then [] else [","%char; " "%char]).
Proof. intros []; repeat (apply Forall_cons; [vm_compute; tauto|]); apply Forall_nil. Qed.

Lemma element_of_ok : forall f first p, 0 <= snd p -> known f (fst p) = true -> element_ok (element_of f first p).
Proof.
  intros f first p N K. unfold element_ok, element_of. cbn [e_before e_number e_between e_unit e_worth].
  split; [apply before_ok|]. split; [apply decimal_spec, N|]. split; [apply gap_facts|]. split; [apply gap_facts|].
  apply known_worth, K.
Qed.
Lemma element_of_text : forall f first p, element_text (element_of f first p) = part f first p.
Proof. intros f first p. unfold element_text, element_of, part. cbn [e_before e_number e_between e_unit number_text]. rewrite unit_text_split. reflexivity. Qed.

Lemma elements_text : forall f ps, text (elements_of f ps) = spelled f ps.
Proof.
  intros f [|p ps]; [reflexivity|]. unfold text, spelled, others, elements_of. cbn [map concat]. rewrite element_of_text. f_equal.
  rewrite map_map. f_equal. apply map_ext. intros q. apply element_of_text.
Qed.
Lemma elements_ok : forall f ps, Forall (fun p => 0 <= snd p) ps -> Forall (fun p => known f (fst p) = true) ps ->
  Forall element_ok (elements_of f ps).
Proof.
  intros f [|p ps] N K; [constructor|]. inversion N; inversion K; subst. constructor; [apply element_of_ok; assumption|].
  rewrite Forall_map. rewrite Forall_forall in *. intros q I. apply element_of_ok; auto.
Qed.

Lemma total_map : forall f first ps, Forall (fun p => 0 <= snd p) ps ->
  (total (map (element_of f first) ps) == inject_Z (together ps))%Q.
Proof.
  intros f first ps N. induction N as [|p ps H N IH]; [reflexivity|].
  unfold total, together in *. cbn [map fold_right]. rewrite IH. unfold element_of at 1 2. cbn [e_worth e_number number_value].
  destruct (decimal_spec _ H) as [_ ->]. rewrite inject_Z_plus, inject_Z_mult. ring.
Qed.
Lemma total_elements : forall f ps, Forall (fun p => 0 <= snd p) ps -> (total (elements_of f ps) == inject_Z (together ps))%Q.
Proof.
  intros f [|p ps] N; [reflexivity|]. inversion N as [|? ? H N']; subst. unfold elements_of.
  pose proof (total_map f true [p] ltac:(constructor; [exact H|constructor])) as A. pose proof (total_map f false ps N') as B.
  unfold total, together in *. cbn [map fold_right] in *. rewrite B. rewrite !inject_Z_plus in *. rewrite Qplus_0_r in A.
  rewrite A. change (inject_Z 0) with 0%Q. ring.
Qed.

Lemma nearest_whole : forall q n us, (q == inject_Z n)%Q -> nearest q us -> us = n.
Proof.
  intros q n us E [A _]. rewrite E in A. 
  assert (B : (inject_Z n - inject_Z us == inject_Z (n - us))%Q) by (unfold Z.sub; rewrite inject_Z_plus, inject_Z_opp; reflexivity).
  rewrite B in A. unfold inject_Z, Qabs.Qabs, Qle in A. cbn in A. lia.
Qed.

Lemma reads_known : forall oi ofl f ps, ps <> [] -> Forall (fun p => 0 <= snd p) ps -> Forall (fun p => known f (fst p) = true) ps ->
  holdable (together ps) -> string_to_timedelta oi ofl (spelled f ps) = Returns (together ps).
Proof.
  intros oi ofl f ps NE N K H. rewrite <- elements_text.
  destruct (parse_sum oi ofl [] (elements_of f ps)) as (us & A & B).
  - constructor.
  - apply elements_ok; assumption.
  - destruct ps; [contradiction|discriminate].
  - cbn [signed] in A. apply (nearest_whole _ (together ps)) in A; [|apply total_elements, N]. subst us.
    destruct B as [[_ B]|[B _]]; [exact B|contradiction].
Qed.

Lemma first_unknown : forall f ps, ~ Forall (fun p : tunit * Z => known f (fst p) = true) ps ->
  exists pre p rest, ps = pre ++ p :: rest /\ Forall (fun p => known f (fst p) = true) pre /\ known f (fst p) = false.
Proof.
  induction ps as [|p ps IH]; intros H; [exfalso; apply H; constructor|].
  destruct (known f (fst p)) eqn:K.
  - destruct IH as (pre & q & rest & -> & A & B); [intros C; apply H; constructor; assumption|].
    exists (p :: pre), q, rest. split; [reflexivity|]. split; [constructor; assumption|exact B].
  - exists [], p, ps. split; [reflexivity|]. split; [constructor|exact K].
Qed.

Lemma others_end : forall f ps, unit_ends (others f ps).
Proof. intros f [|p ps]; [exact I|]. cbn. intros (_ & _ & S). apply S. right. left. reflexivity. Qed.

Lemma spelled_app : forall f pre p rest, exists first : bool,
  spelled f (pre ++ p :: rest) = spelled f pre ++ part f first p ++ others f rest.
Proof.
  intros f [|q pre] p rest.
  - exists true. reflexivity.
  - exists false. cbn [app spelled]. unfold others. rewrite map_app, concat_app. cbn [map concat]. rewrite <- app_assoc. reflexivity.
Qed.

Lemma reads_unknown : forall oi ofl f ps, Forall (fun p => 0 <= snd p) ps -> ~ Forall (fun p => known f (fst p) = true) ps ->
  string_to_timedelta oi ofl (spelled f ps) = Raises KeyError.
Proof.
  intros oi ofl f ps N U. destruct (first_unknown f ps U) as (pre & p & rest & -> & K & X).
  apply Forall_app in N. destruct N as [N1 N2]. inversion N2 as [|? ? P N3]; subst.
  destruct (spelled_app f pre p rest) as [first ->]. rewrite <- elements_text. unfold part. rewrite unit_text_split, <- !app_assoc.
  destruct (unknown_name f _ X) as (A & B & C).
  apply (unknown_unit_raises oi ofl [] (elements_of f pre) _ (Whole (decimal (snd p))) (gap f) (name f (fst p)) (others f rest)).
  - constructor.
  - apply elements_ok; assumption.
  - apply before_ok.
  - apply decimal_spec, P.
  - apply gap_facts.
  - apply gap_facts.
  - exact A.
  - exact B.
  - apply others_end.
  - exact C.
Qed.

(** * Durations *)
Ltac Zify.zify_post_hook ::= Z.div_mod_to_equations.
Lemma text_window : forall seen f us, seen us = us -> 0 < us -> exists ps,
  timedelta_to_str seen f fixed_units us = spelled f ps /\ together ps = us /\ Forall (fun p => 0 <= snd p) ps /\
  (in_known_units f us <-> Forall (fun p => known f (fst p) = true) ps).
Proof.
  intros seen f us E P. destruct (dict_parts seen us E) as (d & h & m & s & ms & mus & C & H & M & S & Ms & Mus & T).
  set (cs := [(Days, d); (Hours, h); (Minutes, m); (Seconds, s); (Milliseconds, ms); (Microseconds, mus)]) in C.
  assert (TC : together cs = us). { unfold together, cs. cbn [fold_right fst snd lasts]. lia. }
  exists (window cs). split.
  { unfold timedelta_to_str. rewrite C. apply spell_window. fold cs. lia. }
  split; [rewrite together_window; exact TC|]. split.
  { apply Forall_forall. intros x I. apply window_in in I. unfold cs in I. cbn [In] in I.
    repeat (destruct I as [<-|I]; [cbn [snd]; lia|]). contradiction. }
  assert (KU : in_known_units f us <-> (mus = 0 /\ (f = Full -> ms = 0))).
  { unfold in_known_units. destruct f; split; intros K; try (split; [lia|intros F; try discriminate F; lia]);
      destruct K as [K1 K2]; try specialize (K2 eq_refl); lia. }
  rewrite KU. split.
  - intros [K1 K2]. unfold window, cs. rewrite K1. clear C TC KU.
    destruct f; [rewrite (K2 eq_refl)| |];
      cbn [strip];
      destruct (d =? 0) eqn:D, (h =? 0) eqn:Hh, (m =? 0) eqn:Mm, (s =? 0) eqn:Ss, (ms =? 0) eqn:MM;
      repeat (progress (cbn [rev app strip Z.eqb]; rewrite ?D, ?Hh, ?Mm, ?Ss, ?MM)); repeat constructor.
  - intros K. rewrite Forall_forall in K. split.
    + destruct (Z.eq_dec mus 0) as [Z|Z]; [exact Z|]. 
      specialize (K (Microseconds, mus)). cbn [fst known] in K. exfalso. apply diff_false_true. apply K.
      apply in_window; [unfold cs; cbn [In]; tauto|exact Z].
    + intros ->. destruct (Z.eq_dec ms 0) as [Z|Z]; [exact Z|].
      specialize (K (Milliseconds, ms)). cbn [fst known] in K. exfalso. apply diff_false_true. apply K.
      apply in_window; [unfold cs; cbn [In]; tauto|exact Z].
Qed.
Ltac Zify.zify_post_hook ::= idtac.

Lemma text_read : forall oi ofl seen f us, seen us = us -> 0 < us -> holdable us -> in_known_units f us ->
  string_to_timedelta oi ofl (timedelta_to_str seen f fixed_units us) = Returns us.
Proof.
  intros oi ofl seen f us E P H K. destruct (text_window seen f us E P) as (ps & -> & T & N & W).
  rewrite <- T. apply reads_known; [|exact N|apply W, K|rewrite T; exact H].
  intros ->. cbn in T. lia.
Qed.

Lemma text_unread : forall oi ofl seen f us, seen us = us -> 0 < us -> ~ in_known_units f us ->
  string_to_timedelta oi ofl (timedelta_to_str seen f fixed_units us) = Raises KeyError.
Proof.
  intros oi ofl seen f us E P K. destruct (text_window seen f us E P) as (ps & -> & T & N & W).
  apply reads_unknown; [exact N|]. intros A. apply K, W, A.
Qed.

Lemma text_zero : forall oi ofl seen f, seen 0 = 0 ->
  string_to_timedelta oi ofl (timedelta_to_str seen f fixed_units 0) = Raises KeyError.
Proof.
  intros oi ofl seen f E. unfold timedelta_to_str, timedelta_to_dict. rewrite E.
  transitivity (string_to_timedelta oi ofl (spelled f [(Microseconds, 0)])).
  - destruct f; reflexivity.
  - apply reads_unknown; [repeat constructor; cbn; lia|]. intros A. inversion A as [|? ? B _]. destruct f; discriminate B.
Qed.

Lemma text_negative : exists us us', us < 0 /\ us mod 1000000 = 0 /\ us' <> us /\
  forall oi ofl, string_to_timedelta oi ofl (timedelta_to_str float_seen Full fixed_units us) = Returns us'.
Proof. exists (-3600000000), (-169200000000). split; [lia|]. split; [reflexivity|]. split; [lia|]. intros oi ofl. vm_compute. reflexivity. Qed.

Lemma float_parts : exists us, 0 < us /\ together (timedelta_to_dict float_seen fixed_units us) <> us.
Proof. exists 249. split; [lia|]. vm_compute. discriminate. Qed.
