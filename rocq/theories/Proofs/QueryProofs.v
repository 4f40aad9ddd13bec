(** Proofs about queries. *)
From Coq Require Import Bool Arith Lia ZifyBool Ascii String Permutation.
From Verif Require Import Model.Base Model.Query Spec.QuerySpec.
Open Scope Z_scope.
Open Scope list_scope.

(** * Values *)
Lemma dict_get_in d k v : keys_distinct d -> dict_get k d = Some v <-> In (k, v) d.
Proof.
  unfold keys_distinct. induction d as [|[k' v'] d IH]; cbn [map fst dict_get]; intros H; [split; [discriminate|intros []]|].
  inversion H as [|? ? N D]; subst. destruct (String.eqb_spec k k') as [->|E].
  - split; [intros [= ->]; now left|]. intros [[= ->]|I]; [reflexivity|]. exfalso. apply N. now apply (in_map fst) in I.
  - rewrite (IH D). split; [now right|]. intros [[= -> ->]|I]; [congruence|exact I].
Qed.
Lemma has_get d o v : keys_distinct d -> has d o v <-> get_value d o = Ok v.
Proof.
  intros D. destruct o as [k|v']; cbn [has get_value].
  - rewrite <- (dict_get_in d k v D). destruct (dict_get k d); split; congruence.
  - split; [now intros ->|now intros [= ->]].
Qed.
Lemma has_one d o v v' : keys_distinct d -> has d o v -> has d o v' -> v = v'.
Proof. intros D H H'. apply has_get in H, H'; auto. congruence. Qed.

Lemma ascii_compare c c' : Ascii.compare c c' = (N_of_ascii c ?= N_of_ascii c')%N.
Proof. reflexivity. Qed.
Lemma ascii_eq c c' : (N_of_ascii c ?= N_of_ascii c')%N = Eq -> c = c'.
Proof. intros H. apply N.compare_eq in H. rewrite <- (ascii_N_embedding c), <- (ascii_N_embedding c'). now rewrite H. Qed.
Lemma before_irrefl a : ~ str_before a a.
Proof. induction a as [|c a IH]; intros H; inversion H; subst; [lia|auto]. Qed.
Lemma str_lt a : forall b, String.compare a b = Lt <-> str_before a b.
Proof.
  induction a as [|c a IH]; intros [|c' b]; cbn [String.compare]; try (split; [discriminate|intros H; inversion H]).
  - split; [constructor|reflexivity].
  - rewrite ascii_compare. destruct (N_of_ascii c ?= N_of_ascii c')%N eqn:E.
    + apply ascii_eq in E. subst c'. rewrite (IH b). split; [now constructor|]. intros H. inversion H; subst; [lia|assumption].
    + split; [intros _; now constructor|reflexivity].
    + split; [discriminate|]. intros H. exfalso. rewrite N.compare_gt_iff in E. inversion H; subst; lia.
Qed.
Lemma str_compare_sym a : forall b, String.compare b a = CompOpp (String.compare a b).
Proof. intros b. apply String.compare_antisym. Qed.
Lemma str_gt a b : String.compare a b = Gt <-> str_before b a.
Proof. rewrite <- str_lt, (str_compare_sym a b). destruct (String.compare a b); split; intros H; try discriminate H; reflexivity. Qed.
Lemma py_eq_spec l r : py_eq l r = true <-> l = r.
Proof.
  destruct l, r; cbn [py_eq]; try (split; [discriminate|intros [=]]); try (split; reflexivity).
  - rewrite Z.eqb_eq. split; congruence.
  - rewrite String.eqb_eq. split; congruence.
  - rewrite Z.eqb_eq. split; congruence.
Qed.
Lemma py_compare_spec l r : same_kind l r -> exists o, py_compare l r = Ok o /\
  match o with Lt => before l r | Eq => l = r | Gt => before r l end.
Proof.
  destruct l, r; cbn [same_kind py_compare before]; try contradiction; intros _; eexists; (split; [reflexivity|]).
  - destruct (Z.compare_spec i i0); congruence || lia.
  - destruct (String.compare s s0) eqn:E; [now apply String.compare_eq_iff in E; subst|now apply str_lt|now apply str_gt].
  - destruct (Z.compare_spec us us0); congruence || lia.
Qed.
Lemma before_asym l r : before l r -> ~ before r l /\ l <> r.
Proof.
  destruct l, r; cbn [before]; try contradiction; intros H.
  - split; [lia|intros [= ->]; lia].
  - split; [|intros [= ->]; now apply before_irrefl in H]. intros K. apply str_lt in H. apply str_gt in K. congruence.
  - split; [lia|intros [= ->]; lia].
Qed.
Lemma compare_ok c l r : ordered c l r -> exists b, compare c l r = Ok b /\ (b = true <-> relation c l r).
Proof.
  intros H. assert (O : c <> CEq -> c <> CNe -> same_kind l r) by (destruct H as [->|[->|H]]; auto; congruence).
  destruct c; cbn [compare relation].
  - eexists. split; [reflexivity|]. apply py_eq_spec.
  - eexists. split; [reflexivity|]. rewrite <- py_eq_spec. destruct (py_eq l r); cbn; split; congruence.
  - destruct (py_compare_spec l r) as (o & E & S); [now apply O|]. rewrite E. cbn. eexists. split; [reflexivity|].
    destruct o; [subst r|apply before_asym in S|]; split; intros X; try discriminate X; auto; try tauto. now apply before_asym in X.
  - destruct (py_compare_spec l r) as (o & E & S); [now apply O|]. rewrite E. cbn. eexists. split; [reflexivity|].
    destruct o; [auto|apply before_asym in S|]; split; intros X; try discriminate X; auto; tauto.
  - destruct (py_compare_spec l r) as (o & E & S); [now apply O|]. rewrite E. cbn. eexists. split; [reflexivity|].
    destruct o; [subst r| |apply before_asym in S]; split; intros X; try discriminate X; auto; try tauto. now apply before_asym in X.
  - destruct (py_compare_spec l r) as (o & E & S); [now apply O|]. rewrite E. cbn. eexists. split; [reflexivity|].
    destruct o; [auto| |apply before_asym in S]; split; intros X; try discriminate X; auto; try tauto.
    destruct X as [X|X]; [tauto|]. symmetry in X. tauto.
Qed.
Lemma relation_reflected c l r : relation (reflected c) l r <-> relation c r l.
Proof. destruct c; cbn; split; intros H; auto; (destruct H; [now left|now right]) || (intros ->; now apply H). Qed.
Lemma same_kind_sym l r : same_kind l r -> same_kind r l.
Proof. destruct l, r; auto. Qed.
Lemma ordered_reflected c l r : ordered c l r -> ordered (reflected c) r l.
Proof. intros [->|[->|H]]; [now left|right; now left|right; right; now apply same_kind_sym]. Qed.

Section Query.
Context (pd : string -> result Z) (ft : Z -> result Z) (rx : string -> string -> result bool).
Notation mat := (match_ pd ft rx).
Notation says := (says pd ft rx).
Notation decided := (decided pd ft rx).
Notation answers := (answers pd ft rx).

Lemma taken_ok l r l' r' : taken pd ft l r l' r' <-> to_comparable pd ft l r = Ok (l', r').
Proof.
  unfold to_comparable.
  assert (M : forall v a, moment pd ft v a <-> to_datetime pd ft v = Ok (VDate a)).
  { intros [| |s|t] a; cbn [moment to_datetime]; try (split; [contradiction|discriminate]).
    - destruct (ft i); cbn; split; congruence.
    - destruct (pd s); cbn; split; congruence.
    - split; congruence. }
  assert (D : forall v, is_date v = true <-> exists t, v = VDate t).
  { intros [| | |t]; cbn; split; try discriminate; try (intros [t' [=]]); eauto. }
  assert (DV : forall v x, to_datetime pd ft v = Ok x -> exists a, x = VDate a).
  { intros v x. destruct v; cbn [to_datetime]; try discriminate; [destruct (ft i)|destruct (pd s)|]; cbn; try discriminate; intros [= <-]; eauto. }
  destruct (is_date l || is_date r) eqn:E.
  - apply orb_true_iff in E. rewrite !D in E. split.
    + intros [(H1 & H2 & _)|(_ & a & b & Ha & Hb & -> & ->)].
      * exfalso. destruct E as [[t E]|[t E]]; [now apply (H1 t)|now apply (H2 t)].
      * apply M in Ha, Hb. now rewrite Ha, Hb.
    + intros H. right. split; [exact E|]. destruct (to_datetime pd ft l) as [x|] eqn:L; [|discriminate H].
      cbn [bind] in H. destruct (to_datetime pd ft r) as [y|] eqn:R; [|discriminate H]. cbn in H. injection H as <- <-.
      destruct (DV _ _ L) as [a ->], (DV _ _ R) as [b ->]. exists a, b. rewrite !M. auto.
  - apply orb_false_iff in E. destruct E as [E1 E2]. split.
    + intros [(_ & _ & -> & ->)|([[t ->]|[t ->]] & _)]; [reflexivity|discriminate..].
    + intros [= <- <-]. left. repeat split; auto; intros t ->; discriminate.
Qed.
Lemma taken_sym l r l' r' : taken pd ft l r l' r' -> taken pd ft r l r' l'.
Proof. intros [(A & B & C & D)|([A|A] & a & b & B & C & D & E)]; [left|right|right]; repeat split; auto; exists b, a; auto. Qed.
Lemma taken_one l r a b a' b' : taken pd ft l r a b -> taken pd ft l r a' b' -> a = a' /\ b = b'.
Proof. intros H H'. apply taken_ok in H, H'. rewrite H in H'. now injection H'. Qed.

(** * Combinations *)
Definition conj (x : result bool) (y : result bool) : result bool := let* b := x in if b then y else Ok false.
Definition disj (x : result bool) (y : result bool) : result bool := let* b := x in if b then Ok true else y.
Lemma mat_all_app d a b : mat d (QAll (a ++ b)) = conj (mat d (QAll a)) (mat d (QAll b)).
Proof.
  induction a as [|q a IH]; [reflexivity|]. cbn [app]. change (mat d (QAll (q :: a ++ b))) with (conj (mat d q) (mat d (QAll (a ++ b)))).
  change (mat d (QAll (q :: a))) with (conj (mat d q) (mat d (QAll a))). rewrite IH. unfold conj. destruct (mat d q) as [[]|]; reflexivity.
Qed.
Lemma mat_any_app d a b : mat d (QAny (a ++ b)) = disj (mat d (QAny a)) (mat d (QAny b)).
Proof.
  induction a as [|q a IH]; [reflexivity|]. cbn [app]. change (mat d (QAny (q :: a ++ b))) with (disj (mat d q) (mat d (QAny (a ++ b)))).
  change (mat d (QAny (q :: a))) with (disj (mat d q) (mat d (QAny a))). rewrite IH. unfold disj. destruct (mat d q) as [[]|]; reflexivity.
Qed.
Lemma mat_all_args d q : mat d (QAll (all_args q)) = mat d q.
Proof.
  assert (S : mat d (QAll [q]) = mat d q).
  { change (mat d (QAll [q])) with (conj (mat d q) (Ok true)). unfold conj. destruct (mat d q) as [[]|]; reflexivity. }
  destruct q; [reflexivity|exact S..].
Qed.
Lemma mat_any_args d q : mat d (QAny (any_args q)) = mat d q.
Proof.
  assert (S : mat d (QAny [q]) = mat d q).
  { change (mat d (QAny [q])) with (disj (mat d q) (Ok false)). unfold disj. destruct (mat d q) as [[]|]; reflexivity. }
  destruct q; [exact S|reflexivity|exact S..].
Qed.
Theorem mat_and d a b : mat d (and_ a b) = conj (mat d a) (mat d b).
Proof. unfold and_. now rewrite mat_all_app, !mat_all_args. Qed.
Theorem mat_or d a b : mat d (or_ a b) = disj (mat d a) (mat d b).
Proof. unfold or_. now rewrite mat_any_app, !mat_any_args. Qed.
Theorem mat_not d a : mat d (invert a) = let* b := mat d a in Ok (negb b).
Proof. reflexivity. Qed.

Lemma answers_and q q' d P P' : answers q d P -> answers q' d P' -> answers (and_ q q') d (P /\ P').
Proof.
  intros (b & E & H) (b' & E' & H'). unfold answers. rewrite mat_and, E, E'. cbn. exists (b && b').
  split; [now destruct b|]. rewrite andb_true_iff. tauto.
Qed.
Lemma answers_or q q' d P P' : answers q d P -> answers q' d P' -> answers (or_ q q') d (P \/ P').
Proof.
  intros (b & E & H) (b' & E' & H'). unfold answers. rewrite mat_or, E, E'. cbn. exists (b || b').
  split; [now destruct b|]. rewrite orb_true_iff. tauto.
Qed.
Lemma answers_not q d P : answers q d P -> answers (invert q) d (~ P).
Proof.
  intros (b & E & H). unfold answers. rewrite mat_not, E. cbn. exists (negb b).
  split; [reflexivity|]. rewrite negb_true_iff. destruct b; split; intros X; try discriminate X; [exfalso; apply X, H; reflexivity| |reflexivity].
  intros K. now apply H in K.
Qed.
Lemma answers_iff q d P P' : (P <-> P') -> answers q d P -> answers q d P'.
Proof. intros I (b & E & H). exists b. split; [exact E|tauto]. Qed.

(** * Comparisons *)
Lemma answers_cmp d c l r : keys_distinct d -> decided d (Is c l r) -> answers (QCmp c l r) d (says d (Is c l r)).
Proof.
  intros K (a & b & a' & b' & Ha & Hb & T & O). cbn [QuerySpec.says]. unfold answers. cbn [match_].
  destruct (compare_ok c a' b' O) as (x & E & X). exists x.
  pose proof (proj1 (has_get _ _ _ K) Ha) as Ga. pose proof (proj1 (has_get _ _ _ K) Hb) as Gb.
  rewrite Ga, Gb. cbn [bind]. rewrite (proj1 (taken_ok _ _ _ _) T). cbn [bind fst snd]. split; [exact E|]. rewrite X. split.
  - intros R. exists a, b, a', b'. auto.
  - intros (a1 & b1 & a2 & b2 & Ha1 & Hb1 & T1 & R1).
    rewrite (has_one _ _ _ _ K Ha1 Ha), (has_one _ _ _ _ K Hb1 Hb) in T1. destruct (taken_one _ _ _ _ _ _ T T1) as [-> ->]. exact R1.
Qed.
Lemma says_reflected d c l r : says d (Is (reflected c) r l) <-> says d (Is c l r).
Proof.
  cbn [QuerySpec.says]. split; intros (a & b & a' & b' & Ha & Hb & T & R); exists b, a, b', a'; repeat split; auto using taken_sym;
    now apply relation_reflected.
Qed.
Lemma decided_reflected d c l r : decided d (Is c l r) -> decided d (Is (reflected c) r l).
Proof. intros (a & b & a' & b' & Ha & Hb & T & R). exists b, a, b', a'. repeat split; auto using taken_sym, ordered_reflected. Qed.
Lemma answers_compare d c l r : keys_distinct d -> decided d (Is c l r) -> answers (compare_with c l r) d (says d (Is c l r)).
Proof.
  intros K D. unfold compare_with. destruct l, r; try (now apply answers_cmp).
  apply (answers_iff _ _ _ _ (says_reflected _ _ _ _)). apply answers_cmp; [exact K|]. now apply decided_reflected.
Qed.
Lemma answers_regex d k p : keys_distinct d -> decided d (Matches k p) -> answers (QRegex k p) d (says d (Matches k p)).
Proof.
  intros K (t & s & b & -> & H & R). pose proof (proj1 (has_get _ _ _ K) H) as G. exists b. cbn [match_]. rewrite G. cbn [bind].
  split; [exact R|]. split.
  - intros ->. exists t, s. auto.
  - intros (t' & s' & [= <-] & H' & R'). pose proof (has_one _ _ _ _ K H H') as [= <-]. congruence.
Qed.
Theorem matches_says d e : keys_distinct d -> decided d e -> answers (written e) d (says d e).
Proof.
  intros K. induction e; intros D; cbn [written].
  - now apply answers_compare.
  - now apply answers_regex.
  - destruct D. apply answers_and; auto.
  - destruct D. apply answers_or; auto.
  - apply answers_not; auto.
Qed.

(** * Filtering *)
Theorem filter_says e data : (forall d, In d data -> keys_distinct d /\ decided d e) ->
  exists f, (forall d, In d data -> (f d = true <-> says d e)) /\
    filter_ pd ft rx (written e) data = (List.filter f data, None).
Proof.
  intros H. exists (fun d => match mat d (written e) with Ok true => true | _ => false end). split.
  - intros d I. destruct (H d I) as [K D]. destruct (matches_says d e K D) as (b & E & X). rewrite E. rewrite <- X. destruct b; split; auto.
  - induction data as [|d data IH]; [reflexivity|]. cbn [filter_ List.filter].
    destruct (H d (or_introl eq_refl)) as [K D]. destruct (matches_says d e K D) as (b & E & _). rewrite E.
    rewrite IH by (intros; apply H; now right). destruct b; reflexivity.
Qed.
Theorem filter_stops q a d b e : (forall x, In x a -> exists v, mat x q = Ok v) -> mat d q = Err e ->
  filter_ pd ft rx q (a ++ d :: b) = (fst (filter_ pd ft rx q a), Some e).
Proof.
  intros H E. induction a as [|x a IH]; [cbn; now rewrite E|]. cbn [app filter_].
  destruct (H x (or_introl eq_refl)) as [v V]. rewrite V. rewrite IH by (intros; apply H; now right).
  destruct v; [|reflexivity]. destruct (filter_ pd ft rx q a). reflexivity.
Qed.

(** * Statements built one by one *)
(** [s] stands for the conjunction of the claims so far. *)
Definition stands (s : option query) (d : item) (P : Prop) : Prop :=
  match s with None => P <-> True | Some q => answers q d P end.
Lemma stands_add s d P q Q : stands s d P -> answers q d Q -> stands (add s q) d (P /\ Q).
Proof. intros S A. destruct s as [s|]; cbn [add stands] in *; [now apply answers_and|]. eapply answers_iff; [|exact A]. tauto. Qed.
Lemma stands_iff s d P P' : (P <-> P') -> stands s d P -> stands s d P'.
Proof. intros I. destruct s; cbn [stands]; [now apply answers_iff|tauto]. Qed.
Lemma stands_finish s d P : stands s d P -> answers (finish s) d P.
Proof. destruct s; cbn [stands finish]; [auto|]. intros I. exists true. split; [reflexivity|tauto]. Qed.

(** * Dictionaries *)
Lemma split_plain k : plain k -> split k = [k].
Proof.
  unfold plain. induction k as [|c k IH]; cbn [list_ascii_of_string split]; intros H; [reflexivity|].
  destruct (Ascii.eqb_spec c dollar) as [->|N]; [exfalso; apply H; now left|]. rewrite IH; [reflexivity|]. intros I. apply H. now right.
Qed.
Lemma split_dollar k t : plain k -> split (append k (String dollar t)) = k :: split t.
Proof.
  unfold plain. induction k as [|c k IH]; cbn [list_ascii_of_string append]; intros H; [reflexivity|]. cbn [split].
  destruct (Ascii.eqb_spec c dollar) as [->|N]; [exfalso; apply H; now left|]. rewrite IH; [reflexivity|]. intros I. apply H. now right.
Qed.
Lemma append_nil k : append k EmptyString = k.
Proof. induction k as [|c k IH]; cbn; [reflexivity|now rewrite IH]. Qed.
Lemma operation_ok c : plain (cr_key c) -> exists q, get_operation (fst (entry c)) (snd (entry c)) = Ok q /\
  forall d, keys_distinct d -> decided d (required c) -> answers q d (says d (required c)).
Proof.
  intros P. destruct c as [k s v]. cbn [cr_key] in P. unfold entry, required. cbn [cr_key cr_sort cr_value fst snd].
  unfold get_operation. destruct s; cbn [suffix].
  - rewrite append_nil, (split_plain _ P). eexists. split; [reflexivity|]. intros. now apply answers_cmp.
  - change "$min"%string with (String dollar "min"). rewrite (split_dollar _ _ P). eexists. split; [reflexivity|]. intros. now apply answers_cmp.
  - change "$max"%string with (String dollar "max"). rewrite (split_dollar _ _ P). eexists. split; [reflexivity|]. intros. now apply answers_cmp.
  - change "$not"%string with (String dollar "not"). rewrite (split_dollar _ _ P). eexists. split; [reflexivity|]. intros. now apply answers_cmp.
  - change "$regex"%string with (String dollar "regex"). rewrite (split_dollar _ _ P). eexists. split; [reflexivity|]. intros. now apply answers_regex.
Qed.
Lemma items_ok cs : Forall (fun c => plain (cr_key c)) cs -> forall s, exists s',
  from_items s (map entry cs) = Ok s' /\
  forall d P, keys_distinct d -> stands s d P -> Forall (fun c => decided d (required c)) cs ->
    stands s' d (P /\ Forall (fun c => says d (required c)) cs).
Proof.
  induction 1 as [|c cs Hc _ IH]; intros s.
  - exists s. split; [reflexivity|]. intros d P K S _. eapply stands_iff; [|exact S]. split; [auto|tauto].
  - destruct (operation_ok c Hc) as (q & E & A). destruct (IH (add s q)) as (s' & E' & S'). exists s'. split.
    + cbn [map]. destruct (entry c) as [k v]. cbn [from_items fst snd] in *. rewrite E. exact E'.
    + intros d P K S F. inversion F; subst. eapply stands_iff; [|apply (S' d (P /\ says d (required c)) K)]; auto.
      * rewrite Forall_cons_iff. tauto.
      * apply stands_add; auto.
Qed.
Theorem dict_ok cs : Forall (fun c => plain (cr_key c)) cs -> exists q, from_dict (map entry cs) = Ok q /\
  forall d, keys_distinct d -> Forall (fun c => decided d (required c)) cs ->
    answers q d (Forall (fun c => says d (required c)) cs).
Proof.
  intros H. destruct (items_ok cs H None) as (s & E & S). exists (finish s). split; [unfold from_dict; now rewrite E|].
  intros d K D. apply stands_finish. eapply stands_iff; [|apply (S d True K)]; auto; [tauto|]. now cbn.
Qed.
(** Errors *)
Lemma operation_unknown k t v : plain k -> plain t -> ~ In t ["min"; "max"; "not"; "regex"]%string ->
  get_operation (append k (String dollar t)) v = Err KeyError.
Proof.
  intros P P' N. unfold get_operation. rewrite (split_dollar _ _ P), (split_plain _ P').
  repeat match goal with |- context [String.eqb t ?x] => destruct (String.eqb_spec t x) as [->|_]; [exfalso; apply N; cbn; auto|] end.
  reflexivity.
Qed.
Lemma split_two t u : exists a b l, split (append t (String dollar u)) = a :: b :: l.
Proof.
  induction t as [|c t IH].
  - cbn. destruct (split u) as [|b l] eqn:E; [|now exists ""%string, b, l].
    destruct u as [|c u]; [discriminate E|]. cbn in E. destruct (Ascii.eqb c dollar); [discriminate E|]. destruct (split u); discriminate E.
  - destruct IH as (a & b & l & E). cbn [append split]. destruct (Ascii.eqb c dollar).
    + rewrite E. eauto.
    + rewrite E. eauto.
Qed.
Lemma operation_twice k t u v : plain k -> get_operation (append k (String dollar (append t (String dollar u)))) v = Err ValueError.
Proof.
  intros P. unfold get_operation. rewrite (split_dollar _ _ P). destruct (split_two t u) as (a & b & l & ->). reflexivity.
Qed.
Theorem dict_error cs k v rest e : Forall (fun c => plain (cr_key c)) cs -> get_operation k v = Err e ->
  from_dict (map entry cs ++ (k, v) :: rest) = Err e.
Proof.
  intros H E. assert (G : forall s, from_items s (map entry cs ++ (k, v) :: rest) = Err e).
  { induction H as [|c cs Hc _ IH]; intros s; cbn [map app from_items]; [now rewrite E|].
    destruct (operation_ok c Hc) as (q & E' & _). destruct (entry c) as [k' v']. cbn [fst snd] in E'. rewrite E'. apply IH. }
  unfold from_dict. now rewrite G.
Qed.

(** * Keyword arguments *)
Lemma any_answers d k vs : keys_distinct d -> Forall (fun v => decided d (Is CEq (OKey k) (OLit v))) vs ->
  answers (QAny (map (fun v => compare_with CEq (OKey k) (OLit v)) vs)) d
          (Exists (fun v => says d (Is CEq (OKey k) (OLit v))) vs).
Proof.
  intros K. induction 1 as [|v vs D _ IH].
  - exists false. split; [reflexivity|]. split; [discriminate|intros H; inversion H].
  - cbn [map]. destruct IH as (b & E & X). destruct (answers_cmp d CEq (OKey k) (OLit v) K D) as (b0 & E0 & X0).
    exists (b0 || b). split.
    + change (mat d (QAny (?q :: ?l))) with (disj (mat d q) (mat d (QAny l))).
      transitivity (disj (mat d (QCmp CEq (OKey k) (OLit v))) (mat d (QAny (map (fun v => compare_with CEq (OKey k) (OLit v)) vs)))); [reflexivity|].
      rewrite E0, E. now destruct b0.
    + rewrite orb_true_iff, Exists_cons. tauto.
Qed.
Lemma kw_ok kw : Forall (fun a => pair_or_other (snd a)) kw -> forall s, exists s', from_kw s kw = Ok s' /\
  forall d P, keys_distinct d -> stands s d P -> Forall (kw_decided pd ft rx d) kw ->
    stands s' d (P /\ Forall (kw_says pd ft rx d) kw).
Proof.
  induction 1 as [|[k v] kw Hc _ IH]; intros s.
  - exists s. split; [reflexivity|]. intros d P K S _. eapply stands_iff; [|exact S]. split; [auto|tauto].
  - (* one argument *)
    assert (G : exists s1, (forall kw, from_kw s ((k, v) :: kw) = from_kw s1 kw) /\
              forall d P, keys_distinct d -> stands s d P -> kw_decided pd ft rx d (k, v) ->
                stands s1 d (P /\ kw_says pd ft rx d (k, v))).
    { cbn [snd pair_or_other] in Hc. destruct v as [vs|vs|v].
      - destruct vs as [|x [|y [|? ?]]]; cbn in Hc; try discriminate Hc.
        destruct (is_none x) eqn:X, (is_none y) eqn:Y.
        + exists s. split; [intros; cbn [from_kw]; rewrite X, Y; reflexivity|]. intros d P K S D.
          destruct x; try discriminate X. destruct y; try discriminate Y. cbn. eapply stands_iff; [|exact S]. split; [auto|tauto].
        + eexists. split; [intros; cbn [from_kw]; rewrite X, Y; reflexivity|]. intros d P K S D.
          destruct x; try discriminate X. assert (B : bounds k VNone y = [Is CLe (OKey k) (OLit y)]) by (destruct y; [discriminate Y|reflexivity..]).
          unfold kw_decided in D. unfold kw_says. cbn [fst snd] in *. rewrite B in *. apply Forall_inv in D.
          eapply stands_iff; [|apply stands_add; [exact S|apply answers_cmp; eassumption]]. rewrite Forall_cons_iff. intuition auto.
        + eexists. split; [intros; cbn [from_kw]; rewrite X, Y; reflexivity|]. intros d P K S D.
          destruct y; try discriminate Y. assert (B : bounds k x VNone = [Is CGe (OKey k) (OLit x)]) by (destruct x; [discriminate X|reflexivity..]).
          unfold kw_decided in D. unfold kw_says. cbn [fst snd] in *. rewrite B in *. apply Forall_inv in D.
          eapply stands_iff; [|apply stands_add; [exact S|apply answers_cmp; eassumption]]. rewrite Forall_cons_iff. intuition auto.
        + eexists. split; [intros; cbn [from_kw]; rewrite X, Y; reflexivity|]. intros d P K S D.
          assert (B : bounds k x y = [Is CGe (OKey k) (OLit x); Is CLe (OKey k) (OLit y)])
            by (destruct x; [discriminate X|destruct y; [discriminate Y|reflexivity..]..]).
          unfold kw_decided in D. unfold kw_says. cbn [fst snd] in *. rewrite B in *. pose proof (Forall_inv D) as D1. apply Forall_inv_tail, Forall_inv in D.
          eapply stands_iff; [|apply stands_add; [exact S|apply answers_and; apply answers_cmp; eassumption]]. rewrite !Forall_cons_iff. intuition auto.
      - eexists. split; [intros; reflexivity|]. intros d P K S D. apply stands_add; [exact S|]. now apply any_answers.
      - eexists. split; [intros; reflexivity|]. intros d P K S D. apply stands_add; [exact S|]. now apply answers_cmp. }
    destruct G as (s1 & E1 & S1). destruct (IH s1) as (s' & E' & S'). exists s'. split; [now rewrite E1|].
    intros d P K S F. inversion F; subst. eapply stands_iff; [|apply (S' d _ K (S1 d P K S H1))]; auto. rewrite Forall_cons_iff. tauto.
Qed.
Theorem kwargs_ok kw : Forall (fun a => pair_or_other (snd a)) kw -> exists q, from_kwargs kw = Ok q /\
  forall d, keys_distinct d -> Forall (kw_decided pd ft rx d) kw -> answers q d (Forall (kw_says pd ft rx d) kw).
Proof.
  intros H. destruct (kw_ok kw H None) as (s & E & S). exists (finish s). split; [unfold from_kwargs; now rewrite E|].
  intros d K D. apply stands_finish. eapply stands_iff; [|apply (S d True K)]; auto; [tauto|]. now cbn.
Qed.
End Query.
Lemma kw_error kw k vs rest : Forall (fun a => pair_or_other (snd a)) kw -> length vs <> 2%nat -> forall s,
  from_kw s (kw ++ (k, KTuple vs) :: rest) = Err ValueError.
Proof.
  intros H N. induction H as [|[k' v] kw Hc _ IH]; intros s; cbn [app from_kw].
  - destruct vs as [|a [|b [|c vs]]]; try reflexivity. now destruct N.
  - destruct v as [us|us|v]; try apply IH. destruct us as [|a [|b [|c us]]]; try discriminate Hc.
    destruct (_ && _); [apply IH|]. destruct (negb _); [apply IH|]. destruct (negb _); apply IH.
Qed.
Theorem kwargs_error kw k vs rest : Forall (fun a => pair_or_other (snd a)) kw -> length vs <> 2%nat ->
  from_kwargs (kw ++ (k, KTuple vs) :: rest) = Err ValueError.
Proof. intros H N. unfold from_kwargs. now rewrite kw_error. Qed.
Theorem and_first pd ft rx d a b : match_ pd ft rx d (and_ a b) =
  match match_ pd ft rx d a with Ok true => match_ pd ft rx d b | r => r end.
Proof. rewrite mat_and. unfold conj. destruct (match_ pd ft rx d a) as [[]|]; reflexivity. Qed.
Theorem or_first pd ft rx d a b : match_ pd ft rx d (or_ a b) =
  match match_ pd ft rx d a with Ok false => match_ pd ft rx d b | r => r end.
Proof. rewrite mat_or. unfold disj. destruct (match_ pd ft rx d a) as [[]|]; reflexivity. Qed.
