(** Proofs about queries from pairs and about the keyword form. *)
From Coq Require Import Bool Arith Lia ZifyBool Ascii String Permutation.
From Verif Require Import Model.Base Model.Query Spec.QuerySpec Proofs.QueryProofs.
Open Scope Z_scope.
Open Scope list_scope.

(** * Pairs *)
Lemma count_in l k : (1 <= key_count l k)%nat -> exists a v b, l = a ++ (k, v) :: b.
Proof.
  unfold key_count. induction l as [|[k' v] l IH]; cbn [filter fst]; [cbn; lia|]. destruct (String.eqb_spec k' k) as [->|N]; intros H.
  - exists [], v, l. reflexivity.
  - destruct (IH H) as (a & v' & b & ->). exists ((k', v) :: a), v', b. reflexivity.
Qed.
Lemma count_repeated l k : (1 < key_count l k)%nat <-> repeated k l.
Proof.
  split.
  - induction l as [|[k' v] l IH]; [cbn; lia|]. unfold key_count in *. cbn [filter fst]. destruct (String.eqb_spec k' k) as [->|N]; intros H.
    + cbn [length] in H. destruct (count_in l k) as (a & v' & b & ->); [unfold key_count; lia|]. exists [], a, b, v, v'. reflexivity.
    + destruct (IH H) as (a & b & c & v1 & v2 & ->). exists ((k', v) :: a), b, c, v1, v2. reflexivity.
  - intros (a & b & c & v & v' & ->). unfold key_count. rewrite !filter_app. cbn [filter fst]. rewrite filter_app. cbn [filter fst].
    rewrite String.eqb_refl, !app_length. cbn [length]. rewrite app_length. cbn [length]. lia.
Qed.

Section Pairs.
Context (pd : string -> result Z) (ft : Z -> result Z) (rx : string -> string -> result bool).
Notation mat := (match_ pd ft rx).
Notation says := (says pd ft rx).
Notation decided := (decided pd ft rx).
Notation answers := (answers pd ft rx).
Lemma answers_pool multi q d P Q : answers (QAny multi) d P -> answers q d Q -> answers (QAny (multi ++ [q])) d (P \/ Q).
Proof.
  intros (b & E & H) (b' & E' & H'). exists (b || b'). rewrite mat_any_app, E.
  change (mat d (QAny [q])) with (disj (mat d q) (Ok false)). rewrite E'. split; [destruct b, b'; reflexivity|].
  rewrite orb_true_iff. tauto.
Qed.
Lemma pairs_ok count cs : Forall (fun c => plain (cr_key c)) cs -> forall multi s, exists multi' s',
  from_pairs count multi s (map entry cs) = Ok (multi', s') /\
  (multi' = [] <-> multi = [] /\ forall c, In c cs -> ~ (1 < count (fst (entry c)))%nat) /\
  forall d P Q, keys_distinct d -> stands pd ft rx s d P -> answers (QAny multi) d Q -> Forall (fun c => decided d (required c)) cs ->
    stands pd ft rx s' d (P /\ forall c, In c cs -> ~ (1 < count (fst (entry c)))%nat -> says d (required c)) /\
    answers (QAny multi') d (Q \/ exists c, In c cs /\ (1 < count (fst (entry c)))%nat /\ says d (required c)).
Proof.
  induction 1 as [|c cs Hc _ IH]; intros multi s.
  - exists multi, s. split; [reflexivity|]. split; [split; [intros ->; split; [reflexivity|intros c []]|tauto]|].
    intros d P Q K S A _. split.
    + eapply stands_iff; [|exact S]. split; [|tauto]. intros; split; [assumption|intros ? []].
    + eapply answers_iff; [|exact A]. split; [now left|]. intros [H|(c & [] & _)]. exact H.
  - destruct (operation_ok pd ft rx c Hc) as (q & E & A). destruct (Nat.ltb_spec 1 (count (fst (entry c)))) as [L|L].
    + destruct (IH (multi ++ [q]) s) as (m' & s' & E' & N' & S'). exists m', s'. split; [|split].
      * cbn [map]. destruct (entry c) as [k v]. cbn [from_pairs fst snd] in *. rewrite E. cbn [bind].
        destruct (Nat.ltb_spec 1 (count k)); [exact E'|lia].
      * rewrite N'. split; intros [H1 H2]; [now destruct multi|]. exfalso. apply (H2 c); [now left|exact L].
      * intros d P Q K S M F. inversion F as [|? ? F1 F2]; subst.
        destruct (S' d P (Q \/ says d (required c)) K S (answers_pool _ _ _ _ _ M (A d K F1)) F2) as [T1 T2]. split.
        -- eapply stands_iff; [|exact T1]. split; intros [H1 H2]; (split; [exact H1|]); intros c' I N; [|apply H2; [now right|exact N]].
           destruct I as [<- | I]; [lia|auto].
        -- eapply answers_iff; [|exact T2]. split.
           ++ intros [[H|H]|(c' & I & H)]; [now left| |]; right; [exists c|exists c']; cbn; auto.
           ++ intros [H|(c' & [<- | I] & H1 & H2)]; [left; now left|left; now right|right; exists c'; auto].
    + destruct (IH multi (add s q)) as (m' & s' & E' & N' & S'). exists m', s'. split; [|split].
      * cbn [map]. destruct (entry c) as [k v]. cbn [from_pairs fst snd] in *. rewrite E. cbn [bind].
        destruct (Nat.ltb_spec 1 (count k)); [lia|exact E'].
      * rewrite N'. split; intros [H1 H2]; (split; [exact H1|]); intros c' I; [destruct I as [<- | I]; [lia|auto]|apply H2; now right].
      * intros d P Q K S M F. inversion F as [|? ? F1 F2]; subst.
        destruct (S' d (P /\ says d (required c)) Q K (stands_add _ _ _ _ _ _ _ _ S (A d K F1)) M F2) as [T1 T2]. split.
        -- eapply stands_iff; [|exact T1]. split.
           ++ intros [[H1 H0] H2]. split; [exact H1|]. intros c' [<- | I] N; auto.
           ++ intros [H1 H2]. split; [split; [exact H1|apply H2; [now left|lia]]|]. intros c' I N. apply H2; [now right|exact N].
        -- eapply answers_iff; [|exact T2]. split.
           ++ intros [H|(c' & I & H)]; [now left|right; exists c'; cbn; auto].
           ++ intros [H|(c' & [<- | I] & H1 & H2)]; [now left|lia|right; exists c'; auto].
Qed.
(** What from_tuples does *)
Theorem tuples_pooled cs : Forall (fun c => plain (cr_key c)) cs -> exists q, from_tuples (map entry cs) = Ok q /\
  forall d, keys_distinct d -> Forall (fun c => decided d (required c)) cs ->
    answers q d ((forall c, In c cs -> ~ repeated (fst (entry c)) (map entry cs) -> says d (required c)) /\
                 ((exists c, In c cs /\ repeated (fst (entry c)) (map entry cs)) ->
                  exists c, In c cs /\ repeated (fst (entry c)) (map entry cs) /\ says d (required c))).
Proof.
  intros H. destruct (pairs_ok (key_count (map entry cs)) cs H [] None) as (m & s & E & N & S).
  unfold from_tuples. rewrite E. cbn [bind]. eexists. split; [reflexivity|]. intros d K D.
  destruct (S d True False K) as [S1 S2]; auto; [now cbn|exists false; split; [reflexivity|split; [discriminate|tauto]]|].
  apply stands_finish.
  apply stands_iff with ((forall c, In c cs -> ~ (1 < key_count (map entry cs) (fst (entry c)))%nat -> says d (required c)) /\
    ((exists c, In c cs /\ (1 < key_count (map entry cs) (fst (entry c)))%nat) ->
      exists c, In c cs /\ (1 < key_count (map entry cs) (fst (entry c)))%nat /\ says d (required c))).
  { split; intros [X Y]; split.
    - intros c I R. apply X; [exact I|]. intros R'. now apply R, count_repeated.
    - intros (c & I & R). destruct Y as (c' & I' & R' & Sy); [exists c; split; [exact I|now apply count_repeated]|].
      exists c'. split; [exact I'|]. split; [now apply count_repeated|exact Sy].
    - intros c I R. apply X; [exact I|]. intros R'. now apply R, count_repeated.
    - intros (c & I & R). destruct Y as (c' & I' & R' & Sy); [exists c; split; [exact I|now apply count_repeated]|].
      exists c'. split; [exact I'|]. split; [now apply count_repeated|exact Sy]. }
  destruct m as [|q m].
  - eapply stands_iff; [|exact S1]. destruct (proj1 N eq_refl) as [_ N']. split.
    + intros [_ X]. split; [exact X|]. intros (c & I & C). now apply N' in I.
    + intros [X _]. split; auto.
  - eapply stands_iff; [|apply stands_add; [exact S1|exact S2]]. split.
    + intros [[_ X] [[]|Y]]. split; [exact X|intros _; exact Y].
    + intros [X Y]. split; [split; auto|]. right. apply Y. 
      destruct (existsb (fun c => Nat.ltb 1 (key_count (map entry cs) (fst (entry c)))) cs) eqn:B.
      * apply existsb_exists in B as (c & I & B). exists c. split; [exact I|]. now apply Nat.ltb_lt.
      * exfalso. assert (q :: m = []) by (apply N; split; [reflexivity|]; intros c I L;
          rewrite <- not_true_iff_false in B; apply B; apply existsb_exists; exists c; split; [exact I|now apply Nat.ltb_lt]). discriminate.
Qed.
(** With one repeated key its values are alternatives. *)
Theorem tuples_one cs : Forall (fun c => plain (cr_key c)) cs ->
  (forall k k', repeated k (map entry cs) -> repeated k' (map entry cs) -> k = k') ->
  exists q, from_tuples (map entry cs) = Ok q /\
  forall d, keys_distinct d -> Forall (fun c => decided d (required c)) cs ->
    answers q d (forall c, In c cs -> exists c', In c' cs /\ fst (entry c') = fst (entry c) /\ says d (required c')).
Proof.
  intros H U. destruct (tuples_pooled cs H) as (q & E & A). exists q. split; [exact E|]. intros d K D.
  eapply answers_iff; [|exact (A d K D)].
  assert (Dec : forall c, repeated (fst (entry c)) (map entry cs) \/ ~ repeated (fst (entry c)) (map entry cs)).
  { intros c. rewrite <- count_repeated. lia. }
  assert (O : forall c c', In c cs -> In c' cs -> fst (entry c) = fst (entry c') -> ~ repeated (fst (entry c)) (map entry cs) -> c = c').
  { intros c c' I I' Eq Nr. destruct (in_split _ _ I) as (a & b & ->). apply in_app_or in I'. destruct I' as [I'|[I'|I']]; [|exact I'|].
    - exfalso. apply Nr. destruct (in_split _ _ I') as (x & y & ->). rewrite Eq. exists (map entry x), (map entry y), (map entry b), (snd (entry c')), (snd (entry c)).
      rewrite !map_app. cbn [map]. rewrite <- app_assoc. cbn [app]. rewrite <- Eq at 2. now rewrite <- !surjective_pairing.
    - exfalso. apply Nr. destruct (in_split _ _ I') as (x & y & ->). rewrite Eq. exists (map entry a), (map entry x), (map entry y), (snd (entry c)), (snd (entry c')).
      rewrite !map_app. cbn [map]. rewrite map_app. cbn [map]. rewrite <- Eq at 1. now rewrite <- !surjective_pairing. }
  split.
  - intros [X Y] c I. destruct (Dec c) as [R|R]; [|exists c; auto]. destruct Y as (c' & I' & R' & Sy); [exists c; auto|]. exists c'. auto.
  - intros X. split.
    + intros c I R. destruct (X c I) as (c' & I' & Eq & Sy). now rewrite (O c c' I I' (eq_sym Eq) R).
    + intros (c & I & R). destruct (X c I) as (c' & I' & Eq & Sy). exists c'. rewrite Eq. auto.
Qed.

(** * The keyword form *)
Lemma kw_get_none k (v : kwarg) d : kw_get k d = None -> kw_set k v d = d ++ [(k, v)].
Proof. induction d as [|[k' v'] d IH]; cbn; [reflexivity|]. destruct (String.eqb k k'); [discriminate|]. intros H. now rewrite IH. Qed.
Lemma kw_get_split k v d : kw_get k d = Some v -> exists a b, d = a ++ (k, v) :: b /\ forall v', kw_set k v' d = a ++ (k, v') :: b.
Proof.
  induction d as [|[k' x] d IH]; cbn; [discriminate|]. destruct (String.eqb_spec k k') as [->|N].
  - intros [= ->]. exists [], d. split; reflexivity.
  - intros H. destruct (IH H) as (a & b & -> & S). exists ((k', x) :: a), b. split; [reflexivity|]. intros v'. now rewrite S.
Qed.
Lemma kw_get_not k d : ~ In k (map fst d) <-> kw_get k d = None.
Proof.
  induction d as [|[k' x] d IH]; cbn; [tauto|]. destruct (String.eqb_spec k k') as [->|N]; [split; [tauto|discriminate]|].
  rewrite <- IH. split; [tauto|]. intros H [E|I]; [congruence|tauto].
Qed.
Lemma kw_get_snoc k v d : kw_get k d = None -> kw_get k (d ++ [(k, v)]) = Some v.
Proof. induction d as [|[k' x] d IH]; cbn; [now rewrite String.eqb_refl|]. destruct (String.eqb k k'); [discriminate|auto]. Qed.
Lemma kw_set_snoc k v v' d : kw_get k d = None -> kw_set k v' (d ++ [(k, v)]) = d ++ [(k, v')].
Proof. induction d as [|[k' x] d IH]; cbn; [now rewrite String.eqb_refl|]. destruct (String.eqb k k'); [discriminate|]. intros H. now rewrite IH. Qed.

Definition crits (a : string * kwarg) : list simple :=
  match snd a with
  | KOne v => [Simple (fst a) CEq v]
  | KTuple [min; max] =>
      (if is_none min then [] else [Simple (fst a) CGe min]) ++ (if is_none max then [] else [Simple (fst a) CLe max])
  | _ => []
  end.
Definition simple_query (s : simple) : query := QCmp (si_cmp s) (OKey (si_key s)) (OLit (si_value s)).
Definition args (s : option query) : list query := match s with None => [] | Some q => all_args q end.

Lemma to_args q : q <> QTrue -> to_pykwargs q = to_kw [] (all_args q).
Proof. intros N. destruct q; try reflexivity. now destruct N. Qed.
Lemma crits_query kw : Forall (fun a => one_criterion (snd a)) kw -> forall s, s <> Some QTrue -> exists s', from_kw s kw = Ok s' /\
  args s' = args s ++ map simple_query (flat_map crits kw) /\ s' <> Some QTrue.
Proof.
  assert (Ad : forall s q, q <> QTrue -> args (add s q) = args s ++ all_args q /\ add s q <> Some QTrue).
  { intros [s|] q N; unfold add, and_; cbn [args]; split; try reflexivity; try discriminate; congruence. }
  induction 1 as [|[k v] kw Hv _ IH]; intros s N; [exists s; rewrite app_nil_r; auto|].
  cbn [snd one_criterion] in Hv. cbn [flat_map]. unfold crits at 1. cbn [snd fst]. rewrite map_app, app_assoc.
  destruct v as [[|x [|y [|? ?]]]|vs|v]; try contradiction; cbn [from_kw].
  - destruct (is_none x) eqn:X, (is_none y) eqn:Y; cbn [negb andb app map].
    + exfalso. destruct x; try discriminate X. destruct y; try discriminate Y. destruct Hv; congruence.
    + destruct (Ad s (QCmp CLe (OKey k) (OLit y))) as [A1 A2]; [discriminate|]. destruct (IH _ A2) as (s' & E & R & N'). exists s'. rewrite E, R, A1. auto.
    + destruct (Ad s (QCmp CGe (OKey k) (OLit x))) as [A1 A2]; [discriminate|]. destruct (IH _ A2) as (s' & E & R & N'). exists s'. rewrite E, R, A1. auto.
    + destruct (Ad s (and_ (QCmp CGe (OKey k) (OLit x)) (QCmp CLe (OKey k) (OLit y)))) as [A1 A2]; [discriminate|].
      destruct (IH _ A2) as (s' & E & R & N'). exists s'. rewrite E, R, A1. auto.
  - destruct (Ad s (QCmp CEq (OKey k) (OLit v))) as [A1 A2]; [discriminate|]. destruct (IH _ A2) as (s' & E & R & N'). exists s'. rewrite E, R, A1. auto.
Qed.
Lemma to_kw_crits kw : Forall (fun a => one_criterion (snd a)) kw -> keys_distinct kw -> forall acc,
  (forall k, In k (map fst kw) -> kw_get k acc = None) ->
  to_kw acc (map simple_query (flat_map crits kw)) = Ok (acc ++ kw).
Proof.
  unfold keys_distinct. induction 1 as [|[k v] kw Hv _ IH]; intros D acc G; [now rewrite app_nil_r|].
  inversion D as [|? ? D1 D2]; subst. cbn [fst] in D1. cbn [snd one_criterion] in Hv.
  assert (Gk : kw_get k acc = None) by (apply G; now left).
  assert (Next : to_kw (acc ++ [(k, v)]) (map simple_query (flat_map crits kw)) = Ok (acc ++ (k, v) :: kw)).
  { rewrite IH; [now rewrite <- app_assoc|exact D2|]. intros k' I. apply kw_get_not. rewrite map_app. intros J. apply in_app_or in J as [J|[<- | []]]; [|now apply D1].
    revert J. apply kw_get_not. apply G. now right. }
  cbn [flat_map]. unfold crits at 1. cbn [snd fst].
  destruct v as [[|x [|y [|? ?]]]|vs|v]; try contradiction.
  - destruct (is_none x) eqn:X, (is_none y) eqn:Y; cbn [app map simple_query to_kw si_cmp si_key si_value get_key_value bind fst snd]; rewrite ?Gk; cbn [index nth_error bind].
    + exfalso. destruct x; try discriminate X. destruct y; try discriminate Y. destruct Hv; congruence.
    + rewrite kw_get_none by exact Gk. destruct x; try discriminate X. exact Next.
    + rewrite kw_get_none by exact Gk. destruct y; try discriminate Y. exact Next.
    + rewrite (kw_get_none _ _ _ Gk), (kw_get_snoc _ _ _ Gk). cbn [index nth_error bind]. rewrite (kw_set_snoc _ _ _ _ Gk). exact Next.
  - cbn [app map simple_query to_kw si_cmp si_key si_value get_key_value bind fst snd]. rewrite kw_get_none by exact Gk. exact Next.
Qed.
Theorem kwargs_back kw : Forall (fun a => one_criterion (snd a)) kw -> keys_distinct kw ->
  exists q, from_kwargs kw = Ok q /\ to_pykwargs q = Ok kw.
Proof.
  intros H D. destruct (crits_query kw H None) as (s & E & A & N); [discriminate|]. exists (finish s). unfold from_kwargs. rewrite E.
  split; [reflexivity|]. pose proof (to_kw_crits kw H D [] (fun _ _ => eq_refl)) as T. cbn [args app] in A. rewrite <- A in T. destruct s as [q|].
  - cbn [finish]. rewrite to_args by congruence. exact T.
  - cbn in T. exact T.
Qed.

(** From a query to its keyword form *)
Lemma conj_args es : forall e, all_args (written (conjunction e es)) = all_args (written e) ++ flat_map (fun x => all_args (written x)) es.
Proof.
  unfold conjunction. induction es as [|x es IH]; intros e; cbn [fold_left flat_map]; [now rewrite app_nil_r|]. rewrite IH. cbn [written and_ all_args].
  now rewrite app_assoc.
Qed.
Lemma conj_not_true s ss : written (conjunction (simple_expr s) (map simple_expr ss)) <> QTrue.
Proof.
  unfold conjunction. assert (G : forall l e, written e <> QTrue -> written (fold_left Both l e) <> QTrue).
  { induction l as [|x l IH]; intros e H; [exact H|]. apply IH. discriminate. }
  apply G. discriminate.
Qed.
Lemma simple_args ss : flat_map (fun x => all_args (written x)) (map simple_expr ss) = map simple_query ss.
Proof. induction ss as [|s ss IH]; [reflexivity|]. cbn. now rewrite IH. Qed.

Lemma crits_in a (x : simple) : In x (crits a) -> si_key x = fst a.
Proof.
  unfold crits. destruct (snd a) as [[|m [|n [|? ?]]]|vs|v]; cbn; try contradiction; [|intros [<- | []]; reflexivity].
  intros H. apply in_app_or in H. destruct H as [H|H]; [destruct (is_none m)|destruct (is_none n)]; cbn in H; try contradiction; destruct H as [<- | []]; reflexivity.
Qed.
(** [acc] stands for the criteria [done] *)
Definition good (acc : kwdict) (done : list simple) : Prop :=
  Forall (fun a => one_criterion (snd a)) acc /\ Permutation (flat_map crits acc) done.
Lemma good_new acc k v done s : good acc done -> kw_get k acc = None -> one_criterion v -> crits (k, v) = [s] ->
  good (kw_set k v acc) (done ++ [s]).
Proof.
  intros [G1 G2] E O C. rewrite (kw_get_none _ _ _ E). split.
  - apply Forall_app. split; [exact G1|]. constructor; [exact O|constructor].
  - rewrite flat_map_app. cbn [flat_map]. rewrite C. now apply Permutation_app_tail.
Qed.
Lemma good_crits acc done a s : good acc done -> In a acc -> In s (crits a) -> In s done.
Proof. intros [_ G] I J. eapply Permutation_in; [exact G|]. apply in_flat_map. now exists a. Qed.
Lemma to_kw_good ss : Forall simple_ok ss -> forall done acc, ForallOrdPairs compatible (done ++ ss) -> good acc done ->
  exists kw, to_kw acc (map simple_query ss) = Ok kw /\ good kw (done ++ ss).
Proof.
  induction 1 as [|[k c v] ss Hs _ IH]; intros done acc P G; [exists acc; rewrite app_nil_r; auto|].
  cbn [map]. change (simple_query (Simple k c v)) with (QCmp c (OKey k) (OLit v)).
  assert (Cmp : forall x, In x done -> compatible x (Simple k c v)).
  { clear - P. induction done as [|y done IHd]; intros x []; [subst x|]; inversion P as [|? ? P1 P2]; subst.
    - rewrite Forall_forall in P1. apply P1. apply in_or_app. right. now left.
    - apply IHd; assumption. }
  assert (Next : forall acc', good acc' (done ++ [Simple k c v]) -> exists kw, to_kw acc' (map simple_query ss) = Ok kw /\ good kw (done ++ Simple k c v :: ss)).
  { intros acc' G'. destruct (IH (done ++ [Simple k c v]) acc') as (kw & E & K); [now rewrite <- app_assoc|exact G'|].
    exists kw. split; [exact E|]. now rewrite <- app_assoc in K. }
  unfold simple_ok in Hs. cbn [si_cmp si_value] in Hs.
  destruct (kw_get k acc) as [past|] eqn:E.
  - (* the key is there *)
    destruct (kw_get_split _ _ _ E) as (a & b & Ea & Put). assert (I : In (k, past) acc) by (rewrite Ea; apply in_or_app; right; now left).
    assert (O : one_criterion past) by (destruct G as [G _]; rewrite Forall_forall in G; exact (G _ I)).
    assert (Q : forall x, In x (crits (k, past)) -> si_cmp x <> CEq /\ c <> CEq /\ si_cmp x <> c).
    { intros x J. apply (Cmp x (good_crits _ _ _ _ G I J)). cbn [si_key]. exact (crits_in _ _ J). }
    destruct past as [[|m [|n [|? ?]]]|vs|v0]; try contradiction.
    + assert (NE : c <> CEq).
      { cbn in O. destruct O as [O|O]; unfold crits in Q; cbn in Q.
        - destruct m; [now destruct O|..]; refine (proj1 (proj2 (Q _ _))); apply in_or_app; left; left; reflexivity.
        - destruct n; [now destruct O|..]; refine (proj1 (proj2 (Q _ _))); apply in_or_app; right; left; reflexivity. }
      destruct Hs as [Hs|[[-> | ->] Nv]]; [contradiction| |].
      * assert (m = VNone) as ->.
        { destruct m; [reflexivity|..]; exfalso; refine (proj2 (proj2 (Q (Simple k CGe _) _)) eq_refl); unfold crits; cbn; left; reflexivity. }
        assert (Nn : is_none n = false) by (cbn in O; destruct n; try reflexivity; destruct O; congruence).
        cbn [to_kw get_key_value bind fst snd]. rewrite E. cbn [index nth_error bind]. apply Next. rewrite Put. destruct G as [G1 G2]. rewrite Ea in G1, G2. split.
        -- apply Forall_app in G1 as [G1 G3]. apply Forall_app. split; [exact G1|]. apply Forall_cons; [|now apply Forall_inv_tail in G3]. cbn. now left.
        -- rewrite flat_map_app in *. cbn [flat_map] in *.
           assert (C1 : crits (k, KTuple [VNone; n]) = [Simple k CLe n]) by (unfold crits; cbn; now rewrite Nn).
           assert (C2 : crits (k, KTuple [v; n]) = [Simple k CGe v; Simple k CLe n]).
           { unfold crits. cbn. rewrite Nn. destruct v; [now destruct Nv|reflexivity..]. }
           rewrite C1 in G2. rewrite C2. cbn [app] in *. rewrite <- G2. rewrite <- Permutation_middle.
           apply Permutation_cons_append.
      * assert (n = VNone) as ->.
        { destruct n; [reflexivity|..]; exfalso; refine (proj2 (proj2 (Q (Simple k CLe _) _)) eq_refl); unfold crits; cbn; apply in_or_app; right; left; reflexivity. }
        assert (Nm : is_none m = false) by (cbn in O; destruct m; try reflexivity; destruct O; congruence).
        cbn [to_kw get_key_value bind fst snd]. rewrite E. cbn [index nth_error bind]. apply Next. rewrite Put. destruct G as [G1 G2]. rewrite Ea in G1, G2. split.
        -- apply Forall_app in G1 as [G1 G3]. apply Forall_app. split; [exact G1|]. apply Forall_cons; [|now apply Forall_inv_tail in G3]. cbn. now right.
        -- rewrite flat_map_app in *. cbn [flat_map] in *.
           assert (C1 : crits (k, KTuple [m; VNone]) = [Simple k CGe m]) by (unfold crits; cbn; now rewrite Nm).
           assert (C2 : crits (k, KTuple [m; v]) = [Simple k CGe m; Simple k CLe v]).
           { unfold crits. cbn. rewrite Nm. destruct v; [now destruct Nv|reflexivity..]. }
           rewrite C1 in G2. rewrite C2. cbn [app] in *. rewrite <- G2.
           change (Simple k CGe m :: Simple k CLe v :: flat_map crits b) with ([Simple k CGe m; Simple k CLe v] ++ flat_map crits b).
           change (Simple k CGe m :: flat_map crits b) with ([Simple k CGe m] ++ flat_map crits b).
           rewrite <- app_assoc. apply Permutation_app_head. cbn [app]. apply perm_skip. apply Permutation_cons_append.
    + exfalso. refine (proj1 (Q (Simple k CEq v0) _) eq_refl). now left.
  - destruct Hs as [-> | [[-> | ->] Nv]]; cbn [to_kw get_key_value bind fst snd]; rewrite ?E; cbn [index nth_error bind]; apply Next; apply good_new; auto.
    + now cbn.
    + cbn. now left.
    + unfold crits. cbn. destruct v; [now destruct Nv|reflexivity..].
    + cbn. now right.
    + unfold crits. cbn. destruct v; [now destruct Nv|reflexivity..].
Qed.
Lemma crits_says d a : one_criterion (snd a) -> kw_says pd ft rx d a <-> Forall (fun s => says d (simple_expr s)) (crits a).
Proof.
  destruct a as [k v]. unfold kw_says, crits. cbn [fst snd]. destruct v as [[|m [|n [|? ?]]]|vs|v]; cbn [one_criterion]; try contradiction; intros _.
  - unfold bounds. destruct m, n; cbn [is_none app]; rewrite ?Forall_cons_iff; unfold simple_expr; cbn [si_cmp si_key si_value];
      (split; [intros H|intros H]); repeat match goal with H : _ /\ _ |- _ => destruct H end; repeat split; auto using Forall_nil.
  - rewrite Forall_cons_iff. unfold simple_expr. cbn [si_cmp si_key si_value]. split; [split; auto|tauto].
Qed.
Lemma crits_decided d a : one_criterion (snd a) -> kw_decided pd ft rx d a <-> Forall (fun s => decided d (simple_expr s)) (crits a).
Proof.
  destruct a as [k v]. unfold kw_decided, crits. cbn [fst snd]. destruct v as [[|m [|n [|? ?]]]|vs|v]; cbn [one_criterion]; try contradiction; intros _.
  - unfold bounds. destruct m, n; cbn [is_none app]; rewrite ?Forall_cons_iff; unfold simple_expr; cbn [si_cmp si_key si_value];
      (split; [intros H|intros H]); repeat match goal with H : _ /\ _ |- _ => destruct H end; repeat split; auto using Forall_nil.
  - rewrite Forall_cons_iff. unfold simple_expr. cbn [si_cmp si_key si_value]. split; [split; auto|tauto].
Qed.
Lemma Forall_flat {A B} (P : B -> Prop) (f : A -> list B) l : Forall P (flat_map f l) <-> Forall (fun a => Forall P (f a)) l.
Proof. induction l as [|a l IH]; cbn; [split; constructor|]. now rewrite Forall_app, Forall_cons_iff, IH. Qed.
Lemma Forall_on {A} (O P Q : A -> Prop) l : (forall a, O a -> (P a <-> Q a)) -> Forall O l -> (Forall P l <-> Forall Q l).
Proof. intros H. induction 1 as [|a l Ha _ IH]; [split; constructor|]. now rewrite !Forall_cons_iff, IH, (H a Ha). Qed.
Lemma Forall_perm {A} (P : A -> Prop) l l' : Permutation l l' -> Forall P l <-> Forall P l'.
Proof.
  intros H. rewrite !Forall_forall. split; intros F x I; apply F.
  - exact (Permutation_in x (Permutation_sym H) I).
  - exact (Permutation_in x H I).
Qed.
Theorem query_back s ss : Forall simple_ok (s :: ss) -> ForallOrdPairs compatible (s :: ss) ->
  exists kw q, to_pykwargs (written (conjunction (simple_expr s) (map simple_expr ss))) = Ok kw /\ from_kwargs kw = Ok q /\
  forall d, keys_distinct d -> Forall (fun x => decided d (simple_expr x)) (s :: ss) ->
    answers q d (Forall (fun x => says d (simple_expr x)) (s :: ss)).
Proof.
  intros O P. rewrite to_args by apply conj_not_true. rewrite conj_args, simple_args. change (all_args (written (simple_expr s)) ++ map simple_query ss) with (map simple_query (s :: ss)).
  destruct (to_kw_good (s :: ss) O [] []) as (kw & E & G1 & G2); [exact P|split; [constructor|constructor]|].
  assert (F : Forall (fun a => pair_or_other (snd a)) kw).
  { eapply Forall_impl; [|exact G1]. intros [k v]. cbn. destruct v as [[|m [|n [|? ?]]]|vs|v]; cbn; try contradiction; auto. }
  destruct (kwargs_ok pd ft rx kw F) as (q & Eq & A). exists kw, q. split; [exact E|]. split; [exact Eq|]. cbn [app] in G2.
  intros d K D. eapply answers_iff; [|apply (A d K)].
  - rewrite <- (Forall_perm _ _ _ G2), Forall_flat. apply (Forall_on (fun a => one_criterion (snd a))); [|exact G1]. intros a. apply crits_says.
  - rewrite <- (Forall_perm _ _ _ G2), Forall_flat in D. apply (Forall_on (fun a => one_criterion (snd a)) _ _ kw (fun a => crits_decided d a) G1). exact D.
Qed.
End Pairs.
