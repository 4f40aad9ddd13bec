(** From strings to trees of operators and values. *)
From Coq Require Import List Bool Arith Lia ZifyBool ZArith Ascii.
From Verif Require Import Model.Base Model.Parse Spec.ParseSpec Proofs.ParseProofs.
Import ListNotations.

Fixpoint strip_node (n : node) : node :=
  match n with Text s => Text (strip s) | Sub ns => Sub (map strip_node ns) end.

Section NodeInd.
  Variable P : node -> Prop.
  Hypothesis HT : forall s, P (Text s).
  Hypothesis HS : forall ns, Forall P ns -> P (Sub ns).
  Fixpoint node_induction (n : node) : P n :=
    match n with
    | Text s => HT s
    | Sub ns => HS ns ((fix go (ns : list node) : Forall P ns :=
                          match ns with [] => Forall_nil P | n :: ns => Forall_cons n (node_induction n) (go ns) end) ns)
    end.
End NodeInd.

Section Lists.
  Variable syms : list ascii.
  Hypothesis syms_ok : forall c, In c syms -> In c [sym_not; sym_and; sym_or].

  Lemma ptexts_app : forall a b, ptexts (a ++ b) = ptexts a ++ ptexts b.
  Proof. intros a b. unfold ptexts. apply flat_map_app. Qed.

  Lemma run_plain : forall r ps, ok syms (r ++ ps) -> (forall p, In p r -> flat p) -> plain (ptexts r).
  Proof.
    induction r as [|p r IH]; intros ps H F; [apply plain_nil|].
    cbn [ptexts flat_map]. fold (ptexts r). apply plain_app.
    - pose proof (plain_piece syms syms_ok p (r ++ ps) H) as K. pose proof (F p (or_introl eq_refl)) as Fp.
      destruct p; [exact K|exact K|contradiction].
    - apply IH with ps; [now inversion H|]. intros q Hq. apply F. now right.
  Qed.

  Lemma flat_nodes : forall r, (forall p, In p r -> flat p) -> map Text (map token r) = map pnodes r.
  Proof.
    intros r F. rewrite map_map. apply map_ext_in. intros p Hp. pose proof (F p Hp) as K.
    destruct p; [reflexivity|reflexivity|contradiction].
  Qed.

  Lemma run_nodes : forall r ps, ok syms (r ++ ps) -> (forall p, In p r -> flat p) ->
    map strip_node (flat_map (split_node syms) (match ptexts r with [] => [] | s => [Text s] end))
    = map pnodes r.
  Proof.
    intros r ps H F. pose proof (tokens_run syms syms_ok r ps H F) as T.
    destruct r as [|p r]; [reflexivity|].
    assert (N : tokens syms (ptexts (p :: r)) <> []) by (rewrite T; discriminate).
    destruct (ptexts (p :: r)) as [|c s] eqn:E; [exfalso; apply N; reflexivity|].
    cbn [flat_map split_node]. rewrite app_nil_r, map_map.
    change (fun x => strip_node (Text x)) with (fun x => Text (strip x)).
    rewrite <- (map_map strip Text), split_tokens by assumption. rewrite T. now apply flat_nodes.
  Qed.

  Lemma firstn_here : forall (A : Type) (x y : list A), firstn (length x) (x ++ y) = x.
  Proof. intros A x y. rewrite firstn_app, firstn_all, Nat.sub_diag. apply app_nil_r. Qed.
  Lemma skipn_here : forall (A : Type) (x y : list A) n, n = length x -> skipn n (x ++ y) = y.
  Proof. intros A x y n ->. rewrite skipn_app, skipn_all, Nat.sub_diag. reflexivity. Qed.

  Lemma to_list_ok : forall n ps r, ok syms (r ++ ps) -> (forall p, In p r -> flat p) ->
    length (ptexts (r ++ ps)) < n ->
    exists ns, to_list n (ptexts (r ++ ps)) = Returns ns /\
      map strip_node (flat_map (split_node syms) ns) = map pnodes (r ++ ps).
  Proof.
    induction n as [|n IHn]; intros ps; [intros; lia|].
    induction ps as [|p ps IHp]; intros r H F Lt.
    - rewrite app_nil_r in *. cbn [to_list].
      rewrite contains_not.
      2: { apply (run_plain r []); [rewrite app_nil_r|]; assumption. }
      eexists. split; [reflexivity|].
      replace (match ptexts r with [] => [] | _ => [Text (ptexts r)] end)
        with (match ptexts r with [] => [] | s => [Text s] end) by (destruct (ptexts r); reflexivity).
      apply run_nodes with []; [rewrite app_nil_r|]; assumption.
    - assert (Dec : flat p \/ exists q, p = PcSub q).
      { destruct p; [left; exact I|left; exact I|right; now exists ps0]. }
      destruct Dec as [Fp | (q & ->)].
      + assert (E : r ++ p :: ps = (r ++ [p]) ++ ps) by (rewrite <- app_assoc; reflexivity).
        rewrite E in *. apply IHp; [exact H| |exact Lt].
        intros x Hx. apply in_app_or in Hx. destruct Hx as [Hx | [<- | []]]; [now apply F|exact Fp].
      + assert (Q : ok syms (PcSub q :: ps)).
        { clear - H. induction r as [|x r IH]; [exact H|]. apply IH. now inversion H. }
        inversion Q; subst.
        pose proof (run_plain r _ H F) as Pr.
        assert (E : ptexts (r ++ PcSub q :: ps) = ptexts r ++ opening :: ptexts q ++ closing :: ptexts ps).
        { rewrite ptexts_app. f_equal. cbn [ptexts flat_map ptext]. cbn [app]. rewrite <- app_assoc. reflexivity. }
        rewrite E in *.
        rewrite app_length in Lt. cbn [length] in Lt. rewrite app_length in Lt. cbn [length] in Lt.
        cbn [to_list].
        rewrite (proj2 (contains_iff opening _)) by (apply in_or_app; right; left; reflexivity).
        rewrite (find_closure syms syms_ok) by assumption. cbn [lift obind].
        replace (length (ptexts r) + 1 + length (ptexts q) - (length (ptexts r) + 1)) with (length (ptexts q)) by lia.
        replace (skipn (length (ptexts r) + 1) (ptexts r ++ opening :: ptexts q ++ closing :: ptexts ps))
          with (ptexts q ++ closing :: ptexts ps).
        2: { change (opening :: ptexts q ++ closing :: ptexts ps) with ([opening] ++ ptexts q ++ closing :: ptexts ps).
             rewrite app_assoc. symmetry. apply skipn_here. rewrite app_length. reflexivity. }
        rewrite firstn_here.
        replace (skipn (length (ptexts r) + 1 + length (ptexts q) + 1) (ptexts r ++ opening :: ptexts q ++ closing :: ptexts ps))
          with (ptexts ps).
        2: { symmetry. transitivity (skipn (length (ptexts r) + 1 + length (ptexts q) + 1)
                ((ptexts r ++ [opening] ++ ptexts q ++ [closing]) ++ ptexts ps)).
             - f_equal. rewrite <- !app_assoc. reflexivity.
             - apply skipn_here. rewrite !app_length. cbn [length]. lia. }
        destruct (IHn q [] ltac:(assumption) ltac:(intros x []) ltac:(cbn [app]; lia)) as (n1 & E1 & S1).
        destruct (IHn ps [] ltac:(assumption) ltac:(intros x []) ltac:(cbn [app]; lia)) as (n2 & E2 & S2).
        cbn [app] in E1, E2, S1, S2. rewrite E1. cbn [obind]. rewrite E2. cbn [obind].
        rewrite firstn_here.
        eexists. split; [reflexivity|].
        rewrite flat_map_app, !map_app.
        rewrite (run_nodes r _ H F). f_equal.
        cbn [flat_map split_node map strip_node pnodes app]. rewrite S1, S2. reflexivity.
  Qed.
End Lists.

(** * Items *)

Section Items.
  Context {V : Type}.
  Variable item : list ascii -> result V.

  Lemma parse_string_strip : forall s, parse_string item (strip s) = parse_string item s.
  Proof. intros s. unfold parse_string. now rewrite strip_idem. Qed.

  Lemma parse_nodes_sub : forall ns,
    parse_node item (Sub ns) = (let* ps := parse_nodes item ns in Ok (PList ps)).
  Proof.
    intros ns. cbn [parse_node]. f_equal.
  Qed.

  Lemma parse_strip_node : forall n, parse_node item (strip_node n) = parse_node item n.
  Proof.
    apply node_induction.
    - intros s. cbn [strip_node parse_node]. now rewrite parse_string_strip.
    - intros ns H. cbn [strip_node]. rewrite !parse_nodes_sub. f_equal.
      induction H as [|n ns E H IH]; [reflexivity|]. cbn [map parse_nodes]. now rewrite E, IH.
  Qed.
  Lemma parse_strip : forall ns, parse_nodes item (map strip_node ns) = parse_nodes item ns.
  Proof.
    induction ns as [|n ns IH]; [reflexivity|]. cbn [map parse_nodes]. now rewrite parse_strip_node, IH.
  Qed.

  Fixpoint pitems (p : piece) : list (list ascii) :=
    match p with
    | PcItem _ t _ => [t]
    | PcOp _ _ _ => []
    | PcSub ps => flat_map pitems ps
    end.
  Definition allitems (ps : list piece) : list (list ascii) := flat_map pitems ps.
  Lemma allitems_app : forall a b, allitems (a ++ b) = allitems a ++ allitems b.
  Proof. intros a b. unfold allitems. apply flat_map_app. Qed.

  Fixpoint ptree (val : list ascii -> V) (p : piece) : pnode V :=
    match p with
    | PcItem _ t _ => PElem (EVal (val t))
    | PcOp _ c _ => PElem (EStr c)
    | PcSub ps => PList (map (ptree val) ps)
    end.

  Variable syms : list ascii.
  Hypothesis syms_ok : forall c, In c syms -> In c [sym_not; sym_and; sym_or].

  Lemma parse_item_string : forall t, item_text t ->
    parse_string item t = (let* v := item t in Ok (EVal v)).
  Proof.
    intros t I. unfold parse_string. rewrite tight_strip by now apply item_tight.
    destruct t as [|c [|d t]]; try reflexivity.
    destruct (is_in c [sym_and; sym_or; sym_not]) eqn:E; [|reflexivity].
    exfalso. apply is_in_iff in E. apply (proj1 (proj2 I) c (or_introl eq_refl)).
    destruct E as [<- | [<- | [<- | []]]]; unfold reserved, sym_and, sym_or, sym_not; cbn [In]; tauto.
  Qed.
  Lemma parse_op_string : forall c, In c syms -> parse_string item [c] = Ok (EStr c).
  Proof.
    intros c H. apply syms_ok in H. unfold parse_string.
    destruct H as [<- | [<- | [<- | []]]]; reflexivity.
  Qed.

  Lemma parse_pieces : forall val ps, ok syms ps ->
    (forall t, In t (allitems ps) -> item t = Ok (val t)) ->
    parse_nodes item (map pnodes ps) = Ok (map (ptree val) ps).
  Proof.
    intros val ps H. induction H as [|a t b ps A B I N H IH|a c0 b ps A B C H IH|q ps Q IHq N H IH]; intros K.
    - reflexivity.
    - cbn [map parse_nodes pnodes parse_node ptree]. rewrite parse_item_string by exact I.
      rewrite (K t) by (left; reflexivity). cbn [bind].
      rewrite IH by (intros u Hu; apply K; right; exact Hu). reflexivity.
    - cbn [map parse_nodes pnodes parse_node ptree]. rewrite parse_op_string by exact C. cbn [bind].
      rewrite IH by (intros u Hu; apply K; exact Hu). reflexivity.
    - cbn [map parse_nodes pnodes ptree]. rewrite parse_nodes_sub.
      rewrite IHq by (intros u Hu; apply K; cbn [allitems flat_map pitems]; apply in_or_app; left; exact Hu).
      cbn [bind].
      rewrite IH by (intros u Hu; apply K; cbn [allitems flat_map]; apply in_or_app; right; exact Hu). reflexivity.
  Qed.

  Lemma first_unknown_app : forall a b x, first_unknown item (a ++ b) x ->
    first_unknown item a x \/ ((forall u, In u a -> exists v, item u = Ok v) /\ first_unknown item b x).
  Proof.
    induction a as [|u a IH]; intros b x (pre & t & post & E & K & X).
    - right. split; [intros u []|]. exists pre, t, post. auto.
    - destruct pre as [|w pre].
      + cbn [app] in E. injection E as E1 E2. subst. left. exists [], t, a. split; [reflexivity|]. split; [intros v []|exact X].
      + cbn [app] in E. injection E as E1 E2. subst w.
        destruct (IH b x) as [(p & t' & q & E' & K' & X') | (K' & F)].
        { exists pre, t, post. split; [exact E2|]. split; [|exact X]. intros v Hv. apply K. now right. }
        * left. exists (u :: p), t', q. rewrite E'. split; [reflexivity|]. split; [|exact X'].
          intros v [<- | Hv]; [apply K; now left|now apply K'].
        * right. split; [|exact F]. intros v [<- | Hv]; [apply K; now left|now apply K'].
  Qed.

  Lemma parse_known : forall ps, ok syms ps ->
    (forall t, In t (allitems ps) -> exists v, item t = Ok v) ->
    exists ts, parse_nodes item (map pnodes ps) = Ok ts.
  Proof.
    intros ps H. induction H as [|a t b ps A B I N H IH|a c0 b ps A B C H IH|q ps Q IHq N H IH]; intros K.
    - now exists [].
    - destruct IH as (ts & E). { intros u Hu. apply K. right. exact Hu. }
      destruct (K t (or_introl eq_refl)) as (v & X).
      exists (PElem (EVal v) :: ts). cbn [map parse_nodes pnodes parse_node]. rewrite parse_item_string by exact I.
      rewrite X. cbn [bind]. now rewrite E.
    - destruct IH as (ts & E). { intros u Hu. apply K. exact Hu. }
      exists (PElem (EStr c0) :: ts). cbn [map parse_nodes pnodes parse_node]. rewrite parse_op_string by exact C.
      cbn [bind]. now rewrite E.
    - destruct IHq as (ts1 & E1). { intros u Hu. apply K. apply in_or_app. left. exact Hu. }
      destruct IH as (ts2 & E2). { intros u Hu. apply K. apply in_or_app. right. exact Hu. }
      exists (PList ts1 :: ts2). cbn [map parse_nodes pnodes]. rewrite parse_nodes_sub, E1. cbn [bind]. now rewrite E2.
  Qed.

  Lemma parse_unknown : forall ps, ok syms ps -> forall x, first_unknown item (allitems ps) x ->
    parse_nodes item (map pnodes ps) = Err x.
  Proof.
    intros ps H. induction H as [|a t b ps A B I N H IH|a c0 b ps A B C H IH|q ps Q IHq N H IH]; intros x U.
    - destruct U as (pre & t & post & E & _). destruct pre; discriminate.
    - cbn [map parse_nodes pnodes parse_node]. rewrite parse_item_string by exact I.
      change (allitems (PcItem a t b :: ps)) with ([t] ++ allitems ps) in U.
      apply first_unknown_app in U. destruct U as [(pre & t' & post & E & _ & X) | (K & U)].
      + assert (t' = t). { destruct pre as [|y pre]; [now injection E|]. destruct pre; discriminate. }
        subst t'. rewrite X. reflexivity.
      + destruct (K t (or_introl eq_refl)) as (v & E). rewrite E. cbn [bind]. now rewrite (IH x U).
    - cbn [map parse_nodes pnodes parse_node]. rewrite parse_op_string by exact C. cbn [bind].
      now rewrite (IH x U).
    - cbn [map parse_nodes pnodes]. rewrite parse_nodes_sub.
      change (allitems (PcSub q :: ps)) with (allitems q ++ allitems ps) in U.
      apply first_unknown_app in U. destruct U as [U | (K & U)].
      + now rewrite (IHq x U).
      + destruct (parse_known q Q K) as (ts & E). rewrite E. cbn [bind]. now rewrite (IH x U).
  Qed.
End Items.
