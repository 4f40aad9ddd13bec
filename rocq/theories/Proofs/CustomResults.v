(** Conditions made from functions: their strings and their values. *)
From Coq Require Import List Bool Arith Lia ZifyBool Ascii String ZArith.
From Verif Require Import Model.Base Model.Statement Model.Custom Spec.StatementSpec Spec.ParseSpec Spec.CustomSpec
  Proofs.StatementResults Proofs.StatementConverse Proofs.ParseResults Proofs.CustomSyntaxProofs.
From Verif Require Model.Condition Model.Parse.
Import ListNotations.
Local Open Scope list_scope.
Local Open Scope nat_scope.

(** ** Strings *)

Lemma says_other : forall P (make : pcall -> result P) s r, says make s r ->
  exists r', says (fun _ => Ok tt) s r' /\ r' <> Err ParserError.
Proof.
  intros P make s r H. destruct H; (eexists; split; [econstructor; eassumption|discriminate]).
Qed.
Lemma Forall2_in_left : forall (X Y : Type) (R : X -> Y -> Prop) l m, Forall2 R l m ->
  forall x, In x l -> exists y, In y m /\ R x y.
Proof.
  intros X Y R l m F. induction F as [|a b l m H F IH]; intros x I; [destruct I|].
  destruct I as [<-|I]; [exists b; split; [now left|exact H]|].
  destruct (IH x I) as (y & J & K). exists y. split; [now right|exact K].
Qed.

Section Strings.
  Context {P V A : Type}.
  Variable make : pcall -> result P.
  Variable of_text : list ascii -> V.
  Implicit Types (regs : list (statement * entry V A)).
  Notation session regs := (with_syntaxes regs (new_session (P:=P) (V:=V) (A:=A))).

  Lemma custom_found : forall regs st e s gs, registered regs st e -> only_as st s gs ->
    ~ sentence s -> no_other regs st s -> find_entry (cs_parsers (session regs)) s = Some (e, gs).
  Proof using.
    intros regs st e s gs R F N O. apply (find_only _ st).
    - apply with_nodup, builtin_nodup.
    - now apply with_registered.
    - now apply only_matches.
    - intros st' I D. apply with_keys in I. destruct I as [I|I].
      + apply no_fit. intros gs'. now apply O.
      + rewrite builtin_keys in I. now apply no_sentence_matches.
  Qed.

  Theorem custom_condition : forall regs st c s gs, registered regs st (Recreate c) -> only_as st s gs ->
    ~ sentence s -> no_other regs st s ->
    parse_item make of_text s (session regs) =
      (session regs, Ok (MFunc (FuncCond (fc_sig c) (fc_body c) [] (map (fun kv => (fst kv, of_text (snd kv))) gs)))).
  Proof using.
    intros regs st c s gs R F N O. unfold parse_item. rewrite (custom_found regs st _ s gs R F N O). reflexivity.
  Qed.

  Theorem custom_unknown : forall regs s, ~ sentence s ->
    (forall st gs, In st (map fst regs) -> ~ fits st s gs) ->
    parse_item make of_text s (session regs) = (session regs, Err ParserError).
  Proof using.
    intros regs s N O. unfold parse_item. rewrite find_none; [reflexivity|].
    intros st I. apply with_keys in I. destruct I as [I|I].
    - apply no_fit. intros gs. now apply O.
    - rewrite builtin_keys in I. now apply no_sentence_matches.
  Qed.

  Lemma set_after : forall st e (d d' : list (statement * entry V A)), ~ In st (map fst d) ->
    set_entry st e (d ++ d') = d ++ set_entry st e d'.
  Proof using.
    intros st e d d'. induction d as [|[st' e'] d IH]; intros N; [reflexivity|].
    cbn [app set_entry map fst In] in *. destruct (statement_dec st' st) as [E|_]; [intuition|].
    rewrite IH by intuition. reflexivity.
  Qed.
  Lemma with_extra : forall regs (s : csession P V A) d x, cs_parsers s = d ++ x ->
    (forall st, In st (map fst regs) -> ~ In st (map fst d)) ->
    exists y, cs_parsers (with_syntaxes regs s) = d ++ y.
  Proof using.
    induction regs as [|[st e] regs IH]; intros s d x E N; [now exists x|]. cbn [with_syntaxes].
    apply (IH _ d (set_entry st e x)).
    - cbn [register cs_parsers]. rewrite E. apply set_after. apply N. now left.
    - intros st' I. apply N. now right.
  Qed.
  Lemma find_first : forall (d d' : list (statement * entry V A)) t r, find_entry d t = Some r ->
    find_entry (d ++ d') t = Some r.
  Proof using.
    induction d as [|[st e] d IH]; intros d' t r H; [discriminate|]. cbn [app find_entry] in *.
    destruct (matches st t); [exact H|]. now apply IH.
  Qed.

  Theorem builtin_condition : forall regs s r, says make s r ->
    (forall st, In st (map fst regs) -> ~ In st (map fst cond_parsers)) ->
    parse_item make of_text s (session regs) = (session regs, let* t := r in Ok (MTree t)).
  Proof using.
    intros regs s r H N. assert (C := sentences P make s r H). unfold condition_item in C.
    destruct (with_extra regs (new_session (P:=P) (V:=V) (A:=A))
                (cs_parsers (new_session (P:=P) (V:=V) (A:=A))) []) as [y E].
    - now rewrite app_nil_r.
    - intros st I. rewrite builtin_keys. now apply N.
    - destruct (find_parser cond_parsers s) as [[q gs]|] eqn:F.
      + unfold parse_item. rewrite E, (find_first _ y s (Builtin q, gs)).
        * now rewrite C.
        * cbn [new_session cs_parsers]. rewrite find_builtin, F. reflexivity.
      + exfalso. apply says_other in H. destruct H as (r' & S & D). apply sentences in S.
        unfold condition_item in S. rewrite F in S. congruence.
  Qed.

  (** Strings of sentences and custom conditions. *)
  Theorem custom_string : forall regs num num_func num_task text_atom meant s e,
    reads true LAny s e ->
    (forall st, In st (map fst regs) -> ~ In st (map fst cond_parsers)) ->
    (forall t, In t (items e) ->
       (exists k, says make t (Ok k) /\ meant t = as_condition num k) \/
       (exists st c gs, registered regs st (Recreate c) /\ only_as st t gs /\ ~ sentence t /\ no_other regs st t /\
          meant t = Condition.CAtom (num_func (FuncCond (fc_sig c) (fc_body c) []
                      (map (fun kv => (fst kv, of_text (snd kv))) gs))))) ->
    exists c, Parse.parse_condition (session_item make of_text num num_func num_task (session regs)) text_atom s =
        Returns c /\
      forall env, Condition.observe env c = answer env meant e.
  Proof using.
    intros regs num num_func num_task text_atom meant s e R B M. apply condition_string; [exact R|].
    intros t I. unfold session_item. destruct (M t I) as [(k & S & ->)|(st & c & gs & G & F & N & O & ->)].
    - rewrite (builtin_condition regs t (Ok k) S B). reflexivity.
    - rewrite (custom_condition regs st c t gs G F N O). reflexivity.
  Qed.
End Strings.

(** ** Calls *)

Section Calls.
  Context {V A : Type}.
  Variable as_value : A -> V.
  Variable resolve : A -> result V.
  Implicit Types (sig : signature V A) (kw : list (string * V)).

  Lemma keyword_none : forall k kw, ~ In k (map fst kw) -> keyword k kw = None.
  Proof using.
    intros k kw. induction kw as [|[k' v] kw IH]; intros N; [reflexivity|]. cbn [keyword map fst In] in *.
    destruct (String.eqb_spec k' k) as [E|_]; [intuition|]. apply IH. intuition.
  Qed.
  Lemma keyword_in : forall k v kw, NoDup (map fst kw) -> In (k, v) kw -> keyword k kw = Some v.
  Proof using.
    intros k v kw. induction kw as [|[k' v'] kw IH]; intros N I; [destruct I|]. cbn [keyword map fst In] in *.
    apply NoDup_cons_iff in N. destruct N as [N1 N2]. destruct I as [E|I].
    - injection E as -> ->. now rewrite String.eqb_refl.
    - destruct (String.eqb_spec k' k) as [E|_]; [|now apply IH]. subst k'. exfalso. apply N1.
      apply in_map_iff. exists (k, v). now split.
  Qed.
  Lemma keyword_some : forall k v kw, keyword k kw = Some v -> In (k, v) kw.
  Proof using.
    intros k v kw. induction kw as [|[k' v'] kw IH]; intros H; [discriminate|]. cbn [keyword] in H.
    destruct (String.eqb_spec k' k) as [E|_]; [|right; now apply IH]. subst k'. injection H as ->. now left.
  Qed.
  Lemma keyword_app : forall k a b,
    keyword k (a ++ b) = match keyword k a with Some v => Some v | None => keyword (V:=V) k b end.
  Proof using.
    intros k a b. induction a as [|[k' v'] a IH]; [reflexivity|]. cbn [app keyword].
    destruct (String.eqb k' k); [reflexivity|exact IH].
  Qed.
  Lemma in_names : forall k v kw, In (k, v) kw -> In k (map fst kw).
  Proof using. intros k v kw I. apply in_map_iff. exists (k, v). now split. Qed.
  Lemma same_value : forall k v w kw, NoDup (map fst kw) -> In (k, v) kw -> In (k, w) kw -> v = w.
  Proof using.
    intros k v w kw N I J. apply (keyword_in k v kw N) in I. apply (keyword_in k w kw N) in J. congruence.
  Qed.

  Lemma signature_values : forall sig, (forall k a, In (k, FromArg a) sig -> exists v, resolve a = Ok v) ->
    exists ps, signature_params resolve sig = Ok ps /\
      forall k v, In (k, v) ps <-> exists a, In (k, FromArg a) sig /\ resolve a = Ok v.
  Proof using.
    induction sig as [|[k d] sig IH]; intros H.
    - exists []. split; [reflexivity|]. intros k v. split; [intros []|]. intros (a & [] & _).
    - destruct IH as (ps & E & C); [intros k' a I; apply (H k' a); now right|].
      destruct d as [|v|a]; cbn [signature_params].
      + exists ps. split; [exact E|]. intros k' v. rewrite C. split; intros (a & I & R); exists a; split; try exact R.
        * now right.
        * destruct I as [I|I]; [discriminate|exact I].
      + exists ps. split; [exact E|]. intros k' v'. rewrite C. split; intros (a & I & R); exists a; split; try exact R.
        * now right.
        * destruct I as [I|I]; [discriminate|exact I].
      + destruct (H k a (or_introl eq_refl)) as [v R]. exists ((k, v) :: ps). rewrite R. cbn [bind]. rewrite E.
        split; [reflexivity|]. intros k' v'. cbn [In]. rewrite C. split.
        * intros [X|(a' & I & R')].
          { injection X as <- <-. exists a. split; [now left|exact R]. }
          { exists a'. split; [now right|exact R']. }
        * intros (a' & [X|I] & R').
          { injection X as <- <-. left. congruence. }
          { right. exists a'. now split. }
  Qed.

  Lemma is_param_in : forall sig k, is_param sig k = true <-> In k (map fst sig).
  Proof using.
    intros sig k. unfold is_param. rewrite existsb_exists. split.
    - intros ([k' d] & I & E). apply String.eqb_eq in E. cbn in E. subst k'. apply in_map_iff. now exists (k, d).
    - intros I. apply in_map_iff in I. destruct I as ([k' d] & E & I). cbn in E. subst k'.
      exists (k, d). split; [exact I|]. apply String.eqb_refl.
  Qed.

  Lemma bind_ok : forall given kw, NoDup (map fst given) -> forall sig args bound,
    length args <= length sig ->
    Forall2 (fun p kv => fst kv = fst p /\ meant_value resolve given p (snd kv)) sig bound ->
    (forall k v, In (k, v) (combine (map fst sig) args) -> In (k, v) given /\ keyword k kw = None) ->
    (forall k d v, In (k, d) (skipn (length args) sig) -> meant_value resolve given (k, d) v ->
       match keyword k kw with Some w => w = v | None => d = Plain v end) ->
    bind_params as_value sig args kw = Ok bound.
  Proof using.
    intros given kw N. induction sig as [|[k d] sig IH]; intros args bound L F G K.
    - inversion F; subst. destruct args; [reflexivity|cbn in L; lia].
    - inversion F as [|p [k' v] sig' bound' [E M] F' X Y]; subst. cbn [fst snd] in *. subst k'.
      destruct args as [|w args]; cbn [bind_params].
      + specialize (K k d v (or_introl eq_refl) M) as Kv.
        assert (B : bind_params as_value sig [] kw = Ok bound').
        { apply IH; [cbn; lia|exact F'| |].
          - intros k' v' I. destruct (map fst sig); destruct I.
          - intros k' d' v' I. apply K. right. exact I. }
        destruct (keyword k kw) as [u|].
        * subst u. cbn [bind]. rewrite B. reflexivity.
        * subst d. cbn [bind]. rewrite B. reflexivity.
      + cbn [map fst combine In length skipn] in G, K, L.
        destruct (G k w (or_introl eq_refl)) as [Iw Kw]. rewrite Kw.
        assert (v = w) as ->.
        { destruct M as [M|[M _]]; [exact (same_value k v w given N M Iw)|].
          exfalso. apply M. exact (in_names k w given Iw). }
        rewrite (IH args bound'); [reflexivity|lia|exact F'| |exact K].
        intros k' v' I. apply G. now right.
  Qed.

  Lemma one_default : forall sig k d d', function_signature sig -> In (k, d) sig -> In (k, d') sig -> d = d'.
  Proof using.
    unfold function_signature. induction sig as [|[k' e] sig IH]; intros k d d' N I J; [destruct I|].
    cbn [map fst] in N. apply NoDup_cons_iff in N. destruct N as [N1 N2].
    destruct I as [I|I], J as [J|J].
    - congruence.
    - injection I as -> ->. exfalso. apply N1. apply in_map_iff. exists (k, d'). now split.
    - injection J as -> ->. exfalso. apply N1. apply in_map_iff. exists (k, d). now split.
    - exact (IH k d d' N2 I J).
  Qed.
  Lemma in_combine_fst : forall sig (args : list V) k v, In (k, v) (combine (map fst sig) args) ->
    In k (map fst sig).
  Proof using. intros sig args k v I. exact (in_combine_l _ _ k v I). Qed.
  Lemma combine_prefix : forall sig (args : list V) k, length args <= length sig -> NoDup (map fst sig) ->
    forall d, In (k, d) (skipn (length args) sig) -> ~ In k (map fst (combine (map fst sig) args)).
  Proof using.
    induction sig as [|[k' e] sig IH]; intros args k L N d I J.
    - destruct args; destruct J.
    - destruct args as [|v args]; [destruct J|]. cbn [length skipn map fst combine In] in *.
      apply NoDup_cons_iff in N. destruct N as [N1 N2]. destruct J as [J|J].
      + subst k'. apply N1. apply in_map_iff. exists (k, d). split; [reflexivity|].
        clear - I. revert I. generalize (length args). intros n. revert sig. induction n as [|n IHn]; intros sig I; [exact I|].
        destruct sig as [|x sig]; [destruct I|]. right. now apply IHn.
      + revert J. apply (IH args k) with (d := d); [lia|exact N2|exact I].
  Qed.
  Lemma skipn_in : forall (T : Type) n (l : list T) x, In x (skipn n l) -> In x l.
  Proof using.
    induction n as [|n IH]; intros l x I; [exact I|]. destruct l as [|y l]; [destruct I|]. right. now apply IH.
  Qed.

  Theorem observed_value : forall sig body args kw bound,
    function_signature sig -> length args <= length sig -> proper_values sig (given_to sig args kw) ->
    called_with resolve sig (given_to sig args kw) bound ->
    observe_func as_value resolve (FuncCond sig body args kw) = body bound.
  Proof using.
    intros sig body args kw bound S L (N & G) C. unfold observe_func. cbn [fc_sig fc_kwargs fc_args fc_body].
    assert (FA : forall k a, In (k, FromArg a) sig -> ~ In k (map fst (given_to sig args kw))).
    { intros k a I J. destruct (G k J) as (d & I' & D). apply (D a). exact (one_default sig k d _ S I' I). }
    assert (RS : forall k a, In (k, FromArg a) sig -> exists v, resolve a = Ok v).
    { intros k a I. destruct (Forall2_in_left _ _ _ _ _ C _ I) as ([k' v] & _ & E & M). cbn [fst snd] in *.
      destruct M as [M|[_ [M|(a' & M & R)]]]; cbn [fst snd] in *.
      - exfalso. apply (FA k a I). exact (in_names k v _ M).
      - discriminate.
      - injection M as <-. now exists v. }
    destruct (signature_values sig RS) as (ps & -> & PS). cbn [bind].
    assert (KN : forall k, In k (map fst kw) -> In k (map fst (given_to sig args kw))).
    { intros k I. unfold given_to. rewrite map_app. apply in_or_app. now right. }
    assert (NK : NoDup (map fst kw)).
    { unfold given_to in N. rewrite map_app in N. clear - N. induction (map fst (combine (map fst sig) args)); [exact N|].
      cbn in N. apply NoDup_cons_iff in N. now apply IHl. }
    assert (PK : forall k, In k (map fst ps) -> ~ In k (map fst (given_to sig args kw)) /\ In k (map fst sig)).
    { intros k I. apply in_map_iff in I. destruct I as ([k' v] & E & I). cbn in E. subst k'.
      apply PS in I. destruct I as (a & I & _). split; [exact (FA k a I)|].
      apply in_map_iff. exists (k, FromArg a). now split. }
    unfold merge_kwargs.
    destruct (existsb _ ps) eqn:X.
    { exfalso. apply existsb_exists in X. destruct X as ([k v] & I & X). cbn [fst] in X.
      destruct (keyword k kw) as [w|] eqn:Q; [|discriminate]. apply keyword_some in Q.
      apply (proj1 (PK k (in_names k v ps I))). apply KN. exact (in_names k w kw Q). }
    cbn [bind]. unfold bind_call.
    assert (F : forallb (fun kv => is_param sig (fst kv)) (kw ++ ps) = true).
    { apply forallb_forall. intros [k v] I. cbn [fst]. apply is_param_in. apply in_app_or in I.
      destruct I as [I|I].
      - destruct (G k (KN k (in_names k v kw I))) as (d & I' & _). apply in_map_iff. exists (k, d). now split.
      - exact (proj2 (PK k (in_names k v ps I))). }
    rewrite F. rewrite (bind_ok (given_to sig args kw) (kw ++ ps) N sig args bound L C); [reflexivity| |].
    - intros k v I. split; [apply in_or_app; now left|]. apply keyword_none. rewrite map_app. intros J.
      apply in_app_or in J. destruct J as [J|J].
      + unfold given_to in N. rewrite map_app in N. revert N J. apply (in_names k v) in I.
        clear - I. intros N J. induction (map fst (combine (map fst sig) args)) as [|x l IH]; [destruct I|].
        cbn in N. apply NoDup_cons_iff in N. destruct N as [N1 N2]. destruct I as [->|I]; [|now apply IH].
        apply N1. apply in_or_app. now right.
      + apply (proj1 (PK k J)). unfold given_to. rewrite map_app. apply in_or_app. left. exact (in_names k v _ I).
    - intros k d v I M. rewrite keyword_app. assert (I' := skipn_in _ _ _ _ I).
      destruct M as [M|[M D]]; cbn [fst snd] in *.
      + unfold given_to in M. apply in_app_or in M. destruct M as [M|M].
        * exfalso. apply (combine_prefix sig args k L S d I). exact (in_names k v _ M).
        * now rewrite (keyword_in k v kw NK M).
      + rewrite (keyword_none k kw); [|intros J; apply M; now apply KN].
        destruct D as [D|(a & D & R)].
        * subst d. rewrite keyword_none; [reflexivity|]. intros J. apply in_map_iff in J.
          destruct J as ([k' w] & E & J). cbn in E. subst k'. apply PS in J. destruct J as (a & J & _).
          specialize (one_default sig k _ _ S I' J). discriminate.
        * subst d. assert (Q : In (k, v) ps) by (apply PS; exists a; now split).
          destruct (keyword k ps) as [w|] eqn:W.
          { apply keyword_some in W. apply PS in W. destruct W as (a' & J & R').
            specialize (one_default sig k _ _ S I' J). intros X'. injection X' as <-. congruence. }
          { exfalso. revert Q W. clear. induction ps as [|[k' w'] ps IH]; intros I W; [destruct I|].
            cbn [keyword] in W. destruct (String.eqb_spec k' k) as [->|D]; [discriminate|].
            destruct I as [I|I]; [congruence|]. now apply IH. }
  Qed.

  (** Values given to something that is not a parameter, and parameters without a value *)
  Theorem unexpected_value : forall sig body args kw k,
    (forall k a, In (k, FromArg a) sig -> exists v, resolve a = Ok v) ->
    In k (map fst kw) -> ~ In k (map fst sig) ->
    observe_func as_value resolve (FuncCond sig body args kw) = Err TypeError.
  Proof using.
    intros sig body args kw k R I N. unfold observe_func. cbn [fc_sig fc_kwargs fc_args fc_body].
    destruct (signature_values sig R) as (ps & -> & _). cbn [bind]. unfold merge_kwargs.
    destruct (existsb _ ps); [reflexivity|]. cbn [bind]. unfold bind_call.
    destruct (forallb _ (kw ++ ps)) eqn:F; [|reflexivity]. exfalso. apply N. rewrite forallb_forall in F.
    apply in_map_iff in I. destruct I as ([k' v] & E & I). cbn in E. subst k'.
    specialize (F (k, v) (in_or_app _ _ _ (or_introl I))). now apply is_param_in in F.
  Qed.

  Lemma bind_type_error : forall sig args kw, (exists v, bind_params as_value sig args kw = Ok v) \/
    bind_params as_value sig args kw = Err TypeError.
  Proof using.
    induction sig as [|[k d] sig IH]; intros args kw; cbn [bind_params].
    - destruct args; [left; now exists []|now right].
    - destruct args as [|v args].
      + destruct (keyword k kw) as [v|]; [|destruct d as [|v|a]].
        * cbn [bind]. destruct (IH [] kw) as [[b ->]| ->]; [left; eexists; reflexivity|now right].
        * now right.
        * cbn [bind]. destruct (IH [] kw) as [[b ->]| ->]; [left; eexists; reflexivity|now right].
        * cbn [bind]. destruct (IH [] kw) as [[b ->]| ->]; [left; eexists; reflexivity|now right].
      + destruct (keyword k kw); [now right|].
        destruct (IH args kw) as [[b ->]| ->]; [left; eexists; reflexivity|now right].
  Qed.
  Lemma bind_missing : forall kw k, ~ In k (map fst kw) -> forall sig args,
    NoDup (map fst sig) -> In (k, Required) sig -> ~ In k (map fst (combine (map fst sig) args)) ->
    bind_params as_value sig args kw = Err TypeError.
  Proof using.
    intros kw k N. induction sig as [|[k' d] sig IH]; intros args S I J; [destruct I|].
    cbn [map fst] in S. apply NoDup_cons_iff in S. destruct S as [S1 S2]. cbn [bind_params].
    destruct args as [|v args].
    - destruct I as [I|I].
      + injection I as -> ->. rewrite (keyword_none k kw N). reflexivity.
      + rewrite (IH []); [|exact S2|exact I|destruct (map fst sig); intros []].
        destruct (keyword k' kw); [reflexivity|]. now destruct d.
    - cbn [map fst combine In] in J. destruct I as [I|I].
      + injection I as -> ->. exfalso. apply J. now left.
      + rewrite (IH args); [|exact S2|exact I|intuition]. now destruct (keyword k' kw).
  Qed.
  Theorem missing_value : forall sig body args kw k,
    function_signature sig ->
    (forall k a, In (k, FromArg a) sig -> exists v, resolve a = Ok v) ->
    In (k, Required) sig -> ~ In k (map fst (given_to sig args kw)) ->
    observe_func as_value resolve (FuncCond sig body args kw) = Err TypeError.
  Proof using.
    intros sig body args kw k S R I N. unfold observe_func. cbn [fc_sig fc_kwargs fc_args fc_body].
    destruct (signature_values sig R) as (ps & -> & PS). cbn [bind]. unfold merge_kwargs.
    destruct (existsb _ ps); [reflexivity|]. cbn [bind]. unfold bind_call.
    destruct (forallb _ (kw ++ ps)); [|reflexivity]. unfold given_to in N. rewrite map_app in N.
    rewrite (bind_missing (kw ++ ps) k); [reflexivity| |exact S|exact I|].
    - rewrite map_app. intros J. apply in_app_or in J. destruct J as [J|J].
      + apply N. apply in_or_app. now right.
      + apply in_map_iff in J. destruct J as ([k' w] & E & J). cbn in E. subst k'. apply PS in J.
        destruct J as (a & J & _). specialize (one_default sig k _ _ S I J). discriminate.
    - intros J. apply N. apply in_or_app. now left.
  Qed.

  (** A value given to a parameter with an argument for default *)
  Theorem given_argument : forall sig body args kw k a,
    (forall k a, In (k, FromArg a) sig -> exists v, resolve a = Ok v) ->
    In (k, FromArg a) sig -> In k (map fst kw) ->
    observe_func as_value resolve (FuncCond sig body args kw) = Err TypeError.
  Proof using.
    intros sig body args kw k a R I J. unfold observe_func. cbn [fc_sig fc_kwargs fc_args fc_body].
    destruct (signature_values sig R) as (ps & -> & PS). cbn [bind]. unfold merge_kwargs.
    destruct (existsb _ ps) eqn:X; [reflexivity|]. exfalso. destruct (R k a I) as [v Rv].
    assert (Q : In (k, v) ps) by (apply PS; exists a; now split).
    assert (T : existsb (fun kv => match keyword (fst kv) kw with Some _ => true | None => false end) ps = true).
    { apply existsb_exists. exists (k, v). split; [exact Q|]. cbn [fst].
      destruct (keyword k kw) eqn:W; [reflexivity|]. exfalso. revert W J. clear.
      induction kw as [|[k' w] kw IH]; intros W J; [destruct J|]. cbn [keyword map fst In] in *.
      destruct (String.eqb_spec k' k) as [->|D]; [discriminate|]. destruct J as [J|J]; [congruence|]. now apply IH. }
    congruence.
  Qed.
End Calls.
