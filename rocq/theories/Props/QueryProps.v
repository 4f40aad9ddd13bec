(** C44, C52, C53: queries.  [pd], [ft] and [rx] stand for dateutil's reading of
    strings, datetime.fromtimestamp and re.match. *)
From Coq Require Import Ascii String.
From Verif Require Import Model.Base Model.Query Spec.QuerySpec.
From Verif Require Import Proofs.QueryProofs Proofs.QueryFormProofs Proofs.QueryExamples.
Open Scope Z_scope.
Open Scope list_scope.

(** * C44 *)

(** A written query matches an item of which every comparison can be made iff
    the Boolean combination holds of the item. *)
Theorem c44_match : forall pd ft rx d e, keys_distinct d -> decided pd ft rx d e ->
  answers pd ft rx (written e) d (says pd ft rx d e).
Proof. exact matches_says. Qed.
Print Assumptions c44_match.

Example c44_match_met : keys_distinct ex_item /\ decided ex_pd ex_ft ex_rx ex_item ex_expr /\
  match_ ex_pd ex_ft ex_rx ex_item (written ex_expr) = Ok true /\
  match_ ex_pd ex_ft ex_rx ex_item (written (Neither ex_expr)) = Ok false.
Proof. split; [exact ex_distinct|]. split; [exact ex_decided|]. split; reflexivity. Qed.

(** Also of other items, and for any queries: the operators look at their left
    side first and at the right side only if it matters, *)
Theorem c44_and : forall pd ft rx d a b, match_ pd ft rx d (and_ a b) =
  match match_ pd ft rx d a with Ok true => match_ pd ft rx d b | r => r end.
Proof. exact and_first. Qed.
Print Assumptions c44_and.
Theorem c44_or : forall pd ft rx d a b, match_ pd ft rx d (or_ a b) =
  match match_ pd ft rx d a with Ok false => match_ pd ft rx d b | r => r end.
Proof. exact or_first. Qed.
Print Assumptions c44_or.
(** and negation keeps errors. *)
Theorem c44_not : forall pd ft rx d a, match_ pd ft rx d (invert a) =
  match match_ pd ft rx d a with Ok b => Ok (negb b) | Err e => Err e end.
Proof. exact mat_not. Qed.
Print Assumptions c44_not.

Example c44_errors_met :
  let bad := QCmp CEq (OKey "zzz"%string) (OLit (VInt 1)) in
  match_ ex_pd ex_ft ex_rx ex_item bad = Err KeyError /\
  match_ ex_pd ex_ft ex_rx ex_item (or_ (written ex_expr) bad) = Ok true /\
  match_ ex_pd ex_ft ex_rx ex_item (or_ bad (written ex_expr)) = Err KeyError /\
  match_ ex_pd ex_ft ex_rx ex_item (and_ (and_ (written ex_expr) QTrue) bad) = Err KeyError.
Proof. cbv zeta. repeat split; reflexivity. Qed.

(** Filtering gives the items of which the query holds, in their order, *)
Theorem c44_filter : forall pd ft rx e data, (forall d, In d data -> keys_distinct d /\ decided pd ft rx d e) ->
  exists f, (forall d, In d data -> (f d = true <-> says pd ft rx d e)) /\
    filter_ pd ft rx (written e) data = (List.filter f data, None).
Proof. exact filter_says. Qed.
Print Assumptions c44_filter.

Example c44_filter_met :
  let items := [ex_item; ("a"%string, VInt 6) :: tl ex_item] in
  filter_ ex_pd ex_ft ex_rx (written ex_expr) items = ([ex_item], None).
Proof. vm_compute. reflexivity. Qed.

(** up to the first item that raises. *)
Theorem c44_filter_stops : forall pd ft rx q a d b e,
  (forall x, In x a -> exists v, match_ pd ft rx x q = Ok v) -> match_ pd ft rx d q = Err e ->
  filter_ pd ft rx q (a ++ d :: b) = (fst (filter_ pd ft rx q a), Some e).
Proof. exact filter_stops. Qed.
Print Assumptions c44_filter_stops.

(** from_dict matches iff every criterion holds, *)
Theorem c44_from_dict : forall pd ft rx cs, Forall (fun c => plain (cr_key c)) cs ->
  exists q, from_dict (map entry cs) = Ok q /\
  forall d, keys_distinct d -> Forall (fun c => decided pd ft rx d (required c)) cs ->
    answers pd ft rx q d (Forall (fun c => says pd ft rx d (required c)) cs).
Proof. exact dict_ok. Qed.
Print Assumptions c44_from_dict.

Example c44_from_dict_met :
  map entry ex_criteria = [("a$min"%string, VInt 1); ("a$max"%string, VInt 5); ("s$regex"%string, VStr "this")] /\
  Forall (fun c => plain (cr_key c)) ex_criteria /\
  Forall (fun c => decided ex_pd ex_ft ex_rx ex_item (required c)) ex_criteria /\
  (exists q, from_dict (map entry ex_criteria) = Ok q /\ match_ ex_pd ex_ft ex_rx ex_item q = Ok true).
Proof.
  split; [reflexivity|]. split; [repeat (apply Forall_cons; [cbn; intros [H|[]]; discriminate H|]); apply Forall_nil|].
  split; [exact ex_criteria_decided|]. eexists. split; reflexivity.
Qed.

(** an unknown operator and a second dollar being errors. *)
Theorem c44_from_dict_unknown : forall cs k t v rest,
  Forall (fun c => plain (cr_key c)) cs -> plain k -> plain t -> ~ In t ["min"; "max"; "not"; "regex"]%string ->
  from_dict (map entry cs ++ (append k (String "$" t), v) :: rest) = Err KeyError.
Proof.
  exact (fun cs k t v rest H P P' N =>
    dict_error (fun _ => Ok 0) (fun _ => Ok 0) (fun _ _ => Ok true) cs _ v rest _ H (operation_unknown k t v P P' N)).
Qed.
Print Assumptions c44_from_dict_unknown.
Theorem c44_from_dict_twice : forall cs k t u v rest, Forall (fun c => plain (cr_key c)) cs -> plain k ->
  from_dict (map entry cs ++ (append k (String "$" (append t (String "$" u))), v) :: rest) = Err ValueError.
Proof.
  exact (fun cs k t u v rest H P =>
    dict_error (fun _ => Ok 0) (fun _ => Ok 0) (fun _ _ => Ok true) cs _ v rest _ H (operation_twice k t u v P)).
Qed.
Print Assumptions c44_from_dict_twice.

Example c44_from_dict_errors_met :
  from_dict [("a"%string, VInt 1); ("b$least"%string, VInt 1)] = Err KeyError /\
  from_dict [("a"%string, VInt 1); ("b$min$max"%string, VInt 1)] = Err ValueError.
Proof. split; reflexivity. Qed.

(** from_kwargs matches iff every argument is met: ranges, alternatives and
    values. *)
Theorem c44_from_kwargs : forall pd ft rx kw, Forall (fun a => pair_or_other (snd a)) kw ->
  exists q, from_kwargs kw = Ok q /\
  forall d, keys_distinct d -> Forall (kw_decided pd ft rx d) kw -> answers pd ft rx q d (Forall (kw_says pd ft rx d) kw).
Proof. exact kwargs_ok. Qed.
Print Assumptions c44_from_kwargs.

Example c44_from_kwargs_met :
  Forall (fun a => pair_or_other (snd a)) ex_kwargs /\ keys_distinct ex_ints /\
  Forall (kw_decided ex_pd ex_ft ex_rx ex_ints) ex_kwargs /\
  (exists q, from_kwargs ex_kwargs = Ok q /\ match_ ex_pd ex_ft ex_rx ex_ints q = Ok true /\
             match_ ex_pd ex_ft ex_rx [("a"%string, VInt 3); ("b"%string, VInt 9)] q = Ok false).
Proof.
  split; [repeat constructor|]. split; [exact ex_ints_distinct|]. split; [exact ex_kwargs_decided|].
  eexists. split; [reflexivity|]. split; reflexivity.
Qed.

Theorem c44_from_kwargs_tuple : forall kw k vs rest, Forall (fun a => pair_or_other (snd a)) kw -> length vs <> 2%nat ->
  from_kwargs (kw ++ (k, KTuple vs) :: rest) = Err ValueError.
Proof. exact kwargs_error. Qed.
Print Assumptions c44_from_kwargs_tuple.

(** * C52 *)

(** If at most one key is given more than once, its values are alternatives and
    all the other criteria are required. *)
Theorem c52_one_repeated : forall pd ft rx cs, Forall (fun c => plain (cr_key c)) cs ->
  (forall k k', repeated k (map entry cs) -> repeated k' (map entry cs) -> k = k') ->
  exists q, from_tuples (map entry cs) = Ok q /\
  forall d, keys_distinct d -> Forall (fun c => decided pd ft rx d (required c)) cs ->
    answers pd ft rx q d
      (forall c, In c cs -> exists c', In c' cs /\ fst (entry c') = fst (entry c) /\ says pd ft rx d (required c')).
Proof. exact tuples_one. Qed.
Print Assumptions c52_one_repeated.

Example c52_one_repeated_met :
  exists q, from_tuples [("b"%string, VInt 7); ("a$min"%string, VInt 1); ("b"%string, VInt 8)] = Ok q /\
    match_ ex_pd ex_ft ex_rx ex_ints q = Ok true.
Proof. eexists. split; reflexivity. Qed.

(** With several repeated keys all their values are alternatives together: *)
Theorem c52_pooled : forall pd ft rx cs, Forall (fun c => plain (cr_key c)) cs -> exists q, from_tuples (map entry cs) = Ok q /\
  forall d, keys_distinct d -> Forall (fun c => decided pd ft rx d (required c)) cs ->
    answers pd ft rx q d
      ((forall c, In c cs -> ~ repeated (fst (entry c)) (map entry cs) -> says pd ft rx d (required c)) /\
       ((exists c, In c cs /\ repeated (fst (entry c)) (map entry cs)) ->
        exists c, In c cs /\ repeated (fst (entry c)) (map entry cs) /\ says pd ft rx d (required c))).
Proof. exact tuples_pooled. Qed.
Print Assumptions c52_pooled.

(** an item may match although it has none of the values given for a key. *)
Theorem c52_two_refuted : forall pd ft rx, exists cs q d, Forall (fun c => plain (cr_key c)) cs /\ keys_distinct d /\
  Forall (fun c => decided pd ft rx d (required c)) cs /\ from_tuples (map entry cs) = Ok q /\
  match_ pd ft rx d q = Ok true /\
  ~ (forall c, In c cs -> exists c', In c' cs /\ fst (entry c') = fst (entry c) /\ says pd ft rx d (required c')).
Proof. exact two_repeated. Qed.
Print Assumptions c52_two_refuted.

(** * C53 *)

(** The keyword form of a query from keyword arguments is those arguments. *)
Theorem c53_kwargs_back : forall kw, Forall (fun a => one_criterion (snd a)) kw -> keys_distinct kw ->
  exists q, from_kwargs kw = Ok q /\ to_pykwargs q = Ok kw.
Proof. exact (kwargs_back (fun _ => Ok 0) (fun _ _ => Ok true)). Qed.
Print Assumptions c53_kwargs_back.

Example c53_kwargs_back_met :
  let kw := [("a"%string, KTuple [VInt 1; VInt 5]); ("b"%string, KTuple [VNone; VInt 2]); ("c"%string, KOne (VStr "x"))] in
  Forall (fun a => one_criterion (snd a)) kw /\ keys_distinct kw.
Proof.
  cbv zeta. split.
  - repeat (apply Forall_cons; [cbn; try exact I; first [now left|right; discriminate]|]). apply Forall_nil.
  - repeat constructor; cbn; intuition discriminate.
Qed.

(** The keyword form of a conjunction of equalities and bounds means the same,
    if no bound comes twice for a key and no bound beside an equality. *)
Theorem c53_query_back : forall pd ft rx s ss, Forall simple_ok (s :: ss) -> ForallOrdPairs compatible (s :: ss) ->
  exists kw q, to_pykwargs (written (conjunction (simple_expr s) (map simple_expr ss))) = Ok kw /\ from_kwargs kw = Ok q /\
  forall d, keys_distinct d -> Forall (fun x => decided pd ft rx d (simple_expr x)) (s :: ss) ->
    answers pd ft rx q d (Forall (fun x => says pd ft rx d (simple_expr x)) (s :: ss)).
Proof. exact query_back. Qed.
Print Assumptions c53_query_back.

Example c53_query_back_met :
  let ss := [Simple "a" CLe (VInt 5); Simple "b" CEq (VInt 8); Simple "a" CGe (VInt 1)] in
  Forall simple_ok ss /\ ForallOrdPairs compatible ss /\
  to_pykwargs (written (conjunction (simple_expr (hd (Simple "" CEq VNone) ss)) (map simple_expr (tl ss)))) =
  Ok [("a"%string, KTuple [VInt 1; VInt 5]); ("b"%string, KOne (VInt 8))].
Proof.
  cbv zeta. split; [|split; [|reflexivity]].
  - apply Forall_cons; [right; split; [now right|discriminate]|]. apply Forall_cons; [now left|].
    apply Forall_cons; [right; split; [now left|discriminate]|apply Forall_nil].
  - repeat (apply FOP_cons; [repeat (apply Forall_cons; [intros H; first [discriminate H|cbn; repeat split; discriminate]|]); apply Forall_nil|]).
    apply FOP_nil.
Qed.

(** A second bound replaces the first even if it is weaker. *)
Theorem c53_overwritten_refuted : forall pd ft rx, exists s s' kw q d, Forall simple_ok [s; s'] /\ keys_distinct d /\
  Forall (fun x => decided pd ft rx d (simple_expr x)) [s; s'] /\
  to_pykwargs (written (Both (simple_expr s) (simple_expr s'))) = Ok kw /\ from_kwargs kw = Ok q /\
  match_ pd ft rx d (written (Both (simple_expr s) (simple_expr s'))) = Ok false /\ match_ pd ft rx d q = Ok true.
Proof. exact overwritten. Qed.
Print Assumptions c53_overwritten_refuted.

(** A bound made with the key on the right is turned round. *)
Theorem c53_reversed_refuted : forall pd ft rx, exists c n k kw q d, keys_distinct d /\
  to_pykwargs (QCmp c (OLit (VInt n)) (OKey k)) = Ok kw /\ from_kwargs kw = Ok q /\
  match_ pd ft rx d (QCmp c (OLit (VInt n)) (OKey k)) = Ok true /\ match_ pd ft rx d q = Ok false.
Proof. exact reversed. Qed.
Print Assumptions c53_reversed_refuted.
