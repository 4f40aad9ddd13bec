(** Proofs about the import of the file of a task. *)
From Coq Require Import List Bool ZArith Lia String Permutation.
From Verif Require Import Model.Imports Spec.ImportsSpec.
Import ListNotations.
Local Open Scope list_scope.

Lemma entry_eqb_spec : forall a b, reflect (a = b) (entry_eqb a b).
Proof.
  intros [a|a] [b|b]; cbn; try (constructor; discriminate); destruct (String.eqb_spec a b); constructor; congruence.
Qed.

(** ** The search path *)
Lemma remove_in : forall e es, In e es -> Permutation es (e :: remove_first e es).
Proof.
  induction es as [|x es IH]; intros I; [destruct I|]. cbn. destruct (entry_eqb_spec x e) as [-> |D]; [apply Permutation_refl|].
  destruct I as [I|I]; [contradiction|]. eapply perm_trans; [apply perm_skip, (IH I)|apply perm_swap].
Qed.
Lemma remove_perm : forall e es es', Permutation es es' -> Permutation (remove_first e es) (remove_first e es').
Proof.
  intros e es es' P. induction P as [|x es es' P IH|x y es|es1 es2 es3 P1 IH1 P2 IH2]; cbn.
  - constructor.
  - destruct (entry_eqb x e); [exact P|now constructor].
  - destruct (entry_eqb_spec x e) as [-> |Dx], (entry_eqb_spec y e) as [-> |Dy]; try apply Permutation_refl; try apply perm_swap.
  - now apply perm_trans with (remove_first e es2).
Qed.
Lemma remove_each_perm : forall ps es es', Permutation es es' -> Permutation (remove_each ps es) (remove_each ps es').
Proof. induction ps as [|p ps IH]; intros es es' P; [exact P|]. cbn. apply IH. now apply remove_perm. Qed.
Lemma remove_added : forall ps es, Permutation (remove_each ps (es ++ ps)) es.
Proof.
  induction ps as [|p ps IH]; intros es; [rewrite app_nil_r; apply Permutation_refl|]. cbn [remove_each fold_left].
  fold (remove_each ps (remove_first p (es ++ p :: ps))). eapply perm_trans; [|apply (IH es)]. apply remove_each_perm.
  eapply (Permutation_cons_inv (a := p)). eapply perm_trans; [apply Permutation_sym, remove_in, in_app_iff; right; now left|].
  apply Permutation_sym, Permutation_middle.
Qed.
Lemma remove_skip : forall p es es', ~ In p es -> remove_first p (es ++ es') = es ++ remove_first p es'.
Proof.
  induction es as [|x es IH]; intros es' N; [reflexivity|]. cbn. destruct (entry_eqb_spec x p) as [-> |D]; [exfalso; apply N; now left|].
  f_equal. apply IH. intros I. apply N. now right.
Qed.
Lemma remove_exact : forall ps es, (forall p, In p ps -> ~ In p es) -> remove_each ps (es ++ ps) = es.
Proof.
  induction ps as [|p ps IH]; intros es N; [apply app_nil_r|]. cbn [remove_each fold_left].
  rewrite remove_skip by (apply N; now left). cbn. destruct (entry_eqb_spec p p) as [_|D]; [|congruence].
  apply IH. intros q I. apply N. now right.
Qed.

(** ** Imports keep the path *)
Lemma import_keeps : forall n py, let py' := snd (import_name n py) in
  py_path py' = py_path py /\ py_first py' = py_first py /\ py_files py' = py_files py.
Proof. intros n py. unfold import_name. destruct (find_mod _ _); [now split|]. destruct (search _ _ _); now split. Qed.
Lemma exec_keeps : forall ns py, let py' := snd (exec_imports ns py) in
  py_path py' = py_path py /\ py_first py' = py_first py /\ py_files py' = py_files py.
Proof.
  induction ns as [|n ns IH]; intros py; [now split|]. cbn. pose proof (import_keeps n py) as K.
  destruct (import_name n py) as [[m|] py1]; [|exact K]. pose proof (IH py1) as K1.
  destruct (exec_imports ns py1) as [[bs|] py2]; cbn in K, K1 |- *; destruct K as (-> & -> & ->) in K1 |- *; exact K1.
Qed.

Theorem path_kept : forall root sps ns py, unassigned py ->
  (forall e, In e (added root sps) -> ~ In e (py_path py)) -> path_after root sps ns py = py_path py.
Proof.
  intros root sps ns py U N. unfold path_after, load. pose proof (exec_keeps ns (enter (added root sps) py)) as K.
  destruct (exec_imports ns (enter (added root sps) py)) as [bs py1]. cbn [snd] in K |- *. destruct K as (K1 & K2 & _).
  unfold leave. rewrite K2. cbn [enter py_first py_path] in K1 |- *. rewrite U. cbn [py_path]. rewrite K1. now apply remove_exact.
Qed.
Theorem path_members : forall root sps ns py, unassigned py -> Permutation (path_after root sps ns py) (py_path py).
Proof.
  intros root sps ns py U. unfold path_after, load. pose proof (exec_keeps ns (enter (added root sps) py)) as K.
  destruct (exec_imports ns (enter (added root sps) py)) as [bs py1]. cbn [snd] in K |- *. destruct K as (K1 & K2 & _).
  unfold leave. rewrite K2. cbn [enter py_first py_path] in K1 |- *. rewrite U. cbn [py_path]. rewrite K1. apply remove_added.
Qed.
Theorem path_leaks : forall root sps ns py, ~ unassigned py -> path_after root sps ns py = py_path py ++ added root sps.
Proof.
  intros root sps ns py U. unfold path_after, load. pose proof (exec_keeps ns (enter (added root sps) py)) as K.
  destruct (exec_imports ns (enter (added root sps) py)) as [bs py1]. cbn [snd] in K |- *. destruct K as (K1 & K2 & _).
  unfold leave. rewrite K2. cbn [enter py_first py_path] in K1 |- *. unfold unassigned in U. destruct (py_first py); [exact K1|congruence].
Qed.
Theorem path_grows : forall root sps ns es k py, let py1 := do_all (repeat (Load root sps ns) k) (do py (Assign es)) in
  py_path py1 = es ++ List.concat (repeat (added root sps) k).
Proof.
  intros root sps ns es k py. cbv zeta.
  assert (G : forall k py0, ~ unassigned py0 -> py_path (do_all (repeat (Load root sps ns) k) py0) = py_path py0 ++ List.concat (repeat (added root sps) k)).
  { clear. induction k as [|k IH]; intros py0 U; [symmetry; apply app_nil_r|]. cbn [repeat do_all fold_left List.concat].
    fold (do_all (repeat (Load root sps ns) k) (do py0 (Load root sps ns))). rewrite IH.
    - cbn [do]. fold (path_after root sps ns py0). rewrite (path_leaks root sps ns py0 U). now rewrite <- app_assoc.
    - cbn [do]. unfold load. pose proof (exec_keeps ns (enter (added root sps) py0)) as K.
      destruct (exec_imports ns (enter (added root sps) py0)) as [bs py1]. cbn [snd] in K |- *. destruct K as (_ & K2 & _).
      unfold leave, unassigned in *. rewrite K2. cbn [enter py_first]. destruct (py_first py0); [discriminate|congruence]. }
  rewrite G; [reflexivity|]. unfold unassigned. cbn. discriminate.
Qed.

(** ** What names mean *)
Lemma find_mod_in : forall n ms m, find_mod n ms = Some m -> In (n, m) ms.
Proof.
  induction ms as [|[k x] ms IH]; intros m E; [discriminate|]. cbn in E. destruct (String.eqb_spec k n) as [-> |D].
  - injection E as ->. now left.
  - right. now apply IH.
Qed.
Lemma search_none : forall files n es es', (forall d, In (Text d) es -> files d n = None) -> search files n (es ++ es') = search files n es'.
Proof.
  induction es as [|[d|d] es IH]; intros es' N; cbn; [reflexivity| |].
  - rewrite (N d) by now left. apply IH. intros d' I. apply N. now right.
  - apply IH. intros d' I. apply N. now right.
Qed.
Lemma search_app : forall files n es es' m, search files n es = Some m -> search files n (es ++ es') = Some m.
Proof. induction es as [|[d|d] es IH]; intros es' m E; cbn in E |- *; [discriminate| |now apply IH]. destruct (files d n); [exact E|now apply IH]. Qed.

(** What an import of [n] gives stays what it gives *)
Lemma import_self : forall n py m py', import_name n py = (Some m, py') -> find_mod n (py_mods py') = Some m.
Proof.
  intros n py m py' E. unfold import_name in E. destruct (find_mod n (py_mods py)) eqn:F; [injection E as -> <-; exact F|].
  destruct (search _ _ _); [|discriminate]. injection E as -> <-. cbn. now rewrite String.eqb_refl.
Qed.
Lemma import_stays : forall k n py m, find_mod n (py_mods py) = Some m -> find_mod n (py_mods (snd (import_name k py))) = Some m.
Proof.
  intros k n py m F. unfold import_name. destruct (find_mod k (py_mods py)) eqn:Fk; [exact F|]. destruct (search _ _ _); [|exact F].
  cbn. destruct (String.eqb_spec k n) as [-> |D]; [congruence|exact F].
Qed.
Lemma exec_stays : forall ns n py m, find_mod n (py_mods py) = Some m -> find_mod n (py_mods (snd (exec_imports ns py))) = Some m.
Proof.
  induction ns as [|k ns IH]; intros n py m F; [exact F|]. cbn. pose proof (import_stays k n py m F) as F1.
  destruct (import_name k py) as [[x|] py1]; [|exact F1]. pose proof (IH n py1 m F1) as F2.
  destruct (exec_imports ns py1) as [[bs|] py2]; exact F2.
Qed.
Lemma load_mods : forall root sps ns py, py_mods (snd (load root sps ns py)) = py_mods (snd (exec_imports ns (enter (added root sps) py))).
Proof. intros. unfold load. destruct (exec_imports _ _) as [bs py1]. cbn. unfold leave. now destruct (py_first py1). Qed.
Lemma do_stays : forall es n py m, find_mod n (py_mods py) = Some m -> find_mod n (py_mods (do_all es py)) = Some m.
Proof.
  induction es as [|e es IH]; intros n py m F; [exact F|]. cbn [do_all fold_left]. apply IH.
  destruct e as [root sps ns| | |]; [|exact F..]. cbn [do]. rewrite load_mods. now apply exec_stays.
Qed.

(** Every name the file imports means the module that sys.modules then has *)
Lemma exec_means : forall ns py bs, fst (exec_imports ns py) = Some bs ->
  map fst bs = ns /\ forall n m, In (n, m) bs -> find_mod n (py_mods (snd (exec_imports ns py))) = Some m.
Proof.
  induction ns as [|k ns IH]; intros py bs E; cbn in E |- *; [injection E as <-; now split|].
  destruct (import_name k py) as [[x|] py1] eqn:Ei; [|discriminate]. pose proof (IH py1) as H. pose proof (exec_stays ns k py1 x) as H1.
  destruct (exec_imports ns py1) as [[bs'|] py2]; cbn in E, H, H1 |- *; [|discriminate]. injection E as <-.
  destruct (H bs' eq_refl) as [Hf Hm]. split; [cbn; now f_equal|]. intros n m [I|I]; [injection I as <- <-; apply H1; exact (import_self k py x py1 Ei)|now apply Hm].
Qed.

Lemma exec_known : forall ns py bs n m, fst (exec_imports ns py) = Some bs -> find_mod n (py_mods py) = Some m -> forall m', In (n, m') bs -> m' = m.
Proof.
  intros ns py bs n m E F m' I. destruct (exec_means ns py bs E) as [_ H]. pose proof (H n m' I) as A.
  rewrite (exec_stays ns n py m F) in A. congruence.
Qed.

Theorem means_for_ever : forall es root sps ns root' sps' ns' py bs bs' n m m', meaning root sps ns py = Some bs -> In (n, m) bs ->
  meaning root' sps' ns' (do_all es (do py (Load root sps ns))) = Some bs' -> In (n, m') bs' -> m' = m.
Proof.
  intros es root sps ns root' sps' ns' py bs bs' n m m' E I E' I'. unfold meaning, load in E, E'.
  assert (F : find_mod n (py_mods (do_all es (do py (Load root sps ns)))) = Some m).
  { apply do_stays. cbn [do]. rewrite load_mods. destruct (exec_imports ns (enter (added root sps) py)) as [b py1] eqn:Ex. cbn in E. subst b.
    pose proof (exec_means ns (enter (added root sps) py) bs) as H. rewrite Ex in H. cbn in H. now apply (proj2 (H eq_refl)). }
  set (py2 := do_all es (do py (Load root sps ns))) in *. destruct (exec_imports ns' (enter (added root' sps') py2)) as [b py3] eqn:Ex. cbn in E'. subst b.
  apply (exec_known ns' (enter (added root' sps') py2) bs' n m); [now rewrite Ex|exact F|exact I'].
Qed.

(** A name that has not been imported is searched *)
Lemma import_fresh : forall n py, not_imported n py -> fst (import_name n py) = search (py_files py) n (py_path py).
Proof.
  intros n py N. unfold import_name. destruct (find_mod n (py_mods py)) as [m|] eqn:F; [exfalso; exact (N m (find_mod_in _ _ _ F))|].
  destruct (search _ _ _); reflexivity.
Qed.
Lemma not_imported_import : forall n k py, k <> n -> not_imported n py -> not_imported n (snd (import_name k py)).
Proof.
  intros n k py D N m. unfold import_name. destruct (find_mod k (py_mods py)); [apply N|]. destruct (search _ _ _); [|apply N].
  cbn. intros [I|I]; [congruence|now apply (N m)].
Qed.
Lemma exec_searched : forall ns py bs n m, fst (exec_imports ns py) = Some bs -> not_imported n py -> In (n, m) bs ->
  search (py_files py) n (py_path py) = Some m.
Proof.
  induction ns as [|k ns IH]; intros py bs n m E N I; cbn in E; [injection E as <-; destruct I|].
  destruct (import_name k py) as [[x|] py1] eqn:Ei; [|discriminate]. pose proof (IH py1) as H. pose proof (exec_known ns py1) as Hk.
  destruct (exec_imports ns py1) as [[bs'|] py2]; cbn in E, H, Hk; [|discriminate]. injection E as <-.
  pose proof (import_keeps k py) as K. rewrite Ei in K. cbn in K. destruct K as (K1 & _ & K3).
  destruct (string_dec k n) as [-> |D].
  - assert (X : m = x).
    { destruct I as [I|I]; [congruence|]. apply (Hk bs' n x eq_refl); [exact (import_self _ _ _ _ Ei)|exact I]. }
    subst m. rewrite <- (import_fresh n py N), Ei. reflexivity.
  - destruct I as [I|I]; [congruence|]. rewrite <- K1, <- K3. apply (H bs' n m eq_refl); [|exact I].
    pose proof (not_imported_import n k py D N) as A. now rewrite Ei in A.
Qed.

Lemma meaning_searched : forall root sps ns py bs n m, meaning root sps ns py = Some bs -> not_imported n py -> In (n, m) bs ->
  search (py_files py) n (py_path py ++ added root sps) = Some m.
Proof.
  intros root sps ns py bs n m E N I. unfold meaning, load in E.
  destruct (exec_imports ns (enter (added root sps) py)) as [b py1] eqn:Ex. cbn in E. subst b.
  apply (exec_searched ns (enter (added root sps) py) bs n m); [now rewrite Ex|exact N|exact I].
Qed.
Lemma search_objects : forall files n sps, search files n (map Object sps) = None.
Proof. intros files n sps. induction sps as [|s sps IH]; [reflexivity|exact IH]. Qed.

(** New names that no directory on the path has are taken from beside the file *)
Theorem found_beside : forall root sps ns py bs n m, meaning root sps ns py = Some bs -> In (n, m) bs ->
  not_imported n py -> not_on_path n py -> exists v, m = (root, v) /\ py_files py root n = Some v.
Proof.
  intros root sps ns py bs n m E I N P. pose proof (meaning_searched root sps ns py bs n m E N I) as H.
  rewrite search_none in H by exact P. cbn in H. rewrite search_objects in H. destruct (py_files py root n) as [v|]; [|discriminate].
  injection H as <-. now exists v.
Qed.
Theorem found_first : forall root sps ns py bs n m a d v b, meaning root sps ns py = Some bs -> In (n, m) bs ->
  not_imported n py -> py_path py = a ++ Text d :: b -> (forall c, In (Text c) a -> py_files py c n = None) -> py_files py d n = Some v -> m = (d, v).
Proof.
  intros root sps ns py bs n m a d v b E I N P A F. pose proof (meaning_searched root sps ns py bs n m E N I) as H.
  rewrite P, <- app_assoc, search_none in H by exact A. cbn in H. rewrite F in H. congruence.
Qed.

(** When it works: every name has been imported or is somewhere *)
Lemma import_works : forall n py, (exists m, find_mod n (py_mods py) = Some m) \/ (exists m, search (py_files py) n (py_path py) = Some m) ->
  exists m, fst (import_name n py) = Some m.
Proof.
  intros n py [[m F]|[m F]]; unfold import_name; [rewrite F; now exists m|]. destruct (find_mod n (py_mods py)) as [x|]; [now exists x|]. rewrite F. now exists m.
Qed.
Lemma exec_works : forall ns py, (forall n, In n ns -> (exists m, find_mod n (py_mods py) = Some m) \/ exists m, search (py_files py) n (py_path py) = Some m) ->
  exists bs, fst (exec_imports ns py) = Some bs.
Proof.
  induction ns as [|k ns IH]; intros py W; [now exists []|]. cbn. destruct (import_works k py (W k (or_introl eq_refl))) as [x Ex].
  pose proof (import_keeps k py) as K. pose proof (fun n => import_stays k n py) as S.
  destruct (import_name k py) as [o py1]. cbn in Ex, K, S. subst o. destruct K as (K1 & _ & K3). destruct (IH py1) as [bs Eb].
  - intros n I. destruct (W n (or_intror I)) as [[m F]|[m F]]; [left; exists m; now apply S|right; exists m; now rewrite K1, K3].
  - destruct (exec_imports ns py1) as [[bs'|] py2]; [|discriminate]. now eexists.
Qed.
Theorem works_beside : forall root sps ns py, (forall n, In n ns -> exists v, py_files py root n = Some v) -> exists bs, meaning root sps ns py = Some bs.
Proof.
  intros root sps ns py W. destruct (exec_works ns (enter (added root sps) py)) as [bs E].
  - intros n I. right. destruct (W n I) as [v F]. cbn [enter py_files py_path].
    destruct (search (py_files py) n (py_path py)) as [m|] eqn:S; [exists m; now apply search_app|].
    assert (X : search (py_files py) n (py_path py ++ added root sps) = search (py_files py) n (added root sps)).
    { apply search_none. intros d. revert S. generalize (py_path py). induction l as [|[e|e] l IH]; intros S J; [destruct J| |].
      - cbn in S. destruct (py_files py e n) eqn:Fe; [discriminate|]. destruct J as [J|J]; [injection J as ->; exact Fe|now apply IH].
      - destruct J as [J|J]; [discriminate|now apply IH]. }
    exists (root, v). rewrite X. cbn. now rewrite F.
  - exists bs. unfold meaning, load. destruct (exec_imports ns (enter (added root sps) py)) as [b py1]. exact E.
Qed.

(** sys_paths make no difference *)
Lemma exec_same : forall ns py py', py_mods py = py_mods py' -> (forall n, search (py_files py) n (py_path py) = search (py_files py') n (py_path py')) ->
  fst (exec_imports ns py) = fst (exec_imports ns py').
Proof.
  induction ns as [|k ns IH]; intros py py' M S; [reflexivity|]. cbn.
  assert (X : fst (import_name k py) = fst (import_name k py') /\ py_mods (snd (import_name k py)) = py_mods (snd (import_name k py'))).
  { unfold import_name. rewrite <- M, <- S. destruct (find_mod k (py_mods py)); [now split|]. destruct (search _ k _); cbn; [|now split]. now rewrite M. }
  pose proof (import_keeps k py) as K. pose proof (import_keeps k py') as K'.
  destruct (import_name k py) as [o q], (import_name k py') as [o' q']. cbn in X, K, K'. destruct X as [<- X].
  destruct K as (K1 & _ & K3), K' as (K1' & _ & K3'). destruct o as [x|]; [|reflexivity].
  assert (Y : fst (exec_imports ns q) = fst (exec_imports ns q')).
  { apply IH; [exact X|]. intros n. rewrite K1, K3, K1', K3'. apply S. }
  destruct (exec_imports ns q) as [[a|] q2], (exec_imports ns q') as [[a'|] q2']; cbn in Y |- *; congruence.
Qed.
Theorem sys_paths_unused : forall root sps ns py, meaning root sps ns py = meaning root [] ns py.
Proof.
  intros root sps ns py. unfold meaning, load.
  assert (X : fst (exec_imports ns (enter (added root sps) py)) = fst (exec_imports ns (enter (added root []) py))).
  { apply exec_same; [reflexivity|]. intros n. cbn [enter py_files py_path]. unfold added.
    generalize (py_path py). induction l as [|[d|d] l IH]; cbn; [|now rewrite IH|exact IH]. rewrite search_objects. reflexivity. }
  destruct (exec_imports ns (enter (added root sps) py)), (exec_imports ns (enter (added root []) py)). exact X.
Qed.
