From Coq Require Import Bool Lia ZifyBool.
From Verif Require Import Model.Base Model.CodeRun Spec.CodeRunSpec.
Local Open Scope Z_scope.

Lemma lookup_put_same n x o : lookup (put n x o) x = Some o.
Proof.
  induction n as [|[y o'] n IH]; cbn [put lookup]; [now rewrite Z.eqb_refl|].
  destruct (y =? x) eqn:E; cbn [lookup]; rewrite E; auto.
Qed.
Lemma lookup_put_other n x o y : y <> x -> lookup (put n x o) y = lookup n y.
Proof.
  intros N. induction n as [|[z o'] n IH]; cbn [put lookup].
  - destruct (Z.eqb_spec x y); [congruence|reflexivity].
  - destruct (Z.eqb_spec z x) as [->|M]; cbn [lookup].
    + destruct (Z.eqb_spec x y); [congruence|reflexivity].
    + destruct (z =? y); auto.
Qed.
Lemma lookup_in n x o : lookup n x = Some o -> In (x, o) n.
Proof.
  induction n as [|[y o'] n IH]; cbn [lookup]; [discriminate|].
  destruct (Z.eqb_spec y x) as [->|M]; [intros [= ->]; now left|right; auto].
Qed.

Definition tame (n : names) : Prop := forall x body, lookup n x = Some (Fun body) -> nameless body.

Lemma eval_add fuel h i arg a b : eval fuel h i arg (Add a b) =
  match eval fuel h i arg a with
  | Returns u => match eval fuel h i arg b with
                 | Returns v => match u, v with Int y, Int z => Returns (Int (y + z)) | _, _ => Raises TypeError end
                 | Raises e => Raises e | OutOfFuel => OutOfFuel end
  | Raises e => Raises e | OutOfFuel => OutOfFuel end.
Proof. destruct fuel; reflexivity. Qed.
Lemma eval_call fuel h i arg f a : eval (S fuel) h i arg (Call f a) =
  match lookup h f with
  | None => Raises NameError
  | Some o => match eval (S fuel) h i arg a with
              | Returns v => match o with Int _ => Raises TypeError | Fun body => eval fuel i i (Some v) body end
              | Raises e => Raises e | OutOfFuel => OutOfFuel end
  end.
Proof. reflexivity. Qed.

Lemma add_means fuel h i arg s a b :
  (forall o, eval fuel h i arg a = Returns o <-> means s arg a o) ->
  (forall o, eval fuel h i arg b = Returns o <-> means s arg b o) ->
  forall o, eval fuel h i arg (Add a b) = Returns o <-> means s arg (Add a b) o.
Proof.
  intros IHa IHb o. rewrite eval_add. split.
  - destruct (eval fuel h i arg a) as [u| |] eqn:Ea; try discriminate.
    destruct (eval fuel h i arg b) as [v| |] eqn:Eb; try discriminate.
    destruct u as [y|]; [|discriminate]. destruct v as [z|]; [|discriminate]. intros [= <-].
    apply m_add; [now apply IHa|now apply IHb].
  - intros M. inversion M as [| | |arg' a' b' y z Ma Mb|]; subst.
    rewrite (proj2 (IHa _) Ma), (proj2 (IHb _) Mb). reflexivity.
Qed.
Lemma const_means fuel h i arg s z o : eval fuel h i arg (Const z) = Returns o <-> means s arg (Const z) o.
Proof. destruct fuel; cbn; (split; [intros [= <-]; constructor|intros M; inversion M; reflexivity]). Qed.
Lemma arg_means fuel h i arg s o : eval fuel h i arg Arg = Returns o <-> means s arg Arg o.
Proof.
  destruct fuel; cbn; (split; [destruct arg; [intros [= <-]; constructor|discriminate]|intros M; inversion M; reflexivity]).
Qed.

Lemma nameless_eval fuel h i arg e s : nameless e -> forall o, eval fuel h i arg e = Returns o <-> means s arg e o.
Proof.
  induction e as [z|x| |a IHa b IHb|f a IHa]; intros N o; try contradiction.
  - apply const_means.
  - apply arg_means.
  - destruct N as [Na Nb]. apply add_means; auto.
Qed.

Lemma tame_eval fuel h s e arg : tame h -> start_with h s ->
  forall o, eval (S fuel) h [] arg e = Returns o <-> means s arg e o.
Proof.
  intros T W. induction e as [z|x| |a IHa b IHb|f a IHa]; intros o.
  - apply const_means.
  - cbn. rewrite <- (W x). split.
    + destruct (s x) as [o'|] eqn:E; [|discriminate]. intros [= <-]. now constructor.
    + intros M; inversion M as [|arg' x' o' E| | |]; subst. now rewrite E.
  - apply arg_means.
  - apply add_means; auto.
  - rewrite eval_call, <- (W f). split.
    + destruct (s f) as [o'|] eqn:E; [|discriminate].
      destruct (eval (S fuel) h [] arg a) as [v| |] eqn:Ea; try discriminate.
      destruct o' as [z|body]; [discriminate|]. intros H.
      apply (m_call s arg f a body v o E); [now apply IHa|].
      apply (nameless_eval fuel [] [] (Some v) body s); [|exact H].
      apply (T f). now rewrite <- W.
    + intros M. inversion M as [| | | |arg' f' a' body v o' E Ma Mb]; subst. rewrite E, (proj2 (IHa v) Ma).
      apply (nameless_eval fuel [] [] (Some v) body s); [|exact Mb]. apply (T f). now rewrite <- W.
Qed.

Lemma means_tame h s : tame h -> start_with h s -> forall arg e o, means s arg e o ->
  (forall body, arg = Some (Fun body) -> nameless body) -> forall body, o = Fun body -> nameless body.
Proof.
  intros T W arg e o M.
  induction M as [arg z|arg x o E|o|arg a b y z Ma IHa Mb IHb|arg f a body v o E Ma IHa Mb IHb]; intros A body' Q.
  - discriminate.
  - subst. apply (T x). now rewrite <- W.
  - subst. now apply A.
  - discriminate.
  - apply IHb; [|exact Q]. intros b [= ->]. now apply IHa.
Qed.

Lemma tame_put h x o : tame h -> (forall body, o = Fun body -> nameless body) -> tame (put h x o).
Proof.
  intros T O y body. destruct (Z.eq_dec y x) as [->|N].
  - rewrite lookup_put_same. intros [= ->]. now apply O.
  - rewrite lookup_put_other by assumption. apply T.
Qed.

Lemma put_set h s x o : start_with h s -> set_to s x o (lookup (put h x o)).
Proof.
  intros W. split; [apply lookup_put_same|]. intros y N. rewrite (W y). now apply lookup_put_other.
Qed.
Lemma set_put h s x o s' : start_with h s -> set_to s x o s' -> start_with (put h x o) s'.
Proof.
  intros W [X Y] y. destruct (Z.eq_dec y x) as [->|N].
  - now rewrite lookup_put_same.
  - rewrite lookup_put_other by assumption. rewrite Y by assumption. apply W.
Qed.

Lemma exec_script fuel code h s : nameless_functions code -> tame h -> start_with h s ->
  (forall h', exec (S fuel) code [] h = Returns h' -> exists s', script s code s' /\ start_with h' s') /\
  (forall s', script s code s' -> exists h', exec (S fuel) code [] h = Returns h' /\ start_with h' s').
Proof.
  revert h s. induction code as [|[x e|f body] code IH]; intros h s F T W; cbn [exec].
  - split.
    + intros h' [= <-]. exists s. split; [constructor|exact W].
    + intros s' S. inversion S; subst. exists h. split; [reflexivity|exact W].
  - rewrite app_nil_r.
    assert (F' : nameless_functions code) by (intros f b I; apply (F f b); now right).
    split.
    + intros h'. destruct (eval (S fuel) h [] None e) as [o| |] eqn:E; try discriminate. intros H.
      apply (tame_eval fuel h s e None T W) in E.
      assert (T' : tame (put h x o)).
      { apply tame_put; [exact T|]. intros b Q. apply (means_tame h s T W None e o E); [discriminate|exact Q]. }
      destruct (IH (put h x o) (lookup (put h x o)) F' T' (fun _ => eq_refl)) as [P _].
      destruct (P h' H) as (s' & S & W'). exists s'. split; [|exact W'].
      eapply s_assign; [exact E|apply put_set; exact W|exact S].
    + intros s' S. inversion S as [|s0 x0 e0 o s1 code0 s2 M St Sc|]; subst.
      rewrite (proj2 (tame_eval fuel h s e None T W o) M).
      assert (T' : tame (put h x o)).
      { apply tame_put; [exact T|]. intros b Q. apply (means_tame h s T W None e o M); [discriminate|exact Q]. }
      destruct (IH (put h x o) s1 F' T' (set_put h s x o s1 W St)) as [_ Q]. apply Q. exact Sc.
  - assert (F' : nameless_functions code) by (intros g b I; apply (F g b); now right).
    assert (T' : tame (put h f (Fun body))).
    { apply tame_put; [exact T|]. intros b [= <-]. apply (F f body). now left. }
    split.
    + intros h' H.
      destruct (IH (put h f (Fun body)) (lookup (put h f (Fun body))) F' T' (fun _ => eq_refl)) as [P _].
      destruct (P h' H) as (s' & S & W'). exists s'. split; [|exact W'].
      eapply s_define; [apply put_set; exact W|exact S].
    + intros s' S. inversion S as [| |s0 f0 b0 s1 code0 s2 St Sc]; subst.
      destruct (IH (put h f (Fun body)) s1 F' T' (set_put h s f (Fun body) s1 W St)) as [_ Q]. apply Q. exact Sc.
Qed.

Lemma plain_tame params : plain params -> tame params.
Proof. intros P x body H. destruct (P x (Fun body) (lookup_in _ _ _ H)) as [z Z]. discriminate. Qed.

Lemma code_script fuel code out params s v : nameless_functions code -> plain params -> start_with params s ->
  (execute_code (S fuel) code out params = Returns v <-> exists s', script s code s' /\ s' out = v).
Proof.
  intros F P W. destruct (exec_script fuel code params s F (plain_tame _ P) W) as [A B].
  unfold execute_code. split.
  - destruct (exec (S fuel) code [] params) as [h'| |] eqn:E; try discriminate. intros [= <-].
    destruct (A h' eq_refl) as (s' & S & W'). exists s'. split; [exact S|apply W'].
  - intros (s' & S & <-). destruct (B s' S) as (h' & -> & W'). now rewrite W'.
Qed.

Lemma exec_unset fuel code g h h' x : ~ sets code x -> exec fuel code g h = Returns h' -> lookup h' x = lookup h x.
Proof.
  revert h. induction code as [|[y e|f body] code IH]; intros h N; cbn [exec].
  - now intros [= <-].
  - destruct (eval fuel (h ++ g) g None e) as [o| |]; try discriminate. intros H.
    rewrite (IH (put h y o)); [| |exact H].
    + apply lookup_put_other. intros ->. apply N. left. exists e. now left.
    + intros [[e' I]|[b I]]; apply N; [left; exists e'|right; exists b]; now right.
  - intros H. rewrite (IH (put h f (Fun body))); [| |exact H].
    + apply lookup_put_other. intros ->. apply N. right. exists body. now left.
    + intros [[e' I]|[b I]]; apply N; [left; exists e'|right; exists b]; now right.
Qed.

Lemma code_unset fuel code out params v : ~ sets code out -> execute_code fuel code out params = Returns v ->
  v = lookup params out.
Proof.
  intros N. unfold execute_code. destruct (exec fuel code [] params) as [h'| |] eqn:E; try discriminate.
  intros [= <-]. exact (exec_unset _ _ _ _ _ _ N E).
Qed.

Lemma code_helper fuel params s x z f out : start_with params s -> lookup params x = Some (Int z) -> f <> x ->
  let code := [Define f (Name x); Assign out (Call f (Const 0))] in
  (exists s', script s code s' /\ s' out = Some (Int z)) /\
  execute_code (S fuel) code out params = Raises NameError.
Proof.
  intros W X N code. split.
  - exists (lookup (put (put params f (Fun (Name x))) out (Int z))). split; [|apply lookup_put_same].
    eapply s_define; [apply put_set; exact W|].
    eapply s_assign with (o := Int z); [|apply put_set; intros y; reflexivity|constructor].
    apply m_call with (body := Name x) (v := Int 0); [apply lookup_put_same|constructor|].
    constructor. rewrite lookup_put_other by congruence. exact X.
  - unfold execute_code, code. cbn [exec]. rewrite app_nil_r. cbn [eval].
    rewrite lookup_put_same. destruct fuel; reflexivity.
Qed.

Lemma code_calls fuel params s z f g out : start_with params s -> f <> g ->
  let code := [Define f Arg; Define g (Call f Arg); Assign out (Call g (Const z))] in
  (exists s', script s code s' /\ s' out = Some (Int z)) /\
  execute_code (S fuel) code out params = Raises NameError.
Proof.
  intros W N code. split.
  - exists (lookup (put (put (put params f (Fun Arg)) g (Fun (Call f Arg))) out (Int z))).
    split; [|apply lookup_put_same].
    eapply s_define; [apply put_set; exact W|].
    eapply s_define; [apply put_set; intros y; reflexivity|].
    eapply s_assign with (o := Int z); [|apply put_set; intros y; reflexivity|constructor].
    apply m_call with (body := Call f Arg) (v := Int z); [apply lookup_put_same|constructor|].
    apply m_call with (body := Arg) (v := Int z); [|constructor|constructor].
    rewrite lookup_put_other by congruence. apply lookup_put_same.
  - unfold execute_code, code. cbn [exec]. rewrite app_nil_r. cbn [eval].
    rewrite lookup_put_same. destruct fuel; reflexivity.
Qed.
