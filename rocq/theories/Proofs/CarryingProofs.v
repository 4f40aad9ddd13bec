(** Proofs about records carried from a process to the log. *)
From Coq Require Import Bool Lia ZifyBool.
From Verif Require Import Model.Base Model.Carrying Spec.CarryingSpec.
Open Scope Z_scope.

Lemma txt_prefix_app : forall a b, txt_prefix a (a ++ b) = true.
Proof. induction a as [|x a IH]; intros b; [reflexivity|]. cbn [app txt_prefix]. rewrite Z.eqb_refl, IH. reflexivity. Qed.
Lemma txt_in_self : forall a, txt_in a a = true.
Proof. intros a. pose proof (txt_prefix_app a []) as H. rewrite app_nil_r in H. destruct a; cbn [txt_in]; [reflexivity|]. rewrite H. reflexivity. Qed.
Lemma txt_in_app : forall a b, txt_in a (b ++ a) = true.
Proof.
  intros a b. induction b as [|y b IH]; [apply txt_in_self|]. cbn [app txt_in]. rewrite IH. apply orb_true_r.
Qed.
Lemma txt_in_nil : forall b, txt_in [] b = true.
Proof. intros [|y b]; reflexivity. Qed.

(** The text of a format has the shown exception in it *)
Lemma shown_in : forall (m t : txt),
  txt_in t (match t with
            | [] => m
            | c :: t' => if ends_line m then m ++ c :: t' else m ++ newline :: c :: t'
            end) = true.
Proof.
  intros m [|c t]; [apply txt_in_nil|]. destruct (ends_line m); [apply txt_in_app|].
  change (newline :: c :: t) with ([newline] ++ c :: t). rewrite app_assoc. apply txt_in_app.
Qed.

Section Carried.
Context (percent : txt -> Z -> txt) (show : Z -> txt).
Notation handled := (handled percent show). Notation carried := (carried percent show). Notation format := (format percent show).

Lemma info_text : forall t, info_given (InfoText t) = truthy (Some t).
Proof. reflexivity. Qed.
Lemma not_both : forall b, b && negb b = false.
Proof. intros []; reflexivity. Qed.

Lemma carried_same : forall r v a, as_logged r -> r_args r = None -> r_action r = Some a ->
  exists h r', handled r = Ok h /\ carried (in_process v r) = Ok (returned v r, r') /\ handled r' = Ok h.
Proof using.
  intros [msg args message info text action ret rest] v a (M & X & R & I) A C. cbn in M, X, R, I, A, C. subst.
  unfold in_process, returned, carried, prepare, handled, format. cbn [r_action].
  assert (N : (a = 1) \/ (a <> 1 /\ match a with 1 => true | _ => false end = false)).
  { destruct (Z.eq_dec a 1) as [->|N]; [left; reflexivity|right; split; [exact N|]]. destruct a as [|[| |]|]; try reflexivity. lia. }
  destruct N as [->|[N1 N2]].
  - destruct I as [->|(e & ->)].
    + do 2 eexists. split; [reflexivity|]. split; reflexivity.
    + do 2 eexists. split; [reflexivity|]. split; [reflexivity|]. cbn. reflexivity.
  - assert (P : forall (T : Type) (x y : T), match a with 1 => x | _ => y end = y).
    { intros T x y. destruct a as [|[| |]|]; try reflexivity. discriminate N2. }
    rewrite !P. destruct I as [->|(e & ->)].
    + cbn [r_args r_exc_info r_exc_text r_msg r_message r_action r_return r_rest info_given truthy andb negb bind].
      unfold receive. cbn [r_action r_exc_text r_message r_return].
      destruct (a =? a_fail) eqn:F; [do 2 eexists; split; [reflexivity|]; split; reflexivity|].
      destruct (a =? a_success) eqn:S; [unfold a_success in S; lia|].
      do 2 eexists; split; [reflexivity|]; split; reflexivity.
    + cbn [get_message format_exception r_args r_exc_info r_exc_text r_msg r_message r_action r_return r_rest info_given truthy andb negb bind].
      unfold receive. cbn [r_action r_exc_text r_message r_return r_msg r_args r_rest r_exc_info bind].
      destruct (a =? a_fail) eqn:F.
      * rewrite shown_in. do 2 eexists. split; [reflexivity|]. split; [reflexivity|].
        cbn [r_args r_exc_info r_exc_text r_msg r_message r_action r_return r_rest get_message].
        rewrite info_text, not_both. reflexivity.
      * destruct (a =? a_success) eqn:S; [unfold a_success in S; lia|].
        do 2 eexists. split; [reflexivity|]. split; [reflexivity|]. reflexivity.
Qed.

Lemma carried_traceback : forall r v e, as_logged r -> r_args r = None -> r_action r = Some a_fail -> r_exc_info r = Exception e ->
  ends_line (r_msg r) = false -> show e <> [] ->
  exists g r', carried (in_process v r) = Ok (g, r') /\
    handled r' = Ok (Stored (r_msg r ++ newline :: show e) (Some (r_msg r)) (Some (show e)) (Some a_fail) None (r_rest r)).
Proof using.
  intros r v e L A C I N S. destruct (carried_same r v a_fail L A C) as (h & r' & H & K & G).
  exists (returned v r), r'. split; [exact K|]. rewrite G, <- H.
  destruct L as (M & X & R & _). destruct r as [msg args message info text action ret rest]. cbn in *. subst.
  unfold handled, format. cbn [r_args r_exc_info r_exc_text r_msg r_message r_action r_return r_rest info_given truthy andb negb bind format_exception get_message].
  destruct (show e) as [|c t]; [contradiction|]. rewrite N. reflexivity.
Qed.

Lemma format_again : forall r s r', format r = Ok (s, r') -> format r' = Ok (s, r').
Proof using.
  intros [msg args message info text action ret rest] s r'. unfold format.
  cbn [r_args r_exc_info r_exc_text r_msg r_message r_action r_return r_rest].
  destruct (info_given info && negb (truthy text)) eqn:G.
  - destruct (format_exception show info) as [t|] eqn:F; cbn [bind]; [|discriminate]. intros E. injection E as <- <-.
    cbn [r_args r_exc_info r_exc_text r_msg r_message r_action r_return r_rest get_message].
    destruct (info_given info && negb (truthy (Some t))) eqn:G2; [rewrite F|]; reflexivity.
  - cbn [bind]. intros E. injection E as <- <-.
    cbn [r_args r_exc_info r_exc_text r_msg r_message r_action r_return r_rest get_message]. rewrite G. reflexivity.
Qed.

Lemma carried_unformatted : forall r v a x, as_logged r -> r_args r = Some x -> r_action r = Some a ->
  exists h r' h', handled r = Ok h /\ carried (in_process v r) = Ok (returned v r, r') /\ handled r' = Ok h' /\
    h_message h = Some (percent (r_msg r) x) /\ h_message h' = Some (r_msg r).
Proof using.
  intros [msg args message info text action ret rest] v a x (M & X & R & I) A C. cbn in M, X, R, I, A, C. subst.
  unfold in_process, returned, carried, prepare, handled, format. cbn [r_action r_msg].
  assert (N : (a = 1) \/ (a <> 1 /\ match a with 1 => true | _ => false end = false)).
  { destruct (Z.eq_dec a 1) as [->|N]; [left; reflexivity|right; split; [exact N|]]. destruct a as [|[| |]|]; try reflexivity. lia. }
  destruct N as [->|[N1 N2]].
  - destruct I as [->|(e & ->)]; do 3 eexists; (split; [reflexivity|]); (split; [reflexivity|]); (split; [reflexivity|]); split; reflexivity.
  - assert (P : forall (T : Type) (x y : T), match a with 1 => x | _ => y end = y).
    { intros T u w. destruct a as [|[| |]|]; try reflexivity. discriminate N2. }
    rewrite !P. destruct I as [->|(e & ->)].
    + cbn [r_args r_exc_info r_exc_text r_msg r_message r_action r_return r_rest info_given truthy andb negb bind].
      unfold receive. cbn [r_action r_exc_text r_message r_return].
      destruct (a =? a_fail) eqn:F;
        [|destruct (a =? a_success) eqn:S; [unfold a_success in S; lia|]];
        do 3 eexists; (split; [reflexivity|]); (split; [reflexivity|]); (split; [reflexivity|]); split; reflexivity.
    + cbn [get_message format_exception r_args r_exc_info r_exc_text r_msg r_message r_action r_return r_rest info_given truthy andb negb bind].
      unfold receive. cbn [r_action r_exc_text r_message r_return r_msg r_args r_rest r_exc_info bind].
      destruct (a =? a_fail) eqn:F.
      * rewrite shown_in. do 3 eexists. split; [reflexivity|]. split; [reflexivity|].
        cbn [r_args r_exc_info r_exc_text r_msg r_message r_action r_return r_rest get_message].
        rewrite info_text, not_both. split; [reflexivity|]. split; reflexivity.
      * destruct (a =? a_success) eqn:S; [unfold a_success in S; lia|].
        do 3 eexists. split; [reflexivity|]. split; [reflexivity|]. split; [reflexivity|]. split; reflexivity.
Qed.

Lemma carried_own : forall r, as_logged r -> r_action r = None -> carried r = Err AttributeError.
Proof using.
  intros [msg args message info text action ret rest] (M & X & R & I) C. cbn in M, X, R, I, C. subst.
  destruct I as [->|(e & ->)]; reflexivity.
Qed.
End Carried.
