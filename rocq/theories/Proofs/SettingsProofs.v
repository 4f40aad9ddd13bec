(** Proofs about the settings of sessions. *)
From Coq Require Import String Lia Arith.
From Verif Require Import Model.Base Model.Settings Spec.SettingsSpec.
Local Open Scope string_scope.
Local Open Scope list_scope.

Lemma sget_app : forall a b k, sget (a ++ b) k = match sget a k with Some v => Some v | None => sget b k end.
Proof.
  induction a as [|[j u] a IH]; intros b k; [reflexivity|]. cbn [sget app].
  destruct (String.eqb j k); [reflexivity|apply IH].
Qed.
Lemma sget_sset : forall d k v j, sget (sset d k v) j = if String.eqb k j then Some v else sget d j.
Proof.
  induction d as [|[i u] d IH]; intros k v j; [reflexivity|]. cbn [sset].
  destruct (String.eqb i k) eqn:E.
  - apply String.eqb_eq in E. subst i. cbn [sget]. destruct (String.eqb k j); reflexivity.
  - cbn [sget]. rewrite IH. destruct (String.eqb i j) eqn:F; [|reflexivity].
    apply String.eqb_eq in F. subst i. destruct (String.eqb k j) eqn:G; [|reflexivity].
    apply String.eqb_eq in G. subst k. rewrite String.eqb_refl in E. discriminate.
Qed.
Lemma sget_sdel : forall d k j, sget (sdel d k) j = if String.eqb k j then None else sget d j.
Proof.
  induction d as [|[i u] d IH]; intros k j; [cbn; destruct (String.eqb k j); reflexivity|].
  unfold sdel in *. cbn [filter fst]. destruct (String.eqb i k) eqn:E; cbn [negb].
  - rewrite IH. apply String.eqb_eq in E. subst i. cbn [sget].
    destruct (String.eqb k j); reflexivity.
  - cbn [sget]. rewrite IH. destruct (String.eqb i j) eqn:F; [|reflexivity].
    apply String.eqb_eq in F. subst i. destruct (String.eqb k j) eqn:G; [|reflexivity].
    apply String.eqb_eq in G. subst k. rewrite String.eqb_refl in E. discriminate.
Qed.
Lemma deprecated_get : forall d k, k <> "task_execution" ->
  sget (set_deprecated d) k =
  if String.eqb k "execution"
  then match sget d "task_execution" with Some v => Some v | None => sget d k end
  else sget d k.
Proof.
  intros d k N. unfold set_deprecated. destruct (sget d "task_execution") as [v|] eqn:E.
  - rewrite sget_sset, sget_sdel. destruct (String.eqb k "execution") eqn:F.
    + apply String.eqb_eq in F. subst k. rewrite String.eqb_refl. reflexivity.
    + destruct (String.eqb "execution" k) eqn:G.
      { apply String.eqb_eq in G. subst k. rewrite String.eqb_refl in F. discriminate. }
      destruct (String.eqb "task_execution" k) eqn:H; [apply String.eqb_eq in H; congruence|reflexivity].
  - destruct (String.eqb k "execution"); reflexivity.
Qed.

Section Settings.
Context (coerce : bool -> string -> sval -> option sval) (cpus : Z).

Lemma make_get : forall b pre fs d r, make coerce b pre fs d = Ok r -> NoDup (map f_name fs) ->
  forall f, In f fs -> exists v, make_field coerce b pre d f = Ok v /\ sget r (f_name f) = Some v.
Proof using.
  induction fs as [|g fs IH]; intros d r E N f I; [destruct I|]. cbn [make] in E.
  destruct (make_field coerce b pre d g) as [v|e] eqn:F; [|discriminate E]. cbn [bind] in E.
  destruct (make coerce b pre fs d) as [r'|e] eqn:G; [|discriminate E]. cbn [bind] in E.
  injection E as <-. cbn [map] in N. inversion N as [|x l N1 N2 X]; subst. destruct I as [<- |I].
  - exists v. split; [exact F|]. cbn [sget]. rewrite String.eqb_refl. reflexivity.
  - destruct (IH d r' G N2 f I) as (u & A & B). exists u. split; [exact A|]. cbn [sget].
    destruct (String.eqb (f_name g) (f_name f)) eqn:H; [|exact B].
    apply String.eqb_eq in H. exfalso. apply N1. rewrite H. apply in_map. exact I.
Qed.
Lemma make_ok : forall b pre fs d, (forall f, In f fs -> exists v, make_field coerce b pre d f = Ok v) ->
  exists r, make coerce b pre fs d = Ok r.
Proof using.
  induction fs as [|g fs IH]; intros d H; [exists []; reflexivity|]. cbn [make].
  destruct (H g (or_introl eq_refl)) as [v V]. rewrite V. cbn [bind].
  destruct (IH d) as [r R]; [intros f I; apply H; right; exact I|]. rewrite R. cbn [bind]. eauto.
Qed.

Lemma config_names : NoDup (map f_name (config_fields cpus)).
Proof using. cbn [map config_fields f_name]. repeat constructor; cbn; intuition discriminate. Qed.
Lemma task_names : NoDup (map f_name task_fields).
Proof using. cbn [map task_fields f_name]. repeat constructor; cbn; intuition discriminate. Qed.
Lemma not_deprecated_name : forall f, In f (config_fields cpus) -> f_name f <> "task_execution".
Proof using. intros f I. cbn in I. intuition subst; discriminate. Qed.

(** What a session is made of *)
Lemma dict_given : forall src kw k, settings_given src kw ->
  sget (match src with FromDict d => d ++ kw | _ => kw end) k = given src kw k.
Proof using.
  intros src kw k [-> | (d & -> & _)]; [reflexivity|]. cbn [given]. apply sget_app.
Qed.
Lemma no_clash : forall d kw, (forall k v, In (k, v) kw -> sget d k = None) ->
  existsb (fun e : string * sval => match sget d (fst e) with Some _ => true | None => false end) kw = false.
Proof using.
  intros d kw H. destruct (existsb _ kw) eqn:E; [|reflexivity]. apply existsb_exists in E.
  destruct E as ([k v] & I & X). cbn [fst] in X. rewrite (H k v I) in X. discriminate.
Qed.
Lemma session_made : forall w src kw w', settings_given src kw -> make_session coerce cpus w src kw = Ok w' ->
  exists c, make_config coerce cpus (match src with FromDict d => d ++ kw | _ => kw end) = Ok c /\
    w' = SWorld (w_configs w ++ [c]) (w_sessions w ++ [List.length (w_configs w)]) (w_tasks w).
Proof using.
  intros w src kw w' G E. unfold make_session, get_config in E. destruct G as [-> | (d & -> & D)].
  - destruct (make_config coerce cpus kw) as [c|e]; [|discriminate E]. injection E as <-. eauto.
  - rewrite (no_clash d kw D) in E.
    destruct (make_config coerce cpus (d ++ kw)) as [c|e]; [|discriminate E]. injection E as <-. eauto.
Qed.
Lemma new_setting : forall cs ss ts c k,
  setting (SWorld (cs ++ [c]) (ss ++ [List.length cs]) ts) (List.length ss) k = sget c k.
Proof using.
  intros. unfold setting. cbn [w_sessions w_configs]. rewrite nth_error_app2, Nat.sub_diag by lia. cbn [nth_error].
  rewrite nth_error_app2, Nat.sub_diag by lia. reflexivity.
Qed.

Lemma pre_taken : forall k v, k <> "execution" -> config_pre k v = taken_as k v.
Proof using.
  intros k v N. destruct v; try reflexivity. unfold config_pre, taken_as. apply String.eqb_neq in N. rewrite N.
  destruct (String.eqb k "shut_cond"); reflexivity.
Qed.
Lemma taken_fits : forall f v, In f (config_fields cpus) -> fits (f_kind f) v = true ->
  fits (f_kind f) (taken_as (f_name f) v) = true.
Proof using.
  intros f v I F. destruct v; try exact F. cbn in I. unfold taken_as. intuition subst; vm_compute; try exact F; reflexivity.
Qed.
Lemma timeout_always : forall f, In f (config_fields cpus) -> f_always f = true ->
  f_name f = "execution" \/ (f_name f = "timeout" /\ f_default f = half_an_hour /\ f_kind f = KTime).
Proof using. intros f I A. cbn in I. intuition subst; try discriminate A; auto. Qed.

(** ** The settings that are given are those of the session *)
Lemma given_used : forall w src kw w' f v, settings_given src kw -> make_session coerce cpus w src kw = Ok w' ->
  In f (config_fields cpus) -> f_name f <> "execution" -> given src kw (f_name f) = Some v -> fits (f_kind f) v = true ->
  setting w' (List.length (w_sessions w)) (f_name f) = Some (taken_as (f_name f) v).
Proof using.
  intros w src kw w' f v G E I N V F. destruct (session_made w src kw w' G E) as (c & C & ->).
  rewrite new_setting. unfold make_config in C. destruct (make_get _ _ _ _ _ C config_names f I) as (u & M & R).
  rewrite R. f_equal. unfold make_field in M.
  rewrite deprecated_get in M by (apply not_deprecated_name; exact I).
  rewrite (proj2 (String.eqb_neq _ _) N), dict_given, V in M by exact G.
  unfold convert in M. rewrite (pre_taken _ _ N), (taken_fits f v I F) in M. injection M as <-. reflexivity.
Qed.
Lemma default_used : forall w src kw w' f, settings_given src kw -> make_session coerce cpus w src kw = Ok w' ->
  In f (config_fields cpus) -> f_name f <> "execution" -> given src kw (f_name f) = None ->
  setting w' (List.length (w_sessions w)) (f_name f) = Some (f_default f).
Proof using.
  intros w src kw w' f G E I N V. destruct (session_made w src kw w' G E) as (c & C & ->).
  rewrite new_setting. unfold make_config in C. destruct (make_get _ _ _ _ _ C config_names f I) as (u & M & R).
  rewrite R. f_equal. unfold make_field in M.
  rewrite deprecated_get in M by (apply not_deprecated_name; exact I).
  rewrite (proj2 (String.eqb_neq _ _) N), dict_given, V in M by exact G.
  destruct (f_always f) eqn:A; [|injection M as <-; reflexivity].
  destruct (timeout_always f I A) as [X|(X & Y & Z)]; [congruence|]. unfold convert in M. rewrite X, Y, Z in M.
  cbn in M. injection M as <-. rewrite Y. reflexivity.
Qed.
Definition exec_field : field := Field "execution" (KMaybe KText) VNone true.
Lemma exec_in : In exec_field (config_fields cpus).
Proof using. cbn. auto. Qed.
Lemma execution_used : forall w src kw w', settings_given src kw -> make_session coerce cpus w src kw = Ok w' ->
  (forall s, given src kw "execution" = Some (VText s) -> given src kw "task_execution" = None ->
     setting w' (List.length (w_sessions w)) "execution" = Some (VText s)) /\
  (forall s, given src kw "task_execution" = Some (VText s) ->
     setting w' (List.length (w_sessions w)) "execution" = Some (VText s)) /\
  (given src kw "task_execution" = None -> given src kw "execution" = None ->
     setting w' (List.length (w_sessions w)) "execution" = Some (VText "async")).
Proof using.
  intros w src kw w' G E. destruct (session_made w src kw w' G E) as (c & C & ->).
  unfold make_config in C. destruct (make_get _ _ _ _ _ C config_names exec_field exec_in) as (u & M & R).
  cbn [f_name exec_field] in R. unfold make_field in M. cbn [f_name exec_field] in M.
  rewrite deprecated_get in M by discriminate. cbn [String.eqb Ascii.eqb eqb] in M.
  rewrite !dict_given in M by exact G.
  repeat split.
  - intros s S1 S2. rewrite S1, S2 in M. injection M as <-. rewrite new_setting. exact R.
  - intros s S1. rewrite S1 in M. injection M as <-. rewrite new_setting. exact R.
  - intros S1 S2. rewrite S1, S2 in M. injection M as <-. rewrite new_setting. exact R.
Qed.
Lemma typed_made : forall w src kw, settings_given src kw -> well_typed cpus src kw ->
  exists w', make_session coerce cpus w src kw = Ok w'.
Proof using.
  intros w src kw G T.
  assert (C : exists c, make_config coerce cpus (match src with FromDict d => d ++ kw | _ => kw end) = Ok c).
  { apply make_ok. intros f I. unfold make_field. rewrite deprecated_get by (apply not_deprecated_name; exact I).
    rewrite !dict_given by exact G. destruct (String.eqb (f_name f) "execution") eqn:X.
    - apply String.eqb_eq in X.
      assert (Y : forall v, fits (f_kind f) v = true -> exists r, convert coerce false config_pre f v = Ok r).
      { intros v F. assert (K : f = exec_field).
        { clear - I X. cbn in I. intuition subst; try discriminate X; reflexivity. }
        subst f. destruct v; try discriminate F; cbn; eauto. }
      assert (D : exists r, make_field coerce false config_pre [] f = Ok r).
      { assert (K : f = exec_field).
        { clear - I X. cbn in I. intuition subst; try discriminate X; reflexivity. }
        subst f. cbn. eauto. }
      destruct (given src kw "task_execution") as [v|] eqn:V; [apply Y; apply (T f v I); right; auto|].
      destruct (given src kw (f_name f)) as [v|] eqn:U; [apply Y; apply (T f v I); left; exact U|]. exact D.
    - apply String.eqb_neq in X. destruct (given src kw (f_name f)) as [v|] eqn:U.
      + unfold convert. rewrite (pre_taken _ _ X), (taken_fits f v I); [eauto|apply (T f v I); left; exact U].
      + destruct (f_always f) eqn:A; [|eauto]. destruct (timeout_always f I A) as [Z|(P & Q & R)]; [congruence|].
        unfold convert. rewrite P, Q, R. cbn. eauto. }
  destruct C as [c C]. unfold make_session, get_config. destruct G as [-> | (d & -> & D)].
  - rewrite C. cbn. eauto.
  - rewrite (no_clash d kw D), C. cbn. eauto.
Qed.
Lemma given_twice : forall w d kw k u v, In (k, u) kw -> sget d k = Some v ->
  sstep coerce cpus w (OSession (FromDict d) kw) = Err TypeError.
Proof using.
  intros w d kw k u v I D. cbn [sstep]. unfold make_session, get_config.
  assert (X : existsb (fun e : string * sval => match sget d (fst e) with Some _ => true | None => false end) kw = true).
  { apply existsb_exists. exists (k, u). split; [exact I|]. cbn [fst]. rewrite D. reflexivity. }
  rewrite X. reflexivity.
Qed.

(** ** Setting settings later *)
Lemma update_nth_get : forall A (f : A -> A) l i j,
  nth_error (update_nth i f l) j = if Nat.eqb i j then option_map f (nth_error l j) else nth_error l j.
Proof using.
  induction l as [|a l IH]; intros i j.
  - replace (update_nth i f []) with (@nil A) by (destruct i; reflexivity).
    destruct (Nat.eqb i j); destruct j; reflexivity.
  - destruct i as [|i]; destruct j as [|j]; cbn [update_nth nth_error Nat.eqb option_map]; try reflexivity. apply IH.
Qed.
Lemma assign_inv : forall w s k v w', assign coerce cpus w s k v = Ok w' ->
  exists i f u, nth_error (w_sessions w) s = Some i /\ In f (config_fields cpus) /\ f_name f = k /\
    convert coerce false config_pre f v = Ok u /\
    w' = SWorld (update_nth i (fun c => sset c k u) (w_configs w)) (w_sessions w) (w_tasks w).
Proof using.
  intros w s k v w' E. unfold assign in E. destruct (nth_error (w_sessions w) s) as [i|] eqn:S1; [|discriminate E].
  destruct (find _ (config_fields cpus)) as [f|] eqn:F; [|discriminate E].
  apply find_some in F. destruct F as [F1 F2]. apply String.eqb_eq in F2.
  destruct (convert coerce false config_pre f v) as [u|e] eqn:C; [|discriminate E]. injection E as <-.
  exists i, f, u. auto.
Qed.
Lemma assign_setting : forall w i f u s k, setting (SWorld (update_nth i (fun c => sset c k u) (w_configs w)) (w_sessions w) (w_tasks w)) s f =
  match nth_error (w_sessions w) s with
  | Some j => if Nat.eqb i j && String.eqb k f
              then option_map (fun _ => u) (nth_error (w_configs w) j) else setting w s f
  | None => None
  end.
Proof using.
  intros w i f u s k. unfold setting. cbn [w_sessions w_configs]. destruct (nth_error (w_sessions w) s) as [j|]; [|reflexivity].
  rewrite update_nth_get. destruct (Nat.eqb i j); cbn [andb]; [|reflexivity].
  destruct (nth_error (w_configs w) j) as [c|]; cbn [option_map].
  - rewrite sget_sset. destruct (String.eqb k f); reflexivity.
  - destruct (String.eqb k f); reflexivity.
Qed.

(** Sessions and Config objects stay; tasks too. *)
Lemma step_grows : forall w o w', sstep coerce cpus w o = Ok w' ->
  (exists l, w_sessions w' = w_sessions w ++ l) /\ (exists l, w_tasks w' = w_tasks w ++ l) /\
  (List.length (w_configs w) <= List.length (w_configs w'))%nat.
Proof using.
  assert (U : forall A (f : A -> A) i l, List.length (update_nth i f l) = List.length l).
  { intros A f i l. revert i. induction l as [|a l IH]; intros [|i]; cbn; auto. }
  assert (N : forall A (l : list A), exists l', l = l ++ l') by (intros A l; exists []; rewrite app_nil_r; reflexivity).
  assert (MS : forall w src kw w', make_session coerce cpus w src kw = Ok w' ->
    (exists l, w_sessions w' = w_sessions w ++ l) /\ (exists l, w_tasks w' = w_tasks w ++ l) /\
    (List.length (w_configs w) <= List.length (w_configs w'))%nat).
  { intros w src kw w' E. unfold make_session in E. destruct (get_config coerce cpus w src kw) as [[i cs]|e] eqn:G; [|discriminate E].
    injection E as <-. cbn [w_sessions w_tasks w_configs]. split; [eauto|]. split; [apply N|].
    unfold get_config in G. destruct src as [|d|j|]; try discriminate G.
    - destruct (make_config coerce cpus kw); [|discriminate G]. injection G as _ <-. rewrite app_length. cbn. lia.
    - destruct (existsb _ kw); [discriminate G|]. destruct (make_config coerce cpus (d ++ kw)); [|discriminate G].
      injection G as _ <-. rewrite app_length. cbn. lia.
    - destruct (Nat.ltb j (List.length (w_configs w))); [|discriminate G]. injection G as _ <-. lia. }
  assert (AS : forall w s k v w', assign coerce cpus w s k v = Ok w' ->
    (exists l, w_sessions w' = w_sessions w ++ l) /\ (exists l, w_tasks w' = w_tasks w ++ l) /\
    (List.length (w_configs w) <= List.length (w_configs w'))%nat).
  { intros w s k v w' E. destruct (assign_inv w s k v w' E) as (i & f & u & _ & _ & _ & _ & ->).
    cbn [w_sessions w_tasks w_configs]. rewrite U. split; [apply N|]. split; [apply N|lia]. }
  intros w o w' E. destruct o as [d|src kw|[s|] src kw|s k v|s opts|s b]; cbn [sstep] in E.
  - destruct (make_config coerce cpus d); [|discriminate E]. injection E as <-. cbn [w_sessions w_tasks w_configs].
    split; [apply N|]. split; [apply N|]. rewrite app_length. cbn. lia.
  - eauto.
  - destruct (Nat.ltb s (List.length (w_sessions w))); [|discriminate E]. injection E as <-. split; [apply N|]. split; [apply N|lia].
  - eauto.
  - eauto.
  - unfold make_task in E. destruct (setting w s "task_logger_basename"); [|discriminate E].
    destruct (make coerce true (task_pre s0) task_fields opts); [|discriminate E]. injection E as <-.
    cbn [w_sessions w_tasks w_configs]. split; [apply N|]. split; [eauto|lia].
  - eauto.
Qed.
Lemma done_grows : forall w o,
  (exists l, w_sessions (sdone coerce cpus w o) = w_sessions w ++ l) /\
  (exists l, w_tasks (sdone coerce cpus w o) = w_tasks w ++ l) /\
  (List.length (w_configs w) <= List.length (w_configs (sdone coerce cpus w o)))%nat.
Proof using.
  intros w o. unfold sdone. destruct (sstep coerce cpus w o) as [w'|e] eqn:E; [apply step_grows with o; exact E|].
  split; [exists []; rewrite app_nil_r; reflexivity|]. split; [exists []; rewrite app_nil_r; reflexivity|lia].
Qed.
Lemma do_grows : forall ops w,
  (exists l, w_sessions (sdo coerce cpus w ops) = w_sessions w ++ l) /\
  (exists l, w_tasks (sdo coerce cpus w ops) = w_tasks w ++ l).
Proof using.
  induction ops as [|o ops IH]; intros w; cbn [sdo fold_left].
  - split; exists []; rewrite app_nil_r; reflexivity.
  - destruct (IH (sdone coerce cpus w o)) as ((l & L) & (m & M)).
    destruct (done_grows w o) as ((l' & L') & (m' & M') & _). unfold sdo in L, M. rewrite L, M, L', M'.
    split; [exists (l' ++ l)|exists (m' ++ m)]; rewrite app_assoc; reflexivity.
Qed.
Lemma sessions_kept : forall ops w s i, nth_error (w_sessions w) s = Some i ->
  nth_error (w_sessions (sdo coerce cpus w ops)) s = Some i.
Proof using.
  intros ops w s i H. destruct (do_grows ops w) as ((l & L) & _). rewrite L, nth_error_app1; [exact H|].
  apply nth_error_Some. congruence.
Qed.

(** All sessions have Config objects that are there, with all settings *)
Definition sound (w : sworld) : Prop :=
  (forall s i, nth_error (w_sessions w) s = Some i -> (i < List.length (w_configs w))%nat) /\
  (forall i c, nth_error (w_configs w) i = Some c -> forall f, In f (config_fields cpus) -> exists v, sget c (f_name f) = Some v).
Lemma config_complete : forall d c, make_config coerce cpus d = Ok c ->
  forall f, In f (config_fields cpus) -> exists v, sget c (f_name f) = Some v.
Proof using.
  intros d c C f I. unfold make_config in C. destruct (make_get _ _ _ _ _ C config_names f I) as (u & _ & R). eauto.
Qed.
Lemma nth_app_one : forall A (l : list A) a i b, nth_error (l ++ [a]) i = Some b -> nth_error l i = Some b \/ b = a /\ i = List.length l.
Proof using.
  intros A l a i b H. destruct (Nat.lt_ge_cases i (List.length l)) as [L|L].
  - left. rewrite nth_error_app1 in H by exact L. exact H.
  - rewrite nth_error_app2 in H by exact L. destruct (i - List.length l) as [|n] eqn:D; cbn in H; [|destruct n; discriminate H].
    injection H as <-. right. split; [reflexivity|lia].
Qed.
Lemma sound_session : forall w src kw w', sound w -> make_session coerce cpus w src kw = Ok w' -> sound w'.
Proof using.
  intros w src kw w' (S1 & S2) E. unfold make_session, get_config in E.
  assert (F : forall d c, make_config coerce cpus d = Ok c ->
    sound (SWorld (w_configs w ++ [c]) (w_sessions w ++ [List.length (w_configs w)]) (w_tasks w))).
  { intros d c C. split; cbn [w_sessions w_configs].
    - intros s i H. rewrite app_length. cbn [List.length]. apply nth_app_one in H. destruct H as [H|[-> _]]; [|lia].
      specialize (S1 s i H). lia.
    - intros i c' H. apply nth_app_one in H. destruct H as [H|[-> _]]; [apply (S2 i c' H)|apply (config_complete d c C)]. }
  destruct src as [|d|i|].
  - destruct (make_config coerce cpus kw) as [c|e] eqn:C; [|discriminate E]. injection E as <-. apply (F kw c C).
  - destruct (existsb _ kw); [discriminate E|].
    destruct (make_config coerce cpus (d ++ kw)) as [c|e] eqn:C; [|discriminate E]. injection E as <-. apply (F _ c C).
  - destruct (Nat.ltb i (List.length (w_configs w))) eqn:L; [|discriminate E]. apply Nat.ltb_lt in L. injection E as <-.
    split; cbn [w_sessions w_configs]; [|exact S2]. intros s j H. apply nth_app_one in H. destruct H as [H|[-> _]]; [apply (S1 s j H)|exact L].
  - discriminate E.
Qed.
Lemma update_length : forall A (f : A -> A) i l, List.length (update_nth i f l) = List.length l.
Proof using. intros A f i l. revert i. induction l as [|a l IH]; intros [|i]; cbn; auto. Qed.
Lemma sound_assign : forall w s k v w', sound w -> assign coerce cpus w s k v = Ok w' -> sound w'.
Proof using.
  intros w s k v w' (S1 & S2) E. destruct (assign_inv w s k v w' E) as (i & f & u & _ & _ & _ & _ & ->).
  split; cbn [w_sessions w_configs].
  - intros t j H. rewrite update_length. apply (S1 t j H).
  - intros j c H g G. rewrite update_nth_get in H. destruct (Nat.eqb i j); [|apply (S2 j c H g G)].
    destruct (nth_error (w_configs w) j) as [c'|] eqn:X; [|discriminate H]. injection H as <-. rewrite sget_sset.
    destruct (String.eqb k (f_name g)); [eauto|apply (S2 j c' X g G)].
Qed.
Lemma sound_step : forall w o, sound w -> sound (sdone coerce cpus w o).
Proof using.
  intros w o H. unfold sdone. destruct (sstep coerce cpus w o) as [w'|e] eqn:E; [|exact H].
  destruct o as [d|src kw|[s|] src kw|s k v|s opts|s b]; cbn [sstep] in E.
  - destruct (make_config coerce cpus d) as [c|] eqn:C; [|discriminate E]. injection E as <-. destruct H as (S1 & S2).
    split; cbn [w_sessions w_configs].
    + intros s i X. rewrite app_length. specialize (S1 s i X). lia.
    + intros i c' X. apply nth_app_one in X. destruct X as [X|[-> _]]; [apply (S2 i c' X)|apply (config_complete d c C)].
  - apply (sound_session w src kw w' H E).
  - destruct (Nat.ltb s (List.length (w_sessions w))); [|discriminate E]. injection E as <-. exact H.
  - apply (sound_session w src kw w' H E).
  - apply (sound_assign w s k v w' H E).
  - unfold make_task in E. destruct (setting w s "task_logger_basename"); [|discriminate E].
    destruct (make coerce true (task_pre s0) task_fields opts); [|discriminate E]. injection E as <-. exact H.
  - apply (sound_assign _ _ _ _ _ H E).
Qed.
Lemma sound_do : forall ops w, sound w -> sound (sdo coerce cpus w ops).
Proof using. induction ops as [|o ops IH]; intros w H; [exact H|]. apply (IH (sdone coerce cpus w o)). apply sound_step. exact H. Qed.
Lemma sound_none : sound no_sessions.
Proof using. split; cbn; intros s i H; [destruct s; discriminate H|]. intros. destruct s; discriminate H. Qed.

Lemma all_settings : forall ops s f, (s < List.length (w_sessions (sdo coerce cpus no_sessions ops)))%nat ->
  In f (config_fields cpus) -> exists v, setting (sdo coerce cpus no_sessions ops) s (f_name f) = Some v.
Proof using.
  intros ops s f L I. destruct (sound_do ops _ sound_none) as (S1 & S2). unfold setting.
  destruct (nth_error _ s) as [i|] eqn:E; [|apply nth_error_None in E; lia].
  specialize (S1 s i E). destruct (nth_error (w_configs _) i) as [c|] eqn:C; [|apply nth_error_None in C; lia].
  apply (S2 i c C f I).
Qed.

(** ** The last value that is set is the one *)
Lemma assigned : forall w s f v w', sound w -> In f (config_fields cpus) -> f_name f <> "execution" \/ v <> VNone ->
  fits (f_kind f) v = true -> sstep coerce cpus w (OSet s (f_name f) v) = Ok w' ->
  setting w' s (f_name f) = Some (taken_as (f_name f) v).
Proof using.
  intros w s f v w' (S1 & S2) I N F E. cbn [sstep] in E. destruct (assign_inv w s (f_name f) v w' E) as (i & g & u & H & J & K & C & ->).
  rewrite assign_setting, H, Nat.eqb_refl, String.eqb_refl. cbn [andb].
  specialize (S1 s i H). destruct (nth_error (w_configs w) i) as [c|] eqn:X; [|apply nth_error_None in X; lia].
  cbn [option_map]. f_equal. assert (G : g = f).
  { clear - I J K. revert I J K. pose proof config_names as N. revert N. generalize (config_fields cpus).
    induction l as [|a l IH]; intros N I J K; [destruct I|]. cbn [map] in N. inversion N as [|x m N1 N2 Y]; subst.
    destruct I as [<- |I]; destruct J as [<- |J]; try reflexivity.
    - exfalso. apply N1. rewrite <- K. apply in_map. exact J.
    - exfalso. apply N1. rewrite K. apply in_map. exact I.
    - apply (IH N2 I J K). }
  subst g. unfold convert in C. destruct (String.eqb (f_name f) "execution") eqn:X1.
  - apply String.eqb_eq in X1. destruct N as [N|N]; [congruence|].
    assert (P : config_pre (f_name f) v = v) by (destruct v; try reflexivity; congruence).
    rewrite P, F in C. injection C as <-. destruct v; try reflexivity; congruence.
  - apply String.eqb_neq in X1. rewrite (pre_taken _ _ X1), (taken_fits f v I F) in C. injection C as <-. reflexivity.
Qed.
Lemma session_keeps_settings : forall w src kw w' s k, sound w -> (s < List.length (w_sessions w))%nat ->
  make_session coerce cpus w src kw = Ok w' -> setting w' s k = setting w s k.
Proof using.
  intros w src kw w' s k (S1 & S2) L E. unfold make_session, get_config in E.
  assert (F : forall c, setting (SWorld (w_configs w ++ [c]) (w_sessions w ++ [List.length (w_configs w)]) (w_tasks w)) s k = setting w s k).
  { intros c. unfold setting. cbn [w_sessions w_configs]. rewrite nth_error_app1 by exact L.
    destruct (nth_error (w_sessions w) s) as [i|] eqn:H; [|reflexivity]. rewrite nth_error_app1 by apply (S1 s i H). reflexivity. }
  destruct src as [|d|i|].
  - destruct (make_config coerce cpus kw) as [c|e] eqn:C; [|discriminate E]. injection E as <-. apply F.
  - destruct (existsb _ kw); [discriminate E|].
    destruct (make_config coerce cpus (d ++ kw)) as [c|e] eqn:C; [|discriminate E]. injection E as <-. apply F.
  - destruct (Nat.ltb i (List.length (w_configs w))); [|discriminate E]. injection E as <-.
    unfold setting. cbn [w_sessions w_configs]. rewrite nth_error_app1 by exact L. reflexivity.
  - discriminate E.
Qed.
(** A step that does not set [k] of a session with the same Config object *)
Lemma kept : forall w o s k, sound w -> (s < List.length (w_sessions w))%nat ->
  (forall s', sets o = Some (s', k) -> ~ shares w s s') ->
  setting (sdone coerce cpus w o) s k = setting w s k.
Proof using.
  intros w o s k H L N. unfold sdone. destruct (sstep coerce cpus w o) as [w'|e] eqn:E; [|reflexivity].
  assert (AS : forall s' j v w', assign coerce cpus w s' j v = Ok w' -> (j = k -> ~ shares w s s') -> setting w' s k = setting w s k).
  { intros s' j v w1 A B. destruct (assign_inv w s' j v w1 A) as (i & f & u & X & _ & _ & _ & ->). rewrite assign_setting.
    destruct (nth_error (w_sessions w) s) as [m|] eqn:M; [|unfold setting; rewrite M; reflexivity].
    destruct (Nat.eqb i m) eqn:Q; [|reflexivity]. destruct (String.eqb j k) eqn:R; [|reflexivity]. exfalso.
    apply Nat.eqb_eq in Q. apply String.eqb_eq in R. apply (B R). unfold shares. rewrite M, X, Q. reflexivity. }
  destruct o as [d|src kw|[t|] src kw|t j v|t opts|t b]; cbn [sstep] in E.
  - destruct (make_config coerce cpus d) as [c|] eqn:C; [|discriminate E]. injection E as <-.
    unfold setting. cbn [w_sessions w_configs]. destruct (nth_error (w_sessions w) s) as [i|] eqn:X; [|reflexivity].
    destruct H as (S1 & _). rewrite nth_error_app1 by apply (S1 s i X). reflexivity.
  - apply (session_keeps_settings w src kw w' s k H L E).
  - destruct (Nat.ltb t (List.length (w_sessions w))); [|discriminate E]. injection E as <-. reflexivity.
  - apply (session_keeps_settings w src kw w' s k H L E).
  - apply (AS t j v w' E). intros ->. apply (N t). reflexivity.
  - unfold make_task in E. destruct (setting w t "task_logger_basename"); [|discriminate E].
    destruct (make coerce true (task_pre s0) task_fields opts); [|discriminate E]. injection E as <-. reflexivity.
  - apply (AS t "debug" (VBool b) w' E). intros X. apply (N t). cbn [sets]. rewrite X. reflexivity.
Qed.
Lemma shares_kept : forall ops w s s', (s < List.length (w_sessions w))%nat -> shares w s s' ->
  shares (sdo coerce cpus w ops) s s'.
Proof using.
  intros ops w s s' L H. unfold shares in *. destruct (nth_error (w_sessions w) s) as [i|] eqn:X; [|apply nth_error_None in X; lia].
  rewrite (sessions_kept ops w s i X). symmetry. apply sessions_kept. symmetry. exact H.
Qed.
Lemma kept_all : forall ops w s k, sound w -> (s < List.length (w_sessions w))%nat ->
  (forall o s', In o ops -> sets o = Some (s', k) -> ~ shares (sdo coerce cpus w ops) s s') ->
  setting (sdo coerce cpus w ops) s k = setting w s k.
Proof using.
  induction ops as [|o ops IH]; intros w s k H L N; [reflexivity|]. cbn [sdo fold_left].
  assert (L' : (s < List.length (w_sessions (sdone coerce cpus w o)))%nat).
  { destruct (done_grows w o) as ((l & X) & _). rewrite X, app_length. lia. }
  change (fold_left (sdone coerce cpus) ops (sdone coerce cpus w o)) with (sdo coerce cpus (sdone coerce cpus w o) ops) in *.
  rewrite (IH (sdone coerce cpus w o) s k).
  - apply kept; [exact H|exact L|]. intros s' S1 S2. apply (N o s' (or_introl eq_refl) S1).
    apply shares_kept with (ops := o :: ops) (w := w); [exact L|exact S2].
  - apply sound_step. exact H.
  - exact L'.
  - intros o' s' I S1. apply (N o' s' (or_intror I) S1).
Qed.
Lemma last_set : forall ops1 s f v ops2 w, sstep coerce cpus (sdo coerce cpus no_sessions ops1) (OSet s (f_name f) v) = Ok w ->
  In f (config_fields cpus) -> f_name f <> "execution" \/ v <> VNone -> fits (f_kind f) v = true ->
  (forall o s', In o ops2 -> sets o = Some (s', f_name f) -> ~ shares (sdo coerce cpus w ops2) s s') ->
  setting (sdo coerce cpus w ops2) s (f_name f) = Some (taken_as (f_name f) v).
Proof using.
  intros ops1 s f v ops2 w E I N F O. pose proof (sound_do ops1 _ sound_none) as H1.
  assert (H2 : sound w).
  { pose proof (sound_step _ (OSet s (f_name f) v) H1) as X. unfold sdone in X. rewrite E in X. exact X. }
  assert (L : (s < List.length (w_sessions w))%nat).
  { cbn [sstep] in E. destruct (assign_inv _ _ _ _ _ E) as (i & g & u & X & _ & _ & _ & ->). cbn [w_sessions].
    apply nth_error_Some. congruence. }
  rewrite (kept_all ops2 w s (f_name f) H2 L O). apply (assigned _ s f v w H1 I N F E).
Qed.

Lemma given_kept : forall ops1 src kw w ops2 k, settings_given src kw ->
  make_session coerce cpus (sdo coerce cpus no_sessions ops1) src kw = Ok w ->
  let s := List.length (w_sessions (sdo coerce cpus no_sessions ops1)) in
  (forall o s', In o ops2 -> sets o = Some (s', k) -> ~ shares (sdo coerce cpus w ops2) s s') ->
  setting (sdo coerce cpus w ops2) s k = setting w s k.
Proof using.
  intros ops1 src kw w ops2 k G E s O. pose proof (sound_do ops1 _ sound_none) as H1. apply kept_all; [|  |exact O].
  - apply (sound_session _ src kw w H1 E).
  - destruct (session_made _ src kw w G E) as (c & _ & ->). cbn [w_sessions]. rewrite app_length. cbn. subst s. lia.
Qed.

(** ** Sessions with Config objects of their own *)
Definition apart (w : sworld) : Prop :=
  NoDup (w_sessions w) /\ forall i, In i (w_sessions w) -> (i < List.length (w_configs w))%nat.
Lemma apart_session : forall w src kw w', apart w -> (match src with FromConfig _ => False | _ => True end) ->
  make_session coerce cpus w src kw = Ok w' -> apart w'.
Proof using.
  intros w src kw w' (A & B) X E. unfold make_session, get_config in E.
  assert (F : forall c, apart (SWorld (w_configs w ++ [c]) (w_sessions w ++ [List.length (w_configs w)]) (w_tasks w))).
  { intros c. split; cbn [w_sessions w_configs].
    - rewrite <- (rev_involutive (w_sessions w ++ _)). apply NoDup_rev. rewrite rev_unit. constructor.
      + rewrite <- in_rev. intros Y. apply B in Y. lia.
      + apply NoDup_rev. exact A.
    - intros i I. rewrite app_length. cbn [List.length]. apply in_app_iff in I. destruct I as [I|[<- |[]]]; [|lia].
      apply B in I. lia. }
  destruct src as [|d|i|].
  - destruct (make_config coerce cpus kw) as [c|e] eqn:C; [|discriminate E]. injection E as <-. apply F.
  - destruct (existsb _ kw); [discriminate E|].
    destruct (make_config coerce cpus (d ++ kw)) as [c|e] eqn:C; [|discriminate E]. injection E as <-. apply F.
  - destruct X.
  - discriminate E.
Qed.
Lemma apart_do : forall ops w, own_configs ops -> apart w -> apart (sdo coerce cpus w ops).
Proof using.
  induction ops as [|o ops IH]; intros w O H; [exact H|]. apply (IH (sdone coerce cpus w o)).
  { intros o' I. apply O. right. exact I. }
  pose proof (O o (or_introl eq_refl)) as X. clear IH. unfold sdone. destruct (sstep coerce cpus w o) as [w'|e] eqn:E; [|exact H].
  assert (AS : forall s j v w', assign coerce cpus w s j v = Ok w' -> apart w').
  { intros s j v w1 A. destruct (assign_inv w s j v w1 A) as (i & f & u & _ & _ & _ & _ & ->).
    destruct H as (P & Q). split; cbn [w_sessions w_configs]; [exact P|]. intros i' I. rewrite update_length. auto. }
  destruct o as [d|src kw|[t|] src kw|t j v|t opts|t b]; cbn [sstep] in E.
  - destruct (make_config coerce cpus d) as [c|] eqn:C; [|discriminate E]. injection E as <-. destruct H as (P & Q).
    split; cbn [w_sessions w_configs]; [exact P|]. intros i I. rewrite app_length. apply Q in I. lia.
  - apply (apart_session w src kw w' H); [destruct src; auto|exact E].
  - destruct (Nat.ltb t (List.length (w_sessions w))); [|discriminate E]. injection E as <-. exact H.
  - apply (apart_session w src kw w' H); [destruct src; auto|exact E].
  - eauto.
  - unfold make_task in E. destruct (setting w t "task_logger_basename"); [|discriminate E].
    destruct (make coerce true (task_pre s) task_fields opts); [|discriminate E]. injection E as <-. exact H.
  - eauto.
Qed.
Lemma own_apart : forall ops o s s' k k', own_configs ops -> let w := sdo coerce cpus no_sessions ops in
  (s < List.length (w_sessions w))%nat -> sets o = Some (s', k) -> s <> s' ->
  setting (sdone coerce cpus w o) s k' = setting w s k'.
Proof using.
  intros ops o s s' k k' O w L S1 N. apply kept; [apply sound_do, sound_none|exact L|].
  intros s1 S2 X. rewrite S1 in S2. injection S2 as <- _.
  assert (A : apart w). { apply apart_do; [exact O|]. split; cbn; [constructor|tauto]. }
  destruct A as (A & _). unfold shares in X.
  destruct (nth_error (w_sessions w) s) as [i|] eqn:Y; [|apply nth_error_None in Y; lia].
  apply N. apply (proj1 (NoDup_nth_error (w_sessions w)) A s s' L). rewrite Y. exact X.
Qed.

(** ** Tasks *)
Lemma task_made : forall w s opts w', make_task coerce w s opts = Ok w' ->
  exists base t, make coerce true (task_pre base) task_fields opts = Ok t /\
    w' = SWorld (w_configs w) (w_sessions w) (w_tasks w ++ [(s, t)]).
Proof using.
  intros w s opts w' E. unfold make_task in E. destruct (setting w s "task_logger_basename") as [base|]; [|discriminate E].
  destruct (make coerce true (task_pre base) task_fields opts) as [t|] eqn:M; [|discriminate E]. injection E as <-. eauto.
Qed.
Lemma tasks_kept : forall ops w n t, nth_error (w_tasks w) n = Some t ->
  nth_error (w_tasks (sdo coerce cpus w ops)) n = Some t.
Proof using.
  intros ops w n t H. destruct (do_grows ops w) as (_ & (l & L)). rewrite L, nth_error_app1; [exact H|].
  apply nth_error_Some. congruence.
Qed.
Lemma task_option : forall base opts t f, make coerce true (task_pre base) task_fields opts = Ok t -> In f task_fields ->
  f_name f <> "logger_name" -> f_default f = VNone -> fits (f_kind f) VNone = true ->
  (forall v, sget opts (f_name f) = Some v -> fits (f_kind f) v = true -> sget t (f_name f) = Some v) /\
  (sget opts (f_name f) = None -> sget t (f_name f) = Some VNone).
Proof using.
  intros base opts t f M I N D F. destruct (make_get _ _ _ _ _ M task_names f I) as (u & A & B). unfold make_field in A.
  assert (P : forall v, task_pre base (f_name f) v = v).
  { intros v. destruct v; try reflexivity. unfold task_pre. rewrite (proj2 (String.eqb_neq _ _) N). reflexivity. }
  split.
  - intros v V W. rewrite V in A. unfold convert in A. rewrite P, W in A. injection A as <-. exact B.
  - intros V. rewrite V in A. rewrite B. f_equal. destruct (f_always f).
    + unfold convert in A. rewrite P, D, F in A. injection A as <-. reflexivity.
    + injection A as <-. exact D.
Qed.
Lemma task_goes_by : forall ops1 s opts w ops2,
  sstep coerce cpus (sdo coerce cpus no_sessions ops1) (OTask s opts) = Ok w ->
  exists t, nth_error (w_tasks (sdo coerce cpus w ops2)) (List.length (w_tasks (sdo coerce cpus no_sessions ops1))) = Some t /\
  forall k k' view, In (k, k', view) stand_ins ->
    (forall v, sget opts k = Some v -> fits_option k v -> v <> VNone -> v <> VTime 0 ->
       view (sdo coerce cpus w ops2) t = Some v) /\
    (sget opts k = None \/ sget opts k = Some VNone ->
       view (sdo coerce cpus w ops2) t = setting (sdo coerce cpus w ops2) s k' /\
       exists v, setting (sdo coerce cpus w ops2) s k' = Some v).
Proof using.
  intros ops1 s opts w ops2 E. cbn [sstep] in E. pose proof E as E0.
  destruct (task_made _ s opts w E) as (base & t & M & ->). exists (s, t). split.
  { apply tasks_kept. cbn [w_tasks]. rewrite nth_error_app2, Nat.sub_diag by lia. reflexivity. }
  set (w0 := sdo coerce cpus no_sessions ops1) in *. set (w1 := SWorld _ _ _). set (w2 := sdo coerce cpus w1 ops2).
  assert (L : (s < List.length (w_sessions w0))%nat).
  { unfold make_task, setting in E0. destruct (nth_error (w_sessions w0) s) eqn:X; [|discriminate E0]. apply nth_error_Some. congruence. }
  assert (ALL : forall f, In f (config_fields cpus) -> exists v, setting w2 s (f_name f) = Some v).
  { assert (R : w2 = sdo coerce cpus no_sessions (ops1 ++ OTask s opts :: ops2)).
    { unfold w2, sdo. rewrite fold_left_app. cbn [fold_left]. change (fold_left (sdone coerce cpus) ops1 no_sessions) with w0.
      unfold sdone at 3. cbn [sstep]. rewrite E0. reflexivity. }
    intros f I. rewrite R. apply all_settings; [|exact I]. rewrite <- R. unfold w2.
    destruct (do_grows ops2 w1) as ((l & X) & _). rewrite X, app_length. cbn [w_sessions w1]. lia. }
  intros k k' view I. cbn in I.
  assert (OPT : forall f, In f task_fields -> f_name f <> "logger_name" -> f_default f = VNone -> fits (f_kind f) VNone = true -> f_name f = k ->
    option_kind k = Some (f_kind f) ->
    (forall v, sget opts k = Some v -> fits_option k v -> own (s, t) k = v) /\
    (sget opts k = None \/ sget opts k = Some VNone -> own (s, t) k = VNone)).
  { intros f J N D F K O. destruct (task_option base opts t f M J N D F) as (P & Q). subst k. unfold own. cbn [snd]. split.
    - intros v V W. unfold fits_option in W. rewrite O in W. rewrite (P v V W). reflexivity.
    - intros [V|V]; [rewrite (Q V); reflexivity|]. rewrite (P VNone V F). reflexivity. }
  destruct I as [X|[X|[X|[X|[X|[]]]]]]; injection X as <- <- <-.
  - destruct (OPT (Field "execution" (KMaybe KExec) VNone false)) as (P & Q); try (cbn; auto; fail); try discriminate; try reflexivity.
    unfold task_execution, or_setting. split.
    + intros v V W N _. rewrite (P v V W). destruct v; congruence.
    + intros V. rewrite (Q V). split; [reflexivity|]. apply (ALL exec_field). cbn; auto 30.
  - destruct (OPT (Field "multilaunch" (KMaybe KBool) VNone false)) as (P & Q); try (cbn; auto 10; fail); try discriminate; try reflexivity.
    unfold task_multilaunch, or_setting. split.
    + intros v V W N _. rewrite (P v V W). destruct v; congruence.
    + intros V. rewrite (Q V). split; [reflexivity|]. apply (ALL (Field "multilaunch" KBool (VBool false) false)). cbn; auto 30.
  - destruct (OPT (Field "daemon" (KMaybe KBool) VNone false)) as (P & Q); try (cbn; auto 10; fail); try discriminate; try reflexivity.
    unfold task_daemon, or_setting. split.
    + intros v V W N _. rewrite (P v V W). destruct v; congruence.
    + intros V. rewrite (Q V). split; [reflexivity|]. apply (ALL (Field "tasks_as_daemon" KBool (VBool true) false)). cbn; auto 30.
  - destruct (OPT (Field "func_run_id" (KMaybe KFun) VNone false)) as (P & Q); try (cbn; auto 10; fail); try discriminate; try reflexivity.
    unfold task_run_id, or_setting. split.
    + intros v V W N _. rewrite (P v V W). destruct v; congruence.
    + intros V. rewrite (Q V). split; [reflexivity|]. apply (ALL (Field "func_run_id" KFun uuid false)). cbn; auto 30.
  - destruct (OPT (Field "timeout" (KMaybe KTime) VNone true)) as (P & Q); try (cbn; auto 10; fail); try discriminate; try reflexivity.
    unfold Settings.task_timeout. split.
    + intros v V W N Z. rewrite (P v V W). destruct v as [| | | | |us| |]; try congruence. destruct us; congruence.
    + intros V. rewrite (Q V). split; [reflexivity|]. apply (ALL (Field "timeout" KTime half_an_hour true)). cbn; auto 30.
Qed.

(** ** What is not done *)
Lemma make_ext : forall b pre fs d d', (forall f, In f fs -> sget d (f_name f) = sget d' (f_name f)) ->
  make coerce b pre fs d = make coerce b pre fs d'.
Proof using.
  induction fs as [|f fs IH]; intros d d' H; [reflexivity|]. cbn [make]. unfold make_field.
  rewrite (H f (or_introl eq_refl)), (IH d d'); [reflexivity|]. intros g I. apply H. right. exact I.
Qed.
Lemma get_other : forall d k v j, j <> k -> sget (d ++ [(k, v)]) j = sget d j.
Proof using.
  intros d k v j N. rewrite sget_app. cbn [sget]. destruct (String.eqb k j) eqn:E; [apply String.eqb_eq in E; congruence|].
  destruct (sget d j); reflexivity.
Qed.
Lemma unknown_config : forall d k v, ~ is_setting cpus k -> make_config coerce cpus (d ++ [(k, v)]) = make_config coerce cpus d.
Proof using.
  intros d k v N. unfold make_config. apply make_ext. intros f I.
  assert (A : f_name f <> k) by (intros X; apply N; left; rewrite <- X; apply in_map; exact I).
  assert (B : "task_execution" <> k) by (intros X; apply N; right; symmetry; exact X).
  rewrite !deprecated_get by (apply not_deprecated_name; exact I). rewrite !get_other by assumption. reflexivity.
Qed.
Lemma unknown_setting : forall w kw k v, ~ is_setting cpus k ->
  sstep coerce cpus w (OSession FromNone (kw ++ [(k, v)])) = sstep coerce cpus w (OSession FromNone kw) /\
  sstep coerce cpus w (OSession (FromDict (kw ++ [(k, v)])) []) = sstep coerce cpus w (OSession (FromDict kw) []).
Proof using.
  intros w kw k v N. cbn [sstep]. unfold make_session, get_config. cbn [existsb]. rewrite !app_nil_r, unknown_config by exact N.
  split; reflexivity.
Qed.
Lemma unknown_option : forall w s opts k v, ~ is_option k ->
  sstep coerce cpus w (OTask s (opts ++ [(k, v)])) = sstep coerce cpus w (OTask s opts).
Proof using.
  intros w s opts k v N. cbn [sstep]. unfold make_task. destruct (setting w s "task_logger_basename") as [base|]; [|reflexivity].
  rewrite (make_ext true (task_pre base) task_fields (opts ++ [(k, v)]) opts); [reflexivity|].
  intros f I. apply get_other. intros X. apply N. rewrite <- X. apply in_map. exact I.
Qed.
Lemma unknown_set : forall w s k v, ~ is_setting cpus k \/ k = "task_execution" -> (s < List.length (w_sessions w))%nat ->
  sstep coerce cpus w (OSet s k v) = Err ValueError.
Proof using.
  intros w s k v N L. cbn [sstep]. unfold assign.
  destruct (nth_error (w_sessions w) s) eqn:X; [|apply nth_error_None in X; lia].
  destruct (find _ (config_fields cpus)) as [f|] eqn:F; [|reflexivity]. exfalso.
  apply find_some in F. destruct F as [I F]. apply String.eqb_eq in F. destruct N as [N|N].
  - apply N. left. rewrite <- F. apply in_map. exact I.
  - apply (not_deprecated_name f I). congruence.
Qed.
Lemma deprecated_wins : forall w src kw w' s, settings_given src kw -> sstep coerce cpus w (OSession src kw) = Ok w' ->
  given src kw "task_execution" = Some (VText s) ->
  setting w' (List.length (w_sessions w)) "execution" = Some (VText s).
Proof using.
  intros w src kw w' s G E V. destruct (execution_used w src kw w' G E) as (_ & H & _). apply H. exact V.
Qed.
Lemma no_priority : forall ops1 s opts w ops2, sget opts "priority" = None ->
  sstep coerce cpus (sdo coerce cpus no_sessions ops1) (OTask s opts) = Ok w ->
  exists t, nth_error (w_tasks (sdo coerce cpus w ops2)) (List.length (w_tasks (sdo coerce cpus no_sessions ops1))) = Some t /\
    task_priority (sdo coerce cpus w ops2) t = Some (VInt 0).
Proof using.
  intros ops1 s opts w ops2 P E. cbn [sstep] in E. destruct (task_made _ s opts w E) as (base & t & M & ->). exists (s, t). split.
  { apply tasks_kept. cbn [w_tasks]. rewrite nth_error_app2, Nat.sub_diag by lia. reflexivity. }
  destruct (make_get _ _ _ _ _ M task_names (Field "priority" KInt (VInt 0) false)) as (u & A & B); [cbn; auto 10|].
  cbn [f_name] in B. unfold make_field in A. cbn [f_name f_always f_default] in A. rewrite P in A. injection A as <-.
  unfold task_priority, own. cbn [snd]. rewrite B. reflexivity.
Qed.
Lemma logger_fixed : forall ops1 s opts base w ops2, sget opts "logger_name" = None ->
  setting (sdo coerce cpus no_sessions ops1) s "task_logger_basename" = Some (VText base) ->
  sstep coerce cpus (sdo coerce cpus no_sessions ops1) (OTask s opts) = Ok w ->
  exists t, nth_error (w_tasks (sdo coerce cpus w ops2)) (List.length (w_tasks (sdo coerce cpus no_sessions ops1))) = Some t /\
    task_logger (sdo coerce cpus w ops2) t = Some (VText base).
Proof using.
  intros ops1 s opts base w ops2 P S1 E. cbn [sstep] in E. unfold make_task in E. rewrite S1 in E.
  destruct (make coerce true (task_pre (VText base)) task_fields opts) as [t|] eqn:M; [|discriminate E]. injection E as <-.
  exists (s, t). split.
  { apply tasks_kept. cbn [w_tasks]. rewrite nth_error_app2, Nat.sub_diag by lia. reflexivity. }
  destruct (make_get _ _ _ _ _ M task_names (Field "logger_name" (KMaybe KText) VNone true)) as (u & A & B); [cbn; auto 10|].
  cbn [f_name] in B. unfold make_field in A. cbn [f_name f_always f_default] in A. rewrite P in A. cbn in A. injection A as <-.
  unfold task_logger, own. cbn [snd]. rewrite B. reflexivity.
Qed.

Lemma object_only : forall w i kw,
  sstep coerce cpus w (OSession (FromConfig i) kw) = sstep coerce cpus w (OSession (FromConfig i) []).
Proof using. reflexivity. Qed.
Lemma app_ignores : forall w s src kw, (s < List.length (w_sessions w))%nat ->
  sstep coerce cpus w (OApp (Some s) src kw) = Ok w.
Proof using. intros w s src kw L. cbn [sstep]. rewrite (proj2 (Nat.ltb_lt _ _) L). reflexivity. Qed.

(** ** Together *)
Lemma given_settings : forall ops1 src kw o w ops2 f, settings_given src kw -> o = OSession src kw \/ o = OApp None src kw ->
  sstep coerce cpus (sdo coerce cpus no_sessions ops1) o = Ok w ->
  In f (config_fields cpus) -> f_name f <> "execution" ->
  let s := List.length (w_sessions (sdo coerce cpus no_sessions ops1)) in
  (forall o s', In o ops2 -> sets o = Some (s', f_name f) -> ~ shares (sdo coerce cpus w ops2) s s') ->
  (forall v, given src kw (f_name f) = Some v -> fits (f_kind f) v = true ->
     setting (sdo coerce cpus w ops2) s (f_name f) = Some (taken_as (f_name f) v)) /\
  (given src kw (f_name f) = None -> setting (sdo coerce cpus w ops2) s (f_name f) = Some (f_default f)).
Proof using.
  intros ops1 src kw o w ops2 f G O E I N s U.
  assert (E' : make_session coerce cpus (sdo coerce cpus no_sessions ops1) src kw = Ok w) by (destruct O; subst o; exact E).
  unfold s. rewrite (given_kept ops1 src kw w ops2 (f_name f) G E' U). split.
  - intros v V F. apply (given_used _ src kw w f v G E' I N V F).
  - intros V. apply (default_used _ src kw w f G E' I N V).
Qed.
Lemma given_execution : forall ops1 src kw o w ops2, settings_given src kw -> o = OSession src kw \/ o = OApp None src kw ->
  sstep coerce cpus (sdo coerce cpus no_sessions ops1) o = Ok w ->
  let s := List.length (w_sessions (sdo coerce cpus no_sessions ops1)) in
  (forall o s', In o ops2 -> sets o = Some (s', "execution") -> ~ shares (sdo coerce cpus w ops2) s s') ->
  let e := setting (sdo coerce cpus w ops2) s "execution" in
  (forall x, given src kw "execution" = Some (VText x) -> given src kw "task_execution" = None -> e = Some (VText x)) /\
  (forall x, given src kw "task_execution" = Some (VText x) -> e = Some (VText x)) /\
  (given src kw "task_execution" = None -> given src kw "execution" = None -> e = Some (VText "async")).
Proof using.
  intros ops1 src kw o w ops2 G O E s U e.
  assert (E' : make_session coerce cpus (sdo coerce cpus no_sessions ops1) src kw = Ok w) by (destruct O; subst o; exact E).
  unfold e, s. rewrite (given_kept ops1 src kw w ops2 "execution" G E' U). apply (execution_used _ src kw w G E').
Qed.
End Settings.
