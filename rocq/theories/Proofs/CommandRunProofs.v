From Coq Require Import Bool String Lia ZifyBool.
From Verif Require Import Model.Base Model.CommandRun Spec.CommandRunSpec.
Local Open Scope Z_scope.
Local Open Scope string_scope.
Local Open Scope list_scope.

Lemma set_option_same o k v : option_of (set_option o k v) k = Some v.
Proof.
  induction o as [|[k' v'] o IH]; cbn [set_option option_of].
  - now rewrite String.eqb_refl.
  - destruct (String.eqb k' k) eqn:E; cbn [option_of]; rewrite E; auto.
Qed.
Lemma set_option_other o k v j : k <> j -> option_of (set_option o k v) j = option_of o j.
Proof.
  intros N. induction o as [|[k' v'] o IH]; cbn [set_option option_of].
  - destruct (String.eqb_spec k j); [contradiction|reflexivity].
  - destruct (String.eqb_spec k' k) as [->|M]; cbn [option_of].
    + destruct (String.eqb_spec k j); [contradiction|reflexivity].
    + destruct (String.eqb k' j); auto.
Qed.
Lemma update_snoc o g k v : update o (g ++ [(k, v)]) = set_option (update o g) k v.
Proof. unfold update. rewrite fold_left_app. reflexivity. Qed.

Lemma update_given o g k v : given g k v -> option_of (update o g) k = Some v.
Proof.
  induction 1 as [g k v|g k v k' v' N G IH]; rewrite update_snoc.
  - apply set_option_same.
  - rewrite set_option_other; auto.
Qed.
Lemma update_not_given o g k : not_given g k -> option_of (update o g) k = option_of o k.
Proof.
  induction g as [|[k' v'] g IH] using rev_ind; intros N; [reflexivity|].
  rewrite update_snoc, set_option_other.
  - apply IH. intros v I. apply (N v). apply in_or_app. now left.
  - intros ->. apply (N v'). apply in_or_app. right. now left.
Qed.

Lemma options_given cwd shell g k v : given g k v -> option_of (kwargs_popen cwd shell g) k = Some v.
Proof. apply update_given. Qed.

Lemma options_default cwd shell g k v : not_given g k ->
  (option_of (kwargs_popen cwd shell g) k = Some v <-> by_default cwd shell k v).
Proof.
  intros N. unfold kwargs_popen. rewrite (update_not_given _ _ _ N). cbn [option_of]. split.
  - destruct (String.eqb_spec "cwd" k) as [<-|_].
    { destruct cwd as [d|]; intros [= <-]; [now apply default_cwd|now apply default_no_cwd]. }
    destruct (String.eqb_spec "shell" k) as [<-|_]; [intros [= <-]; constructor|].
    destruct (String.eqb_spec "stdin" k) as [<-|_]; [intros [= <-]; constructor|].
    destruct (String.eqb_spec "stdout" k) as [<-|_]; [intros [= <-]; constructor|].
    destruct (String.eqb_spec "stderr" k) as [<-|_]; [intros [= <-]; constructor|].
    discriminate.
  - intros D. destruct D; subst; reflexivity.
Qed.

Lemma captured_default cwd shell g k b : not_given g k -> k = "stdout" \/ k = "stderr" ->
  captured (kwargs_popen cwd shell g) k b = Some b.
Proof.
  intros N K. unfold captured.
  rewrite (proj2 (options_default cwd shell g k VPipe N)); [reflexivity|].
  destruct K; subst; constructor.
Qed.

Lemma command_succeeds cwd shell g p outs : not_given g "stdout" ->
  (fst (execute_command cwd shell g None p) = Succeeded outs <->
   starts p /\ ends_within p None /\ p_code p = 0 /\ outs = Some (p_out p)).
Proof.
  intros N. unfold execute_command, run_command, starts, ends_within, communicate, passed.
  rewrite (captured_default cwd shell g "stdout") by auto.
  destruct (p_start p) as [n|]; cbn [fst].
  - split; [discriminate|intros (H & _); discriminate].
  - destruct (p_ends p) as [e|].
    + destruct (Z.eqb_spec (p_code p) 0) as [C|C]; cbn [negb fst].
      * split; [intros [= <-]|intros (_ & _ & _ & ->); reflexivity].
        repeat split; auto. exists e. split; [reflexivity|discriminate].
      * split; [discriminate|intros (_ & _ & H & _); contradiction].
    + split; [discriminate|intros (_ & (e & H & _) & _); discriminate].
Qed.

Lemma command_exit_code cwd shell g p : starts p -> ends_within p None -> p_code p <> 0 -> not_given g "stderr" ->
  execute_command cwd shell g None p = (Failed (ExitError (p_code p) (Some (p_err p))), Over).
Proof.
  intros S (e & E & _) C N. unfold execute_command, run_command, communicate, passed.
  rewrite S, E, (captured_default cwd shell g "stderr") by auto.
  destruct (Z.eqb_spec (p_code p) 0); [contradiction|reflexivity].
Qed.

Lemma command_over cwd shell g p : fst (execute_command cwd shell g None p) <> Hangs ->
  not_left (snd (execute_command cwd shell g None p)).
Proof.
  unfold execute_command, run_command, communicate, passed, not_left.
  destruct (p_start p); [discriminate|]. destruct (p_ends p); [|intros H; now destruct H].
  destruct (negb (p_code p =? 0)%Z); discriminate.
Qed.

Lemma command_hangs cwd shell g p : fst (execute_command cwd shell g None p) = Hangs <-> starts p /\ p_ends p = None.
Proof.
  unfold execute_command, run_command, communicate, passed, starts.
  destruct (p_start p); [split; [discriminate|intros (H & _); discriminate]|].
  destruct (p_ends p).
  - destruct (negb (p_code p =? 0)%Z); split; try discriminate; intros (_ & H); discriminate.
  - split; auto.
Qed.

Lemma command_numbered o us p : starts p -> 
  (ends_within p (Some us) -> run_command o (Number us) p = run_command o NoLimit p) /\
  (~ ends_within p (Some us) -> run_command o (Number us) p = (Failed TimeoutExpired, Killed)).
Proof.
  intros S. unfold run_command, communicate, ends_within. rewrite S. split.
  - intros (e & E & L). rewrite E. specialize (L us eq_refl).
    destruct (Z.leb_spec e us); [reflexivity|lia].
  - intros N. destruct (p_ends p) as [e|]; [|reflexivity].
    destruct (Z.leb_spec e us) as [L|L]; [|reflexivity].
    destruct N. exists e. split; [reflexivity|]. now intros us' [= <-].
Qed.

Lemma command_own_timeout cwd shell g us p : starts p ->
  execute_command cwd shell g (Some us) p = (Failed BadTimeout, LeftRunning).
Proof. intros S. unfold execute_command, run_command, communicate, passed. now rewrite S. Qed.

Lemma command_not_started cwd shell g t p n : p_start p = Some n ->
  execute_command cwd shell g t p = (Failed (StartError n), NotStarted).
Proof. intros S. unfold execute_command, run_command. now rewrite S. Qed.

Lemma command_elsewhere cwd shell g v p : given g "stdout" v -> v <> VPipe -> starts p -> ends_within p None -> p_code p = 0%Z ->
  execute_command cwd shell g None p = (Succeeded None, Over).
Proof.
  intros G V S (e & E & _) C. unfold execute_command, run_command, communicate, passed.
  rewrite S, E, C. cbn [negb Z.eqb]. unfold captured. rewrite (options_given cwd shell g "stdout" v G).
  destruct v; try reflexivity. now destruct V.
Qed.

Lemma command_any_options cwd shell g p :
  (exists outs, fst (execute_command cwd shell g None p) = Succeeded outs) <-> starts p /\ ends_within p None /\ p_code p = 0%Z.
Proof.
  unfold execute_command, run_command, communicate, passed, starts, ends_within.
  destruct (p_start p) as [n|]; [split; [intros [o H]; discriminate|intros (H & _); discriminate]|].
  destruct (p_ends p) as [e|]; [|split; [intros [o H]; discriminate|intros (_ & (e & H & _) & _); discriminate]].
  destruct (Z.eqb_spec (p_code p) 0) as [C|C]; cbn [negb fst].
  - split; [|eauto]. intros _. repeat split; auto. exists e. split; [reflexivity|discriminate].
  - split; [intros [o H]; discriminate|intros (_ & _ & H); contradiction].
Qed.
