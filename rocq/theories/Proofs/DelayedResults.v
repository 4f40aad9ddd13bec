(** What runs of a task given by a file call, and the package of the file. *)
From Coq Require Import List Bool ZArith Lia String Ascii.
From Verif Require Import Model.Delayed Spec.DelayedSpec Proofs.DelayedProofs.
Import ListNotations.
Local Open Scope Z_scope.
Local Open Scope list_scope.

Lemma last_begun : forall r a p b a' p' b', a ++ MBegun r p :: b = a' ++ MBegun r p' :: b' ->
  unbegun r b -> unbegun r b' -> a = a' /\ p = p' /\ b = b'.
Proof.
  intros r a p b a' p' b' E U U'. apply app_eq_app in E. destruct E as (l & [[-> E]|[-> E]]); destruct l as [|x l].
  - cbn in E. injection E as <- <-. now rewrite app_nil_r.
  - injection E as <- ->. exfalso. apply (U' p). apply in_app_iff. right. now left.
  - cbn in E. injection E as <- <-. now rewrite app_nil_r.
  - injection E as <- ->. exfalso. apply (U p'). apply in_app_iff. right. now left.
Qed.

Theorem runs_since : forall raises cache d es m1 m2 r p m3 s v m4,
  marks raises cache d es = m1 ++ m2 ++ MBegun r p :: m3 ++ MRan r s v :: m4 -> (forall q, ~ In (MBegun r q) m3) -> tidy m1 ->
  In (Some v) (on_disk (disk_after d m1) (m2 ++ MBegun r p :: m3)) /\ In (Some s) (on_disk (disk_after d m1) m2).
Proof.
  intros raises cache d es m1 m2 r p m3 s v m4 E U T. unfold marks in E.
  destruct (new_inv d cache) as [I0 C0]. destruct (all_inv raises d es _ I0 C0) as [_ C].
  replace (m1 ++ m2 ++ MBegun r p :: m3 ++ MRan r s v :: m4) with (((m1 ++ m2 ++ MBegun r p :: m3) ++ [MRan r s v]) ++ m4) in E
    by (repeat (rewrite <- app_assoc; cbn [app]); reflexivity).
  destruct (C _ _ E r s v _ eq_refl) as (p' & a & b & Ea & Ub & Hs & Hv). rewrite app_assoc in Ea.
  apply last_begun in Ea; [|exact U|exact Ub]. destruct Ea as (<- & <- & <-). split.
  - destruct Hv as [Hv|[Hv|Hv]].
    + apply on_disk_suffix. cbn. right. rewrite <- disk_after_app. exact Hv.
    + apply (kept_since d _ v m1 _ Hv eq_refl T).
    + apply on_disk_prefix. apply (kept_since d _ v m1 m2 Hv eq_refl T).
  - destruct Hs as [Hs|Hs]; [|apply (kept_since d _ s m1 m2 Hs eq_refl T)]. rewrite disk_after_app in Hs. rewrite <- Hs. apply on_disk_now.
Qed.

Theorem runs_fresh : forall raises cache d es m1 r p m2 s v m3,
  marks raises cache d es = m1 ++ MBegun r p :: m2 ++ MRan r s v :: m3 -> (forall q, ~ In (MBegun r q) m2) -> tidy m1 ->
  In (Some v) (on_disk (disk_after d m1) m2) /\ disk_after d m1 = Some s.
Proof.
  intros raises cache d es m1 r p m2 s v m3 E U T.
  destruct (runs_since raises cache d es m1 [] r p m2 s v m3 E U T) as [A B]. split; [|destruct B as [B|[]]; exact B].
  cbn in A. destruct A as [A|A]; [rewrite A; apply on_disk_head|exact A].
Qed.

Theorem runs_after_finish : forall raises cache d es m1 q m2 r p m3 s v m4,
  marks raises cache d es = m1 ++ MFinished q Inside :: m2 ++ MBegun r p :: m3 ++ MRan r s v :: m4 ->
  (forall q, ~ In (MBegun r q) m3) -> In (Some v) (on_disk (disk_after d m1) (m2 ++ MBegun r p :: m3)).
Proof.
  intros raises cache d es m1 q m2 r p m3 s v m4 E U.
  replace (disk_after d m1) with (disk_after d (m1 ++ [MFinished q Inside])) by (rewrite disk_after_app; reflexivity).
  apply (runs_since raises cache d es (m1 ++ [MFinished q Inside]) m2 r p m3 s v m4); [|exact U|apply tidy_finished].
  rewrite E, <- app_assoc. reflexivity.
Qed.

Theorem runs_match : forall raises cache d es m1 r p m2 s v m3,
  marks raises cache d es = m1 ++ MBegun r p :: m2 ++ MRan r s v :: m3 -> (forall q, ~ In (MBegun r q) m2) -> tidy m1 ->
  unsaved m2 -> s = v.
Proof.
  intros raises cache d es m1 r p m2 s v m3 E U T N. destruct (runs_fresh _ _ _ _ _ _ _ _ _ _ _ E U T) as [A B].
  apply on_disk_unsaved in A; [congruence|exact N].
Qed.

(** ** Processes *)
Section Outside.
Variable raises : Z -> bool.
Definition away (t : delayed) : Prop := d_func t = None /\ (forall r f, flight_of r (d_runs t) = Some f -> f_place f = Outside) /\
  forall q, ~ In (MKept q) (d_marks t).
Lemma marked_away : forall i r ms q, ~ In (MKept q) ms -> ~ In (MKept q) (marked i false r ms).
Proof. intros [] r ms q N I; unfold marked in I; rewrite ?app_nil_r in I; try (now apply N). apply in_app_iff in I. destruct I as [I|[I|[]]]; [now apply N|discriminate]. Qed.
Lemma snoc_away : forall ms m q, ~ In (MKept q) ms -> m <> MKept q -> ~ In (MKept q) (ms ++ [m]).
Proof. intros ms m q N D I. apply in_app_iff in I. destruct I as [I|[I|[]]]; [now apply N|now apply D]. Qed.
Lemma happen_away : forall t e, away t -> (forall r p, e = Begin r p -> p = Outside) -> away (happen raises t e).
Proof.
  intros t e (F & R & M) P. destruct e as [k|r p|r|r|r]; cbn [happen].
  - split; [exact F|]. split; [exact R|]. intros q. cbn. apply snoc_away; [apply M|discriminate].
  - unfold begin. destruct (flight_of r (d_runs t)) eqn:Er; [now split; [|split]|]. rewrite get_func_cases, F.
    destruct (d_disk t) as [v|]; (split; [reflexivity|]); cbn [d_runs d_marks]; (split; [|intros q; apply snoc_away; [now apply marked_away|discriminate]]).
    + intros q f. rewrite flight_fly. destruct (r =? q); [|apply R]. intros E. injection E as <-. exact (P r p eq_refl).
    + exact R.
  - unfold filter_run. destruct (flight_of r (d_runs t)) as [f|] eqn:Er; [|now split; [|split]].
    destruct (f_phase f); [|now split; [|split]..]. destruct (get_func true (func_of f t) (d_disk t)) as [[v g] i].
    pose proof (R r f Er) as Pf. cbv zeta. split; [unfold func_after; cbn; now rewrite Pf|]. cbn [d_runs d_marks]. split.
    + destruct (match v with Some _ => _ | None => _ end); intros q f'; [rewrite flight_fly|rewrite flight_land];
      (destruct (r =? q); [|apply R]); intros E; [injection E as <-; exact Pf|discriminate E].
    + intros q. unfold kept_by. rewrite Pf. replace (match v with Some _ => false | None => false end) with false by now destruct v.
      destruct (match v with Some _ => negb _ | None => _ end); [rewrite app_nil_r; now apply marked_away|].
      apply snoc_away; [now apply marked_away|discriminate].
  - unfold execute. destruct (flight_of r (d_runs t)) as [f|] eqn:Er; [|now split; [|split]].
    destruct (f_phase f); [now split; [|split]| |now split; [|split]]. destruct (get_func (d_cache t) (func_of f t) (d_disk t)) as [[v g] i].
    pose proof (R r f Er) as Pf. split; [unfold func_after; cbn; now rewrite Pf|]. cbn [d_runs d_marks]. split.
    + intros q f'. rewrite flight_fly. destruct (r =? q); [|apply R]. intros E. injection E as <-. exact Pf.
    + intros q. unfold kept_by. rewrite Pf. replace (match v with Some _ => false | None => false end) with false by now destruct v.
      apply snoc_away; [now apply marked_away|]. destruct v; discriminate.
  - unfold finish. destruct (flight_of r (d_runs t)) as [f|] eqn:Er; [|now split; [|split]].
    destruct (f_phase f); [now split; [|split]..|]. pose proof (R r f Er) as Pf. split; [unfold func_after; cbn; now rewrite Pf|].
    split; [|intros q; cbn; apply snoc_away; [apply M|discriminate]]. cbn [d_runs]. intros q f'. rewrite flight_land.
    destruct (r =? q); [discriminate|apply R].
Qed.
Lemma all_away : forall es t, away t -> all_outside es -> away (happen_all raises es t).
Proof.
  induction es as [|e es IH]; intros t A O; [exact A|]. cbn [happen_all fold_left]. apply IH.
  - apply happen_away; [exact A|]. intros r p ->. apply (O r p). now left.
  - intros r p I. apply (O r p). now right.
Qed.
End Outside.

Lemma unkept_tidy : forall ms b, (forall q, ~ In (MKept q) ms) -> b = true -> tidy_from b ms = true.
Proof.
  induction ms as [|m ms IH]; intros b N B; [exact B|]. assert (N' : forall q, ~ In (MKept q) ms) by (intros q I; apply (N q); now right).
  destruct m as [|? ?|?|q|? ? ?|?|? []]; cbn; try (now apply IH). exfalso. apply (N q). now left.
Qed.

Theorem processes_fresh : forall raises cache d es, all_outside es -> up_to_date d (marks raises cache d es).
Proof.
  intros raises cache d es O m1 r p m2 s v m3 E U. refine (proj1 (runs_fresh raises cache d es m1 r p m2 s v m3 E U _)).
  assert (A : away (happen_all raises es (new_delayed cache d))).
  { apply all_away; [|exact O]. split; [reflexivity|]. split; [discriminate|]. intros q []. }
  destruct A as (_ & _ & M). apply unkept_tidy; [|reflexivity]. intros q I. apply (M q). unfold marks in E. rewrite E. apply in_app_iff. now left.
Qed.

(** ** A run in one piece *)
Theorem run_alone : forall raises t v r p, d_runs t = [] -> d_func t = None -> d_disk t = Some v -> raises v = false ->
  happen_all raises [Begin r p; Filter r; Execute r; Finish r] t =
  Delayed None (d_cache t) (Some v) [] (d_marks t ++
    [MImport r; MBegun r p; MImport r] ++ (match p with Inside => [MKept r] | Outside => [] end) ++ [MRan r v v; MFinished r p]).
Proof.
  intros raises [f c k rs ms] v r p R F K Nr. cbn in R, F, K. subst. unfold happen_all. cbn [fold_left happen].
  unfold begin. cbn [d_runs d_func flight_of get_func d_disk d_cache d_marks].
  unfold filter_run. cbn [d_runs]. rewrite flight_fly, Z.eqb_refl. cbn [f_phase]. rewrite get_func_cases.
  assert (L : forall fl, land r (fly r fl []) = []) by (intros fl; unfold fly, land; cbn [filter fst]; now rewrite Z.eqb_refl).
  assert (L2 : forall fl fl', fly r fl' (fly r fl []) = fly r fl' []) by (intros; unfold fly at 1; rewrite L; reflexivity).
  destruct p; unfold func_of, func_after, copy_after, kept_by; cbn [f_place d_func f_copy f_sign d_disk d_cache]; rewrite Nr; cbn [negb andb];
  unfold execute; cbn [d_runs]; rewrite flight_fly, Z.eqb_refl; cbn [f_phase]; rewrite get_func_cases;
  unfold func_of, func_after, copy_after, kept_by; cbn [f_place d_func f_copy f_sign d_disk d_cache];
  unfold finish; cbn [d_runs]; rewrite flight_fly, Z.eqb_refl; cbn [f_phase f_place d_runs d_marks d_disk d_cache];
  unfold func_after; cbn [f_place d_func]; rewrite !L2, L; f_equal;
  destruct c; unfold marked; cbn [andb]; repeat (rewrite <- app_assoc; cbn [app]); reflexivity.
Qed.

(** ** Stuck *)
Section Stuck.
Variable raises : Z -> bool.
Variable v : Z.
Hypothesis bad : raises v = true.
Definition stuck (t : delayed) : Prop := d_func t = Some v /\
  (forall r f, flight_of r (d_runs t) = Some f -> f_place f = Inside /\ f_phase f = Begun /\ f_sign f = v) /\
  forall r s w, ~ In (MRan r s w) (d_marks t).
Lemma snoc_stuck : forall ms m r s w, ~ In (MRan r s w) ms -> m <> MRan r s w -> ~ In (MRan r s w) (ms ++ [m]).
Proof. intros ms m r s w N D I. apply in_app_iff in I. destruct I as [I|[I|[]]]; [now apply N|now apply D]. Qed.
Lemma happen_stuck : forall t e, stuck t -> (forall r p, e = Begin r p -> p = Inside) -> stuck (happen raises t e).
Proof using bad.
  intros t e (F & R & M) P. destruct e as [k|r p|r|r|r]; cbn [happen].
  - split; [exact F|]. split; [exact R|]. intros q s w. cbn. apply snoc_stuck; [apply M|discriminate].
  - unfold begin. destruct (flight_of r (d_runs t)) eqn:Er; [now split; [|split]|]. rewrite get_func_cases, F.
    split; [reflexivity|]. cbn [d_runs d_marks]. unfold marked. split; [|intros q s w; rewrite !app_nil_r; apply snoc_stuck; [apply M|discriminate]].
    intros q f. rewrite flight_fly. destruct (r =? q); [|apply R]. intros E. injection E as <-. cbn. now rewrite (P r p eq_refl).
  - unfold filter_run. destruct (flight_of r (d_runs t)) as [f|] eqn:Er; [|now split; [|split]].
    destruct (R r f Er) as (Pf & Hf & Sf). rewrite Hf, get_func_cases. unfold func_of, func_after. rewrite Pf, F. cbv zeta. rewrite Sf, bad. cbn [negb].
    split; [reflexivity|]. split.
    + intros q f'. cbn. rewrite flight_land. destruct (r =? q); [discriminate|apply R].
    + intros q s w. cbn [d_marks]. unfold kept_by. rewrite Pf. cbn [andb]. unfold marked. rewrite !app_nil_r. apply snoc_stuck; [apply M|discriminate].
  - unfold execute. destruct (flight_of r (d_runs t)) as [f|] eqn:Er; [|now split; [|split]].
    destruct (R r f Er) as (_ & Hf & _). rewrite Hf. now split; [|split].
  - unfold finish. destruct (flight_of r (d_runs t)) as [f|] eqn:Er; [|now split; [|split]].
    destruct (R r f Er) as (_ & Hf & _). rewrite Hf. now split; [|split].
Qed.
Lemma all_stuck : forall es t, stuck t -> all_inside es -> stuck (happen_all raises es t).
Proof using bad.
  induction es as [|e es IH]; intros t A O; [exact A|]. cbn [happen_all fold_left]. apply IH.
  - apply happen_stuck; [exact A|]. intros r p ->. apply (O r p). now left.
  - intros r p I. apply (O r p). now right.
Qed.
End Stuck.

Theorem stuck_for_ever : forall raises cache v r es, raises v = true -> all_inside es ->
  forall q s w, ~ In (MRan q s w) (marks raises cache (Some v) (Begin r Inside :: Filter r :: es)).
Proof.
  intros raises cache v r es B A q s w. unfold marks.
  assert (S : stuck v (happen_all raises es (happen_all raises [Begin r Inside; Filter r] (new_delayed cache (Some v))))).
  { apply all_stuck; [exact B| |exact A]. unfold stuck.
    unfold happen_all. cbn [fold_left happen]. unfold begin, new_delayed. cbn [d_runs d_func flight_of get_func d_disk d_cache d_marks].
    unfold filter_run. cbn [d_runs]. rewrite flight_fly, Z.eqb_refl. cbn [f_phase]. unfold func_of, func_after, kept_by.
    cbn [f_place d_func get_func d_disk f_sign]. rewrite B. cbn [negb andb d_func d_runs d_marks].
    split; [reflexivity|]. split.
    - intros q' f'. rewrite flight_land, flight_fly. destruct (r =? q'); discriminate.
    - intros q' s' w' I. cbn in I. intuition discriminate. }
  destruct S as (_ & _ & S). exact (S q s w).
Qed.

(** ** The package *)
Lemma search_below : forall pkg r ps first, packages_below pkg r ps ->
  search_root pkg first (above (ps ++ r)) = match ps with [] => if first then NoPackage else Root r | _ => Root r end.
Proof.
  intros pkg r ps. induction ps as [|p ps IH]; intros first [H1 H2].
  - cbn [app]. destruct r as [|x r]; cbn [above search_root]; rewrite H1; now destruct first.
  - cbn [app above search_root]. change (p :: ps ++ r) with ((p :: ps) ++ r). rewrite (H2 [] (p :: ps) eq_refl) by discriminate.
    rewrite IH; [now destruct ps|]. split; [exact H1|]. intros a b -> N. exact (H2 (p :: a) b eq_refl N).
Qed.
Theorem root_found : forall pkg r ps, packages_below pkg r ps -> find_package_root pkg (ps ++ r) = match ps with [] => NoPackage | _ => Root r end.
Proof. intros pkg r ps H. unfold find_package_root. rewrite (search_below pkg r ps true H). reflexivity. Qed.
Lemma search_all : forall pkg d first, (forall a b, d = a ++ b -> pkg b = true) -> search_root pkg first (above d) = NoRoot.
Proof.
  intros pkg d. induction d as [|p d IH]; intros first H.
  - cbn. now rewrite (H [] [] eq_refl).
  - cbn [above search_root]. rewrite (H [] (p :: d) eq_refl). apply IH. intros a b ->. apply (H (p :: a) b eq_refl).
Qed.
Lemma search_no_root : forall pkg d first, search_root pkg first (above d) = NoRoot -> forall a b, d = a ++ b -> pkg b = true.
Proof.
  intros pkg d. induction d as [|p d IH]; intros first H a b E; cbn [above search_root] in H.
  - destruct a, b; try discriminate E. destruct (pkg []); [reflexivity|]. destruct first; discriminate H.
  - destruct (pkg (p :: d)) eqn:Ep; [|destruct first; discriminate H]. destruct a as [|x a]; [cbn in E; now subst b|].
    injection E as _ E. exact (IH false H a b E).
Qed.
Theorem root_missing : forall pkg d, (forall a b, d = a ++ b -> pkg b = true) -> find_package_root pkg d = NoRoot.
Proof. intros. now apply search_all. Qed.
Theorem root_missing_iff : forall pkg d, (forall a b, d = a ++ b -> pkg b = true) <-> find_package_root pkg d = NoRoot.
Proof. intros pkg d. split; [apply root_missing|]. intros H. exact (search_no_root pkg d true H). Qed.
Theorem packaged : forall pkg r ps f, packages_below pkg r ps -> ps <> [] ->
  find_package_root pkg (ps ++ r) = Root r /\
  module_name (find_package_root pkg (ps ++ r)) (ps ++ r) f = Some (String.concat "." (rev ps ++ [stem f])).
Proof.
  intros pkg r ps f H N. assert (R : find_package_root pkg (ps ++ r) = Root r) by (rewrite (root_found pkg r ps H); now destruct ps).
  split; [exact R|]. rewrite R. cbn [module_name].
  rewrite rev_app_distr, <- app_assoc. replace (List.length r) with (List.length (rev r)) by apply rev_length.
  rewrite skipn_app, skipn_all, Nat.sub_diag. reflexivity.
Qed.

(** ** Suffixes *)
Lemma cut_dotless : forall e, dotless e -> cut_suffix e = None.
Proof.
  induction e as [|c e IH]; intros D; [reflexivity|]. cbn. rewrite IH.
  - destruct (Ascii.eqb_spec c "."%char) as [-> |N]; [exfalso; exact (D ""%string e eq_refl)|reflexivity].
  - intros a b E. apply (D (String c a) b). now rewrite E.
Qed.
Lemma cut_last : forall p e, dotless e -> cut_suffix (p ++ "." ++ e) = Some (p, e).
Proof.
  induction p as [|c p IH]; intros e D.
  - cbn. now rewrite (cut_dotless e D).
  - cbn [append cut_suffix]. cbn [append] in IH. now rewrite (IH e D).
Qed.
Theorem stem_means : forall p e, dotless e -> stem e = e /\ stem ("." ++ e) = ("." ++ e)%string /\ stem (p ++ ".") = (p ++ ".")%string /\
  (p <> ""%string -> e <> ""%string -> stem (p ++ "." ++ e) = p).
Proof.
  intros p e D. unfold stem. rewrite (cut_dotless e D). split; [reflexivity|].
  rewrite (cut_last "" e D : cut_suffix ("." ++ e) = Some (""%string, e)). split; [reflexivity|].
  assert (D0 : dotless "") by (intros a b E; destruct a; discriminate E).
  rewrite (cut_last p "" D0 : cut_suffix (p ++ ".") = Some (p, ""%string)). split; [now rewrite orb_true_r|].
  intros Np Ne. rewrite (cut_last p e D). destruct (String.eqb_spec p ""); [contradiction|]. destruct (String.eqb_spec e ""); [contradiction|]. reflexivity.
Qed.
