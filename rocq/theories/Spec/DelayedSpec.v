(** What a user expects of a task given by a file and the name of a function. *)
From Coq Require Import List Bool ZArith String.
From Verif Require Import Model.Delayed.
Import ListNotations.
Local Open Scope Z_scope.
Local Open Scope list_scope.

(** What is at the path after these marks, if [d] was before them *)
Fixpoint disk_after (d : disk) (ms : list mark) : disk :=
  match ms with
  | [] => d
  | MSaved d' :: ms => disk_after d' ms
  | _ :: ms => disk_after d ms
  end.
(** Everything that was at the path at some time during these marks, if [d] was before them *)
Fixpoint on_disk (d : disk) (ms : list mark) : list disk :=
  d :: match ms with
       | [] => []
       | MSaved d' :: ms => on_disk d' ms
       | _ :: ms => on_disk d ms
       end.
Definition unsaved (ms : list mark) : Prop := forall d, ~ In (MSaved d) ms.

(** Since a run last made the task keep its function, a run in the process of the scheduler has finished *)
Fixpoint tidy_from (b : bool) (ms : list mark) : bool :=
  match ms with
  | [] => b
  | MKept _ :: ms => tidy_from false ms
  | MFinished _ Inside :: ms => tidy_from true ms
  | _ :: ms => tidy_from b ms
  end.
Definition tidy (ms : list mark) : Prop := tidy_from true ms = true.

(** All runs are in processes of their own; in the process of the scheduler *)
Definition all_outside (es : list happens) : Prop := forall r p, In (Begin r p) es -> p = Outside.
Definition all_inside (es : list happens) : Prop := forall r p, In (Begin r p) es -> p = Inside.

(** The runs and saves of a task created with the file holding [d] *)
Definition marks (raises : Z -> bool) (cache : bool) (d : disk) (es : list happens) : list mark :=
  d_marks (happen_all raises es (new_delayed cache d)).

(** Each run calls a version that was at the path at some time since it was started *)
Definition up_to_date (d : disk) (ms : list mark) : Prop :=
  forall m1 r p m2 s v m3, ms = m1 ++ MBegun r p :: m2 ++ MRan r s v :: m3 -> (forall q, ~ In (MBegun r q) m2) ->
  In (Some v) (on_disk (disk_after d m1) m2).
(** ... with the parameters of the same version *)
Definition matching (ms : list mark) : Prop := forall r s v, In (MRan r s v) ms -> s = v.

(** The packages a file is in: the directory [r] is not one, each directory below it on the way to the file is *)
Definition packages_below (pkg : dir -> bool) (r : dir) (ps : list string) : Prop :=
  pkg r = false /\ forall a b, ps = a ++ b -> b <> [] -> pkg (b ++ r) = true.

(** How often the file was imported for the run *)
Fixpoint imports (r : Z) (ms : list mark) : Z :=
  match ms with
  | [] => 0
  | MImport q :: ms => (if q =? r then 1 else 0) + imports r ms
  | _ :: ms => imports r ms
  end.

(** No dot in it *)
Definition dotless (s : string) : Prop := forall a b, s <> (a ++ "." ++ b)%string.
