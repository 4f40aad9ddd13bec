(** Specification of parameter sets staying what they are. *)
From Verif Require Import Model.Base Model.World Model.Params Model.Sharing.
Open Scope Z_scope.

(** The sets there are at a moment, and those of a task *)
Definition existing (h : heap) (l : place) : Prop := (l < length h)%nat.
Definition has_sets (h : heap) (t : stask) : Prop := existing h (st_own t) /\ Forall (existing h) (st_batches t).

(** All sets there were are as they were *)
Definition untouched (h h' : heap) : Prop := forall l, existing h l -> existing h' l /\ read h' l = read h l.

(** The set the user's code changes by an event, if any *)
Definition changes (e : event) (l : place) : Prop :=
  match e with
  | ESet m _ _ | EUpdate m _ | EUpdateDict m _ | EClear m => m = l
  | _ => False
  end.
