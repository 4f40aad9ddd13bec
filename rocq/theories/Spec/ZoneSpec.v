(** Zones whose clocks are put forward or back, and what the log says. *)
From Coq Require Import ZArith List Bool.
From Verif Require Import Model.Base Model.Calendar Model.History Model.Zone Spec.HistorySpec.
Import ListNotations.
Open Scope Z_scope.

(** From [lo] to [hi] the zone [z] has at most one change: it is [a] ahead of
    UTC before the moment [T] and [b] ahead from then on.  ([T] may lie outside
    and [a] may be [b]: no change.)  As in all zones, offsets and changes are
    less than a day. *)
Definition changes_once (z : zone) (T a b lo hi : Z) : Prop :=
  - us_day < a < us_day /\ - us_day < b < us_day /\ - us_day < b - a < us_day /\
  forall u, lo <= u <= hi -> z u = if u <? T then a else b.

(** What clocks show at moment [t], where they are [z t] ahead of UTC. *)
Definition shows (z : zone) (t w : Z) : Prop := w = t + z t.

(** The latest record of [k] by task [me] is of moment [u]. *)
Definition latest_at (l : log) (me : Z) (k : action) (u : Z) : Prop :=
  (exists r, In r l /\ about me [k] r /\ r_created r = u) /\
  (forall r, In r l -> about me [k] r -> r_created r <= u).
Definition none_of (l : log) (me : Z) (k : action) : Prop := forall r, In r l -> ~ about me [k] r.

(** The same history with all times [k] later. *)
Definition moved_log (k : Z) (l : log) : log :=
  map (fun r => Rec (r_task r) (r_action r) (r_created r + k) (r_run_id r)) l.
Definition moved_state (k : Z) (st : tstate) : tstate :=
  TState (fun a => match ts_last st a with Some t => Some (t + k) | None => None end) (ts_status st).

(** All that is logged was logged before [t]. *)
Definition all_before (l : log) (t : Z) : Prop := forall r, In r l -> r_created r < t.
