(** Which names of parameters are ordinary, and what it is for all the
    parameters of a run to have ordinary names. *)
From Verif Require Import Model.Base Model.World Model.Params Model.Naming Spec.ParamsSpec.
Open Scope Z_scope.

(** Any name but self, _param and type_ *)
Definition ordinary (k : Z) : Prop := k <> k_self /\ k <> k_param /\ k <> k_type.
Definition ordinary_names (d : dict param) : Prop := forall k p, In (k, p) d -> ordinary k.

(** All the sources of a run's parameters: the session, those passed to the
    start, the task's own, the signature of its function and the request *)
Definition all_ordinary (s : sess) (t : ptask) (passed : dict param) : Prop :=
  ordinary_names (ss_params s) /\ ordinary_names passed /\ ordinary_names (pt_own t) /\
  ordinary_names (signature_of t) /\ ordinary_names (request_of t).
