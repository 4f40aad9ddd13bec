(** What hooks are meant to do. *)
From Verif Require Import Model.Base Model.Hooks.

(** A hook that raises nowhere *)
Definition no_failure (h : hook) : Prop :=
  hk_args h = None /\
  match hk_code h with
  | Function r => r = None
  | Generator a b => (forall e, a <> Fails e) /\ (a = Yields -> forall e, b <> Fails e)
  end.

(** A generator hook that yielded *)
Definition yielded (h : hook) : bool :=
  match hk_code h with Generator Yields _ => true | _ => false end.

(** The numbers, from [i] on, of the hooks that yielded *)
Fixpoint resumed (i : nat) (hooks : list hook) : list nat :=
  match hooks with
  | [] => []
  | h :: hooks => if yielded h then i :: resumed (S i) hooks else resumed (S i) hooks
  end.

(** The ids a task's runs can come to have, from no run on *)
Inductive id_history : list Z -> Prop :=
| IdNone : id_history []
| IdMore : forall ids ids', id_history ids -> id_step ids ids' -> id_history ids'.
