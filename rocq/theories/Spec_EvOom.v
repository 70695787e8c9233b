(** What running out of memory should do to the prices of an ErrorValues object. *)
From Verif Require Import Base WordM OomM ErrorValuesM Spec_EV EvOomM.
Local Open Scope N_scope.

(** An object after any history of calls, with any of the allocations failing. *)
Inductive reached : errvals -> Prop :=
| reached_new : reached ev_new
| reached_do c e m e1 m1 r : reached e -> v_do c e m = (e1, m1, r) -> reached e1.
(** The groups a call makes. *)
Definition groups (c : ev_call) : list word :=
  match c with
  | SetGroupError g _ => [g]
  | AddAccents ls => ls
  | AddStandardErrors l g => l ++ g
  | _ => []
  end.
(** The Words given can be shown as text (as all made of text can: C32). *)
Definition readable (c : ev_call) : Prop := forall g, In g (groups c) -> exists s, asUtf8 g = Ok s.
(** Two objects give the same prices and have the same letters in groups. *)
Definition same_prices (e e' : errvals) : Prop :=
  (forall a b, getSubstituteError e a b = getSubstituteError e' a b) /\ (forall l, isInGroup e l = isInGroup e' l) /\
  getInsertionError e = getInsertionError e' /\ getDeletionError e = getDeletionError e' /\ getEndDeletionError e = getEndDeletionError e' /\
  getTransposeError e = getTransposeError e' /\ (forall n, getStartInsertionError e n = getStartInsertionError e' n).
(** Each price of [x] is one of [e] or one of [e']. *)
Definition between (e x e' : errvals) : Prop := forall a b,
  getSubstituteError x a b = getSubstituteError e a b \/ getSubstituteError x a b = getSubstituteError e' a b.
(** What a call of Spec_EV returns, among the ways to end. *)
Definition ended (o : outcome unit) : res unit :=
  match o with Ok _ => Val tt | Throw x => Fail (Thrown x) | Abort => Aborted | UB => Undefined | Fuel => NoFuel end.
(** The results of a history with memory enough. *)
Fixpoint results (calls : list ev_call) (e : errvals) : list (res unit) :=
  match calls with
  | [] => []
  | c :: r => ended (snd (ev_do c e)) :: results r (fst (ev_do c e))
  end.
