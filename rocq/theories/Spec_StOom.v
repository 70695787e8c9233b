(** Vocabulary of WordStores that run out of memory. *)
From Verif Require Import Base TrieM WordStoreM Spec_Hist FailM StOomM.
Local Open Scope N_scope.

(** All calls gave a number or ran out of memory. *)
Definition went_on (os : list (fres N)) : Prop := Forall (fun o => (exists id, o = Val id) \/ o = Out) os.
(** The call for word number [i] of the client gave [o]. *)
Definition asked (ws : list word) (os : list (fres N)) (i : nat) (w : word) (o : fres N) : Prop := nth_error ws i = Some w /\ nth_error os i = Some o.
(** No call for the word ran out of memory. *)
Definition lucky (ws : list word) (os : list (fres N)) (w : word) : Prop := forall i, ~ asked ws os i w Out.
