(** Vocabulary for C programs whose matchers run out of memory. *)
From Verif Require Import Base TrieM WordStoreM ErrorValuesM LevIndexM WordM MapM DoubleM ContM MatcherM DataFileM CApiM FailM
  Spec_Hist Spec_EV Spec_Word Spec_Cont Spec_Match Spec_File Spec_CApi Spec_Fail CMatM.
Local Open Scope N_scope.

(** Where allocations failed in matcher [n], and that matcher for FailM. *)
Definition places (st : xstate) (n : nat) : list place := map snd (filter (fun x => Nat.eqb (fst x) n) (x_failed st)).
Definition as_is (st : xstate) (n : nat) (m : matcher) : fst_ := mkF m (x_plan st) (places st n).
(** No crash. *)
Definition all_end (es : list x_end) : Prop := Forall (fun e => match e with Gave _ | Short _ => True | _ => False end) es.
(** The program made these calls and is in state [st]; [plan] says which allocations succeed. *)
Definition x_reached (E : env) (W : world) (calls : list c_call) (plan : list bool) (st : xstate) : Prop :=
  exists es, x_run E W calls (mkX [] plan []) = (st, es) /\ all_end es.

(** What the calls of the program are for the Matcher with number [n], and how they end
    there: the calls of [cpp_history], on a matcher that may run out of memory. *)
Definition x_calls (E : env) (c : c_call) (st : xstate) (n : nat) : list (m_call * fres unit) :=
  match get_obj (x_heap st) n with
  | Some (OMatcher m) => map (fun k => (k, snd (f_do E k (as_is st n m)))) (cpp_calls E c (x_heap st) n)
  | _ => []
  end.
Fixpoint x_history (E : env) (W : world) (calls : list c_call) (st : xstate) (n : nat) : list (m_call * fres unit) :=
  match calls with
  | [] => []
  | c :: r => x_calls E c st n ++ x_history E W r (fst (x_do E W c st)) n
  end.
(** None of them found the storage of the matcher full (C68). *)
Definition unfilled (hist : list (m_call * fres unit)) : Prop := Forall (fun x => f_fatal (fst x) (snd x) = false) hist.
(** Good weights, and not too many words. *)
Definition in_bounds (cs : list m_call) : Prop :=
  (forall f x, In (f, x) (weight_calls cs) -> good_weight x) /\ N.of_nat (length (occ cs)) + 1 < 9007199254740992.
(** The call is one on matcher [n], its prices or its weights. *)
Definition on_matcher (c : c_call) (n : nat) : Prop :=
  (exists p, c = col_matcher_index (PAt n) p) \/ (exists s, c = col_matcher_match (PAt n) s) \/ c = col_error_values_add_standard_errors (PErr n) \/
  c = col_error_values_set_substring_mode (PErr n) \/ (exists p x, c = col_index_weights_set_weight (PWeights n) p x) \/
  (exists p, c = col_index_weights_get_weight (PWeights n) p) \/ c = col_matcher_get_error_values (PAt n) \/ c = col_matcher_get_index_weights (PAt n) \/ c = col_matcher_delete (PAt n).
(** What the program is given. *)
Definition given (e : x_end) : c_val := match e with Gave v | Short v => v | _ => VVoid end.
(** The object that a call may have changed although it ran out of memory. *)
Definition may_change (c : c_call) (k : nat) : Prop :=
  match c with
  | col_matcher_index p _ | col_matcher_match p _ | col_document_add_text p _ _ => p = PAt k
  | col_index_weights_set_weight p _ _ => p = PWeights k
  | _ => False
  end.
