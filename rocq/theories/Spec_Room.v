(** Vocabulary of C106: how much a matcher was given, and the storage that is needed for it. *)
From Verif Require Import Base TrieM Spec_Hist ContM MatcherM Spec_Match.
Local Open Scope N_scope.

(** The field names and words that a call hands to the matcher, with repetitions. *)
Definition given (c : m_call) : list word :=
  match c with
  | MIndex c => map said (flat_map plan_doc c)
  | MMatch _ p => flat_map (flat_map (fun s => [fst s; snd s])) (sp_filter p)
  | _ => []
  end.
Definition letters_given (calls : list m_call) : N :=
  fold_right (fun w n => N.of_nat (length w) + n) 0 (flat_map given calls).
(** The operating system grants every size up to 64 bytes per letter and 1024 more, and
    that is less than 4 GiB. *)
Definition enough (E : env) (calls : list m_call) : Prop :=
  (forall s, 1024 <= s <= 1024 + 64 * letters_given calls -> grow_ok E s = true) /\
  1024 + 64 * letters_given calls < 4294967296.
(** It refused one of these sizes, or they go beyond 4 GiB (where sizes wrap). *)
Definition too_little (E : env) (calls : list m_call) : Prop :=
  exists s, 1024 < s <= 72 + 64 * letters_given calls /\ (grow_ok E s = false \/ 4294967296 <= s).
(** No empty name or word. *)
Definition no_empty (c : m_call) : Prop := Forall (fun w => w <> []) (given c).
