(** Vocabulary of the C interface properties. *)
From Verif Require Import Base TrieM WordStoreM ErrorValuesM LevIndexM WordM MapM DoubleM ContM MatcherM DataFileM CApiM
  Spec_Hist Spec_EV Spec_Word Spec_Cont Spec_Match Spec_File.
Local Open Scope N_scope.

(** Object number [n] exists and is [o]. *)
Definition live (h : heap) (n : nat) (o : obj) : Prop := nth_error h n = Some (Some o).

(** The text arguments are C strings. *)
Definition c_strings (c : c_call) : Prop :=
  match c with
  | col_word_new s | col_document_add_text _ _ s | col_matcher_match _ s => c_text s
  | _ => True
  end.
(** The object a call may change. *)
Definition changes (c : c_call) : option nat :=
  match c with
  | col_word_delete (PAt n) | col_document_delete (PAt n) | col_matcher_delete (PAt n) | col_match_results_delete (PAt n)
  | col_corpus_delete (PAt n) | col_document_add_text (PAt n) _ _ | col_matcher_index (PAt n) _ | col_matcher_match (PAt n) _
  | col_match_results_get_id (PAt n) _ | col_match_results_get_relevancy (PAt n) _ | col_corpus_add_document (PAt n) _
  | col_error_values_add_standard_errors (PErr n) | col_error_values_set_substring_mode (PErr n)
  | col_index_weights_set_weight (PWeights n) _ _ => Some n
  | _ => None
  end.
(** The call deletes object [n]. *)
Definition deletes (c : c_call) (n : nat) : Prop :=
  c = col_word_delete (PAt n) \/ c = col_document_delete (PAt n) \/ c = col_matcher_delete (PAt n) \/
  c = col_match_results_delete (PAt n) \/ c = col_corpus_delete (PAt n).

(** ** The same calls in C++ *)
(** What a C call, made with the objects [h], is for the Matcher with number [n]. *)
Definition cpp_calls (E : env) (c : c_call) (h : heap) (n : nat) : list m_call :=
  match c with
  | col_matcher_index (PAt k) (PAt j) =>
    if Nat.eqb k n then match get_obj h j with Some (OCorpus cp) => [MIndex cp] | _ => [] end else []
  | col_matcher_match (PAt k) s =>
    if Nat.eqb k n then match splitToWords E s with Ok q => [MMatch q sp_new] | _ => [] end else []
  | col_error_values_add_standard_errors (PErr k) =>
    if Nat.eqb k n then [MErr (AddStandardErrors latin_groups greek_groups)] else []
  | col_error_values_set_substring_mode (PErr k) => if Nat.eqb k n then [MErr SetSubstringMode] else []
  | col_index_weights_set_weight (PWeights k) (PAt j) x =>
    if Nat.eqb k n then match get_obj h j with Some (OWord f) => [MWeight f x] | _ => [] end else []
  | _ => []
  end.
Fixpoint cpp_history (E : env) (W : world) (calls : list c_call) (h : heap) (n : nat) : list m_call :=
  match calls with
  | [] => []
  | c :: r => cpp_calls E c h n ++ cpp_history E W r (fst (c_do E W c h)) n
  end.
(** All calls made, whatever exceptions they end with (the C functions do not tell). *)
Definition m_all (E : env) (calls : list m_call) (m : matcher) : matcher := fold_left (fun m c => fst (m_do E c m)) calls m.

(** What the C++ client would get for the pointers and calls of C: see the theorems. *)
Definition field_word (E : env) (w : word) : Prop := exists s, c_text s /\ word_of_utf8 E s = Ok w.
Definition text_word (E : env) (w : word) : Prop := exists s, c_text s /\ s <> [] /\ word_of_utf8 E s = Ok w.

(** The pointers given to a call are of the right kind and their objects exist. *)
Definition is_word (h : heap) (p : ptr) : Prop := exists n w, p = PAt n /\ live h n (OWord w).
Definition is_doc (h : heap) (p : ptr) : Prop := exists n d, p = PAt n /\ live h n (ODoc d).
Definition is_matcher (h : heap) (p : ptr) : Prop := exists n m, p = PAt n /\ live h n (OMatcher m).
Definition is_results (h : heap) (p : ptr) : Prop := exists n r, p = PAt n /\ live h n (OResults r).
Definition is_corpus (h : heap) (p : ptr) : Prop := exists n c, p = PAt n /\ live h n (OCorpus c).
Definition is_errors (h : heap) (p : ptr) : Prop := exists n m, p = PErr n /\ live h n (OMatcher m).
Definition is_weights (h : heap) (p : ptr) : Prop := exists n m, p = PWeights n /\ live h n (OMatcher m).
Definition handles_ok (c : c_call) (h : heap) : Prop :=
  match c with
  | col_word_new _ | col_document_new _ | col_matcher_new | col_match_results_new | col_corpus_new => True
  | col_word_delete p => p = PNull \/ is_word h p
  | col_document_delete p => p = PNull \/ is_doc h p
  | col_matcher_delete p => p = PNull \/ is_matcher h p
  | col_match_results_delete p => p = PNull \/ is_results h p
  | col_corpus_delete p => p = PNull \/ is_corpus h p
  | col_word_length p | col_word_as_utf8 p _ => is_word h p
  | col_document_get_id p => is_doc h p
  | col_document_add_text p f _ => is_doc h p /\ is_word h f
  | col_matcher_index p c => is_matcher h p /\ is_corpus h c
  | col_matcher_match p _ | col_matcher_get_error_values p | col_matcher_get_index_weights p => is_matcher h p
  | col_match_results_size p | col_match_results_get_id p _ | col_match_results_get_relevancy p _ => is_results h p
  | col_corpus_add_document c d => is_corpus h c /\ is_doc h d
  | col_error_values_add_standard_errors p | col_error_values_set_substring_mode p => is_errors h p
  | col_index_weights_set_weight p f _ | col_index_weights_get_weight p f => is_weights h p /\ is_word h f
  end.

(** The state of a program after these calls; none of them was undefined. *)
Definition c_reached (E : env) (W : world) (calls : list c_call) (h : heap) : Prop := exists vs, c_run E W calls [] = (h, Ok vs).
(** Of the objects in [h], number [n] is now [x] (deleted: [None]) and the others are as they were. *)
Definition only (n : nat) (x : option obj) (h h' : heap) : Prop :=
  nth_error h' n = Some x /\ forall k, k <> n -> nth_error h' k = nth_error h k.
(** The number of the next object. *)
Definition fresh (h : heap) : nat := length h.
(** The call creates this object; the call changes nothing and gives [v]. *)
Definition creates (E : env) (W : world) (h : heap) (c : c_call) (o : obj) : Prop :=
  only (fresh h) (Some o) h (fst (c_do E W c h)) /\ snd (c_do E W c h) = Ok (VPtr (PAt (fresh h))).
Definition only_says (E : env) (W : world) (h : heap) (c : c_call) (v : c_val) : Prop := c_do E W c h = (h, Ok v).
(** What a function gives back after an exception. *)
Definition fallback (c : c_call) : c_val :=
  match c with
  | col_word_new _ | col_document_new _ | col_matcher_new | col_matcher_match _ _ | col_matcher_get_error_values _
  | col_matcher_get_index_weights _ | col_match_results_new | col_corpus_new => VPtr PNull
  | col_word_length _ | col_match_results_size _ => VSize 0
  | col_document_get_id _ | col_match_results_get_id _ _ => VDocID 18446744073709551615
  | col_match_results_get_relevancy _ _ => VDouble (d_of_Z (-1))
  | col_index_weights_get_weight _ _ => VDouble (d_of_Z 1)
  | _ => VVoid
  end.
(** A method called on object [n] took it from [s] to [s'] with outcome [o]: the C function
    gives [f a] for a result [a], and its fallback after an exception. *)
Definition relays {S A} (c : c_call) (n : nat) (wrap : S -> obj) (s' : S) (o : outcome A) (f : A -> c_val) (h : heap) (r : heap * outcome c_val) : Prop :=
  only n (Some (wrap s')) h (fst r) /\
  match o with
  | Ok a => snd r = Ok (f a)
  | Throw _ => snd r = Ok (fallback c)
  | UB => snd r = UB | Abort => snd r = Abort | Fuel => snd r = Fuel
  end.
(** The storage did not run out, the weights are good and the numbers are not huge. *)
Definition calm (E : env) (W : world) (calls : list c_call) (n : nat) (m : matcher) : Prop :=
  let cs := cpp_history E W calls [] n in
  history E cs m /\ (forall f x, In (f, x) (weight_calls cs) -> good_weight x) /\ N.of_nat (length (occ cs)) + 1 < 9007199254740992.
(** No word searched for or indexed has ten million letters. *)
Definition moderate (cs : list m_call) (q : list word) : Prop :=
  (forall qw, In qw q -> N.of_nat (length qw) < 10000000) /\ (forall d f w, In (d, f, w) (occ cs) -> N.of_nat (length w) < 10000000).
(** What else a call needs: a buffer that is not one byte too short (C34), a matcher whose
    storage has not run out, numbers that are not huge, results without NaN. *)
Definition prepared (E : env) (W : world) (calls : list c_call) (h : heap) (c : c_call) : Prop :=
  match c with
  | col_word_as_utf8 (PAt n) size => forall cs, Forall scalar cs -> live h n (OWord (letters_of cs)) -> size <> N.of_nat (length (bytes_of cs))
  | col_matcher_index (PAt n) _ => forall m, live h n (OMatcher m) -> history E (cpp_history E W calls [] n) m
  | col_matcher_match (PAt n) s => forall m, live h n (OMatcher m) -> calm E W calls n m /\
      forall q, splitToWords E s = Ok q -> moderate (cpp_history E W calls [] n) q
  | col_match_results_get_id (PAt n) _ | col_match_results_get_relevancy (PAt n) _ => forall r, live h n (OResults r) -> exists view, shows r view
  | _ => True
  end.
