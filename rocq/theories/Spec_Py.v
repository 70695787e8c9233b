(** Vocabulary of the Python properties. *)
From Verif Require Import Base TrieM WordStoreM ErrorValuesM LevIndexM WordM MapM DoubleM ContM MatcherM DataFileM PyM
  Spec_Hist Spec_EV Spec_Word Spec_Cont Spec_Match Spec_File Spec_CApi.
Local Open Scope N_scope.

(** ** What the variables of a program are *)
Definition bound (s : py_state) (k : nat) : Prop := nth_error (py_bound s) k = Some true.
(** Object [n] holds the C++ value [o]. *)
Definition holds (s : py_state) (n : nat) (o : obj) : Prop := nth_error (py_objs s) n = Some (Some (Holds o)).
(** Object [k] points to [p] and keeps object [w] alive. *)
Definition refers (s : py_state) (k : nat) (p : place) (w : nat) : Prop := nth_error (py_objs s) k = Some (Some (Points p w)).
(** The words of the list at [l]. *)
Inductive contents (s : py_state) : l_place -> wordlist -> Prop :=
| contents_list n ws : holds s n (OList ws) -> contents s (LVal n) ws
| contents_text n d f ws : holds s n (ODoc d) -> doc_getText d f = Ok ws -> contents s (LText n f) ws.

(** Variable [k] is a Word, and it is [w]: of its own, or word [i] of a list whose vector
    did not move since. *)
Inductive word_var (s : py_state) (k : nat) (w : word) : Prop :=
| own_word : bound s k -> holds s k (OWord w) -> word_var s k w
| list_word l i v n ws : bound s k -> refers s k (AtWord l i v) n -> contents s l ws -> nth_error ws (N.to_nat i) = Some w -> moves_of l s = v -> word_var s k w.
(** Variable [k] is the WordList at [l], with the words [ws]. *)
Inductive list_var (s : py_state) (k : nat) : l_place -> wordlist -> Prop :=
| own_list ws : bound s k -> holds s k (OList ws) -> list_var s k (LVal k) ws
| doc_list n f ws w : bound s k -> refers s k (AtText n f) w -> contents s (LText n f) ws -> list_var s k (LText n f) ws.
Definition doc_var s k d : Prop := bound s k /\ holds s k (ODoc d).
Definition corpus_var s k c : Prop := bound s k /\ holds s k (OCorpus c).
Definition results_var s k r : Prop := bound s k /\ holds s k (OResults r).
Definition matcher_var s k m : Prop := bound s k /\ holds s k (OMatcher m).
(** Variable [k] is an ErrorValues with value [e]; giving it the value [x] makes object [n]
    hold [put x]. *)
Inductive errors_var (s : py_state) (k : nat) : nat -> errvals -> (errvals -> obj) -> Prop :=
| own_errors e : bound s k -> holds s k (OErrors e) -> errors_var s k k e OErrors
| matcher_errors n m w : bound s k -> refers s k (AtErrors n) w -> holds s n (OMatcher m) ->
    errors_var s k n (mt_ev m) (fun x => OMatcher (fst (on_ev (fun _ => (x, Ok tt)) m))).
Inductive weights_var (s : py_state) (k : nat) : nat -> weights -> (weights -> obj) -> Prop :=
| own_weights x : bound s k -> holds s k (OWeights x) -> weights_var s k k x OWeights
| matcher_weights n m w : bound s k -> refers s k (AtWeights n) w -> holds s n (OMatcher m) ->
    weights_var s k n (mt_w m) (fun x => OMatcher (fst (set_w (fun _ => x) m))).

(** ** What a statement does *)
(** The state with one more object; with another value in object [n]; with a move noted. *)
Definition plus (s : py_state) (x : py_obj) : py_state := mkPy (py_objs s ++ [Some x]) (py_bound s ++ [true]) (py_moves s).
Definition now_holds (n : nat) (o : obj) (s : py_state) : py_state := mkPy (upd n (Some (Holds o)) (py_objs s)) (py_bound s) (py_moves s).
Definition moved_if (b : bool) (l : l_place) (s : py_state) : py_state := mkPy (py_objs s) (py_bound s) (if b then l :: py_moves s else py_moves s).
Definition fresh (s : py_state) : nat := length (py_objs s).
(** How C++ exceptions appear. *)
Definition as_python (e : exn) : py_exn :=
  match e with EOutOfRange => PyIndexError | EInvalidArg => PyValueError | ERuntime => PyRuntimeError end.
Definition relayed {A} (o : outcome A) (f : A -> py_val) : outcome py_res :=
  match o with Ok a => Ok (Returns (f a)) | Throw e => Ok (Raises (as_python e)) | UB => UB | Abort => Abort | Fuel => Fuel end.
(** The statement does nothing but give [v]; nothing but raise [x]; makes an object. *)
Definition gives E W b s c v : Prop := py_do E W b c s = (s, Ok (Returns v)).
Definition fails E W b s c x : Prop := py_do E W b c s = (s, Ok (Raises x)).
Definition makes E W b s c x : Prop := py_do E W b c s = (plus s x, Ok (Returns (VObj (fresh s)))).
(** What a str is for the library: the bytes before the first NUL. *)
Definition before_nul (t r : list N) : Prop := ~ In 0 r /\ (t = r \/ exists rest, t = r ++ 0 :: rest).
Definition size_ok (z : Z) : Prop := (0 <= z < 2 ^ 64)%Z.

(** ** Arguments *)
Inductive cls := CWord | CList | CDoc | CCorpus | CResults | CMatcher | CErrors | CWeights.
Definition class_of (x : py_obj) : cls :=
  match x with
  | Holds (OWord _) | Points (AtWord _ _ _) _ => CWord
  | Holds (OList _) | Points (AtText _ _) _ => CList
  | Holds (ODoc _) => CDoc | Holds (OCorpus _) => CCorpus | Holds (OResults _) => CResults | Holds (OMatcher _) => CMatcher
  | Holds (OErrors _) | Points (AtErrors _) _ => CErrors
  | Holds (OWeights _) | Points (AtWeights _) _ => CWeights
  end.
(** The classes of the arguments; a method with a Letter argument accepts none. *)
Definition wants (c : py_call) : list (nat * cls) :=
  match c with
  | get_string w | len_word w => [(w, CWord)]
  | WordList_copy l | len_list l | getitem l _ => [(l, CList)]
  | add_word l w => [(l, CList); (w, CWord)]
  | Document_copy d | field_count d | get_id d => [(d, CDoc)]
  | get_text d w | add_text d w _ => [(d, CDoc); (w, CWord)]
  | size c => [(c, CCorpus)]
  | add_document c d => [(c, CCorpus); (d, CDoc)]
  | add_results r q => [(r, CResults); (q, CResults)]
  | get_document_id r _ | get_relevancy r _ | len_results r => [(r, CResults)]
  | index m c => [(m, CMatcher); (c, CCorpus)]
  | match_ m _ | get_errorvalues m | get_indexweights m => [(m, CMatcher)]
  | add_standard_errors e | set_substring_mode e | set_end_deletion_error e _ | set_error e _ _ _ | get_substitute_error e _ _ | clear_errors e => [(e, CErrors)]
  | set_weight w f _ | get_weight w f => [(w, CWeights); (f, CWord)]
  | _ => []
  end.
Definition has_class (s : py_state) (k : nat) (c : cls) : Prop := bound s k /\ exists x, nth_error (py_objs s) k = Some (Some x) /\ class_of x = c.
(** A word of a list that moved, or no longer has it. *)
Definition stale (s : py_state) (k : nat) : Prop := has_class s k CWord /\ forall w, ~ word_var s k w.

(** The state of a program after these statements; none of them was undefined. *)
Definition py_reached (E : env) (W : world) (prog : list (py_call * bool)) (s : py_state) : Prop := exists rs, py_run E W prog py_start = (s, Ok rs).

(** ** References *)
(** The statement changes the list that [l] is: appends to it, or gives the field of the
    document new text. *)
Definition changes_list (s : py_state) (c : py_call) (l : l_place) : Prop :=
  match c with
  | add_word k _ => exists ws, list_var s k l ws
  | add_text d f _ => exists w, word_var s f w /\ l = LText d w
  | _ => False
  end.
(** ** The same calls in C++, for the Matcher that is object [n] *)
Definition py_calls (E : env) (c : py_call) (s : py_state) (n : nat) (mc : m_call) : Prop :=
  match c with
  | index k j => exists m cp, k = n /\ matcher_var s k m /\ corpus_var s j cp /\ mc = MIndex cp
  | match_ k (Utf8 t) => exists m r q, k = n /\ matcher_var s k m /\ before_nul t r /\ splitToWords E r = Ok q /\ mc = MMatch q sp_new
  | add_standard_errors k => exists m w, bound s k /\ refers s k (AtErrors n) w /\ holds s n (OMatcher m) /\ mc = MErr (AddStandardErrors latin_groups greek_groups)
  | set_substring_mode k => exists m w, bound s k /\ refers s k (AtErrors n) w /\ holds s n (OMatcher m) /\ mc = MErr SetSubstringMode
  | clear_errors k => exists m w, bound s k /\ refers s k (AtErrors n) w /\ holds s n (OMatcher m) /\ mc = MErr ClearErrors
  | set_end_deletion_error k v => exists m w, bound s k /\ refers s k (AtErrors n) w /\ holds s n (OMatcher m) /\ in_i32 v = true /\ mc = MErr (SetEndDeletionError v)
  | set_weight k j x => exists m w f, bound s k /\ refers s k (AtWeights n) w /\ holds s n (OMatcher m) /\ word_var s j f /\ mc = MWeight f x
  | _ => False
  end.
(** [cs] are the calls that the statements make on object [n]. *)
Inductive py_history (E : env) (W : world) (n : nat) : list (py_call * bool) -> py_state -> list m_call -> Prop :=
| h_done s : py_history E W n [] s []
| h_call c b r s mc cs : py_calls E c s n mc -> py_history E W n r (fst (py_do E W b c s)) cs -> py_history E W n ((c, b) :: r) s (mc :: cs)
| h_skip c b r s cs : (forall mc, ~ py_calls E c s n mc) -> py_history E W n r (fst (py_do E W b c s)) cs -> py_history E W n ((c, b) :: r) s cs.

(** ** What a statement needs in order not to be undefined *)
(** The C++ method called on these values is defined. *)
Definition defined {A} (o : outcome A) : Prop := match o with Ok _ | Throw _ => True | _ => False end.
Definition method_defined (E : env) (s : py_state) (c : py_call) : Prop :=
  match c with
  | get_string k => forall w, word_var s k w -> defined (asUtf8 w)
  | add_results k j => forall r q, results_var s k r -> results_var s j q -> defined (snd (mr_addResults q r))
  | get_document_id k i => forall r, results_var s k r -> size_ok i -> defined (snd (mr_getDocumentID (Z.to_N i) r))
  | get_relevancy k i => forall r, results_var s k r -> size_ok i -> defined (snd (mr_getRelevancy (Z.to_N i) r))
  | index k j => forall m cp, matcher_var s k m -> corpus_var s j cp -> defined (snd (mt_index E cp m))
  | match_ k (Utf8 t) => forall m r, matcher_var s k m -> before_nul t r -> defined (snd (mt_match_utf8 E r sp_new m))
  | _ => True
  end.
(** The encoding of a str is valid UTF-8. *)
Definition py_text (c : py_call) : Prop :=
  match c with Word_ (Utf8 t) | split_to_words (Utf8 t) | add_text _ _ (Utf8 t) | match_ _ (Utf8 t) => valid_utf8 t | _ => True end.
(** End prices are between 0 and 100: they are the only prices that are set by number. *)
Definition ends_ok (cs : list m_call) : Prop := forall v, In (MErr (SetEndDeletionError v)) cs -> (0 <= v <= 100)%Z.
(** The matcher's storage did not run out, its weights are good, its numbers not huge. *)
Definition py_calm (E : env) (cs : list m_call) (m : matcher) : Prop :=
  history E cs m /\ ends_ok cs /\ (forall f x, In (f, x) (weight_calls cs) -> good_weight x) /\ N.of_nat (length (occ cs)) + 1 < 9007199254740992.
(** What a statement after [prog] needs: no word of a list that moved, no None for a
    C string, no results added to themselves, words that are not huge, results without NaN,
    a matcher whose storage has not run out. *)
Definition py_prepared (E : env) (W : world) (prog : list (py_call * bool)) (s : py_state) (c : py_call) : Prop :=
  (forall k, In (k, CWord) (wants c) -> ~ stale s k) /\
  match c with
  | get_string k => forall w, word_var s k w -> short w
  | split_to_words t => t <> PyNone
  | add_results k j => k <> j
  | get_document_id k _ | get_relevancy k _ => forall r, results_var s k r -> exists view, shows r view
  | index k _ => forall m cs, matcher_var s k m -> py_history E W k prog py_start cs -> history E cs m
  | match_ k (Utf8 t) => forall m cs r q, matcher_var s k m -> py_history E W k prog py_start cs -> before_nul t r -> splitToWords E r = Ok q -> py_calm E cs m /\ moderate cs q
  | _ => True
  end.

(** ** Lifetimes *)
(** Object [k] is in use: a variable is bound to it, or an object in use points into it. *)
Inductive in_use (s : py_state) (k : nat) : Prop :=
| use_var : bound s k -> in_use s k
| use_ref j p : refers s j p k -> in_use s j -> in_use s k.
Definition exists_ (s : py_state) (k : nat) : Prop := exists x, nth_error (py_objs s) k = Some (Some x).
(** The object a statement may change: the one its method is called on, or the one that
    the reference points into.  Reading results sorts them. *)
Definition target (s : py_state) (c : py_call) (n : nat) : Prop :=
  match c with
  | add_word k _ => exists ws, list_var s k (LVal n) ws \/ exists f, list_var s k (LText n f) ws
  | add_text k _ _ | add_document k _ | add_results k _ | get_document_id k _ | get_relevancy k _ | index k _ | match_ k _ => k = n
  | add_standard_errors k | set_substring_mode k | set_end_deletion_error k _ | clear_errors k => exists e put, errors_var s k n e put
  | set_weight k _ _ => exists x put, weights_var s k n x put
  | _ => False
  end.

(** ** Prices *)
(** The standard errors were added, and not cleared since. *)
Definition standard_on (cs : list m_call) : bool :=
  fold_left (fun on c => match c with MErr (AddStandardErrors _ _) => true | MErr ClearErrors => false | _ => on end) cs false.
(** What replacing letter [a] by [b] costs in a Python program. *)
Definition python_price (cs : list m_call) (a b : N) : Z :=
  if standard_on cs then standard_price a b else if a =? b then 0%Z else 100%Z.
(** What is assumed of the C library, the locale and the data file (C61, C82). *)
Definition set_up (E : env) (W : world) : Prop := env_ok E /\ lower_ok E /\ folds_shipped E /\ shipped W.
