(** Independent vocabulary for the Matcher properties. *)
From Verif Require Import Base TrieM WordStoreM ErrorValuesM LevIndexM WordM MapM DoubleM ContM MatcherM
  Spec_Hist Spec_EV Spec_Edit Spec_Lev Spec_Word Spec_Cont.
Local Open Scope N_scope.
Local Open Scope m_scope.

(** ** Histories of calls on one Matcher *)
Inductive m_call :=
| MIndex (c : corpus)                      (* index(c)                               *)
| MErr (c : ev_call)                       (* getErrorValues().c                     *)
| MWeight (f : word) (x : double)          (* getIndexWeights().setWeight(f, x)      *)
| MMatch (q : wordlist) (p : sparams)      (* match(q, p)                            *)
| MOnline (q : wordlist) (f : word).       (* onlineMatch(q, f)                      *)
Definition m_do (E : env) (c : m_call) : M matcher unit :=
  match c with
  | MIndex c => mt_index E c
  | MErr c => on_ev (ev_do c)
  | MWeight f x => set_w (iw_setWeight f x)
  | MMatch q p => mt_match E q p ;;; ret tt
  | MOnline q f => mt_onlineMatch E q f ;;; ret tt
  end.
(** Running out of storage leaves the matcher unusable (C68); the client catches every
    other exception and goes on. *)
Definition fatal (c : m_call) (o : outcome unit) : bool :=
  match o, c with
  | Ok _, _ => false
  | Throw ERuntime, MErr _ => false
  | Throw ERuntime, _ => true
  | Throw _, _ => false
  | _, _ => true
  end.
Fixpoint m_run (E : env) (calls : list m_call) : M matcher unit :=
  match calls with
  | [] => ret tt
  | c :: r => fun m => let (m', o) := m_do E c m in if fatal c o then (m', o) else m_run E r m'
  end.
(** [m] is the state of a matcher after these calls. *)
Definition history (E : env) (calls : list m_call) (m : matcher) : Prop :=
  exists m0, mt_new E = Ok m0 /\ m_run E calls m0 = (m, Ok tt).

(** What the calls say about prices and weights. *)
Definition prices_after (calls : list m_call) : errvals :=
  ev_after (flat_map (fun c => match c with MErr c => [c] | _ => [] end) calls).
Definition weight_calls (calls : list m_call) : list (word * double) :=
  flat_map (fun c => match c with MWeight f x => [(f, x)] | _ => [] end) calls.
Definition weight_after (calls : list m_call) (f : word) : double :=
  match last_for (weight_calls calls) f with Some x => x | None => d_of_Z 1 end.

(** ** What was indexed *)
(** A matcher is told field names with the length of their text, words, and (by
    filters) names it only has to remember. *)
Inductive step := SField (d : N) (f : word) (len : N) | SWord (d : N) (f w : word) | SName (w : word).
Definition said (s : step) : word := match s with SField _ f _ => f | SWord _ _ w => w | SName w => w end.
(** The fields of a document in Word order, and their words. *)
Definition plan_doc (d : document) : list step :=
  flat_map (fun f => match doc_getText d f with
                     | Ok t => SField (doc_getID d) f (N.of_nat (length t)) :: map (SWord (doc_getID d) f) t
                     | _ => []
                     end) (fst (doc_getFieldNames d [])).
(** Indexing stops at an empty word. *)
Fixpoint told (l : list step) : list step :=
  match l with
  | [] => []
  | s :: r => match said s with [] => [] | _ => s :: told r end
  end.
Definition indexed (calls : list m_call) : list step :=
  flat_map (fun c => match c with MIndex c => told (flat_map plan_doc c) | _ => [] end) calls.
(** Nothing in the corpus is empty, so indexing does not stop. *)
Definition whole (c : m_call) : Prop :=
  match c with MIndex c => Forall (fun s => said s <> []) (flat_map plan_doc c) | _ => True end.
(** All documents, in order. *)
Definition corpora (calls : list m_call) : list document :=
  flat_map (fun c => match c with MIndex c => c | _ => [] end) calls.
(** (document, field, word): the word occurs in that field of that document. *)
Definition occs (l : list step) : list (N * word * word) :=
  flat_map (fun s => match s with SWord d f w => [(d, f, w)] | _ => [] end) l.
Definition occ (calls : list m_call) : list (N * word * word) := occs (indexed calls).
Definition field_words (o : list (N * word * word)) (f : word) : list word :=
  map snd (filter (fun x => weqb (snd (fst x)) f) o).
(** How often a word was indexed in a field, and the most any word was. *)
Definition count_in (o : list (N * word * word)) (f w : word) : N := occurrences w (field_words o f).
Definition max_in (o : list (N * word * word)) (f : word) : N :=
  fold_right (fun w n => N.max (count_in o f w) n) 0 (field_words o f).
(** The length of the text last given for a field of a document. *)
Fixpoint last_size (l : list step) (d : N) (f : word) (acc : option N) : option N :=
  match l with
  | [] => acc
  | SField d' f' n :: r => last_size r d f (if (d' =? d) && weqb f' f then Some n else acc)
  | _ :: r => last_size r d f acc
  end.

(** What may be given to a matcher: documents made with addText, whose names and words
    are insertable or empty; the same for the words of filters. *)
Definition usable (w : word) : Prop := w = [] \/ insertable w.
Definition doc_ok (d : document) : Prop := exists id calls, d = add_texts id calls.
Definition clean (c : m_call) : Prop :=
  match c with
  | MIndex c => Forall doc_ok c /\ Forall (fun s => usable (said s)) (flat_map plan_doc c)
  | MMatch _ p => Forall (Forall (fun s => usable (fst s) /\ usable (snd s))) (sp_filter p)
  | MOnline q f => Forall (Forall nonnul) q /\ Forall nonnul f
  | _ => True
  end.

(** ** What a query finds *)
(** The limit for one query word. *)
Definition limit (p : sparams) (w : word) : Z :=
  if sp_dynamic p && Nat.ltb (length w) 2 then 100 else 200.
Definition near (e : errvals) (p : sparams) (qw w : word) (err : Z) : Prop :=
  min_cost (prices_of e (length qw)) qw w err /\ (err <= limit p qw)%Z.
(** The same, and so for every beginning of the word: see Spec_Lev. *)
Definition reached (e : errvals) (p : sparams) (qw w : word) (err : Z) : Prop :=
  near e p qw w err /\ begins_near (prices_of e (length qw)) qw w (limit p qw).
(** The least error of a word over the query words. *)
Definition least (R : word -> word -> Z -> Prop) (q : list word) (w : word) (err : Z) : Prop :=
  (exists qw, In qw q /\ R qw w err) /\ (forall qw err', In qw q -> R qw w err' -> (err <= err')%Z).
Definition searching (p : sparams) (f : word) : Prop := sp_isNonsearchingField p f = false.
(** The part of the relevancy that one word of one field contributes. *)
Definition contribution (o : list (N * word * word)) (wt : word -> double) (x : word * word * Z) : double :=
  let '(f, w, err) := x in
  d_mul (d_mul (d_div (d_of_Z 100) (d_add (d_of_Z 100) (d_of_Z err)))
               (d_sub (d_of_Z 1) (d_div (d_of_Z (Z.of_N (count_in o f w))) (d_of_Z (Z.of_N (max_in o f + 1))))))
        (wt f).
(** Comes earlier: by the place of the field, then by the place of the word. *)
Definition earlier (order : list word) (x y : word * word * Z) : Prop :=
  exists i i' j j', position (fst (fst x)) order = Some i /\ position (fst (fst y)) order = Some i' /\
    position (snd (fst x)) order = Some j /\ position (snd (fst y)) order = Some j' /\
    (i < i' \/ i = i' /\ j < j')%nat.
(** All that document [d] has to offer, in order. *)
Definition parts (o : list (N * word * word)) (order : list word) (R : word -> word -> Z -> Prop) (q : list word) (p : sparams)
    (d : N) (xs : list (word * word * Z)) : Prop :=
  StronglySorted (earlier order) xs /\
  forall f w err, In (f, w, err) xs <-> In (d, f, w) o /\ searching p f /\ least R q w err.
(** The relevancy of document [d]: the sum, from left to right. *)
Definition scored (o : list (N * word * word)) (order : list word) (R : word -> word -> Z -> Prop) (q : list word) (p : sparams)
    (wt : word -> double) (d : N) (r : double) : Prop :=
  exists x xs, parts o order R q p d (x :: xs) /\
    r = fold_left (fun s y => d_add s (contribution o wt y)) xs (contribution o wt x).
(** The same document, or call, without the fields that are not searched. *)
Definition stripped_doc (p : sparams) (d d' : document) : Prop :=
  exists id cs, d = add_texts id cs /\ d' = add_texts id (filter (fun x => negb (sp_isNonsearchingField p (fst x))) cs).
Definition stripped (p : sparams) (c c' : m_call) : Prop :=
  match c, c' with
  | MIndex a, MIndex b => Forall2 (stripped_doc p) a b
  | MIndex _, _ | _, MIndex _ => False
  | _, _ => c = c'
  end.
Definition is_query (c : m_call) : Prop := match c with MMatch _ _ | MOnline _ _ => True | _ => False end.
(** A filter term holds for a document. *)
Definition term_holds (o : list (N * word * word)) (d : N) (t : list (word * word)) : Prop :=
  Forall (fun s => In (d, fst s, snd s) o) t.
Definition filter_holds (o : list (N * word * word)) (f : rfilter) (d : N) : Prop :=
  exists t, In t f /\ term_holds o d t.
Definition unfiltered (p : sparams) : Prop := In [] (sp_filter p).

(** A sum taken from left to right. *)
Definition total (xs : list double) : double :=
  match xs with [] => S754_zero false | x :: r => fold_left d_add r x end.

(** ** onlineMatch *)
(** How many of the query words occur in field [f] of document [d]. *)
Definition exact_count (o : list (N * word * word)) (f : word) (q : list word) (d : N) : N :=
  N.of_nat (length (filter (fun w => existsb (fun x => (fst (fst x) =? d) && weqb (snd (fst x)) f && weqb (snd x) w) o) q)).
(** Two points for each, a hundred more if they are all words of the query and as many
    as the text has. *)
Definition exact_part (size : option N) (qsize n : N) : double :=
  if n =? 0 then S754_zero false
  else if (n =? qsize) && (match size with Some k => n =? k | None => false end)
  then d_add (d_of_Z (Z.of_N (2 * n))) (d_of_Z 100) else d_of_Z (Z.of_N (2 * n)).
Definition online_scored (calls : list m_call) (order : list word) (R : word -> word -> Z -> Prop) (q : list word) (f : word) (d : N) (x : double) : Prop :=
  let n := exact_count (occ calls) f q d in
  let part := exact_part (last_size (indexed calls) d f None) (N.of_nat (length q)) n in
  (exists y, scored (occ calls) order R q sp_new (weight_after calls) d y /\ x = d_add part y) \/
  ((forall y, ~ scored (occ calls) order R q sp_new (weight_after calls) d y) /\ n <> 0 /\ x = part).

(** What the client sees of a MatchResults object. *)
Definition shows (r : mresults) (view : list (double * N)) : Prop :=
  mr_size r = N.of_nat (length view) /\
  forall k, exists r',
    mr_getDocumentID k r = (r', match nth_error view (N.to_nat k) with Some x => Ok (snd x) | None => Throw EOutOfRange end) /\
    mr_getRelevancy k r = (r', match nth_error view (N.to_nat k) with Some x => Ok (fst x) | None => Throw EOutOfRange end).
(** Best first, equals by document id, each document once. *)
Definition ranked (view : list (double * N)) : Prop :=
  StronglySorted (fun a b => d_lt (fst b) (fst a) = true \/
                             (d_lt (fst a) (fst b) = false /\ d_lt (fst b) (fst a) = false /\ snd a < snd b)) view.

(** ** When a search can be relied on *)
(** A double that may serve as a weight: finite and not negative. *)
Definition good_weight (x : double) : Prop :=
  match x with S754_zero _ => True | S754_finite false _ _ => True | _ => False end.
Record sound_setup (E : env) (calls : list m_call) : Prop := {
  ss_env : env_ok E;
  ss_clean : Forall clean calls;
  ss_prices : nonneg (prices_after calls);
  ss_equal : e_ndebug E = true \/ getInsertionError (prices_after calls) = getDeletionError (prices_after calls);
  ss_weights : forall f x, In (f, x) (weight_calls calls) -> good_weight x;
  ss_fields : forall d f w, In (d, f, w) (occ calls) -> constructible E f;
  ss_counts : N.of_nat (length (occ calls)) + 1 < 9007199254740992   (* 2^53 *)
}.
Record sound_query (calls : list m_call) (q : list word) : Prop := {
  sq_letters : Forall (Forall nonnul) q;
  sq_fits : Forall (fits (prices_after calls) (map (fun x => (snd x, 0)) (occ calls))) q
}.
(** Every search of the history, at the time it is made, can be relied on. *)
Definition sound_history (E : env) (calls : list m_call) : Prop :=
  forall pre c post, calls = pre ++ c :: post -> clean c /\
    match c with MMatch q _ | MOnline q _ => sound_setup E pre /\ sound_query pre q | _ => True end.
(** The same machine with another std::sort and other hash tables. *)
Definition reorder (E : env) (sort : list (N * Z) -> list (N * Z)) (order : list N -> list N -> list N) : env :=
  mkEnv (e_ndebug E) (e_os E) sort order (e_lower E) (e_rtl E).
(** What a call may come to.  Running out of storage is the only failure that is not
    announced by the arguments. *)
Definition expected (c : m_call) (o : outcome unit) : Prop :=
  match c with
  | MIndex cp => o = Ok tt \/ o = Throw ERuntime \/ (o = Throw EOutOfRange /\ Exists (fun s => said s = []) (flat_map plan_doc cp))
  | MErr _ => o = Ok tt \/ o = Throw ERuntime
  | MWeight _ _ => o = Ok tt
  | MMatch _ p => o = Ok tt \/ (o = Throw ERuntime /\ Exists (fun t => t <> []) (sp_filter p)) \/
                  (o = Throw EOutOfRange /\ Exists (Exists (fun s => fst s = [] \/ snd s = [])) (sp_filter p))
  | MOnline _ f => o = Ok tt \/ o = Throw EInvalidArg \/ (o = Throw ERuntime /\ ~ well_formed f)
  end.
(** The message of the exception for an unknown field holds its name. *)
Definition nameable (c : m_call) : Prop :=
  match c with MOnline _ f => Forall (fun l => l < 65536) f /\ short f | _ => True end.

(** ** Typing errors *)
(** One letter replaced, added or left out. *)
Inductive typo : word -> word -> Prop :=
| ty_replace u a b v : typo (u ++ a :: v) (u ++ b :: v)
| ty_add u a v : typo (u ++ v) (u ++ a :: v)
| ty_leave u a v : typo (u ++ a :: v) (u ++ v).
(** Two adjacent letters swapped. *)
Definition swapped (w w' : word) : Prop := exists u a b v, w = u ++ a :: b :: v /\ w' = u ++ b :: a :: v.
(** The price calls of a history. *)
Definition price_calls (calls : list m_call) : list ev_call :=
  flat_map (fun c => match c with MErr c => [c] | _ => [] end) calls.
(** No letter was given a price against itself. *)
Definition no_self_price (cs : list ev_call) : Prop := forall a v, ~ In (SetError a a v) cs.

(** The word was used by the filter of an earlier match. *)
Definition in_filter (calls : list m_call) (w : word) : Prop :=
  exists q p t s, In (MMatch q p) calls /\ In t (sp_filter p) /\ In s t /\ (w = fst s \/ w = snd s).
(** The calls that are not searches. *)
Definition is_search (c : m_call) : bool := match c with MMatch _ _ | MOnline _ _ => true | _ => false end.
Definition setup_calls (calls : list m_call) : list m_call := filter (fun c => negb (is_search c)) calls.
(** What onlineMatch adds for the exact words: two points for each word of the query that
    the text has, and a hundred more if the query is the text up to the order of its words. *)
Definition exact_bonus (q t : list word) (x : double) : Prop :=
  let two_each := d_of_Z (2 * Z.of_nat (length (filter (fun w => existsb (weqb w) t) q))) in
  (Permutation q t /\ x = d_add two_each (d_of_Z 100)) \/ (~ Permutation q t /\ x = two_each).
(** When the hundred is in fact given: every word of the query is a word of the text, and
    the query has as many words as the text. *)
Definition given_bonus (q t : list word) (x : double) : Prop :=
  let two_each := d_of_Z (2 * Z.of_nat (length (filter (fun w => existsb (weqb w) t) q))) in
  let given := incl q t /\ length q = length t in
  (given /\ x = d_add two_each (d_of_Z 100)) \/ (~ given /\ x = two_each).

(** ** Comparing relevancies *)
(** A spec_float that is the value of some double (an exponent and mantissa that fit). *)
Definition is_double (x : double) : Prop := SpecFloat.valid_binary 53 1024 x = true.
Definition finite (x : double) : Prop := match x with S754_zero _ | S754_finite _ _ _ => True | _ => False end.
(** The first relevancy is not below the second. *)
Definition at_least (x y : double) : Prop := x <> S754_nan /\ y <> S754_nan /\ d_lt x y = false.
(** The weights given were doubles. *)
Definition real_weights (calls : list m_call) : Prop := forall f x, In (f, x) (weight_calls calls) -> is_double x.
(** Of document [d] the query finds word [w] of field [f], with error [err], and nothing else. *)
Definition only_hit (o : list (N * word * word)) (R : word -> word -> Z -> Prop) (q : list word) (p : sparams) (d : N) (f w : word) (err : Z) : Prop :=
  In (d, f, w) o /\ searching p f /\ least R q w err /\
  forall f' w' qw err', In (d, f', w') o -> searching p f' -> In qw q -> R qw w' err' -> f' = f /\ w' = w.
(** The double next to a millionth. *)
Definition millionth : double := d_div (d_of_Z 1) (d_of_Z 1000000).
