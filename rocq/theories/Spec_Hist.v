(** Vocabulary of the history properties of Trie and WordStore: what a client
    may insert, and how a history of calls is run. *)
From Verif Require Import Base TrieM.
Local Open Scope N_scope.
Local Open Scope m_scope.

(** A UTF-16 code unit other than NUL. *)
Definition nonnul (l : N) : Prop := 0 < l < 65536.

(** The second half of a surrogate pair. *)
Definition low_half (l : N) : bool := (56319 <? l) && (l <? 57344).

(** A word that may be inserted: non-empty, no NUL letter, not starting with a
    low surrogate (the assert of Trie.cc:174-176). *)
Definition insertable (w : word) : Prop :=
  w <> [] /\ Forall nonnul w /\ low_half (hd 0 w) = false.

(** A word some buffer handed to the public constructor Word(Letter*,size_t)
    (Word.cc:62-82) turns into. *)
Definition constructible (E : env) (w : word) : Prop :=
  exists buf, word_of_letters E buf = Ok w.

(** A client calling [insertWord(w,id)] for each pair of the list, in order,
    on one trie; it collects the returned offsets and stops at the first call
    that does not return normally. *)
Fixpoint insert_all (E : env) (ops : list (word * N)) : M trie (list N) :=
  match ops with
  | [] => ret []
  | (w, id) :: r =>
    off <- insertWord E w id ;;
    offs <- insert_all E r ;;
    ret (off :: offs)
  end.

Definition words_of (ops : list (word * N)) : list word := map fst ops.

Definition prefix_of (p w : word) : Prop := exists s, w = p ++ s.

(** Total number of letters passed to a history. *)
Definition letters_of (ops : list (word * N)) : N :=
  fold_right (fun op n => N.of_nat (length (fst op)) + n) 0 ops.

(** The same word was inserted under two ids. *)
Definition id_conflict (ops : list (word * N)) : Prop :=
  exists w i j, In (w, i) ops /\ In (w, j) ops /\ i <> j.

(** The growth steps the trie may ask for with [L] letters inserted are all
    granted. *)
Definition os_grants (E : env) (L : N) : Prop :=
  forall s, 1024 <= s <= 72 + 64 * L -> grow_ok E s = true.

(** ** WordStore *)
From Verif Require Import WordStoreM.

(** A client calling [getID(w)] for each word in order. *)
Fixpoint getID_all (E : env) (ws : list word) : M wstore (list N) :=
  match ws with
  | [] => ret []
  | w :: r =>
    id <- ws_getID E w ;;
    ids <- getID_all E r ;;
    ret (id :: ids)
  end.

(** Position of a word in a list. *)
Fixpoint position (w : word) (l : list word) : option nat :=
  match l with
  | [] => None
  | v :: r => if weqb w v then Some O
              else match position w r with Some i => Some (S i) | None => None end
  end.

(** Dense numbering by first request: a word requested before gets its old
    number, a new word the next unused one. *)
Fixpoint numbering (seen : list word) (ws : list word) : list nat :=
  match ws with
  | [] => []
  | w :: r => match position w seen with
              | Some i => i :: numbering seen r
              | None => length seen :: numbering (seen ++ [w]) r
              end
  end.

(** The distinct words in order of first request. *)
Fixpoint distinct (seen : list word) (ws : list word) : list word :=
  match ws with
  | [] => seen
  | w :: r => match position w seen with
              | Some _ => distinct seen r
              | None => distinct (seen ++ [w]) r
              end
  end.

Definition word_letters (ws : list word) : N :=
  fold_right (fun w n => N.of_nat (length w) + n) 0 ws.
