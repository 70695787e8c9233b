(** Model of src/WordStore.cc. *)
From Verif Require Import Base TrieM.
Local Open Scope N_scope.
Local Open Scope m_scope.

(** struct WordStorePrivate, WordStore.cc:41-44. *)
Record wstore := mkWS { ws_trie : trie; ws_index : list N }.

(** WordStore::WordStore, WordStore.cc:46-49. *)
Definition ws_new (E : env) : outcome wstore :=
  let! t := trie_new E in Ok (mkWS t []).

(** A trie operation run on the member [words]. *)
Definition on_trie {A} (m : M trie A) : M wstore A := fun s =>
  let (t', r) := m (ws_trie s) in (mkWS t' (ws_index s), r).

(** WordStore::getID, WordStore.cc:55-63.  The conversion of the vector size to
    the 32-bit WordID is explicit. *)
Definition ws_getID (E : env) (w : word) : M wstore N :=
  has <- reads (fun s => hasWord (ws_trie s) w) ;;
  if has then
    reads (fun s => let! n := findWord (ws_trie s) w in getWordID (ws_trie s) n)
  else
    (n <- reads (fun s => Ok (u32 (N.of_nat (length (ws_index s))))) ;;
     node <- on_trie (insertWord E w n) ;;
     (fun s => (mkWS (ws_trie s) (ws_index s ++ [node]), Ok tt)) ;;;
     reads (fun s => Ok (u32 (N.of_nat (length (ws_index s)) - 1)))).

(** WordStore::hasWord(const Word&), WordStore.cc:65-67. *)
Definition ws_hasWord (s : wstore) (w : word) : outcome bool := hasWord (ws_trie s) w.

(** WordStore::hasWord(WordID), WordStore.cc:76-78. *)
Definition ws_hasID (s : wstore) (id : N) : bool := id <? N.of_nat (length (ws_index s)).

(** WordStore::getWord, WordStore.cc:69-74. *)
Definition ws_getWord (E : env) (s : wstore) (id : N) : outcome word :=
  if negb (ws_hasID s id) then Throw EOutOfRange else
  match nth_error (ws_index s) (N.to_nat id) with
  | Some off => getWord E (ws_trie s) off
  | None => UB
  end.
