(** Running out of memory in a WordStore that is used alone: src/WordStore.cc.

    Simplified: the trie lives in a mapped file and allocates nothing else (C06 has the
    mapping), so [getID] has one allocation, that of push_back; where the vector has room
    left none is made, which is one that succeeds.  Lookups allocate nothing; the Word
    that getWord returns may run out of memory too, which changes nothing in the store and
    is left out. *)
From Verif Require Import Base TrieM WordStoreM FailM.
Local Open Scope N_scope.

(** The store, and for each allocation to come, whether it succeeds (all do after the
    end). *)
Record sstate := mkSO { so_store : wstore; so_plan : list bool }.

(** WordStore::getID, WordStore.cc:55-63; [Out] is std::bad_alloc. *)
Definition s_getID (E : env) (w : word) (st : sstate) : sstate * fres N :=
  let s := so_store st in
  match hasWord (ws_trie s) w with
  | Ok true => (st, as_res (let! n := findWord (ws_trie s) w in getWordID (ws_trie s) n))
  | Ok false =>
    let (t, o) := insertWord E w (u32 (N.of_nat (length (ws_index s)))) (ws_trie s) in
    match o with
    | Ok node =>
      match so_plan st with
      | false :: r => (mkSO (mkWS t (ws_index s)) r, Out)
      | p => let index := ws_index s ++ [node] in (mkSO (mkWS t index) (tl p), Val (u32 (N.of_nat (length index) - 1)))
      end
    | Throw x => (mkSO (mkWS t (ws_index s)) (so_plan st), Thrown x)
    | Abort => (st, Aborted)
    | UB => (st, Undefined)
    | Fuel => (st, NoFuel)
    end
  | Throw x => (st, Thrown x)
  | Abort => (st, Aborted)
  | UB => (st, Undefined)
  | Fuel => (st, NoFuel)
  end.
(** A client calling getID for each word in order, that catches std::bad_alloc and goes
    on; nothing comes after another end. *)
Fixpoint s_all (E : env) (ws : list word) (st : sstate) : sstate * list (fres N) :=
  match ws with
  | [] => (st, [])
  | w :: r =>
    match s_getID E w st with
    | (st1, Val id) => let (st2, os) := s_all E r st1 in (st2, Val id :: os)
    | (st1, Out) => let (st2, os) := s_all E r st1 in (st2, Out :: os)
    | (st1, o) => (st1, [o])
    end
  end.
