(** What a Trie takes from the operating system: src/Trie.cc once more, with the calls of
    tmpfile, fclose, mmap and munmap made visible.  The contents are those of TrieM.v;
    here are the open files and the mappings.

    Simplified: tmpfile and munmap of a whole mapping succeed, addresses are never used
    again, lengths are not rounded to pages; ftruncate and mmap are refused together
    ([grow_ok], TrieM.v); the memory of new and delete is not counted (OwnM.v does that). *)
From Verif Require Import Base TrieM.
Local Open Scope N_scope.
Local Open Scope m_scope.

(** The operating system's side: for every file made whether it is open, for every
    mapping made its length as long as it is mapped. *)
Record kernel := mkK { k_files : list bool; k_maps : list (option N) }.
(** struct TriePrivate, Trie.cc:67-72, with [f] and [map] this time. *)
Record rtrie := mkRT { rt_f : nat; rt_map : nat; rt_t : trie }.
(** What a method of Trie changes. *)
Definition rst := (kernel * rtrie)%type.

(** A part of a method that asks nothing of the operating system. *)
Definition in_trie {A} (m : M trie A) : M rst A := fun s =>
  let (t', o) := m (rt_t (snd s)) in ((fst s, mkRT (rt_f (snd s)) (rt_map (snd s)) t'), o).
(** munmap(p->map, len), Trie.cc:101; anything but a whole live mapping is undefined. *)
Definition r_munmap (len : N) : M rst unit := fun s =>
  match nth_error (k_maps (fst s)) (rt_map (snd s)) with
  | Some (Some l) =>
    if l =? len then ((mkK (k_files (fst s)) (upd (rt_map (snd s)) None (k_maps (fst s))), snd s), Ok tt)
    else (s, UB)
  | _ => (s, UB)
  end.
(** p->map = mmap(NULL, len, ...), Trie.cc:114-115. *)
Definition r_mmap (len : N) : M rst unit := fun s =>
  ((mkK (k_files (fst s)) (k_maps (fst s) ++ [Some len]),
    mkRT (rt_f (snd s)) (length (k_maps (fst s))) (rt_t (snd s))), Ok tt).

(** Reading and writing through p->map, as [rd] and [wr] of TrieM.v. *)
Definition r_rd (off : N) : M rst N := in_trie (reads (fun t => rd t off)).
(** A store through p->map, as in Trie.cc:129-167. *)
Definition r_wr (off v : N) : M rst unit := in_trie (wr off v).

(** Trie::expand, Trie.cc:96-127, on an existing mapping. *)
Definition r_expand (E : env) : M rst unit :=
  oldSize <- r_rd H_TOTAL ;;
  let newSize := u32 (oldSize * 2) in
  r_munmap oldSize ;;;
  if grow_ok E newSize then
    (r_mmap newSize ;;;
     in_trie (fun t => (mkTrie true newSize (t_mem t) (t_root t), Ok tt)) ;;;
     r_wr H_TOTAL newSize ;;;
     tot <- r_rd H_TOTAL ;;
     free <- r_rd H_FREE ;;
     massert E (free <? tot))
  else in_trie (fun t => (mkTrie false (t_len t) (t_mem t) (t_root t), Throw ERuntime)).

(** The while loop of Trie::append, Trie.cc:132-134. *)
Fixpoint r_grow_loop (E : env) (fuel : nat) (size : N) : M rst unit :=
  match fuel with
  | O => fun s => (s, Fuel)
  | S f =>
    free <- r_rd H_FREE ;;
    tot <- r_rd H_TOTAL ;;
    if tot <=? u32 (free + size)
    then (r_expand E ;;; r_grow_loop E f size)
    else ret tt
  end.

(** Trie::append, Trie.cc:129-140. *)
Definition r_append (E : env) (cells : list N) : M rst N :=
  let size := 4 * N.of_nat (length cells) in
  tot <- r_rd H_TOTAL ;;
  free <- r_rd H_FREE ;;
  massert E (free <? tot) ;;;
  r_grow_loop E 40 size ;;;
  free <- r_rd H_FREE ;;
  in_trie (wr_cells free cells) ;;;
  result <- r_rd H_FREE ;;
  r_wr H_FREE (u32 (result + size)) ;;;
  tot <- r_rd H_TOTAL ;;
  free <- r_rd H_FREE ;;
  massert E (free <? tot) ;;;
  ret result.

(** Trie::addNewNode, Trie.cc:142-153. *)
Definition r_addNewNode (E : env) (parent : N) : M rst N :=
  nodeoffset <- r_append E [INVALID_WORDID; parent] ;;
  r_append E [0; 0; 0] ;;;
  n <- r_rd H_NODES ;;
  r_wr H_NODES (u32 (n + 1)) ;;;
  ret nodeoffset.

(** Trie::addNewSibling, Trie.cc:155-167. *)
Definition r_addNewSibling (E : env) (node sibling l : N) : M rst N :=
  child <- r_addNewNode E node ;;
  newSibling <- r_append E [l; child; 0] ;;
  old <- r_rd (sibling + 8) ;;
  massert E (old =? 0) ;;;
  r_wr (sibling + 8) newSibling ;;;
  ret child.

(** The loop of Trie::insertWord, Trie.cc:179-197. *)
Fixpoint r_insert_loop (E : env) (node : N) (ls : list N) : M rst N :=
  match ls with
  | [] => ret node
  | l :: rest =>
    sibl <- in_trie (reads (fun t => find_sib (t_fuel t) t l (u32 (node + SZ_NODE)))) ;;
    lt <- in_trie (reads (fun t => rd_l t sibl)) ;;
    if lt =? l then
      (child <- r_rd (sibl + 4) ;;
       r_insert_loop E child rest)
    else
      (child <- r_addNewSibling E node sibl l ;;
       r_insert_loop E child rest)
  end.

(** Trie::insertWord, Trie.cc:169-210. *)
Definition r_insertWord (E : env) (w : word) (wordID : N) : M rst N :=
  match w with
  | [] => mthrow EOutOfRange
  | lw :: _ =>
    massert E (negb (is_surrogate lw && negb (is_high lw))) ;;;
    root <- in_trie (reads (fun t => Ok (t_root t))) ;;
    node <- r_insert_loop E root w ;;
    cur <- r_rd node ;;
    (if cur =? INVALID_WORDID then
       (r_wr node wordID ;;;
        n <- r_rd H_WORDS ;;
        r_wr H_WORDS (u32 (n + 1)))
     else ret tt) ;;;
    cur <- r_rd node ;;
    massert E (cur =? wordID) ;;;
    ret node
  end.

(** ** Programs *)

(** A program holds tries, numbered as they are made. *)
Inductive t_call :=
| TNew                                  (* t = new Trie            *)
| TInsert (i : nat) (w : word) (id : N) (* t_i->insertWord(w, id)  *)
| TDelete (i : nat).                    (* delete t_i              *)
(** The operating system and the tries; a destroyed one is None. *)
Record sys := mkSys { s_k : kernel; s_tries : list (option rtrie) }.
(** When the program starts. *)
Definition sys0 : sys := mkSys (mkK [] []) [].

(** What the constructor does after the first mmap, Trie.cc:122-126 and 83-87. *)
Definition r_first (E : env) : M rst N :=
  tot <- r_rd H_TOTAL ;;
  free <- r_rd H_FREE ;;
  massert E (free <? tot) ;;;
  r_wr H_FREE SZ_HEADER ;;;
  root <- r_rd H_FREE ;;
  in_trie (fun t => (mkTrie (t_mapped t) (t_len t) (t_mem t) root, Ok tt)) ;;;
  r_wr H_WORDS 0 ;;;
  r_addNewNode E 0.
(** Trie::Trie, Trie.cc:74-88: tmpfile, then the first expand; if that is refused the
    exception leaves the constructor with the file open.  Nothing destroys what is there
    if it leaves later. *)
Definition t_new (E : env) : M sys unit := fun s =>
  let f := length (k_files (s_k s)) in
  let a := length (k_maps (s_k s)) in
  let files := k_files (s_k s) ++ [true] in
  if grow_ok E 1024 then
    let t0 := mkTrie true 1024 (fun o => if o =? H_TOTAL then 1024 else 0) 0 in
    match r_first E (mkK files (k_maps (s_k s) ++ [Some 1024]), mkRT f a t0) with
    | ((k', rt), Ok _) => (mkSys k' (s_tries s ++ [Some rt]), Ok tt)
    | ((k', _), Throw e) => (mkSys k' (s_tries s), Throw e)
    | ((k', _), Abort) => (mkSys k' (s_tries s), Abort)
    | ((k', _), UB) => (mkSys k' (s_tries s), UB)
    | ((k', _), Fuel) => (mkSys k' (s_tries s), Fuel)
    end
  else (mkSys (mkK files (k_maps (s_k s))) (s_tries s), Throw ERuntime).
(** A call of insertWord on a trie of the program. *)
Definition t_insert (E : env) (i : nat) (w : word) (id : N) : M sys unit := fun s =>
  match nth_error (s_tries s) i with
  | Some (Some rt) =>
    match r_insertWord E w id (s_k s, rt) with
    | ((k', rt'), o) => (mkSys k' (upd i (Some rt') (s_tries s)), let! _ := o in Ok tt)
    end
  | _ => (s, UB)
  end.
(** Trie::~Trie, Trie.cc:90-93: fclose, and nothing for the mapping. *)
Definition t_delete (i : nat) : M sys unit := fun s =>
  match nth_error (s_tries s) i with
  | Some (Some rt) =>
    (mkSys (mkK (upd (rt_f rt) false (k_files (s_k s))) (k_maps (s_k s))) (upd i None (s_tries s)), Ok tt)
  | _ => (s, UB)
  end.
(** One call. *)
Definition t_step (E : env) (c : t_call) : M sys unit :=
  match c with
  | TNew => t_new E
  | TInsert i w id => t_insert E i w id
  | TDelete i => t_delete i
  end.
(** A program that catches the exceptions of its calls and goes on. *)
Fixpoint t_run (E : env) (cs : list t_call) : M sys unit := fun s =>
  match cs with
  | [] => (s, Ok tt)
  | c :: r =>
    match t_step E c s with
    | (s', Ok _) => t_run E r s'
    | (s', Throw _) => t_run E r s'
    | (s', Abort) => (s', Abort)
    | (s', UB) => (s', UB)
    | (s', Fuel) => (s', Fuel)
    end
  end.
