(** Model of src/Trie.cc: a letter trie stored in a memory-mapped file,
    addressed by 32-bit byte offsets.  Memory is modelled as 4-byte cells. *)
From Verif Require Import Base.
Local Open Scope N_scope.
Local Open Scope m_scope.

(** struct TriePrivate, Trie.cc:67-72.  [t_mapped] says whether [p->map]
    currently points to a mapping; [t_len] is the mapped length; [t_mem off] is
    the little-endian 32-bit value at byte offset [off] (offsets divisible by 4;
    a fresh file reads as zero).  [FILE *f] is not represented. *)
Record trie := mkTrie {
  t_mapped : bool;
  t_len : N;
  t_mem : N -> N;
  t_root : N
}.

(** Struct layouts (Trie.cc:49-65) on LP64:
    TrieHeader {totalSize@0, firstFree@4, numWords@8, numNodes@12}, 16 bytes;
    TriePtrs {l@0 (2 bytes + padding), child@4, sibling@8}, 12 bytes;
    TrieNode {word@0, parent@4}, 8 bytes. *)
Definition H_TOTAL := 0.
(** Place of TrieHeader::firstFree, Trie.cc:49-54. *)
Definition H_FREE := 4.
(** Place of TrieHeader::numWords, Trie.cc:49-54. *)
Definition H_WORDS := 8.
(** Place of TrieHeader::numNodes, Trie.cc:49-54. *)
Definition H_NODES := 12.
(** sizeof(TrieHeader), Trie.cc:49-54. *)
Definition SZ_HEADER := 16.
(** sizeof(TrieNode), Trie.cc:62-65. *)
Definition SZ_NODE := 8.
(** sizeof(TriePtrs), Trie.cc:56-60. *)
Definition SZ_PTRS := 12.

(** Any dereference of [p->map + off] as a 32-bit field. *)
Definition rd (t : trie) (off : N) : outcome N :=
  if t_mapped t && (off mod 4 =? 0) && (off + 4 <=? t_len t)
  then Ok (t_mem t off) else UB.

(** A store through p->map, as in Trie.cc:129-167. *)
Definition wr (off v : N) : M trie unit := fun t =>
  if t_mapped t && (off mod 4 =? 0) && (off + 4 <=? t_len t)
  then (mkTrie (t_mapped t) (t_len t)
          (fun o => if o =? off then v else t_mem t o) (t_root t), Ok tt)
  else (t, UB).

(** Field [l] of the TriePtrs at [p->map+off]: the low 16 bits of the first cell. *)
Definition rd_l (t : trie) (off : N) : outcome N :=
  let! c := rd t off in Ok (c mod 65536).

(** Do ftruncate and mmap succeed for this size?  mmap of length 0 always
    fails with EINVAL. *)
Definition grow_ok (E : env) (size : N) : bool := (0 <? size) && e_os E size.

(** Trie::expand, Trie.cc:96-127, on an existing mapping (the initial call with
    [p->map == nullptr] is folded into [trie_new]).  munmap of a valid mapping
    is assumed to succeed.  After a failing ftruncate or mmap the old mapping is
    gone: [t_mapped] is false and any later access is [UB]. *)
Definition expand (E : env) : M trie unit :=
  oldSize <- reads (fun t => rd t H_TOTAL) ;;
  fun t =>
  let newSize := u32 (oldSize * 2) in
  if grow_ok E newSize then
    (wr H_TOTAL newSize ;;;
     tot <- reads (fun t => rd t H_TOTAL) ;;
     free <- reads (fun t => rd t H_FREE) ;;
     massert E (free <? tot)) (mkTrie true newSize (t_mem t) (t_root t))
  else (mkTrie false (t_len t) (t_mem t) (t_root t), Throw ERuntime).

(** The while loop of Trie::append, Trie.cc:132-134.  The comparison is on
    uint32_t, hence the wrap. *)
Fixpoint grow_loop (E : env) (fuel : nat) (size : N) : M trie unit :=
  match fuel with
  | O => fun t => (t, Fuel)
  | S f =>
    free <- reads (fun t => rd t H_FREE) ;;
    tot <- reads (fun t => rd t H_TOTAL) ;;
    if tot <=? u32 (free + size)
    then (expand E ;;; grow_loop E f size)
    else ret tt
  end.

(** memcpy of a struct given as its 32-bit cells (Trie.cc:135). *)
Fixpoint wr_cells (off : N) (cells : list N) : M trie unit :=
  match cells with
  | [] => ret tt
  | c :: r => wr off c ;;; wr_cells (off + 4) r
  end.

(** Trie::append, Trie.cc:129-140.  [cells] are the data, size = 4 * #cells. *)
Definition append (E : env) (cells : list N) : M trie N :=
  let size := 4 * N.of_nat (length cells) in
  tot <- reads (fun t => rd t H_TOTAL) ;;
  free <- reads (fun t => rd t H_FREE) ;;
  massert E (free <? tot) ;;;
  grow_loop E 40 size ;;;
  free <- reads (fun t => rd t H_FREE) ;;
  wr_cells free cells ;;;
  result <- reads (fun t => rd t H_FREE) ;;
  wr H_FREE (u32 (result + size)) ;;;
  tot <- reads (fun t => rd t H_TOTAL) ;;
  free <- reads (fun t => rd t H_FREE) ;;
  massert E (free <? tot) ;;;
  ret result.

(** Trie::addNewNode, Trie.cc:142-153. *)
Definition addNewNode (E : env) (parent : N) : M trie N :=
  nodeoffset <- append E [INVALID_WORDID; parent] ;;
  append E [0; 0; 0] ;;;
  n <- reads (fun t => rd t H_NODES) ;;
  wr H_NODES (u32 (n + 1)) ;;;
  ret nodeoffset.

(** Trie::addNewSibling, Trie.cc:155-167. *)
Definition addNewSibling (E : env) (node sibling l : N) : M trie N :=
  child <- addNewNode E node ;;
  newSibling <- append E [l; child; 0] ;;
  old <- reads (fun t => rd t (sibling + 8)) ;;
  massert E (old =? 0) ;;;
  wr (sibling + 8) newSibling ;;;
  ret child.

(** The sibling walk shared by insertWord (Trie.cc:186-189) and findWord
    (Trie.cc:229-232): follow [sibling] until it is 0 or the letter matches. *)
Fixpoint find_sib (fuel : nat) (t : trie) (l sibl : N) : outcome N :=
  match fuel with
  | O => Fuel
  | S f =>
    let! s := rd t (sibl + 8) in
    if s =? 0 then Ok sibl else
    let! lt := rd_l t sibl in
    if lt =? l then Ok sibl else find_sib f t l s
  end.

(** Loop bound for walks over the trie: number of nodes in the header. *)
Definition t_fuel (t : trie) : nat := S (S (N.to_nat (t_mem t H_NODES))).

(** High surrogate, the test of Word.cc:168-200. *)
Definition is_high (l : N) : bool := (55295 <? l) && (l <? 56320).
(** Low surrogate, the test of Word.cc:168-200. *)
Definition is_low (l : N) : bool := (56319 <? l) && (l <? 57344).
(** Any surrogate, the test of Word.cc:168-200. *)
Definition is_surrogate (l : N) : bool := is_high l || is_low l.

(** The loop of Trie::insertWord, Trie.cc:179-197, from node [node] over the
    letters that remain. *)
Fixpoint insert_loop (E : env) (node : N) (ls : list N) : M trie N :=
  match ls with
  | [] => ret node
  | l :: rest =>
    sibl <- reads (fun t => find_sib (t_fuel t) t l (u32 (node + SZ_NODE))) ;;
    lt <- reads (fun t => rd_l t sibl) ;;
    if lt =? l then
      (child <- reads (fun t => rd t (sibl + 4)) ;;
       insert_loop E child rest)
    else
      (child <- addNewSibling E node sibl l ;;
       insert_loop E child rest)
  end.

(** Trie::insertWord, Trie.cc:169-210.  [word[0]] is bounds checked and throws
    out_of_range for the empty word (Word.cc:124-134). *)
Definition insertWord (E : env) (w : word) (wordID : N) : M trie N :=
  match w with
  | [] => mthrow EOutOfRange
  | lw :: _ =>
    massert E (negb (is_surrogate lw && negb (is_high lw))) ;;;
    root <- reads (fun t => Ok (t_root t)) ;;
    node <- insert_loop E root w ;;
    cur <- reads (fun t => rd t node) ;;
    (if cur =? INVALID_WORDID then
       (wr node wordID ;;;
        n <- reads (fun t => rd t H_WORDS) ;;
        wr H_WORDS (u32 (n + 1)))
     else ret tt) ;;;
    cur <- reads (fun t => rd t node) ;;
    massert E (cur =? wordID) ;;;
    ret node
  end.

(** Trie::findWord, Trie.cc:222-239. *)
Fixpoint find_loop (t : trie) (node : N) (ls : list N) : outcome N :=
  match ls with
  | [] => Ok node
  | l :: rest =>
    let! sibl := find_sib (t_fuel t) t l (u32 (node + SZ_NODE)) in
    let! lt := rd_l t sibl in
    if lt =? l then (let! child := rd t (sibl + 4) in find_loop t child rest)
    else Ok 0
  end.
(** Trie::findWord, Trie.cc:222-239. *)
Definition findWord (t : trie) (w : word) : outcome N := find_loop t (t_root t) w.

(** Trie::hasWord, Trie.cc:212-220. *)
Definition hasWord (t : trie) (w : word) : outcome bool :=
  let! node := findWord t w in
  if node =? 0 then Ok false else
  let! id := rd t node in Ok (negb (id =? INVALID_WORDID)).

(** Getters, Trie.cc:241-288. *)
Definition getRoot (t : trie) : N := t_root t.
(** Trie::getSiblingList, Trie.cc:246-250. *)
Definition getSiblingList (t : trie) (node : N) : outcome N := rd t (node + SZ_NODE + 8).
(** Trie::getNextSibling, Trie.cc:252-255. *)
Definition getNextSibling (t : trie) (sibling : N) : outcome N := rd t (sibling + 8).
(** Trie::getLetter, Trie.cc:257-260. *)
Definition getLetter (t : trie) (sibling : N) : outcome N := rd_l t sibling.
(** Trie::getChild, Trie.cc:262-265. *)
Definition getChild (t : trie) (sibling : N) : outcome N := rd t (sibling + 4).
(** Trie::getWordID, Trie.cc:267-270. *)
Definition getWordID (t : trie) (node : N) : outcome N := rd t node.
(** Trie::hasSibling, Trie.cc:272-275. *)
Definition hasSibling (t : trie) (sibling : N) : outcome bool :=
  let! s := rd t (sibling + 8) in Ok (negb (s =? 0)).
(** Trie::numWords, Trie.cc:277-279. *)
Definition numWords (t : trie) : outcome N := rd t H_WORDS.
(** Trie::numNodes, Trie.cc:281-283. *)
Definition numNodes (t : trie) : outcome N := rd t H_NODES.
(** Trie::getParent, Trie.cc:285-288. *)
Definition getParent (t : trie) (node : N) : outcome N := rd t (node + 4).

(** Trie::getSiblingTo, Trie.cc:290-298. *)
Fixpoint sibling_to (fuel : nat) (t : trie) (sibling child : N) : outcome N :=
  match fuel with
  | O => Fuel
  | S f =>
    let! c := getChild t sibling in
    if c =? child then Ok sibling else
    let! s := getNextSibling t sibling in
    if s =? 0 then Throw ERuntime else sibling_to f t s child
  end.
(** Trie::getSiblingTo, Trie.cc:290-298. *)
Definition getSiblingTo (t : trie) (node child : N) : outcome N :=
  let! s := getSiblingList t node in sibling_to (t_fuel t) t s child.

(** The loop of Trie::getWord, Trie.cc:309-315; [acc] holds the letters already
    found, in word order (the C++ reverses at the end). *)
Fixpoint word_loop (fuel : nat) (t : trie) (node parent : N) (acc : list N)
  : outcome (list N) :=
  match fuel with
  | O => Fuel
  | S f =>
    if parent =? 0 then Ok acc else
    let! s := getSiblingTo t parent node in
    let! l := getLetter t s in
    let! np := getParent t parent in
    word_loop f t parent np (l :: acc)
  end.

(** Word::hasWhitespace (Word.cc:155-162) with isWhitespace
    (ColumbusHelpers.cc:181-183): space, tab, newline, carriage return. *)
Definition is_ws (l : N) : bool := (l =? 32) || (l =? 9) || (l =? 10) || (l =? 13).
(** Word::hasWhitespace, Word.cc:155-166. *)
Definition has_ws (w : word) : bool := existsb is_ws w.

(** Word::hasBrokenSurrogates, Word.cc:168-200.  The flags expectSurrogate and
    expectHigh are always opposite, but both are kept as in the source. *)
Fixpoint broken_loop (E : env) (expectSur expectHigh : bool) (w : word) : outcome bool :=
  match w with
  | [] => Ok false
  | cur :: r =>
    if expectSur && negb (is_surrogate cur) then Ok true else
    if is_surrogate cur then
      if expectHigh && negb (is_high cur) then Ok true else
      let! _ := oassert E (expectHigh || (negb expectHigh && is_low cur)) in
      if expectHigh then broken_loop E true false r
      else broken_loop E false true r
    else broken_loop E expectSur expectHigh r
  end.
(** Word::hasBrokenSurrogates, Word.cc:168-200. *)
Definition has_broken (E : env) (w : word) : outcome bool := broken_loop E false true w.

(** Word::Word(Letter *letters, size_t length), Word.cc:62-82: drops one trailing NUL, then
    validates.  The empty buffer reads letters[-1]: UB. *)
Definition word_of_letters (E : env) (ls : list N) : outcome word :=
  match rev ls with
  | [] => UB
  | last :: front =>
    let w := if last =? 0 then rev front else ls in
    if has_ws w then Throw EInvalidArg else
    let! b := has_broken E w in
    if b then Throw EInvalidArg else Ok w
  end.

(** Trie::getWord, Trie.cc:300-318: the letters followed by the terminating NUL
    pushed first (line 308) go through the Word constructor. *)
Definition getWord (E : env) (t : trie) (startNode : N) : outcome word :=
  if startNode =? 0 then Ok [] else
  let! parent := getParent t startNode in
  let! ls := word_loop (t_fuel t) t startNode parent [] in
  word_of_letters E (ls ++ [0]).

(** Trie::Trie, Trie.cc:74-88 (tmpfile is assumed to succeed). *)
Definition trie_new (E : env) : outcome trie :=
  if grow_ok E 1024 then
    let t0 := mkTrie true 1024 (fun o => if o =? H_TOTAL then 1024 else 0) 0 in
    let (t, r) :=
      (tot <- reads (fun t => rd t H_TOTAL) ;;
       free <- reads (fun t => rd t H_FREE) ;;
       massert E (free <? tot) ;;;
       wr H_FREE SZ_HEADER ;;;
       root <- reads (fun t => rd t H_FREE) ;;
       (fun t => (mkTrie (t_mapped t) (t_len t) (t_mem t) root, Ok tt)) ;;;
       wr H_WORDS 0 ;;;
       addNewNode E 0) t0 in
    let! _ := r in Ok t
  else Throw ERuntime.
