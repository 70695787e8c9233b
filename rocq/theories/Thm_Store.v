(** Trie and WordStore: theorems C01-C08, C68, C69, C116. *)
From Verif Require Import Base TrieM WordStoreM Spec_Hist Spec_Walk TrieH TrieW WordStoreP StoreX Demo.
Local Open Scope N_scope.

(** C01: after any successful insertion history (words without NUL, ids other
    than the reserved INVALID_WORDID), a word is reported present if and only if
    it was inserted. *)
Theorem C01_trie_membership : forall E t0 ops t offs w,
  trie_new E = Ok t0 ->
  Forall (fun op => insertable (fst op) /\ snd op <> INVALID_WORDID) ops ->
  insert_all E ops t0 = (t, Ok offs) ->
  Forall nonnul w ->
  (In w (words_of ops) /\ hasWord t w = Ok true) \/ (~ In w (words_of ops) /\ hasWord t w = Ok false).
Proof. exact membership. Qed.
Print Assumptions C01_trie_membership.
Example C01_case : trie_new demo = Ok (trie0 demo) /\ ok_ops demo_ops /\
  insert_all demo demo_ops (trie0 demo) = (fst (insert_all demo demo_ops (trie0 demo)), Ok [100; 132; 36; 100]) /\
  Forall nonnul w_abd /\ hasWord (fst (insert_all demo demo_ops (trie0 demo))) [97; 98] = Ok false.
Proof.
  split; [exact trie0_demo|]. split; [exact demo_ops_ok|]. split; [exact demo_run|].
  split; [repeat (constructor; [unfold nonnul; lia|]); constructor|vm_compute; reflexivity].
Qed.

(** C02: ids are the dense numbering by first request; equal words have equal
    ids and different words different ids; at the end of the history every id
    handed out on the way still spells the word it was handed out for. *)
Theorem C02_wordstore_bijection : forall E s0 ws s ids,
  ws_new E = Ok s0 -> Forall insertable ws -> getID_all E ws s0 = (s, Ok ids) ->
  ids = map N.of_nat (numbering [] ws)
  /\ (forall i j wi wj ki kj, nth_error ws i = Some wi -> nth_error ws j = Some wj ->
        nth_error ids i = Some ki -> nth_error ids j = Some kj -> (wi = wj <-> ki = kj))
  /\ (forall i w k, nth_error ws i = Some w -> nth_error ids i = Some k ->
        ws_hasWord s w = Ok true /\ ws_hasID s k = true /\ (constructible E w -> ws_getWord E s k = Ok w)).
Proof. exact bijection. Qed.
Print Assumptions C02_wordstore_bijection.
Example C02_case : ws_new demo = Ok (store0 demo) /\ Forall insertable demo_words /\
  getID_all demo demo_words (store0 demo) = (fst (getID_all demo demo_words (store0 demo)), Ok [0; 1; 0; 2]) /\
  constructible demo w_abc.
Proof. split; [exact store0_demo|]. split; [exact demo_words_ok|]. split; [exact demo_ids|]. now exists w_abc. Qed.

(** C02: what an id spells never changes later. *)
Theorem C02_wordstore_ids_stable : forall E s0 ws1 ws2 s1 ids1 s2 ids2,
  ws_new E = Ok s0 -> Forall insertable (ws1 ++ ws2) -> getID_all E ws1 s0 = (s1, Ok ids1) ->
  getID_all E ws2 s1 = (s2, Ok ids2) ->
  forall k, ws_hasID s1 k = true -> ws_getWord E s2 k = ws_getWord E s1 k.
Proof. exact id_stable. Qed.
Print Assumptions C02_wordstore_ids_stable.
Example C02_stable_case : let s1 := fst (getID_all demo demo_words (store0 demo)) in
  ws_hasID s1 2 = true /\ getID_all demo [[98]; w_a] s1 = (fst (getID_all demo [[98]; w_a] s1), Ok [3; 1]) /\
  Forall insertable (demo_words ++ [[98]; w_a]).
Proof.
  split; [vm_compute; reflexivity|]. split; [apply run_eq; vm_compute; reflexivity|].
  apply Forall_app. split; [exact demo_words_ok|]. repeat (constructor; [ins1|]). constructor.
Qed.

(** C03: exactly the ids handed out are known, and getWord refuses the others. *)
Theorem C03_unknown_ids : forall E s0 ws s ids k n,
  ws_new E = Ok s0 -> Forall insertable ws -> getID_all E ws s0 = (s, Ok ids) ->
  n = N.of_nat (length (distinct [] ws)) ->
  (ws_hasID s k = true <-> In k ids) /\ (ws_hasID s k = true <-> k < n)
  /\ (ws_hasID s k = false -> ws_getWord E s k = Throw EOutOfRange).
Proof. exact unknown_ids. Qed.
Print Assumptions C03_unknown_ids.
Example C03_case : let s := fst (getID_all demo demo_words (store0 demo)) in
  distinct [] demo_words = [w_abc; w_a; w_abd] /\ ws_hasID s 2 = true /\ ws_hasID s 3 = false /\
  ws_getWord demo s 2 = Ok w_abd /\ ws_getWord demo s 3 = Throw EOutOfRange.
Proof. vm_compute. auto. Qed.

(** C04: numWords counts the distinct inserted words. *)
Theorem C04_numWords : forall E t0 ops t offs ws,
  trie_new E = Ok t0 ->
  Forall (fun op => insertable (fst op) /\ snd op <> INVALID_WORDID) ops ->
  insert_all E ops t0 = (t, Ok offs) ->
  NoDup ws -> (forall w, In w ws <-> In w (words_of ops)) ->
  numWords t = Ok (N.of_nat (length ws)).
Proof. exact words_count. Qed.
Print Assumptions C04_numWords.
Example C04_case : NoDup [w_abc; w_abd; w_a] /\
  (forall w, In w [w_abc; w_abd; w_a] <-> In w (words_of demo_ops)) /\
  numWords (fst (insert_all demo demo_ops (trie0 demo))) = Ok 3.
Proof.
  split; [repeat (constructor; [cbn; intuition discriminate|]); constructor|].
  split; [intros w; cbn; tauto|vm_compute; reflexivity].
Qed.

(** C04: numNodes counts their distinct prefixes, the empty one included. *)
Theorem C04_numNodes : forall E t0 ops t offs ps,
  trie_new E = Ok t0 ->
  Forall (fun op => insertable (fst op) /\ snd op <> INVALID_WORDID) ops ->
  insert_all E ops t0 = (t, Ok offs) ->
  NoDup ps -> (forall p, In p ps <-> p = [] \/ exists w, In w (words_of ops) /\ prefix_of p w) ->
  numNodes t = Ok (N.of_nat (length ps)).
Proof. exact nodes_count. Qed.
Print Assumptions C04_numNodes.
Example C04_nodes_case : let ps := [[]; [97]; [97; 98]; w_abc; w_abd] in
  NoDup ps /\ (forall p, In p ps -> p = [] \/ exists w, In w (words_of demo_ops) /\ prefix_of p w) /\
  numNodes (fst (insert_all demo demo_ops (trie0 demo))) = Ok 5.
Proof.
  split; [repeat (constructor; [cbn; intuition discriminate|]); constructor|].
  split; [|vm_compute; reflexivity].
  intros p [<-|[<-|[<-|[<-|[<-|[]]]]]]; [now left|right..].
  - exists w_abc. split; [now left|]. now exists [98; 99].
  - exists w_abc. split; [now left|]. now exists [99].
  - exists w_abc. split; [now left|]. now exists [].
  - exists w_abd. split; [right; now left|]. now exists [].
Qed.

(** C05: at the end of the history the offset returned by the i-th insertion is
    still where the word is found, it spells the word, and it carries the id the
    word was first inserted with. *)
Theorem C05_offset_spells_word : forall E t0 ops t offs i w id,
  trie_new E = Ok t0 ->
  Forall (fun op => insertable (fst op) /\ snd op <> INVALID_WORDID) ops ->
  insert_all E ops t0 = (t, Ok offs) -> nth_error ops i = Some (w, id) ->
  exists off, nth_error offs i = Some off /\ findWord t w = Ok off
    /\ (constructible E w -> getWord E t off = Ok w)
    /\ exists first, assoc ops w = Some first /\ getWordID t off = Ok first.
Proof. exact offset_spells. Qed.
Print Assumptions C05_offset_spells_word.
Example C05_case : let t := fst (insert_all demo demo_ops (trie0 demo)) in
  nth_error demo_ops 1 = Some (w_abd, 3) /\ constructible demo w_abd /\
  findWord t w_abd = Ok 132 /\ getWord demo t 132 = Ok w_abd /\ getWordID t 132 = Ok 3.
Proof. split; [reflexivity|]. split; [now exists w_abd|]. vm_compute. auto. Qed.

(** C05, missing half: a Word produced by joining two accepted words need not be
    constructible again, and then the id handed out for it cannot be turned back
    into the word: getWord throws. *)
Theorem C05_joined_word_refuted : exists E s0 a b s id,
  constructible E a /\ constructible E b /\ ws_new E = Ok s0 /\ insertable (a ++ b) /\
  ws_getID E (a ++ b) s0 = (s, Ok id) /\ ws_getWord E s id = Throw EInvalidArg.
Proof. exact joined_refuted. Qed.
Print Assumptions C05_joined_word_refuted.

(** C06: an insertion history ends in one of three ways: it succeeds, and then
    every offset addresses 20 bytes inside the mapping and offsets of different
    words are disjoint; or some growth step was refused (by the OS, or because
    the size wrapped to 0) and insertWord threw runtime_error; or, in debug
    builds, one word was given two ids.  In particular never undefined
    behaviour. *)
Theorem C06_offsets_never_wrap : forall E t0 ops,
  trie_new E = Ok t0 ->
  Forall (fun op => insertable (fst op) /\ snd op <> INVALID_WORDID) ops ->
  exists t r, insert_all E ops t0 = (t, r) /\
  ((exists offs, r = Ok offs /\ 1024 <= t_len t <= 2147483648
      /\ Forall (fun o => 16 <= o /\ o + 20 <= t_len t) offs
      /\ forall i j wi wj oi oj, nth_error (words_of ops) i = Some wi -> nth_error (words_of ops) j = Some wj ->
           nth_error offs i = Some oi -> nth_error offs j = Some oj ->
           (wi = wj -> oi = oj) /\ (wi <> wj -> oi + 20 <= oj \/ oj + 20 <= oi))
   \/ (r = Throw ERuntime /\ exists s, 1024 < s /\ s <= 72 + 64 * letters_of ops /\ grow_ok E (u32 s) = false)
   \/ (r = Abort /\ e_ndebug E = false /\ id_conflict ops)).
Proof. exact never_ub. Qed.
Print Assumptions C06_offsets_never_wrap.
Example C06_case : ok_ops [(long_word, 1)] /\ trie_new demo_small = Ok (trie0 demo_small) /\
  snd (insert_all demo_small [(long_word, 1)] (trie0 demo_small)) = Throw ERuntime /\
  snd (insert_all demo [(w_a, 1); (w_a, 2)] (trie0 demo)) = Abort /\
  is_ok (snd (insert_all demo [(long_word, 1)] (trie0 demo))) = true.
Proof.
  split; [constructor; [split; [exact long_insertable|discriminate]|constructor]|].
  split; [exact trie0_small|]. vm_compute. auto.
Qed.

(** C06: conversely, enough address space is all that is needed. *)
Theorem C06_capacity : forall E t0 ops,
  trie_new E = Ok t0 ->
  Forall (fun op => insertable (fst op) /\ snd op <> INVALID_WORDID) ops ->
  os_grants E (letters_of ops) -> 72 + 64 * letters_of ops < 4294967296 -> ~ id_conflict ops ->
  exists t offs, insert_all E ops t0 = (t, Ok offs).
Proof. exact capacity. Qed.
Print Assumptions C06_capacity.
Example C06_capacity_case : os_grants demo (letters_of [(long_word, 1); (w_a, 2)]) /\
  72 + 64 * letters_of [(long_word, 1); (w_a, 2)] < 4294967296 /\ ~ id_conflict [(long_word, 1); (w_a, 2)].
Proof.
  split; [|split; [vm_compute; reflexivity|]].
  - intros s Hs. unfold grow_ok. cbn in *. apply andb_true_intro. split; [apply N.ltb_lt|apply N.leb_le]; lia.
  - intros (w & i & j & [H|[H|[]]] & [H'|[H'|[]]] & Hne); vm_compute in H, H'; congruence.
Qed.

(** C06 for the word store: no conflict can arise, so it succeeds or reports a
    refused growth step. *)
Theorem C06_wordstore_outcomes : forall E s0 ws, ws_new E = Ok s0 -> Forall insertable ws ->
  exists s r, getID_all E ws s0 = (s, r) /\
   (r = Ok (map N.of_nat (numbering [] ws)) \/
    (r = Throw ERuntime /\ exists sz, 1024 < sz /\ sz <= 72 + 64 * word_letters ws /\ grow_ok E (u32 sz) = false)).
Proof. exact ws_outcomes. Qed.
Print Assumptions C06_wordstore_outcomes.
Example C06_wordstore_case :
  snd (getID_all demo_small [long_word] (store0 demo_small)) = Throw ERuntime /\
  snd (getID_all demo [long_word; w_a; long_word] (store0 demo)) = Ok [0; 1; 0].
Proof. vm_compute. auto. Qed.

(** C07: the empty word is refused and nothing changes. *)
Theorem C07_empty_word_refused : forall E,
  (forall t id, insertWord E [] id t = (t, Throw EOutOfRange)) /\
  (forall s0 ws s ids, ws_new E = Ok s0 -> Forall insertable ws -> getID_all E ws s0 = (s, Ok ids) ->
     ws_getID E [] s = (s, Throw EOutOfRange)).
Proof. exact empty_refused. Qed.
Print Assumptions C07_empty_word_refused.
Example C07_case : snd (ws_getID demo [] (fst (getID_all demo demo_words (store0 demo)))) = Throw EOutOfRange.
Proof. vm_compute. reflexivity. Qed.

(** C08: looking up any word of non-NUL code units (surrogates included) is safe
    and terminates. *)
Theorem C08_lookup_safe_partial : forall E t0 ops t offs w,
  trie_new E = Ok t0 ->
  Forall (fun op => insertable (fst op) /\ snd op <> INVALID_WORDID) ops ->
  insert_all E ops t0 = (t, Ok offs) -> Forall nonnul w ->
  exists b, hasWord t w = Ok b.
Proof. exact lookup_safe. Qed.
Print Assumptions C08_lookup_safe_partial.
Example C08_case : hasWord (fst (insert_all demo demo_ops (trie0 demo))) [57343; 97; 55296] = Ok false.
Proof. vm_compute. reflexivity. Qed.

(** C08 as stated is false: a Word with a NUL letter is constructible and looking
    it up reads a wild address. *)
Theorem C08_nul_lookup_refuted : exists E t0 ops t offs w,
  trie_new E = Ok t0 /\ Forall (fun op => insertable (fst op) /\ snd op <> INVALID_WORDID) ops /\
  insert_all E ops t0 = (t, Ok offs) /\ constructible E w /\ hasWord t w = UB.
Proof. exact nul_refuted. Qed.
Print Assumptions C08_nul_lookup_refuted.

(** C68: a trie is unusable after a failed insertion: every lookup of a non-empty
    word is undefined behaviour. *)
Theorem C68_after_failure : forall E t0 ops t,
  trie_new E = Ok t0 ->
  Forall (fun op => insertable (fst op) /\ snd op <> INVALID_WORDID) ops ->
  insert_all E ops t0 = (t, Throw ERuntime) ->
  forall w, w <> [] -> hasWord t w = UB.
Proof. exact after_failure. Qed.
Print Assumptions C68_after_failure.
Example C68_case : snd (insert_all demo_small [(w_a, 2); (long_word, 1)] (trie0 demo_small)) = Throw ERuntime.
Proof. vm_compute. reflexivity. Qed.

Theorem C68_usable_after_failure_refuted : exists E t0 ops t w,
  trie_new E = Ok t0 /\ Forall (fun op => insertable (fst op) /\ snd op <> INVALID_WORDID) ops /\
  insert_all E ops t0 = (t, Throw ERuntime) /\ insertable w /\ hasWord t w = UB.
Proof. exact usable_refuted. Qed.
Print Assumptions C68_usable_after_failure_refuted.

(** C69: the id 2^32-1 is reserved: inserting with it returns normally but the
    word is not found and the word counter grows on every repetition. *)
Theorem C69_reserved_id_refuted : exists E t0 w t offs,
  trie_new E = Ok t0 /\ insertable w /\
  insert_all E [(w, INVALID_WORDID); (w, INVALID_WORDID)] t0 = (t, Ok offs) /\
  hasWord t w = Ok false /\ numWords t = Ok 2.
Proof. exact reserved_refuted. Qed.
Print Assumptions C69_reserved_id_refuted.

(** C116: from the node of a prefix of an inserted word its letters lead to exactly the nodes
    of the longer prefixes, each letter once, and back; the id at the node is the first one
    the word was inserted with, or the reserved one. *)
Theorem C116_walk : forall E t0 ops t offs p,
  trie_new E = Ok t0 -> Forall (fun op => insertable (fst op) /\ snd op <> INVALID_WORDID) ops -> insert_all E ops t0 = (t, Ok offs) ->
  p = [] \/ (exists w, In w (words_of ops) /\ prefix_of p w) ->
  exists node first kids, findWord t p = Ok node /\ getWordID t node = Ok (match first_id ops p with Some id => id | None => INVALID_WORDID end) /\
    (p = [] -> node = getRoot t /\ getParent t node = Ok 0) /\
    getSiblingList t node = Ok first /\ siblings t first kids /\ NoDup (map (fun k => snd (fst k)) kids) /\
    (forall l, In l (map (fun k => snd (fst k)) kids) <-> exists w, In w (words_of ops) /\ prefix_of (p ++ [l]) w) /\
    (forall s l c, In (s, l, c) kids -> findWord t (p ++ [l]) = Ok c /\ getParent t c = Ok node /\ getSiblingTo t node c = Ok s) /\
    (kids <> [] -> forall c, (forall s l, ~ In (s, l, c) kids) -> getSiblingTo t node c = Throw ERuntime).
Proof. exact walk_down. Qed.
Print Assumptions C116_walk.
Example C116_ex : trie_new demo = Ok (trie0 demo) /\ ok_ops demo_ops /\
  insert_all demo demo_ops (trie0 demo) = (fst (insert_all demo demo_ops (trie0 demo)), Ok [100; 132; 36; 100]) /\
  (exists w, In w (words_of demo_ops) /\ prefix_of [97; 98] w) /\
  let t := fst (insert_all demo demo_ops (trie0 demo)) in
  exists first, getSiblingList t 68 = Ok first /\ siblings t first [(first, 99, 100); (first + 32, 100, 132)].
Proof.
  split; [exact trie0_demo|]. split; [exact demo_ops_ok|]. split; [exact demo_run|].
  split; [exists w_abc; split; [now left|now exists [99]]|]. cbv zeta. eexists. split; [vm_compute; reflexivity|].
  eapply one_more; try (vm_compute; reflexivity); [discriminate|]. eapply one_more; try (vm_compute; reflexivity); [discriminate|]. constructor.
Qed.
