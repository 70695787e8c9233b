(** Remaining lemmas and concrete runs for Thm_Store. *)
From Verif Require Import Base TrieM TrieA TrieP TrieP2 TrieD WordStoreM Spec_Hist TrieH WordStoreP Demo.
From Coq Require Import ZifyBool ZifyN ZifyNat.
Local Open Scope N_scope.

Lemma offset_spells E t0 ops t offs i w id : trie_new E = Ok t0 -> ok_ops ops ->
  insert_all E ops t0 = (t, Ok offs) -> nth_error ops i = Some (w, id) ->
  exists off, nth_error offs i = Some off /\ findWord t w = Ok off
    /\ (constructible E w -> getWord E t off = Ok w)
    /\ exists first, assoc ops w = Some first /\ getWordID t off = Ok first.
Proof.
  intros Hn Hok Hr Hi. destruct (offsets Hn Hok Hr Hi) as (off & H1 & H2 & _ & H4 & H5).
  exists off. split; [exact H1|]. split; [exact H2|]. split; [|exact H5].
  intros Hc. rewrite H4. now apply constructible_back.
Qed.

Lemma lookup_safe E t0 ops t offs w : trie_new E = Ok t0 -> ok_ops ops ->
  insert_all E ops t0 = (t, Ok offs) -> Forall nonnul w -> exists b, hasWord t w = Ok b.
Proof. intros Hn Hok Hr Hw. destruct (membership Hn Hok Hr Hw) as [[_ H]|[_ H]]; eauto. Qed.

Lemma empty_refused E :
  (forall t id, insertWord E [] id t = (t, Throw EOutOfRange)) /\
  (forall s0 ws s ids, ws_new E = Ok s0 -> Forall insertable ws -> getID_all E ws s0 = (s, Ok ids) ->
     ws_getID E [] s = (s, Throw EOutOfRange)).
Proof.
  split; [reflexivity|]. intros s0 ws s ids Hn Hall Hr.
  destruct (WS_new Hn) as [ids0 H0].
  destruct (@getID_run E ws s0 [] ids0 [] H0 Hall) as [(s' & es' & ids' & x & He & Hx & H)|(s' & He & _)]; [|congruence].
  rewrite Hr in He. injection He as <- ->.
  assert (Hp : position [] (distinct [] ws) = None).
  { apply position_none. intros Hin. apply distinct_in in Hin as [[]|Hin].
    rewrite Forall_forall in Hall. apply Hall in Hin as [Hne _]. congruence. }
  unfold ws_getID.
  erewrite mbind_ok by (apply reads_ok; pose proof (WS_hasWord H (Forall_nil _)) as Hx'; rewrite Hp in Hx'; exact Hx').
  cbn iota. erewrite mbind_ok by (apply reads_ok; reflexivity).
  erewrite mbind_throw by reflexivity. destruct s; reflexivity.
Qed.

Lemma after_failure E t0 ops t : trie_new E = Ok t0 -> ok_ops ops ->
  insert_all E ops t0 = (t, Throw ERuntime) -> forall w, w <> [] -> hasWord t w = UB.
Proof.
  intros Hn Hok Hr w Hw.
  destruct (hist_run E (hist_new Hn) Hok)
    as [(t' & offs2 & es' & ids' & d' & x & He & _ & H)|[(t' & He & Hm & _)|(t' & He & _)]]; try congruence.
  rewrite Hr in He. injection He as <-.
  destruct w as [|l r]; [congruence|]. unfold hasWord, findWord. cbn [find_loop].
  unfold t_fuel. cbn [find_sib]. unfold rd at 1. rewrite Hm. reflexivity.
Qed.

(** ** Concrete runs.  The states hold functions, so they are named by the
    programs that compute them and only outcomes are normalised. *)
Definition w_abc : word := [97; 98; 99].
Definition w_abd : word := [97; 98; 100].
Definition w_a : word := [97].
Definition demo_ops : list (word * N) := [(w_abc, 7); (w_abd, 3); (w_a, 9); (w_abc, 7)].

Definition is_ok {A} (o : outcome A) : bool := match o with Ok _ => true | _ => false end.
Definition get_ok {A} (d : A) (o : outcome A) : A := match o with Ok a => a | _ => d end.
Lemma get_ok_eq A (d : A) o : is_ok o = true -> o = Ok (get_ok d o).
Proof. destruct o; [reflexivity|discriminate..]. Qed.
Lemma run_eq (S A : Type) (m : M S A) s r : snd (m s) = r -> m s = (fst (m s), r).
Proof. destruct (m s). cbn. now intros <-. Qed.

Definition dtrie : trie := mkTrie false 0 (fun _ => 0) 0.
Definition trie0 (E : env) : trie := get_ok dtrie (trie_new E).
Definition store0 (E : env) : wstore := mkWS (trie0 E) [].
Lemma trie0_demo : trie_new demo = Ok (trie0 demo).
Proof. apply get_ok_eq. vm_compute. reflexivity. Qed.
Lemma trie0_small : trie_new demo_small = Ok (trie0 demo_small).
Proof. apply get_ok_eq. vm_compute. reflexivity. Qed.
Lemma store0_demo : ws_new demo = Ok (store0 demo).
Proof. unfold ws_new. rewrite trie0_demo. reflexivity. Qed.

Ltac ins1 := split; [discriminate|split; [repeat (constructor; [unfold nonnul; lia|]); constructor|reflexivity]].

Lemma demo_ops_ok : ok_ops demo_ops.
Proof. repeat (constructor; [split; [ins1|discriminate]|]). constructor. Qed.

Example demo_run : insert_all demo demo_ops (trie0 demo)
  = (fst (insert_all demo demo_ops (trie0 demo)), Ok [100; 132; 36; 100]).
Proof. apply run_eq. vm_compute. reflexivity. Qed.

Definition demo_words : list word := [w_abc; w_a; w_abc; w_abd].
Example demo_ids : getID_all demo demo_words (store0 demo)
  = (fst (getID_all demo demo_words (store0 demo)), Ok [0; 1; 0; 2]).
Proof. apply run_eq. vm_compute. reflexivity. Qed.
Lemma demo_words_ok : Forall insertable demo_words.
Proof. repeat (constructor; [ins1|]). constructor. Qed.

Lemma joined_refuted : exists E s0 a b s id,
  constructible E a /\ constructible E b /\ ws_new E = Ok s0 /\ insertable (a ++ b) /\
  ws_getID E (a ++ b) s0 = (s, Ok id) /\ ws_getWord E s id = Throw EInvalidArg.
Proof.
  exists demo, (store0 demo), [55296], [97], (fst (ws_getID demo [55296; 97] (store0 demo))), 0.
  split; [exists [55296]; reflexivity|]. split; [exists [97]; reflexivity|].
  split; [apply store0_demo|]. split; [cbn [app]; ins1|].
  split; [apply run_eq; vm_compute; reflexivity|]. vm_compute. reflexivity.
Qed.

Lemma nul_refuted : exists E t0 ops t offs w,
  trie_new E = Ok t0 /\ ok_ops ops /\
  insert_all E ops t0 = (t, Ok offs) /\ constructible E w /\ hasWord t w = UB.
Proof.
  exists demo, (trie0 demo), demo_ops, (fst (insert_all demo demo_ops (trie0 demo))), [100; 132; 36; 100], [0; 97].
  split; [apply trie0_demo|]. split; [exact demo_ops_ok|]. split; [exact demo_run|].
  split; [exists [0; 97]; reflexivity|]. vm_compute. reflexivity.
Qed.

Definition long_word : word := repeat 97 40.
Lemma long_insertable : insertable long_word.
Proof.
  split; [discriminate|]. split; [|reflexivity]. apply Forall_forall. intros x Hx.
  apply repeat_spec in Hx. subst x. unfold nonnul. lia.
Qed.
Lemma usable_refuted : exists E t0 ops t w,
  trie_new E = Ok t0 /\ ok_ops ops /\
  insert_all E ops t0 = (t, Throw ERuntime) /\ insertable w /\ hasWord t w = UB.
Proof.
  exists demo_small, (trie0 demo_small), [(long_word, 1)],
    (fst (insert_all demo_small [(long_word, 1)] (trie0 demo_small))), w_a.
  split; [apply trie0_small|].
  split; [constructor; [split; [exact long_insertable|discriminate]|constructor]|].
  split; [apply run_eq; vm_compute; reflexivity|]. split; [ins1|]. vm_compute. reflexivity.
Qed.

Lemma reserved_refuted : exists E t0 w t offs,
  trie_new E = Ok t0 /\ insertable w /\
  insert_all E [(w, INVALID_WORDID); (w, INVALID_WORDID)] t0 = (t, Ok offs) /\
  hasWord t w = Ok false /\ numWords t = Ok 2.
Proof.
  exists demo, (trie0 demo), w_a,
    (fst (insert_all demo [(w_a, INVALID_WORDID); (w_a, INVALID_WORDID)] (trie0 demo))), [36; 36].
  split; [apply trie0_demo|]. split; [ins1|]. split; [apply run_eq; vm_compute; reflexivity|].
  split; vm_compute; reflexivity.
Qed.
