(** The project's own tests, /repo/test, run on the model.

    Every function of the test programs becomes a definition of the same name, prefixed
    with the name of its file, whose asserts are written [chk].  The Example after it says
    that the run ends without a failed assert, exception or undefined behaviour.  These
    are tests of the model, not proofs about it: they show that the model does what the
    authors of the code expect of the code.  LevScalabilityTest.cc and
    CreatePerformanceTest.cc measure time and are left out. *)
From Coq Require Import String Ascii.
From Verif Require Import Base TrieM WordStoreM ErrorValuesM LevIndexM WordM MapM DoubleM ContM MatcherM DataFileM CApiM PyM Demo DataX.
Local Open Scope string_scope.
Local Open Scope list_scope.
Local Open Scope N_scope.

(** ** Writing the tests *)
(** A character string constant. *)
Definition s (x : string) : list N := map N_of_ascii (list_ascii_of_string x).
(** Debug build, the files of /repo/share in place; letters are folded as ICU does up to
    U+00FF and in the shipped files. *)
Definition latin_lower (l : N) : N :=
  if (192 <=? l) && (l <=? 222) && negb (l =? 215) then l + 32 else fold_file l.
Definition T : env := mkEnv false (fun n => n <=? 1073741824) isort (fun _ l => l) latin_lower false.
(** assert(b) of a test. *)
Definition chk (b : bool) : outcome unit := if b then Ok tt else Abort.
(** assert(gotException). *)
Definition throws {A} (x : exn) (o : outcome A) : outcome unit :=
  match o, x with
  | Throw EOutOfRange, EOutOfRange | Throw EInvalidArg, EInvalidArg | Throw ERuntime, ERuntime => Ok tt
  | _, _ => Abort
  end.
(** A member function called on an object: the changed object and the value. *)
Definition call {S A} (m : M S A) (x : S) : outcome (S * A) := let (y, o) := m x in let! a := o in Ok (y, a).
(** The same, without the value. *)
Definition does {S A} (m : M S A) (x : S) : outcome S := let! r := call m x in Ok (fst r).
(** Word(const char* ). *)
Definition W (x : string) : outcome word := word_of_utf8 T (s x).
(** Comparison of doubles. *)
Definition deqb (a b : double) : bool := SFeqb a b.
(** [word[i] == l], for every i. *)
Fixpoint letters_are (w : word) (i : N) (ls : list N) : outcome unit :=
  match ls with [] => Ok tt | l :: r => let! x := w_at w i in let! _ := chk (x =? l) in letters_are w (i + 1) r end.
(** strcmp(text, buf) == 0. *)
Definition is_text (buf : outcome (list N)) (t : list N) : outcome unit := let! b := buf in chk (bytes_eqb (MatcherM.c_str b) t).
Notation "'do!' m ; k" := (obind m (fun _ => k)) (at level 200, m at level 100, k at level 200, right associativity, only parsing).

(** ** WordTest.cc *)
Definition WordTest_testEmpty : outcome unit := chk (Nat.eqb (length ([] : word)) 0).
Definition WordTest_testIndexing : outcome unit :=
  let! w := W "abc" in do! letters_are w 0 (s "abc"); throws EOutOfRange (w_at w 3).
Definition shouldThrow (t : list N) : outcome unit := throws EInvalidArg (word_of_utf8 T t).
Fixpoint each {A} (f : A -> outcome unit) (l : list A) : outcome unit := match l with [] => Ok tt | x :: r => do! f x; each f r end.
Definition WordTest_testWhitespace : outcome unit :=
  each (fun c => each shouldThrow [[c]; c :: s "a"; s "a" ++ [c]; s "a" ++ c :: s "a"]) [32; 9; 10; 13].
Definition WordTest_testCreation : outcome unit :=
  let! w1 := W "abc" in
  let w2 := w1 in
  let! strW := word_of_utf8 T (MatcherM.c_str (s "xyz")) in
  do! chk (Nat.eqb (length w2) 3); do! letters_are w2 0 (s "abc");
  do! chk (Nat.eqb (length strW) 3); letters_are strW 0 (s "xyz").
Definition WordTest_testComparison : outcome unit :=
  let w1a := [] in let w1b := [] in
  let! w2a := W "abc" in let! w2b := W "abc" in let! w2c := W "abd" in let! different := W "different" in
  do! chk (weqb w1a w1a); do! chk (weqb w2a w2a); do! chk (weqb w2b w2b);
  do! chk (weqb w1a w1b); do! chk (weqb w2a w2b);
  do! chk (negb (weqb w1a w2a)); do! chk (negb (weqb w2a w2c)); do! chk (negb (weqb w1a different));
  chk (negb (weqb w2a different)).
Definition encodes (t ls : list N) : outcome unit :=
  let! w1 := word_of_utf8 T t in
  do! chk (Nat.eqb (length w1) (length ls)); do! letters_are w1 0 ls;
  do! is_text (w_toUtf8 w1 5) t; do! is_text (asUtf8 w1) t;
  let! wAss := W "abc" in do! is_text (asUtf8 wAss) (s "abc");
  let wAss := w1 in do! is_text (asUtf8 w1) t; do! is_text (asUtf8 wAss) t;
  let wInit := w1 in do! is_text (asUtf8 w1) t; is_text (asUtf8 wInit) t.
Definition WordTest_testEncoding : outcome unit := encodes [97; 195; 164; 99] [97; 228; 99].
Definition WordTest_testEncoding2 : outcome unit :=
  do! encodes [240; 144; 144; 183] [55297; 56375];
  each (fun ls => throws EInvalidArg (word_of_letters T ls))
    [ [97; 98; 55297; 99; 0]; [97; 98; 56375; 99; 0]; [97; 55297; 56375; 56375; 0] ].
Definition WordTest_testLessThan : outcome unit :=
  let! w1 := W "a" in let! w2 := W "b" in let! w3 := W "aa" in let! w4 := W "ab" in
  chk (wltb w1 w2 && wltb w1 w3 && wltb w3 w2 && wltb w3 w4 && wltb w4 w2 && wltb w1 w4).
Definition WordTest_testAutoLower : outcome unit :=
  let tl := [97; 195; 164] in
  let! wUpper := word_of_utf8 T [65; 195; 132] in let! wLower := word_of_utf8 T tl in
  do! chk (weqb wUpper wLower); do! is_text (asUtf8 wLower) tl; is_text (asUtf8 wUpper) tl.
Definition WordTest_testJoin : outcome unit :=
  let! w1 := W "abc" in let! w2 := W "def" in let! r1 := W "abcdef" in let! r2 := W "defabc" in
  do! chk (weqb (w_join w1 w2) r1); do! is_text (asUtf8 (w_join w1 w2)) (s "abcdef");
  do! chk (weqb (w_join w2 w1) r2); do! chk (weqb (w_join [] w1) w1); do! chk (weqb (w_join w2 []) w2);
  chk (weqb (w_join [] []) []).
(** w = t, after which w is t and not u. *)
Definition assigned (t u : string) (o : wobj) : outcome wobj :=
  let! o' := does (wo_assign T (s t)) o in
  let w := match wo_text o' with Some x => firstn (N.to_nat (wo_len o')) x | None => [] end in
  let! b := w_eq_text w (s t) in do! chk b;
  let! b := w_eq_text w (s u) in do! chk (negb b);
  do! is_text (asUtf8 w) (s t);
  do! chk (wo_len o' =? N.of_nat (String.length t)); Ok o'.
Definition WordTest_testAssignment : outcome unit :=
  let! w := assigned "abc" "defg" (mkWO None 0) in
  let! w := assigned "defg" "abc" w in
  let! w := assigned "xyz" "lmn" w in
  let! w := assigned "lmn" "xyz" w in
  throws EInvalidArg (snd (wo_assign T (s "h h") w)).
Example WordTest :
  each (fun t => t) [ WordTest_testEmpty; WordTest_testIndexing; WordTest_testWhitespace; WordTest_testCreation; WordTest_testComparison;
    WordTest_testEncoding; WordTest_testEncoding2; WordTest_testLessThan; WordTest_testAutoLower; WordTest_testJoin; WordTest_testAssignment ] = Ok tt.
Proof. vm_compute. reflexivity. Qed.

(** ** TrieTest.cc *)
Definition TrieTest_testWordBuilding : outcome unit :=
  let! t := trie_new T in
  let! w1 := W "abc" in let! w2 := W "abd" in
  let! n := numWords t in do! chk (n =? 0);
  let! (t, node1) := call (insertWord T w1 1) t in
  let! n := numWords t in do! chk (n =? 1);
  let! (t, node2) := call (insertWord T w2 2) t in
  let! n := numWords t in do! chk (n =? 2);
  let! r := getWord T t node1 in do! chk (weqb r w1);
  let! r := getWord T t node2 in chk (weqb r w2).
Definition has_all (t : trie) (l : list (string * bool)) : outcome unit :=
  each (fun x => let! w := W (fst x) in let! b := hasWord t w in chk (Bool.eqb b (snd x))) l.
Definition TrieTest_testHas : outcome unit :=
  let! t := trie_new T in
  let! w1 := W "abc" in
  let! n := numWords t in do! chk (n =? 0);
  let! t := does (insertWord T w1 1) t in
  has_all t [("abc", true); ("abd", false); ("a", false); ("x", false)].
Example TrieTest : each (fun t => t) [TrieTest_testWordBuilding; TrieTest_testHas] = Ok tt.
Proof. vm_compute. reflexivity. Qed.

(** ** WordStoreTest.cc *)
Definition WordStoreTest_testStore : outcome unit :=
  let! st := ws_new T in
  let! w1 := W "abc" in let! w2 := W "def" in
  let nonexisting := 42 in
  let! (st, w1ID) := call (ws_getID T w1) st in
  let! (st, w1CopyID) := call (ws_getID T w1) st in
  let! (st, w2ID) := call (ws_getID T w2) st in
  do! chk (w1ID =? w1CopyID); do! chk (negb (w2ID =? w1ID));
  do! chk (negb (nonexisting =? w1ID)); do! chk (negb (nonexisting =? w2ID));
  let! r := ws_getWord T st w1ID in do! chk (weqb r w1);
  let! r := ws_getWord T st w2ID in do! chk (weqb r w2);
  throws EOutOfRange (ws_getWord T st nonexisting).
Example WordStoreTest : WordStoreTest_testStore = Ok tt.
Proof. vm_compute. reflexivity. Qed.

(** ** WordListTest.cc *)
Definition at_is (l : wordlist) (i : N) (w : word) : outcome unit := let! x := wl_at l i in chk (weqb x w).
Definition WordListTest_testList : outcome unit :=
  let! w1 := W "abc" in let! w2 := W "def" in
  let l := [] in
  do! chk (wl_size l =? 0); do! throws EOutOfRange (wl_at l 1);
  let! l := does (wl_addWord w1) l in
  do! chk (wl_size l =? 1); do! at_is l 0 w1;
  let! l := does (wl_addWord w2) l in
  do! chk (wl_size l =? 2); at_is l 1 w2.
Definition WordListTest_testAssignment : outcome unit :=
  let! w := W "abc" in
  let! l1 := does (wl_addWord w) [] in
  do! chk (wl_size l1 =? 1);
  let l2 := l1 in do! chk (wl_size l2 =? 1); at_is l2 0 w.
Definition WordListTest_testEquality : outcome unit :=
  let! w1 := W "abc" in let! w2 := W "def" in let! w3 := W "ghi" in
  do! chk (wl_eqb [] []);
  let! l1 := does (wl_addWord w1) [] in do! chk (negb (wl_eqb l1 []));
  let! l2 := does (wl_addWord w1) [] in do! chk (wl_eqb l1 l2);
  let! l2 := does (wl_addWord w2) l2 in do! chk (negb (wl_eqb l1 l2));
  let! l1 := does (wl_addWord w3) l1 in chk (negb (wl_eqb l1 l2)).
Example WordListTest : each (fun t => t) [WordListTest_testList; WordListTest_testAssignment; WordListTest_testEquality] = Ok tt.
Proof. vm_compute. reflexivity. Qed.

(** ** HelpersTest.cc *)
Definition splitCorrectly (t : list N) (l : wordlist) : outcome unit := let! r := splitToWords T t in chk (wl_eqb r l).
Definition HelpersTest_testSplitter : outcome unit :=
  let! w1 := W "abc" in let! w2 := W "def" in
  let l1 := [w1; w2] in
  do! each (fun t => splitCorrectly t l1)
    ((map (fun c => s "abc" ++ c :: s "def") [32; 9; 10; 13])%list ++ [s " abc def"; s "abc def "; s " abc def "]);
  each (fun t => splitCorrectly t []) [ []; [32]; [9]; [10]; [13]; [32; 9; 10; 13; 10; 9; 32] ].
Definition HelpersTest_testWeirdWord : outcome unit :=
  let! l := splitToWords T [66; 108; 117; 101; 115; 32; 226; 128; 154; 195; 132; 195; 178; 110; 226; 128; 154; 195; 132; 195; 180; 32;
                            84; 114; 111; 117; 98; 108; 101; 13; 10] in
  chk (wl_size l =? 3).
Example HelpersTest : each (fun t => t) [HelpersTest_testSplitter; HelpersTest_testWeirdWord] = Ok tt.
Proof. vm_compute. reflexivity. Qed.

(** ** ErrorValuesTest.cc *)
Definition sub_is (e : errvals) (x : N * N * Z) : outcome unit :=
  let! v := getSubstituteError e (fst (fst x)) (snd (fst x)) in chk (v =? snd x)%Z.
Definition ErrorValuesTest_testError : outcome unit :=
  let d := ErrorValuesM.DEFAULT_ERROR in
  let ev := ev_new in
  do! sub_is ev (16, 17, d);
  let ev := setError 16 17 1 ev in
  do! each (sub_is ev) [(16, 17, 1%Z); (17, 16, 1%Z)];
  do! sub_is ev_new (17, 16, d);
  let ev2 := setError 17 16 1 ev_new in
  do! each (sub_is ev2) [(16, 17, 1%Z); (17, 16, 1%Z)];
  sub_is (clearErrors ev) (16, 17, d).
Definition ErrorValuesTest_testGroupError : outcome unit :=
  let d := ErrorValuesM.DEFAULT_ERROR in let g := DEFAULT_GROUP_ERROR in
  let e := 101 in let eacute := 233 in let ebreve := 277 in let a := 97 in let aacute := 225 in let abreve := 259 in
  do! chk (negb (d =? g)%Z);
  do! each (sub_is ev_new) [(e, eacute, d); (a, aacute, d); (e, aacute, d)];
  let! ev := does (addAccents_file T (disk None) LatinAccents) ev_new in
  do! each (fun l => chk (isInGroup ev l)) [e; eacute; ebreve; a; aacute; abreve];
  do! each (sub_is ev) [ (e, eacute, g); (eacute, e, g); (eacute, ebreve, g); (e, ebreve, g); (a, e, d); (a, aacute, g);
                         (abreve, aacute, g); (eacute, aacute, d) ];
  sub_is (clearErrors ev) (e, eacute, d).
Definition ErrorValuesTest_testKeyboardErrors : outcome unit :=
  do! sub_is ev_new (113, 97, ErrorValuesM.DEFAULT_ERROR);
  each (sub_is (addKeyboardErrors ev_new)) [(113, 97, DEFAULT_TYPO_ERROR); (119, 97, DEFAULT_TYPO_ERROR)].
Definition ErrorValuesTest_testNumberpadErrors : outcome unit :=
  let ev := addNumberpadErrors ev_new in
  do! sub_is ev (50, 97, 0%Z);
  let! v := getSubstituteError ev 53 109 in do! chk (v <? ErrorValuesM.DEFAULT_ERROR)%Z;
  let! v := getSubstituteError ev 106 54 in chk (v <? ErrorValuesM.DEFAULT_ERROR)%Z.
Definition ErrorValuesTest_testBigError : outcome unit :=
  let d := ErrorValuesM.DEFAULT_ERROR in
  do! each (sub_is ev_new) [(1000, 10000, d); (10000, 1000, d); (10000, 10000, 0%Z)];
  each (sub_is (setError 1000 10000 1 ev_new)) [(1000, 10000, 1%Z); (10000, 1000, 1%Z); (10000, 10000, 0%Z)].
Example ErrorValuesTest :
  each (fun t => t) [ ErrorValuesTest_testError; ErrorValuesTest_testGroupError; ErrorValuesTest_testKeyboardErrors;
    ErrorValuesTest_testNumberpadErrors; ErrorValuesTest_testBigError ] = Ok tt.
Proof. vm_compute. reflexivity. Qed.

(** ** CustomErrorTest.cc, IndexWeightsTest.cc *)
Definition ins (x : string) (id : N) (li : levindex) : outcome levindex := let! w := W x in does (li_insertWord T w id) li.
Definition finds (li : levindex) (q : string) (e : errvals) (maxError : Z) (m : imatches) : outcome imatches :=
  let! w := W q in does (findWords T li w e maxError) m.
Definition err_is (m : imatches) (i : N) (v : Z) : outcome unit := let! x := im_getMatchError m i in chk (x =? v)%Z.
Definition match_is (m : imatches) (i id : N) : outcome unit := let! x := im_getMatch m i in chk (x =? id).
Definition CustomErrorTest_testCustomError : outcome unit :=
  let d := ErrorValuesM.DEFAULT_ERROR in
  let! ind := li_new T in
  let! ind := ins "abc" 17 ind in
  let! m := finds ind "adc" ev_new d [] in do! err_is m 0 d;
  let e := setError 98 100 1 ev_new in
  let! m := finds ind "adc" e d (im_clear m) in do! err_is m 0 1;
  let e := setError 100 98 2 e in
  let! m := finds ind "adc" e d (im_clear m) in do! err_is m 0 2;
  let e := clearErrors e in
  let! m := finds ind "adc" e d (im_clear m) in err_is m 0 d.
Example CustomErrorTest : CustomErrorTest_testCustomError = Ok tt.
Proof. vm_compute. reflexivity. Qed.
Definition IndexWeightsTest_testWeights : outcome unit :=
  let! w1 := W "abc" in
  do! chk (deqb (iw_getWeight [] w1) (d_of_Z 1));
  chk (deqb (iw_getWeight (iw_setWeight w1 (d_of_Z 2) []) w1) (d_of_Z 2)).
Example IndexWeightsTest : IndexWeightsTest_testWeights = Ok tt.
Proof. vm_compute. reflexivity. Qed.

(** ** LevIndexTest.cc *)
Definition sized (m : imatches) (n : N) : outcome unit := chk (im_size m =? n).
Definition LevIndexTest_testTrivial : outcome unit :=
  let! ind := li_new T in let! m := finds ind "a" ev_new 10000 [] in sized m 0.
Definition LevIndexTest_testSimple : outcome unit :=
  let! ind := li_new T in
  let! ind := ins "abc" 1 ind in let! ind := ins "def" 2 ind in
  let! m := finds ind "abc" ev_new 100 [] in do! sized m 1; do! match_is m 0 1; do! err_is m 0 0;
  let! m := finds ind "def" ev_new 100 (im_clear m) in do! sized m 1; do! match_is m 0 2; err_is m 0 0.
Definition LevIndexTest_testOrder : outcome unit :=
  let! ind := li_new T in
  let! ind := ins "abcde" 1 ind in let! ind := ins "abxye" 2 ind in
  let! ind := ins "supercalifragilisticexpialidocious" 100 ind in
  let! m := finds ind "abche" ev_new 100 [] in do! sized m 1; do! match_is m 0 1; do! err_is m 0 100;
  let! m := finds ind "abxhe" ev_new 100 (im_clear m) in do! sized m 1; do! match_is m 0 2; do! err_is m 0 100;
  let! m := finds ind "abche" ev_new 200 (im_clear m) in
  do! sized m 2; do! match_is m 0 1; do! err_is m 0 100; do! err_is m 1 200;
  let! m := finds ind "abxhe" ev_new 200 (im_clear m) in
  do! sized m 2; do! match_is m 0 2; do! err_is m 0 100; err_is m 1 200.
Definition one_error (ind : levindex) (limit : Z) (q : string) : outcome unit :=
  let! m := finds ind q ev_new limit [] in do! sized m 1; err_is m 0 100.
Definition LevIndexTest_testEdges : outcome unit :=
  let! ind := li_new T in let! ind := ins "abc" 1 ind in each (one_error ind 10000) ["bbc"; "acc"; "abb"].
Definition LevIndexTest_testEmptyQuery : outcome unit :=
  let! ind := li_new T in
  let! ind := ins "a" 1 ind in let! ind := ins "b" 2 ind in let! ind := ins "abc" 3 ind in
  let! m := finds ind "" ev_new 100 [] in do! sized m 2; do! err_is m 0 100; err_is m 1 100.
Definition LevIndexTest_testExact : outcome unit :=
  let! ind := li_new T in let! ind := ins "abcd" 1 ind in
  let! m := finds ind "abce" ev_new 0 [] in do! sized m 0;
  let! m := finds ind "abcd" ev_new 0 m in do! sized m 1; do! match_is m 0 1; err_is m 0 0.
Definition LevIndexTest_testTranspose : outcome unit :=
  let! ind := li_new T in let! ind := ins "abcd" 1 ind in each (one_error ind 100) ["acbd"; "bacd"; "abdc"].
(** The four queries of testEndError and testStartError. *)
Definition substring_queries (ind : levindex) (e : errvals) (small : Z) (q1 q2 q3 q4 : string) : outcome unit :=
  let! m := finds ind q1 e 100 [] in do! sized m 1; do! match_is m 0 1;
  let! m := finds ind q1 e small (im_clear m) in do! sized m 1; do! match_is m 0 1;
  let! m := finds ind q2 e small (im_clear m) in do! sized m 0;
  let! m := finds ind q3 e small m in do! sized m 0;
  let! m := finds ind q4 e (2 * small) m in do! sized m 1; match_is m 0 1.
Definition LevIndexTest_testEndError : outcome unit :=
  let endError := DEFAULT_SUBSTRING_END_DELETION_ERROR in
  let! ind := li_new T in
  let e := setEndDeletionError endError ev_new in
  do! chk (2 * endError <? 100)%Z;
  let! ind := ins "abcdef" 1 ind in let! ind := ins "abcdefghijkl" 2 ind in
  substring_queries ind e endError "abcde" "bcdef" "abdef" "abcd".
Definition LevIndexTest_testStartError : outcome unit :=
  let startError := DEFAULT_SUBSTRING_END_DELETION_ERROR in
  let! ind := li_new T in
  let e := setStartInsertionError startError ev_new in
  do! chk (2 * startError <? 100)%Z;
  let! ind := ins "abcdef" 1 ind in let! ind := ins "ghijklabcdef" 2 ind in
  substring_queries ind e startError "bcdef" "abcdefe" "abdef" "cdef".
Example LevIndexTest :
  each (fun t => t) [ LevIndexTest_testTrivial; LevIndexTest_testSimple; LevIndexTest_testOrder; LevIndexTest_testEdges; LevIndexTest_testEmptyQuery;
    LevIndexTest_testExact; LevIndexTest_testTranspose; LevIndexTest_testEndError; LevIndexTest_testStartError ] = Ok tt.
Proof. vm_compute. reflexivity. Qed.

(** ** LevTrieTest.cc *)
Definition li_has (ind : levindex) (l : list (string * bool)) : outcome unit :=
  each (fun x => let! w := W (fst x) in let! b := li_hasWord ind w in chk (Bool.eqb b (snd x))) l.
(** Which of the words are in the index, before and after inserting them one by one. *)
Fixpoint one_by_one (ind : levindex) (id : N) (before after : list string) : outcome unit :=
  do! li_has ind (map (fun x => (x, true)) before ++ map (fun x => (x, false)) after)%list;
  match after with
  | [] => Ok tt
  | x :: r => let! ind := ins x id ind in one_by_one ind (id + 1) (before ++ [x])%list r
  end.
Definition LevTrieTest_words (ws : list string) : outcome unit := let! ind := li_new T in one_by_one ind 1 [] ws.
Definition counts (ind : levindex) (c1 c2 c3 mx n : N) : outcome unit :=
  do! chk ((li_wordCount ind 1 =? c1) && (li_wordCount ind 2 =? c2) && (li_wordCount ind 3 =? c3) && (li_maxCount ind =? mx));
  let! k := li_numWords ind in chk (k =? n).
Definition LevTrieTest_countTest : outcome unit :=
  let! ind := li_new T in do! counts ind 0 0 0 0 0;
  let! ind := ins "abc" 1 ind in do! counts ind 1 0 0 1 1;
  let! ind := ins "def" 2 ind in do! counts ind 1 1 0 1 2;
  let! ind := ins "abc" 1 ind in counts ind 2 1 0 2 2.
Example LevTrieTest :
  each (fun t => t) [ LevTrieTest_words ["word"; "another"]; LevTrieTest_words ["a"]; LevTrieTest_words ["ab"; "a"]; LevTrieTest_words ["abc"; "abcd"];
    LevTrieTest_words ["abc"; "abcd"; "abce"]; LevTrieTest_countTest ] = Ok tt.
Proof. vm_compute. reflexivity. Qed.

(** ** DocumentTest.cc, CorpusTest.cc *)
Fixpoint words (l : list string) : outcome wordlist :=
  match l with [] => Ok [] | x :: r => let! w := W x in let! ws := words r in Ok (w :: ws) end.
Definition DocumentTest_testDoc : outcome unit :=
  let! l := words ["abc"; "def"] in let! name := W "title" in
  let! d := does (doc_addText name l) (doc_new 42) in
  let! l2 := doc_getText d name in do! chk (wl_size l2 =? 2);
  let! w1 := W "abc" in let! w2 := W "def" in do! at_is l2 0 w1; at_is l2 1 w2.
Definition DocumentTest_testIndexNames : outcome unit :=
  let! wl1 := words ["abc"] in let! wl2 := words ["def"] in let! n1 := W "text1" in let! n2 := W "text2" in
  let! d := does (doc_addText n1 wl1) (doc_new 102) in
  let! d := does (doc_addText n2 wl2) d in
  let! names := does (doc_getFieldNames d) [] in
  do! each (fun n => let! _ := doc_getText d n in Ok tt) names;
  let! nonexisting := W "foooooo" in throws EInvalidArg (doc_getText d nonexisting).
Definition DocumentTest_testCounts : outcome unit :=
  let! w1 := W "abc" in let! w2 := W "def" in let! w3 := W "geh" in let! w4 := W "ijk" in
  let! f1 := W "field1" in let! f2 := W "field2" in let! f3 := W "field3" in
  let d := doc_new 2 in
  let is d := each (fun x => chk (doc_wordCount d (fst (fst x)) (snd (fst x)) =? snd x)) in
  let total d := each (fun x => chk (doc_totalWordCount d (fst x) =? snd x)) in
  do! is d [(w1, f1, 0); (w1, f2, 0)]; do! total d [(w1, 0); (w2, 0); (w3, 0)];
  let! d := does (doc_addText f1 [w1; w2]) d in
  do! is d [(w1, f1, 1); (w1, f2, 0); (w2, f1, 1); (w2, f2, 0); (w3, f1, 0); (w3, f2, 0)]; do! total d [(w1, 1); (w2, 1); (w3, 0)];
  let! d := does (doc_addText f2 [w2; w3]) d in
  do! is d [(w1, f1, 1); (w1, f2, 0); (w2, f1, 1); (w2, f2, 1); (w3, f1, 0); (w3, f2, 1)]; do! total d [(w1, 1); (w2, 2); (w3, 1)];
  let! d := does (doc_addText f3 [w4; w4]) d in do! is d [(w4, f3, 2)]; total d [(w4, 2)].
Definition CorpusTest_testCorpus : outcome unit :=
  let! wl1 := words ["abc"; "def"] in let! wl2 := words ["test1"; "test2"] in let! name := W "title" in
  let! d1 := does (doc_addText name wl1) (doc_new 0) in
  let! d2 := does (doc_addText name wl2) (doc_new 0) in
  do! chk (co_size [] =? 0);
  let! c := does (co_addDocument d1) [] in do! chk (co_size c =? 1);
  let! c := does (co_addDocument d2) c in do! chk (co_size c =? 2);
  let! x := co_getDocument c 0 in do! chk (doc_getID x =? 0);
  let! y := co_getDocument c 1 in do! chk (doc_getID y =? 0);
  let! l := doc_getText y name in
  let! w3 := W "test1" in let! w4 := W "test2" in do! at_is l 0 w3; at_is l 1 w4.
Example DocumentTest : each (fun t => t) [DocumentTest_testDoc; DocumentTest_testIndexNames; DocumentTest_testCounts; CorpusTest_testCorpus] = Ok tt.
Proof. vm_compute. reflexivity. Qed.

(** ** MatchResultsTest.cc *)
Definition half : double := d_div (d_of_Z 1) (d_of_Z 2).
Definition top (r : mresults) (x : double) : outcome mresults :=
  let! (r, v) := call (mr_getRelevancy 0) r in do! chk (deqb v x); Ok r.
Definition MatchResultsTest_testMatchResult : outcome unit :=
  do! chk (mr_size mr_new =? 0);
  let! r := does (mr_addResult 0 (d_of_Z 1)) mr_new in do! chk (mr_size r =? 1);
  let! r := top r (d_of_Z 1) in
  let! r := does (mr_addResult 1 (d_of_Z 2)) r in do! chk (mr_size r =? 2);
  let! r := top r (d_of_Z 2) in
  let! r := does (mr_addResult 2 half) r in do! chk (mr_size r =? 3);
  let! _ := top r (d_of_Z 2) in Ok tt.
Example MatchResultsTest : MatchResultsTest_testMatchResult = Ok tt.
Proof. vm_compute. reflexivity. Qed.

(** ** ResultFilterTest.cc, SearchParametersTest.cc *)
(** Document(id), with addText(field, text) for each pair. *)
Fixpoint add_texts_to (d : document) (l : list (string * string)) : outcome document :=
  match l with
  | [] => Ok d
  | (f, t) :: r => let! w := W f in let! d := does (doc_addText_utf8 T w (s t)) d in add_texts_to d r
  end.
Fixpoint corpus_of (l : list (N * list (string * string))) : outcome corpus :=
  match l with
  | [] => Ok []
  | (id, ts) :: r => let! d := add_texts_to (doc_new id) ts in let! c := corpus_of r in Ok (d :: c)
  end.
(** A new matcher that has indexed the documents. *)
Definition indexed (l : list (N * list (string * string))) : outcome matcher :=
  let! c := corpus_of l in let! m := mt_new T in does (mt_index T c) m.
Definition id_at (r : mresults) (i : N) : outcome N := snd (mr_getDocumentID i r).
Definition filtered (fs : list (list (string * string))) : outcome sparams :=
  let fix sub (l : list (string * string)) (f : rfilter) : outcome rfilter :=
    match l with
    | [] => Ok f
    | (x, y) :: r => let! fx := W x in let! wy := W y in let! f := does (rf_addNewSubTerm fx wy) f in sub r f
    end in
  let fix terms (l : list (list (string * string))) (f : rfilter) : outcome rfilter :=
    match l with
    | [] => Ok f
    | t :: r => let! f := sub t f in match r with [] => Ok f | _ => let! f := does rf_addNewTerm f in terms r f end
    end in
  let! f := terms fs rf_new in Ok (mkSP true f []).
Definition ResultFilterTest_testFiltering : outcome unit :=
  let! m := indexed [ (1, [("text", "something"); ("field1", "one"); ("field2", "three")]);
                      (2, [("text", "something"); ("field1", "two"); ("field2", "three")]) ] in
  let go m p := call (mt_match_utf8 T (s "something") p) m in
  let! (m, r1) := go m sp_new in do! chk (mr_size r1 =? 2);
  let! p := filtered [[("field1", "one")]] in
  let! (m, r2) := go m p in do! chk (mr_size r2 =? 1); let! i := id_at r2 0 in do! chk (i =? 1);
  let! p := filtered [[("field1", "two")]] in
  let! (m, r3) := go m p in do! chk (mr_size r3 =? 1); let! i := id_at r3 0 in do! chk (i =? 2);
  let! p := filtered [[("field1", "one")]; [("field1", "two")]] in
  let! (m, orr) := go m p in do! chk (mr_size orr =? 2);
  let! p := filtered [[("field2", "two"); ("field1", "one")]] in
  let! (m, andr) := go m p in chk (mr_size andr =? 0).
Example ResultFilterTest : ResultFilterTest_testFiltering = Ok tt.
Proof. vm_compute. reflexivity. Qed.
Definition SearchParametersTest_testDynamic : outcome unit :=
  do! chk (sp_dynamic sp_new); do! chk (negb (sp_dynamic (sp_setDynamic false sp_new)));
  chk (sp_dynamic (sp_setDynamic true (sp_setDynamic false sp_new))).
Definition SearchParametersTest_testNosearch : outcome unit :=
  let! w1 := W "abc" in let! w2 := W "def" in
  do! chk (negb (sp_isNonsearchingField sp_new w1) && negb (sp_isNonsearchingField sp_new w2));
  let p := sp_addNonsearchingField w1 sp_new in
  do! chk (sp_isNonsearchingField p w1 && negb (sp_isNonsearchingField p w2));
  let p := sp_addNonsearchingField w2 p in chk (sp_isNonsearchingField p w1 && sp_isNonsearchingField p w2).
Definition SearchParametersTest_testNosearchMatching : outcome unit :=
  let! nonSearch := W "field2" in
  let! m := indexed [(1, [("field1", "one")]); (2, [("field2", "one")])] in
  let! (m, r) := call (mt_match_utf8 T (s "one") (sp_addNonsearchingField nonSearch sp_new)) m in
  do! chk (mr_size r =? 1); let! i := id_at r 0 in chk (i =? 1).
Example SearchParametersTest :
  each (fun t => t) [SearchParametersTest_testDynamic; SearchParametersTest_testNosearch; SearchParametersTest_testNosearchMatching] = Ok tt.
Proof. vm_compute. reflexivity. Qed.

(** ** MatcherTest.cc *)
Definition three_docs : list (N * list (string * string)) :=
  [(0, [("title", "abc def")]); (10, [("title", "abe test")]); (1000, [("title", "faraway donotmatchme")])].
Definition MatcherTest_testMatcher : outcome unit :=
  let! m := indexed three_docs in let! q := words ["abc"] in
  let! (m, r) := call (mt_match_list T q) m in do! chk (mr_size r =? 2);
  let! i := id_at r 0 in let! j := id_at r 1 in
  chk (negb (i =? 1000) && negb (j =? 1000) && ((i =? 0) || (j =? 0)) && ((i =? 10) || (j =? 10))).
Definition MatcherTest_testRelevancy : outcome unit :=
  let! m := indexed three_docs in let! q := words ["abc"] in
  let! (m, r) := call (mt_match_list T q) m in do! chk (mr_size r =? 2);
  let! (r, x) := call (mr_getRelevancy 0) r in let! (r, y) := call (mr_getRelevancy 1) r in do! chk (d_lt y x);
  let! i := id_at r 0 in chk (i =? 0).
Definition MatcherTest_testMultiWord : outcome unit :=
  let! m := indexed [(1, [("name", "Sarah Michelle Gellar")]); (0, [("name", "Sara Giller")])] in
  let! (m, r) := call (mt_match_utf8 T (s "Sari Michell Geller") sp_new) m in
  let! i := id_at r 0 in chk (i =? 1).
Definition fit : list (N * list (string * string)) :=
  [ (1, [("name", "Fit Canvas to Layers"); ("context", "View Zoom (100%)")]); (0, [("name", "Fit image in Window"); ("context", "Image")]) ].
Definition MatcherTest_testSentence : outcome unit :=
  let! m := indexed fit in
  let! (m, r) := call (mt_match_utf8 T (s "fit canvas to layers") sp_new) m in
  let! i := id_at r 0 in chk (i =? 1).
(** onlineMatch(splitToWords(q), "name"). *)
Definition onlined (l : list (N * list (string * string))) (q : string) : outcome mresults :=
  let! m := indexed l in let! ws := splitToWords T (s q) in let! f := W "name" in
  let! x := call (mt_onlineMatch T ws f) m in Ok (snd x).
Definition MatcherTest_testExactOrder : outcome unit :=
  let! r := onlined (fit ++ [(100, [("name", "Not matching."); ("context", "fit canvas to layers")])])%list "fit canvas to layers" in
  do! chk (1 <=? mr_size r); let! i := id_at r 0 in chk (i =? 1).
Definition MatcherTest_testSmallestMatch : outcome unit :=
  let! r := onlined [ (1, [("name", "save"); ("dummy", "lots of text to ensure statistics of this field are ignored")]); (0, [("name", "save as")]) ] "save" in
  do! chk (mr_size r =? 2); let! i := id_at r 0 in chk (i =? 1).
Definition preparing : list (N * list (string * string)) := [(1, [("name", "Preparing your Images for the Web"); ("name", "Help user manual")])].
Definition MatcherTest_noCommonMatch : outcome unit := let! r := onlined preparing "fit canvas to selection" in chk (mr_size r =? 0).
Definition MatcherTest_emptyMatch : outcome unit := let! r := onlined preparing "" in chk (mr_size r =? 0).
Definition MatcherTest_testMatchCount : outcome unit :=
  let! r := onlined [ (1, [("name", "Fit Canvas to Layers"); ("context", "View Zoom (100%)")]);
                      (0, [("name", "Selection editor"); ("context", "Windows dockable dialogs")]) ] "fit canvas to selection" in
  do! chk (mr_size r =? 2); let! i := id_at r 0 in chk (i =? 1).
Definition MatcherTest_testPerfect : outcome unit :=
  let! r := onlined [ (1, [("name", "Save as")]); (0, [("name", "Save")]); (2, [("name", "Save yourself")]); (3, [("name", "Save the whales")]) ] "save" in
  do! chk (1 <=? mr_size r); let! i := id_at r 0 in chk (i =? 0).
Example MatcherTest :
  each (fun t => t) [ MatcherTest_testMatcher; MatcherTest_testRelevancy; MatcherTest_testMultiWord; MatcherTest_testSentence; MatcherTest_testExactOrder;
    MatcherTest_testSmallestMatch; MatcherTest_noCommonMatch; MatcherTest_emptyMatch; MatcherTest_testMatchCount; MatcherTest_testPerfect ] = Ok tt.
Proof. vm_compute. reflexivity. Qed.

(** ** CAPITest.c: each program and what its calls give back *)
Definition c_test (p : list (c_call * c_val)) : Prop := snd (c_run T (disk None) (map fst p) []) = Ok (map snd p).
Definition a_word (x : string) (n : nat) : c_call * c_val := (col_word_new (s x), VPtr (PAt n)).
Example CAPITest_testWord :
  c_test [ a_word "abc" 0; (col_word_length (PAt 0), VSize 3); (col_word_as_utf8 (PAt 0) 10, VText (s "abc" ++ [0])); (col_word_delete (PAt 0), VVoid) ].
Proof. vm_compute. reflexivity. Qed.
Example CAPITest_testDocument :
  c_test [ (col_document_new 55, VPtr (PAt 0)); a_word "abc" 1; (col_document_get_id (PAt 0), VDocID 55);
           (col_document_add_text (PAt 0) (PAt 1) (s "this is just some text"), VVoid); (col_word_delete (PAt 1), VVoid); (col_document_delete (PAt 0), VVoid) ].
Proof. vm_compute. reflexivity. Qed.
Example CAPITest_testMatcher : c_test [ (col_matcher_new, VPtr (PAt 0)); (col_matcher_delete (PAt 0), VVoid) ].
Proof. vm_compute. reflexivity. Qed.
Example CAPITest_testMatchResults : c_test [ (col_match_results_new, VPtr (PAt 0)); (col_match_results_delete (PAt 0), VVoid) ].
Proof. vm_compute. reflexivity. Qed.
Example CAPITest_testCorpus :
  c_test [ (col_corpus_new, VPtr (PAt 0)); (col_document_new 42, VPtr (PAt 1)); a_word "abc" 2;
           (col_document_add_text (PAt 1) (PAt 2) (s "this is just some text"), VVoid); (col_word_delete (PAt 2), VVoid);
           (col_corpus_add_document (PAt 0) (PAt 1), VVoid); (col_document_delete (PAt 1), VVoid); (col_corpus_delete (PAt 0), VVoid) ].
Proof. vm_compute. reflexivity. Qed.
Example CAPITest_testMatching :
  c_test [ (* buildCorpus *)
           (col_corpus_new, VPtr (PAt 0)); a_word "title" 1;
           (col_document_new 0, VPtr (PAt 2)); (col_document_add_text (PAt 2) (PAt 1) (s "abc def"), VVoid);
           (col_document_new 10, VPtr (PAt 3)); (col_document_add_text (PAt 3) (PAt 1) (s "abe test"), VVoid);
           (col_document_new 1000, VPtr (PAt 4)); (col_document_add_text (PAt 4) (PAt 1) (s "faraway donotmatchme"), VVoid);
           (col_corpus_add_document (PAt 0) (PAt 2), VVoid); (col_corpus_add_document (PAt 0) (PAt 3), VVoid); (col_corpus_add_document (PAt 0) (PAt 4), VVoid);
           (col_word_delete (PAt 1), VVoid); (col_document_delete (PAt 2), VVoid); (col_document_delete (PAt 3), VVoid); (col_document_delete (PAt 4), VVoid);
           (* testMatching: both documents that are not far away, the exact one first *)
           (col_matcher_new, VPtr (PAt 5)); (col_matcher_index (PAt 5) (PAt 0), VVoid); (col_corpus_delete (PAt 0), VVoid);
           (col_matcher_match (PAt 5) (s "abe"), VPtr (PAt 6)); (col_match_results_size (PAt 6), VSize 2);
           (col_match_results_get_id (PAt 6) 0, VDocID 10); (col_match_results_get_id (PAt 6) 1, VDocID 0);
           (col_match_results_delete (PAt 6), VVoid); (col_matcher_delete (PAt 5), VVoid) ].
Proof. vm_compute. reflexivity. Qed.

(** ** pythontest.py: each program and what its statements give.  A vector always moves
    when it may. *)
Definition py_test (p : list (py_call * py_res)) : Prop := snd (py_run T (disk None) (map (fun x => (fst x, true)) p) py_start) = Ok (map snd p).
Definition str (x : string) : py_str := Utf8 (s x).
(** "abc" and a-ring, a-diaeresis, o-diaeresis *)
Definition aao : list N := s "abc" ++ [195; 165; 195; 164; 195; 182].
Notation ob k := (Returns (VObj k)).
Notation int z := (Returns (VInt z)).
Notation none := (Returns VNone).
Example pythontest_TestWord_encoding_and_length :
  py_test [ (Word_ (str "hello"), ob 0); (get_string 0, Returns (VStr (s "hello"))); (Word_ (Utf8 aao), ob 1); (get_string 1, Returns (VStr aao));
            (len_word 0, int 5); (len_word 1, int 6) ].
Proof. vm_compute. reflexivity. Qed.
Example pythontest_TestWord_exception : py_test [ (Word_ (str "two words"), Raises PyValueError) ].
Proof. vm_compute. reflexivity. Qed.
Example pythontest_TestWordList_size :
  py_test [ (WordList_, ob 0); (len_list 0, int 0); (Word_ (str "abc"), ob 1); (Word_ (str "defg"), ob 2); (add_word 0 1, none); (len_list 0, int 1);
            (add_word 0 2, none); (len_list 0, int 2); (add_word 0 1, none); (len_list 0, int 3) ].
Proof. vm_compute. reflexivity. Qed.
Example pythontest_TestWordList_split_and_indexing :
  py_test [ (split_to_words (str "this is  my text"), ob 0); (len_list 0, int 4);
            (getitem 0 0, ob 1); (get_string 1, Returns (VStr (s "this"))); (getitem 0 1, ob 2); (get_string 2, Returns (VStr (s "is")));
            (getitem 0 2, ob 3); (get_string 3, Returns (VStr (s "my"))); (getitem 0 3, ob 4); (get_string 4, Returns (VStr (s "text"))) ].
Proof. vm_compute. reflexivity. Qed.
Example pythontest_TestDocument :
  py_test [ (Word_ (str "fieldname"), ob 0); (Document_ 435, ob 1); (get_id 1, int 435); (field_count 1, int 0);
            (add_text 1 0 (str "ye olde butcherede englishe"), none); (field_count 1, int 1); (get_text 1 0, ob 2); (len_list 2, int 4) ].
Proof. vm_compute. reflexivity. Qed.
Example pythontest_TestCorpus :
  py_test [ (Corpus_, ob 0); (Document_ 55, ob 1); (size 0, int 0); (add_document 0 1, none); (size 0, int 1) ].
Proof. vm_compute. reflexivity. Qed.
Example pythontest_TestMatcher_simple_match :
  py_test [ (Corpus_, ob 0); (Matcher_, ob 1); (Word_ (str "title"), ob 2);
            (Document_ 0, ob 3); (add_text 3 2 (str "abc def"), none); (Document_ 10, ob 4); (add_text 4 2 (str "abe test"), none);
            (Document_ 1000, ob 5); (add_text 5 2 (str "faraway donotmatchme"), none);
            (add_document 0 3, none); (add_document 0 4, none); (add_document 0 5, none); (index 1 0, none);
            (match_ 1 (str "abe"), ob 6); (len_results 6, int 2); (get_document_id 6 0, int 10); (get_document_id 6 1, int 0) ].
Proof. vm_compute. reflexivity. Qed.
Example pythontest_TestMatcher_errorvalues_and_indexweights :
  py_test [ (Matcher_, ob 0); (get_errorvalues 0, ob 1); (add_standard_errors 1, none); (get_indexweights 0, ob 2); (Word_ (str "abc"), ob 3);
            (get_weight 2 3, Returns (VFloat (d_of_Z 1))) ].
Proof. vm_compute. reflexivity. Qed.
(** This test of the authors fails: Boost.Python cannot make a Letter of an int (C99). *)
Example pythontest_TestErrorValues_values_fails :
  py_test [ (ErrorValues_, ob 0); (get_default_error, int 100); (get_substitute_error 0 16 17, Raises PyTypeError) ].
Proof. vm_compute. reflexivity. Qed.
Example pythontest_TestIndexWeights :
  py_test [ (IndexWeights_, ob 0); (Word_ (str "abc"), ob 1); (get_weight 0 1, Returns (VFloat (d_of_Z 1))); (set_weight 0 1 (d_of_Z 2), none);
            (get_weight 0 1, Returns (VFloat (d_of_Z 2))) ].
Proof. vm_compute. reflexivity. Qed.
(** TestMatchResults does not derive from unittest.TestCase and is never run; its
    add_match and get_id do not exist in the module. *)
