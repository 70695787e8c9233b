(** What running out of memory should do: a statement that throws has had no effect, and
    the others have the effect they have in a program with memory enough (Spec_Own). *)
From Verif Require Import Base TrieM WordM MapM DoubleM ContM OwnM Spec_Own OomM.
Local Open Scope N_scope.

(** The same statement in the programs on values of Spec_Own. *)
Definition same (c : stmt) : op :=
  match c with
  | SWord => WordNew | SWordText s => WordText s | SWordLetters ls => WordLetters ls
  | SWordCopy x => WordCopy (WVar x) | SWordMove x => WordMove x
  | SWordAssign x y => WordAssign x (WVar y) | SWordMoveAssign x y => WordMoveAssign x y | SWordAssignText x s => WordAssignText x s
  | SWordJoin x y => WordJoin (WVar x) (WVar y) | SWordUtf8 x => WordUtf8 (WVar x)
  | SList => ListNew | SListSplit s => ListSplit s | SListCopy x => ListCopy (LVar x) | SListAssign x y => ListAssign x (LVar y)
  | SListAdd x y => ListAdd x (WVar y) | SListAt x i => WordCopy (WElem x i)
  | SDoc id => DocNew id | SDocCopy x => DocCopy (DVar x)
  | SDocAddText x y z => DocAddText x (WVar y) (LVar z) | SDocAddUtf8 x y s => DocAddUtf8 x (WVar y) s
  | SCorpus => CorpusNew | SCorpusAdd x y => CorpusAdd x (DVar y)
  | SDestroy x => Destroy x
  end.

(** The statements that give a new value to an object that has one; the others make a new
    object, add an element to a WordList or a Corpus, move, or destroy. *)
Definition assigns (c : stmt) : bool :=
  match c with
  | SWordAssign _ _ | SWordAssignText _ _ | SListAssign _ _ | SDocAddText _ _ _ | SDocAddUtf8 _ _ _ => true
  | _ => false
  end.
(** Those that overwrite: not addText for a field that the Document did not have. *)
Definition overwrites (vs : values) (c : stmt) : Prop :=
  match c with
  | SDocAddText x y _ | SDocAddUtf8 x y _ =>
    forall d f, nth_error vs x = Some (Some (VDoc d)) -> nth_error vs y = Some (Some (VWord (WGood f))) -> In f (map fst (d_texts d))
  | c => assigns c = true
  end.
(** How many allocations a statement may lose when it throws. *)
Definition may_lose (c : stmt) : Z :=
  match c with
  | SWordText _ | SWordUtf8 _ | SListCopy _ => 1
  | SListSplit _ | SDocCopy _ | SDocAddUtf8 _ _ _ | SCorpusAdd _ _ => 2
  | _ => 0
  end%Z.

(** The statements of a program with what became of them. *)
Definition never_threw (kind : stmt -> bool) (ops : list stmt) (fs : list fate) : Prop :=
  forall k c p, nth_error ops k = Some c -> kind c = true -> nth_error fs k <> Some (Threw p).
(** Those that were done. *)
Fixpoint done (ops : list stmt) (fs : list fate) : list stmt :=
  match ops, fs with
  | c :: ops', f :: fs' => match f with Done => c :: done ops' fs' | _ => done ops' fs' end
  | _, _ => []
  end.

(** What those that threw may have lost. *)
Fixpoint may_be_lost (ops : list stmt) (fs : list fate) : Z :=
  match ops, fs with
  | c :: ops', f :: fs' => (match f with Threw _ => may_lose c | _ => 0 end + may_be_lost ops' fs')%Z
  | _, _ => 0%Z
  end.
(** No statement crashed. *)
Definition no_crash (fs : list fate) : Prop := ~ In Died_abort fs /\ ~ In Died_undefined fs.
(** A Word with letters in variable [x]. *)
Definition has_letters (vs : values) (x : nat) : Prop := exists v, nth_error vs x = Some (Some (VWord (WGood v))) /\ v <> [].

(** The value an object shows. *)
Definition the_word (o : oword) : word :=
  match o_text o with TOwn ls => firstn (N.to_nat (o_len o)) ls | _ => [] end.
Definition the_list (l : olist) : wordlist := map the_word (v_elems l).
Definition the_doc (d : odoc) : document := mkDoc (od_id d) (map (fun t => (the_word (fst t), the_list (snd t))) (od_texts d)).
Definition the_obj (c : oobj) : vobj :=
  match c with
  | OWord o => VWord (WGood (the_word o))
  | OList l => VList (Some (the_list l))
  | ODoc d => VDoc (the_doc d)
  | OCorpus c => VCorpus (map the_doc (v_elems c))
  end.
Definition the_values (vs : ovars) : values := map (option_map the_obj) vs.

(** No statement that overwrites threw, in a program on these variables. *)
Definition undamaged (E : env) (ops : list stmt) (m : memory) (vs : ovars) : Prop :=
  forall k c m1 vs1 fs1 m2 vs2 p, nth_error ops k = Some c -> runs E (firstn k ops) m vs = (m1, vs1, fs1) -> no_crash fs1 ->
    overwrites (the_values vs1) c -> runs E [c] m1 vs1 <> (m2, vs2, [Threw p]).
