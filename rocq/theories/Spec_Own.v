(** What a program with copies, moves and assignments should do: every variable holds a
    value of its own, and there is no memory. *)
From Verif Require Import Base TrieM WordM MapM DoubleM ContM OwnM.
Local Open Scope N_scope.

(** ** Programs on values *)
(** A Word; or one that cannot be read, with its claimed length: the state after a failed
    assignment of text (C37). *)
Inductive wval := WGood (w : word) | WBroken (n : N).
(** [None] for a WordList and a MatchResults object that was moved from. *)
Inductive vobj :=
| VWord (w : wval)
| VList (l : option wordlist)
| VDoc (d : document)
| VCorpus (c : corpus)
| VRes (r : option mresults)
| VOther.
Definition values := list (option vobj).   (* None: destroyed *)

(** The arguments: using a variable that is destroyed, or moved from where this is not
    allowed, is an error of the program. *)
Definition v_var (vs : values) (x : nat) : outcome vobj := match nth_error vs x with Some (Some v) => Ok v | _ => UB end.
Definition v_wvar (vs : values) (x : nat) : outcome wval := let! v := v_var vs x in match v with VWord w => Ok w | _ => UB end.
Definition v_lvar (vs : values) (x : nat) : outcome (option wordlist) := let! v := v_var vs x in match v with VList l => Ok l | _ => UB end.
Definition v_dvar (vs : values) (x : nat) : outcome document := let! v := v_var vs x in match v with VDoc d => Ok d | _ => UB end.
Definition v_cvar (vs : values) (x : nat) : outcome corpus := let! v := v_var vs x in match v with VCorpus c => Ok c | _ => UB end.
Definition v_rvar (vs : values) (x : nat) : outcome (option mresults) := let! v := v_var vs x in match v with VRes r => Ok r | _ => UB end.
Definition present {A} (o : option A) : outcome A := match o with Some a => Ok a | None => UB end.
Definition v_word (vs : values) (r : w_ref) : outcome word :=
  match r with
  | WVar x => let! w := v_wvar vs x in match w with WGood w => Ok w | WBroken _ => UB end
  | WElem x i => let! l := v_lvar vs x in let! l := present l in wl_at l i
  end.
Definition v_list (vs : values) (l : l_ref) : outcome wordlist :=
  match l with
  | LVar x => let! l := v_lvar vs x in present l
  | LText x r => let! f := v_word vs r in let! d := v_dvar vs x in doc_getText d f
  end.
Definition v_doc (vs : values) (d : d_ref) : outcome document :=
  match d with
  | DVar x => v_dvar vs x
  | DElem x i => let! c := v_cvar vs x in co_getDocument c i
  end.
(** Does an assignment assign a variable to itself? *)
Definition self_w (x : nat) (r : w_ref) : bool := match r with WVar y => Nat.eqb x y | WElem _ _ => false end.
Definition self_l (x : nat) (l : l_ref) : bool := match l with LVar y => Nat.eqb x y | LText _ _ => false end.
Definition self_d (x : nat) (d : d_ref) : bool := match d with DVar y => Nat.eqb x y | DElem _ _ => false end.
(** The effects: a new variable, a new value of a variable, none. *)
Definition add (v : vobj) : values -> values := fun vs => vs ++ [Some v].
Definition becomes (x : nat) (v : vobj) : values -> values := upd x (Some v).
Definition with_ {A} (vs : values) (o : outcome A) (k : A -> values * outcome unit) : values * outcome unit :=
  match o with
  | Ok a => k a
  | Throw e => (vs, Throw e)
  | Abort => (vs, Abort)
  | UB => (vs, UB)
  | Fuel => (vs, Fuel)
  end.
(** A method of the results held by variable [x]. *)
Definition v_method {A} (vs : values) (x : nat) (f : M mresults A) : values * outcome unit :=
  with_ vs (v_rvar vs x) (fun r => with_ vs (present r) (fun r => (becomes x (VRes (Some (fst (f r)))) vs, let! _ := snd (f r) in Ok tt))).

Definition v_exec (E : env) (c : op) (vs : values) : values * outcome unit :=
  let ok vs' := (vs', Ok tt) in
  match c with
  | WordNew => ok (add (VWord (WGood [])) vs)
  | WordText s => with_ vs (word_of_utf8 E s) (fun w => ok (add (VWord (WGood w)) vs))
  | WordLetters ls => with_ vs (word_of_letters E ls) (fun w => ok (add (VWord (WGood w)) vs))
  | WordCopy r => with_ vs (v_word vs r) (fun w => ok (add (VWord (WGood w)) vs))
  | WordMove x => with_ vs (v_wvar vs x) (fun w => ok (add (VWord w) (becomes x (VWord (WGood [])) vs)))
  | WordAssign x r =>
    with_ vs (v_wvar vs x) (fun _ =>
    if self_w x r then ok vs else with_ vs (v_word vs r) (fun w => ok (becomes x (VWord (WGood w)) vs)))
  | WordMoveAssign x y =>
    with_ vs (v_wvar vs x) (fun _ => with_ vs (v_wvar vs y) (fun w => ok (becomes y (VWord (WGood [])) (becomes x (VWord w) vs))))
  | WordAssignText x s =>
    with_ vs (v_wvar vs x) (fun _ =>
    match utf8ToInternal E s with
    | Ok ls => match validate E ls with
               | Throw e => (becomes x (VWord (match ls with [] => WGood [] | _ => WBroken (N.of_nat (length ls)) end)) vs, Throw e)
               | o => with_ vs o (fun w => ok (becomes x (VWord (WGood w)) vs))
               end
    | Throw e => (becomes x (VWord (WGood [])) vs, Throw e)
    | o => with_ vs o (fun _ => ok vs)
    end)
  | WordJoin r q => with_ vs (v_word vs r) (fun v => with_ vs (v_word vs q) (fun w => ok (add (VWord (WGood (v ++ w))) vs)))
  | WordUtf8 r => with_ vs (v_word vs r) (fun w => with_ vs (asUtf8 w) (fun _ => ok vs))
  | ListNew => ok (add (VList (Some [])) vs)
  | ListSplit s => with_ vs (splitToWords E s) (fun l => ok (add (VList (Some l)) vs))
  | ListCopy l => with_ vs (v_list vs l) (fun l => ok (add (VList (Some l)) vs))
  | ListMove x => with_ vs (v_lvar vs x) (fun l => ok (add (VList l) (becomes x (VList None) vs)))
  | ListAssign x l =>
    with_ vs (v_lvar vs x) (fun t =>
    if self_l x l then ok vs else with_ vs (v_list vs l) (fun l => with_ vs (present t) (fun _ => ok (becomes x (VList (Some l)) vs))))
  | ListMoveAssign x y =>
    with_ vs (v_lvar vs x) (fun _ => with_ vs (v_lvar vs y) (fun l =>
    if Nat.eqb x y then ok vs else ok (becomes y (VList None) (becomes x (VList l) vs))))
  | ListAdd x r =>
    with_ vs (v_lvar vs x) (fun t => with_ vs (v_word vs r) (fun w => with_ vs (present t) (fun t =>
    ok (becomes x (VList (Some (t ++ [w]))) vs))))
  | DocNew id => ok (add (VDoc (doc_new id)) vs)
  | DocCopy d => with_ vs (v_doc vs d) (fun d => ok (add (VDoc d) vs))
  | DocAssign x d =>
    with_ vs (v_dvar vs x) (fun _ =>
    if self_d x d then ok vs else with_ vs (v_doc vs d) (fun d => ok (becomes x (VDoc d) vs)))
  | DocAddText x r l =>
    with_ vs (v_dvar vs x) (fun d => with_ vs (v_word vs r) (fun f => with_ vs (v_list vs l) (fun l =>
    ok (becomes x (VDoc (fst (doc_addText f l d))) vs))))
  | DocAddUtf8 x r s =>
    with_ vs (v_dvar vs x) (fun d => with_ vs (v_word vs r) (fun f => with_ vs (splitToWords E s) (fun l =>
    ok (becomes x (VDoc (fst (doc_addText f l d))) vs))))
  | DocFields x y =>
    with_ vs (v_dvar vs x) (fun d => with_ vs (v_lvar vs y) (fun t => with_ vs (present t) (fun t =>
    ok (becomes y (VList (Some (fst (doc_getFieldNames d t)))) vs))))
  | CorpusNew => ok (add (VCorpus []) vs)
  | CorpusAdd x d => with_ vs (v_cvar vs x) (fun c => with_ vs (v_doc vs d) (fun d => ok (becomes x (VCorpus (c ++ [d])) vs)))
  | ResNew => ok (add (VRes (Some mr_new)) vs)
  | ResCopy x => with_ vs (v_rvar vs x) (fun r => with_ vs (present r) (fun r => ok (add (VRes (Some r)) vs)))
  | ResMove x => with_ vs (v_rvar vs x) (fun r => ok (add (VRes r) (becomes x (VRes None) vs)))
  | ResAssign x y =>
    with_ vs (v_rvar vs x) (fun t => with_ vs (v_rvar vs y) (fun r =>
    if Nat.eqb x y then ok vs else with_ vs (present r) (fun r => with_ vs (present t) (fun _ => ok (becomes x (VRes (Some r)) vs)))))
  | ResMoveAssign x y =>
    with_ vs (v_rvar vs x) (fun _ => with_ vs (v_rvar vs y) (fun r =>
    if Nat.eqb x y then ok vs else ok (becomes y (VRes None) (becomes x (VRes r) vs))))
  | ResAdd x id rel => v_method vs x (mr_addResult id rel)
  | ResAddAll x y =>
    if Nat.eqb x y then (vs, UB) else with_ vs (v_rvar vs y) (fun r => with_ vs (present r) (fun r => v_method vs x (mr_addResults r)))
  | ResCopyResult x y i => with_ vs (v_rvar vs y) (fun r => with_ vs (present r) (fun r => v_method vs x (mr_copyResult r i)))
  | ResGet x i => v_method vs x (mr_get i)
  | OtherNew => ok (add VOther vs)
  | OtherCopy x => with_ vs (v_var vs x) (fun v => match v with VOther => ok (add VOther vs) | _ => (vs, UB) end)
  | Destroy x => with_ vs (v_var vs x) (fun _ => ok (upd x None vs))
  end.
Fixpoint v_prog (E : env) (ops : list op) (vs : values) : values * outcome (list (outcome unit)) :=
  match ops with
  | [] => (vs, Ok [])
  | c :: r =>
    match v_exec E c vs with
    | (vs1, Ok u) => let (vs2, o) := v_prog E r vs1 in (vs2, let! os := o in Ok (Ok u :: os))
    | (vs1, Throw e) => let (vs2, o) := v_prog E r vs1 in (vs2, let! os := o in Ok (Throw e :: os))
    | (vs1, Abort) => (vs1, Abort)
    | (vs1, UB) => (vs1, UB)
    | (vs1, Fuel) => (vs1, Fuel)
    end
  end.

(** ** What is in memory *)
Definition block_at (m : mem) (p : ptr) : option block :=
  match p with None => None | Some a => match nth_error m a with Some (Some b) => Some b | _ => None end end.
Fixpoint each {A B} (f : A -> option B) (l : list A) : option (list B) :=
  match l with
  | [] => Some []
  | x :: r => match f x, each f r with Some y, Some ys => Some (y :: ys) | _, _ => None end
  end.
(** The value of an object. *)
Definition word_value (m : mem) (o : hword) : option word :=
  if hw_len o =? 0 then Some [] else
  match block_at m (hw_text o) with
  | Some (BText ls) => if N.of_nat (length ls) =? hw_len o + 1 then Some (firstn (N.to_nat (hw_len o)) ls) else None
  | _ => None
  end.
Definition list_value (m : mem) (p : ptr) : option wordlist :=
  match block_at m p with Some (BWords ws) => each (word_value m) ws | _ => None end.
Definition text_value (m : mem) (t : hword * ptr) : option (word * wordlist) :=
  match word_value m (fst t), list_value m (snd t) with Some k, Some l => Some (k, l) | _, _ => None end.
Definition doc_value (m : mem) (a : nat) : option document :=
  match block_at m (Some a) with
  | Some (BDoc id ts) => match each (text_value m) ts with Some ts => Some (mkDoc id ts) | None => None end
  | _ => None
  end.
Definition value (m : mem) (c : cobj) : option vobj :=
  match c with
  | CWord o => if negb (hw_len o =? 0) && match hw_text o with None => true | _ => false end then Some (VWord (WBroken (hw_len o)))
               else match word_value m o with Some w => Some (VWord (WGood w)) | None => None end
  | CList None => Some (VList None)
  | CList p => match list_value m p with Some l => Some (VList (Some l)) | None => None end
  | CDoc a => match doc_value m a with Some d => Some (VDoc d) | None => None end
  | CCorpus a => match block_at m (Some a) with
                 | Some (BDocs ds) => match each (doc_value m) ds with Some ds => Some (VCorpus ds) | None => None end
                 | _ => None
                 end
  | CRes None => Some (VRes None)
  | CRes p => match block_at m p with Some (BResults r) => Some (VRes (Some r)) | _ => None end
  | COther a => match block_at m (Some a) with Some BOther => Some VOther | _ => None end
  end.
(** The memory an object occupies, through all its parts. *)
Definition at_ (p : ptr) : list nat := match p with Some a => [a] | None => [] end.
Definition list_storage (m : mem) (p : ptr) : list nat :=
  at_ p ++ match block_at m p with Some (BWords ws) => flat_map (fun o => at_ (hw_text o)) ws | _ => [] end.
Definition doc_storage (m : mem) (a : nat) : list nat :=
  a :: match block_at m (Some a) with
       | Some (BDoc _ ts) => flat_map (fun t => at_ (hw_text (fst t)) ++ list_storage m (snd t)) ts
       | _ => []
       end.
Definition storage (m : mem) (c : cobj) : list nat :=
  match c with
  | CWord o => at_ (hw_text o)
  | CList p => list_storage m p
  | CDoc a => doc_storage m a
  | CCorpus a => a :: match block_at m (Some a) with Some (BDocs ds) => flat_map (doc_storage m) ds | _ => [] end
  | CRes p => at_ p
  | COther a => [a]
  end.
Definition var_storage (m : mem) (v : option cobj) : list nat := match v with Some c => storage m c | None => [] end.
(** The number of allocations not freed. *)
Definition unfreed (m : mem) : nat := length (filter (fun b => match b with Some _ => true | None => false end) m).

(** The copy constructors nobody wrote. *)
Definition implicit_copy (c : op) : Prop := exists x, c = OtherCopy x.
Definition explicit (ops : list op) : Prop := forall c, In c ops -> ~ implicit_copy c.
(** A statement that returns or throws. *)
Definition fine {A} (o : outcome A) : Prop := match o with Ok _ | Throw _ => True | _ => False end.
(** The allocations a failed conversion forgets. *)
Definition lost (c : op) (o : outcome unit) : nat :=
  match o with
  | Throw ERuntime => match c with ListSplit _ | DocAddUtf8 _ _ _ => 2 | _ => 1 end
  | _ => 0
  end.
Fixpoint all_lost (ops : list op) (os : list (outcome unit)) : nat :=
  match ops, os with
  | c :: ops, o :: os => lost c o + all_lost ops os
  | _, _ => 0
  end.
(** Each variable holds this value, or is destroyed like it. *)
Definition holds_values (m : mem) (cs : vars) (vs : values) : Prop :=
  Forall2 (fun c v => match c, v with
                      | Some c, Some v => value m c = Some v
                      | None, None => True
                      | _, _ => False
                      end) cs vs.
(** The value of a variable; the variables a statement may change. *)
Definition var_value (m : mem) (cs : vars) (x : nat) : option vobj := match nth_error cs x with Some (Some c) => value m c | _ => None end.
Definition changes (c : op) : list nat :=
  match c with
  | WordMove x | ListMove x | ResMove x | WordAssign x _ | WordAssignText x _ | ListAssign x _ | ListAdd x _ | DocAssign x _
  | DocAddText x _ _ | DocAddUtf8 x _ _ | CorpusAdd x _ | ResAssign x _ | ResAdd x _ _ | ResAddAll x _ | ResCopyResult x _ _
  | ResGet x _ | DocFields _ x | Destroy x => [x]
  | WordMoveAssign x y | ListMoveAssign x y | ResMoveAssign x y => [x; y]
  | _ => []
  end.
