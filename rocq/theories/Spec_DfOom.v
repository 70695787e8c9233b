(** What the statements of such programs do to the values of the variables. *)
From Verif Require Import Base TrieM WordM MapM DoubleM ContM OwnM Spec_Own OomM Spec_Oom DfOomM.

(** The effect of a statement, by how it ended.  An assignment of a Document that threw
    leaves it with the new identifier and no text; getFieldNames that threw has added the
    first names; the others that threw have done nothing. *)
Definition effect (E : env) (c : xstmt) (f : fate) (vs vs' : values) : Prop :=
  match f, c with
  | Done, XStmt c => v_exec E (same c) vs = (vs', Ok tt)
  | Done, XAssign x y => exists d, nth_error vs y = Some (Some (VDoc d)) /\ vs' = upd x (Some (VDoc d)) vs
  | Threw _, XAssign x y => exists d, nth_error vs y = Some (Some (VDoc d)) /\ vs' = upd x (Some (VDoc (mkDoc (d_id d) []))) vs
  | Done, XNames x y => exists d l, nth_error vs x = Some (Some (VDoc d)) /\ nth_error vs y = Some (Some (VList (Some l))) /\ vs' = upd y (Some (VList (Some (l ++ map fst (d_texts d))))) vs
  | Threw _, XNames x y => exists d l k, nth_error vs x = Some (Some (VDoc d)) /\ nth_error vs y = Some (Some (VList (Some l))) /\ (k < length (d_texts d))%nat /\ vs' = upd y (Some (VList (Some (l ++ firstn k (map fst (d_texts d)))))) vs
  | _, _ => vs' = vs
  end.
(** The effects of all statements, one after the other. *)
Fixpoint effects (E : env) (ops : list xstmt) (fs : list fate) (vs vs' : values) : Prop :=
  match ops, fs with
  | c :: r, f :: t => exists v, effect E c f vs v /\ effects E r t v vs'
  | _, _ => vs' = vs
  end.
(** No statement threw that gives a new value to a Word, a WordList or a field. *)
Definition x_never (ops : list xstmt) (fs : list fate) : Prop :=
  forall k c p, nth_error ops k = Some (XStmt c) -> assigns c = true -> nth_error fs k <> Some (Threw p).
(** How many allocations the statements that threw may lose. *)
Fixpoint x_lost (ops : list xstmt) (fs : list fate) : Z :=
  match ops, fs with
  | c :: r, Threw _ :: t => (match c with XStmt c => may_lose c | XAssign _ _ => 1 | XNames _ _ => 0 end + x_lost r t)%Z
  | _ :: r, _ :: t => x_lost r t
  | _, _ => 0%Z
  end.
