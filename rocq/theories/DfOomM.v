(** Programs in which Documents are assigned and asked for their fields, and which run out
    of memory: the statements of OomM.v with Document::operator= and
    Document::getFieldNames, src/Document.cc:81-93. *)
From Verif Require Import Base TrieM WordM MapM DoubleM ContM OwnM OomM DaOomM FnOomM.

(** A statement of OomM.v, x = y for Documents, or x.getFieldNames(y). *)
Inductive xstmt := XStmt (c : stmt) | XAssign (x y : nat) | XNames (x y : nat).
(** One statement; [None]: it names variables that do not exist or are of another class.
    A Document assigned to itself is left alone, Document.cc:88-89. *)
Definition xstep (E : env) (c : xstmt) (vs : ovars) : option (T (ovars * option stop)) :=
  match c with
  | XStmt c => step E c vs
  | XAssign x y =>
    match a_doc vs x, a_doc vs y with
    | Some a, Some b => Some (if Nat.eqb x y then val (vs, None) else change x (d_assign a b) ODoc vs)
    | _, _ => None
    end
  | XNames x y =>
    match a_doc vs x, a_list vs y with
    | Some d, Some l => Some (change y (d_getFieldNames d l) OList vs)
    | _, _ => None
    end
  end.
(** A program, as [runs] of OomM.v. *)
Fixpoint xruns (E : env) (ops : list xstmt) (m : memory) (vs : ovars) : memory * ovars * list fate :=
  match ops with
  | [] => (m, vs, [])
  | c :: r =>
    match xstep E c vs with
    | None => let '(m1, vs1, fs) := xruns E r m vs in (m1, vs1, Skipped :: fs)
    | Some f =>
      match f m with
      | (m1, Val (vs1, e)) =>
        let '(m2, vs2, fs) := xruns E r m1 vs1 in (m2, vs2, match e with None => Done | Some p => Threw p end :: fs)
      | (m1, Fail p) => (m1, vs, [Threw p])
      | (m1, Aborted) => (m1, vs, [Died_abort])
      | (m1, Undefined) => (m1, vs, [Died_undefined])
      | (m1, NoFuel) => (m1, vs, [Died_fuel])
      end
    end
  end.
