(** Concrete programs with copies, moves and assignments. *)
From Verif Require Import Base TrieM WordM MapM DoubleM ContM OwnM Spec_Own Demo.
Local Open Scope N_scope.

Definition o_ab : list N := [97; 98].
(** Two words, a list, two documents one copied from the other and given its own text
    again, a corpus, results copied and moved. *)
Definition tour : list op :=
  [WordText o_ab; WordCopy (WVar 0); WordMove 0; ListNew; ListAdd 3 (WVar 1); ListAdd 3 (WElem 3 0); DocNew 7;
   DocAddText 4 (WVar 1) (LVar 3); DocAddUtf8 4 (WVar 0) [99; 32; 100]; DocCopy (DVar 4); DocAddText 5 (WVar 0) (LText 5 (WElem 3 1));
   DocAddText 5 (WVar 0) (LText 5 (WVar 0)); CorpusNew; CorpusAdd 6 (DVar 5); DocAssign 4 (DElem 6 0); ResNew; ResAdd 7 4 d_one;
   ResCopy 7; ResMove 7; WordMoveAssign 1 2; WordAssign 2 (WElem 3 1)].
(** A failed conversion in between. *)
Definition failing : list op := [WordText o_ab; WordAssignText 0 [97; 32; 98]; WordText [255]; ListSplit [97; 32; 255]; WordAssignText 0 [255]].
Definition end_of (k : nat) : list op := map Destroy (seq 0 k).
Definition run (ops : list op) : outcome (list (outcome unit)) := snd (prog demo ops ([], [])).
Definition left_over (ops : list op) : nat := unfreed (fst (fst (prog demo ops ([], [])))).

Definition tour_values : values := fst (v_prog demo tour []).
Definition tour_outcomes : list (outcome unit) := repeat (Ok tt) 21.
Lemma tour_ok : v_prog demo tour [] = (tour_values, Ok tour_outcomes).
Proof. vm_compute. reflexivity. Qed.
Lemma all_explicit ops : forallb (fun c => match c with OtherCopy _ => false | _ => true end) ops = true -> explicit ops.
Proof. intros H c Hc (x & ->). rewrite forallb_forall in H. now specialize (H _ Hc). Qed.
Lemma tour_explicit : explicit tour.
Proof. now apply all_explicit. Qed.
Definition tour_ends : list op := tour ++ end_of 10.
Definition tour_gone : values := repeat None 10.
Lemma tour_ends_ok : v_prog demo tour_ends [] = (tour_gone, Ok (repeat (Ok tt) 31)).
Proof. vm_compute. reflexivity. Qed.
Lemma tour_ends_explicit : explicit tour_ends.
Proof. now apply all_explicit. Qed.
Definition tour_mem : mem := Eval vm_compute in fst (fst (prog demo tour ([], []))).
Definition tour_vars : vars := Eval vm_compute in snd (fst (prog demo tour ([], []))).
Lemma tour_run : prog demo tour ([], []) = ((tour_mem, tour_vars), Ok tour_outcomes).
Proof. vm_compute. reflexivity. Qed.
Definition tour_end_mem : mem := Eval vm_compute in fst (fst (prog demo tour_ends ([], []))).
Lemma tour_end_run : prog demo tour_ends ([], []) = ((tour_end_mem, repeat None 10), Ok (repeat (Ok tt) 31)).
Proof. vm_compute. reflexivity. Qed.
Definition fail_outcomes : list (outcome unit) := [Ok tt; Throw EInvalidArg; Throw ERuntime; Throw ERuntime; Throw ERuntime; Ok tt].
Definition fail_ends : list op := failing ++ end_of 1.
Lemma fail_ok : v_prog demo fail_ends [] = ([None], Ok fail_outcomes).
Proof. vm_compute. reflexivity. Qed.
Lemma fail_explicit : explicit fail_ends.
Proof. now apply all_explicit. Qed.
Definition fail_mem : mem := Eval vm_compute in fst (fst (prog demo fail_ends ([], []))).
Lemma fail_run : prog demo fail_ends ([], []) = ((fail_mem, [None]), Ok fail_outcomes).
Proof. vm_compute. reflexivity. Qed.
Definition twice : list op := [OtherNew; OtherCopy 0; Destroy 0; Destroy 1].
