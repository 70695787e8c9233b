(** Vocabulary of C102: what a program over tries holds of the operating system. *)
From Verif Require Import Base TrieM Spec_Hist ResM.
Local Open Scope N_scope.
Local Open Scope m_scope.

(** Insertions of words without a NUL letter that do not start inside a surrogate pair. *)
Definition allowed (c : t_call) : Prop :=
  match c with
  | TInsert _ w _ => Forall nonnul w /\ low_half (hd 0 w) = false
  | _ => True
  end.
(** The calls of [new Trie] in a program, and of [delete]. *)
Definition news (cs : list t_call) : nat := length (filter (fun c => match c with TNew => true | _ => false end) cs).
Definition deletes (cs : list t_call) : nat := length (filter (fun c => match c with TDelete _ => true | _ => false end) cs).

(** Exceptions are caught and the program goes on; nothing undefined happens. *)
Definition comes_to (E : env) (cs : list t_call) (s : sys) : Prop :=
  Forall allowed cs /\ t_run E cs sys0 = (s, Ok tt).
(** No call throws. *)
Fixpoint t_seq (E : env) (cs : list t_call) : M sys unit :=
  match cs with
  | [] => ret tt
  | c :: r => t_step E c ;;; t_seq E r
  end.
Definition runs_clean (E : env) (cs : list t_call) (s : sys) : Prop :=
  Forall allowed cs /\ t_seq E cs sys0 = (s, Ok tt).

Definition open_files (s : sys) : nat := length (filter (fun b => b) (k_files (s_k s))).
Definition live_maps (s : sys) : nat :=
  length (filter (fun m : option N => match m with Some _ => true | None => false end) (k_maps (s_k s))).
(** Mapping [a] is there and has [l] bytes. *)
Definition mapping (s : sys) (a : nat) (l : N) : Prop := nth_error (k_maps (s_k s)) a = Some (Some l).
(** Trie [i] of the program, not yet destroyed. *)
Definition trie_at (s : sys) (i : nat) (rt : rtrie) : Prop := nth_error (s_tries s) i = Some (Some rt).
Definition all_destroyed (s : sys) : Prop := forall i rt, ~ trie_at s i rt.
