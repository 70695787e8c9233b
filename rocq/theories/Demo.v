(** A concrete environment used by the examples: debug build, an OS that grants
    mappings up to 1 GiB, insertion sort, identity hash order, ASCII folding. *)
From Verif Require Import Base.
From Coq Require Import ZifyBool ZifyN ZifyNat.

Fixpoint ins (x : N * Z) (l : list (N * Z)) : list (N * Z) :=
  match l with
  | [] => [x]
  | y :: r => if (snd x <=? snd y)%Z then x :: l else y :: ins x r
  end.
Definition isort (l : list (N * Z)) : list (N * Z) := fold_right ins [] l.

Definition ascii_lower (l : N) : N :=
  if ((65 <=? l) && (l <=? 90))%N then (l + 32)%N else l.

Definition demo : env :=
  mkEnv false (fun s => (s <=? 1073741824)%N) isort (fun _ l => l) ascii_lower false.
(** The same, built with -DNDEBUG. *)
Definition demo_release : env :=
  mkEnv true (fun s => (s <=? 1073741824)%N) isort (fun _ l => l) ascii_lower false.
(** An OS that grants one page only. *)
Definition demo_small : env :=
  mkEnv false (fun s => (s <=? 1024)%N) isort (fun _ l => l) ascii_lower false.

Lemma ins_perm x l : Permutation (ins x l) (x :: l).
Proof.
  induction l as [|y r IH]; cbn; [reflexivity|]. destruct (_ <=? _)%Z; [reflexivity|].
  rewrite IH. apply perm_swap.
Qed.
Lemma isort_perm l : Permutation (isort l) l.
Proof. induction l as [|x r IH]; cbn; [reflexivity|]. now rewrite ins_perm, IH. Qed.
Lemma ins_sorted x l : Sorted (fun a b => (snd a <= snd b)%Z) l ->
  Sorted (fun a b => (snd a <= snd b)%Z) (ins x l).
Proof.
  induction l as [|y r IH]; intros H; cbn; [repeat constructor|].
  destruct (Z.leb_spec (snd x) (snd y)) as [Hle|Hgt].
  - constructor; [assumption|]. constructor. assumption.
  - apply Sorted_inv in H as [H1 H2]. constructor; [now apply IH|].
    destruct r as [|z r]; cbn; [constructor; lia|].
    destruct (_ <=? _)%Z; constructor; [lia|]. now inversion H2.
Qed.
Lemma isort_sorted l : Sorted (fun a b => (snd a <= snd b)%Z) (isort l).
Proof. induction l as [|x r IH]; cbn; [constructor|now apply ins_sorted]. Qed.

Lemma demo_ok : env_ok demo.
Proof. constructor; cbn; [apply isort_perm|apply isort_sorted|reflexivity]. Qed.
