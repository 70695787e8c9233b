(** Ghost abstraction of the trie used by the proofs only: the list of edges in
    creation order.  Node 0 is the root; node [S k] is the target of edge [k]. *)
From Verif Require Import Base TrieM.
Local Open Scope N_scope.

Definition edges := list (nat * N).

(** Byte offset of node [i] and of the TriePtrs record of edge [k]. *)
Definition noff (i : nat) : N :=
  match i with O => 16 | S k => 36 + 32 * N.of_nat k end.
Definition poff (k : nat) : N := 56 + 32 * N.of_nat k.

Definition edge (es : edges) (k : nat) : nat * N := nth k es (O, 0).
Definition kids (es : edges) (p : nat) : list nat :=
  filter (fun k => Nat.eqb (fst (edge es k)) p) (seq 0 (length es)).

Definition find_kid (es : edges) (p : nat) (l : N) : option nat :=
  find (fun k => snd (edge es k) =? l) (kids es p).

Fixpoint awalk (es : edges) (i : nat) (w : word) : option nat :=
  match w with
  | [] => Some i
  | l :: r => match find_kid es i l with
              | Some k => awalk es (S k) r
              | None => None
              end
  end.

Fixpoint aext (es : edges) (i : nat) (w : word) : edges * nat :=
  match w with
  | [] => (es, i)
  | l :: r => match find_kid es i l with
              | Some k => aext es (S k) r
              | None => aext (es ++ [(i, l)]) (S (length es)) r
              end
  end.

Definition parent_off (es : edges) (i : nat) : N :=
  match i with O => 0 | S k => noff (fst (edge es k)) end.

Record wf_edges (es : edges) : Prop := {
  wf_parent : forall k, (k < length es)%nat -> (fst (edge es k) <= k)%nat;
  wf_letter : forall k, (k < length es)%nat -> 0 < snd (edge es k) < 65536;
  wf_nodup : NoDup es
}.

(** Sibling list starting at record [off]: the records of edges [ks]. *)
Fixpoint chain (m : N -> N) (off : N) (ks : list nat) : Prop :=
  match ks with
  | [] => m (off + 8) = 0
  | k :: r => m (off + 8) = poff k /\ chain m (poff k) r
  end.

(** Header consistency with first free offset [ff]. *)
Record hdr (t : trie) (ff : N) : Prop := {
  h_mapped : t_mapped t = true;
  h_total : t_mem t 0 = t_len t;
  h_free : t_mem t 4 = ff;
  h_room : ff < t_len t;
  h_align : ff mod 4 = 0;
  h_low : 16 <= ff;
  h_pow : exists k, t_len t = 2 ^ k /\ 10 <= k <= 31
}.

(** The memory represents the edge list [es] with node ids [ids] and [nw]
    counted words. *)
Record rep (t : trie) (es : edges) (ids : list N) (nw : N) : Prop := {
  r_hdr : hdr t (36 + 32 * N.of_nat (length es));
  r_root : t_root t = 16;
  r_words : t_mem t 8 = nw;
  r_nodes : t_mem t 12 = 1 + N.of_nat (length es);
  r_len : length ids = S (length es);
  r_id : forall i, (i <= length es)%nat -> t_mem t (noff i) = nth i ids 0;
  r_par : forall i, (i <= length es)%nat -> t_mem t (noff i + 4) = parent_off es i;
  r_dl : forall i, (i <= length es)%nat -> t_mem t (noff i + 8) = 0;
  r_dc : forall i, (i <= length es)%nat -> t_mem t (noff i + 12) = 0;
  r_pl : forall k, (k < length es)%nat -> t_mem t (poff k) = snd (edge es k);
  r_pc : forall k, (k < length es)%nat -> t_mem t (poff k + 4) = noff (S k);
  r_chain : forall i, (i <= length es)%nat -> chain (t_mem t) (noff i + 8) (kids es i);
  r_wf : wf_edges es
}.
