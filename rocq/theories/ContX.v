(** Concrete runs of the container models, and the counterexamples. *)
From Verif Require Import Base TrieM WordM MapM DoubleM ContM MapP Spec_Cont ContP Demo.
Local Open Scope N_scope.
Local Open Scope m_scope.
Definition d (z : Z) : double := d_of_Z z.
(** Two results added, worst first, to object 0; object 1 is empty. *)
Definition two : list r_call := [RNew; RNew; RAdd 0 7 (d 1); RAdd 0 8 (d 2)].
Lemma copy_refuted : exists calls w r other k o1 o2 id rel, proper 0 calls /\ w_run calls [] = (w, Ok tt) /\
  nth_error w 1 = Some r /\ nth_error w 0 = Some other /\ k < mr_size other /\
  mr_getDocumentID k other = (o1, Ok id) /\ mr_getRelevancy k other = (o2, Ok rel) /\
  exists id' rel', mr_copyResult other k r = mr_addResult id' rel' r /\ id' <> id.
Proof.
  exists two, [mkMR [(d 1, 7); (d 2, 8)] false; mr_new], mr_new, (mkMR [(d 1, 7); (d 2, 8)] false), 0.
  exists (mkMR [(d 2, 8); (d 1, 7)] true), (mkMR [(d 2, 8); (d 1, 7)] true), 8, (d 2).
  split; [repeat split; auto|]. split; [reflexivity|]. repeat split; try reflexivity.
  exists 7, (d 1). split; [reflexivity|lia].
Qed.
Lemma selfadd_refuted : exists calls w, proper 0 calls /\ w_run calls [] = (w, Ok tt) /\ snd (w_step (RAddAll 0 0) w) = UB.
Proof. exists two. eexists. split; [repeat split; auto|]. split; [reflexivity|]. reflexivity. Qed.
Lemma nan_refuted : exists x w, w_run [RNew; RAdd 0 1 x; RAdd 0 2 (d 1)] [] = (w, Ok tt) /\ snd (w_step (RGetID 0 0) w) = UB.
Proof. exists (d_div (d 0) (d 0)). eexists. split; [reflexivity|]. reflexivity. Qed.
