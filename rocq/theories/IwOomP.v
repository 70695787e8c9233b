(** IndexWeights and MatcherStatistics that run out of memory. *)
From Verif Require Import Base TrieM WordM MapM DoubleM ContM Spec_Cont ContP FailM IwOomM Spec_IwOom.

(** ** Any object whose calls are done or not *)
Section Any.
Context {A C : Type} (f : C -> held_obj A -> held_obj A * fres unit) (g : C -> A -> A) (blocks : A -> nat).
Hypothesis step : forall c a p l, exists a' p' l' o, f c (mkHO a p l) = (mkHO a' p' l', o) /\ ((o = Val tt /\ a' = g c a /\ (l' + blocks a = l + blocks a')%nat) \/ (o = Out /\ a' = a /\ l' = l)).
Lemma all_ok : forall calls a p l st os, o_all f calls (mkHO a p l) = (st, os) ->
  length os = length calls /\ Forall as_told os /\ ho_obj st = fold_left (fun x c => g c x) (returned calls os) a /\ (ho_live st + blocks a = l + blocks (ho_obj st))%nat.
Proof.
  induction calls as [|c calls IH]; intros a p l st os H; cbn [o_all] in H; [injection H as <- <-; now repeat split; try constructor|].
  destruct (step c a p l) as (a' & p' & l' & o & He & Ho). rewrite He in H. destruct (o_all f calls (mkHO a' p' l')) as [st2 os2] eqn:H2. injection H as <- <-. destruct (IH _ _ _ _ _ H2) as (B1 & B2 & B3 & B4).
  split; [cbn; now rewrite B1|]. destruct Ho as [(-> & -> & Hl)|(-> & -> & ->)]; cbn [returned fold_left].
  - split; [constructor; [now left|exact B2]|]. split; [exact B3|lia].
  - split; [constructor; [now right|exact B2]|]. now split.
Qed.
Lemma life_ok empty : blocks empty = O -> forall calls p l os l', o_life f blocks empty calls p l = (os, l') -> l' = l /\ Forall as_told os.
Proof.
  intros He calls p l os l'. unfold o_life. destruct (grab p) as [[] p1]; [|intros [= <- <-]; split; [reflexivity|constructor; [now right|constructor]]].
  destruct (o_all f calls (mkHO empty p1 (S l))) as [st os2] eqn:H. intros [= <- <-]. destruct (all_ok H) as (B1 & B2 & B3 & B4). split; [lia|exact B2].
Qed.
Hypothesis lucky : forall c a p l, Forall (fun b => b = true) p -> exists a' p' l', f c (mkHO a p l) = (mkHO a' p' l', Val tt) /\ Forall (fun b => b = true) p'.
Lemma all_lucky : forall calls a p l, Forall (fun b => b = true) p -> snd (o_all f calls (mkHO a p l)) = repeat (Val tt) (length calls).
Proof.
  induction calls as [|c calls IH]; intros a p l Hp; cbn [o_all]; [reflexivity|]. destruct (lucky c a l Hp) as (a' & p' & l' & He & Hp'). rewrite He. specialize (IH a' p' l' Hp'). destruct (o_all f calls (mkHO a' p' l')) as [st2 os2]. cbn [snd] in *. now rewrite IH.
Qed.
End Any.

(** ** IndexWeights *)
Lemma grab_true p b p' : Forall (fun b => b = true) p -> grab p = (b, p') -> b = true /\ Forall (fun b => b = true) p'.
Proof. intros H. destruct p as [|x p]; cbn; intros [= <- <-]; [now split|]. split; [exact (Forall_inv H)|exact (Forall_inv_tail H)]. Qed.
Lemma set_blocks w (x : double) (m : weights) : i_blocks (mp_set wltb w x m) = (match mp_find wltb w m with Some _ => 0 | None => if Nat.eqb (length w) 0 then 1 else 2 end + i_blocks m)%nat.
Proof.
  induction m as [|[k v] m IH]; [reflexivity|]. cbn [mp_set mp_find]. destruct (wltb w k); [reflexivity|]. destruct (wltb k w); [|reflexivity].
  unfold i_blocks in *. cbn [fold_right fst]. rewrite IH. lia.
Qed.
Lemma i_step : forall c a p l, exists a' p' l' o, i_setWeight c (mkHO a p l) = (mkHO a' p' l', o) /\ ((o = Val tt /\ a' = iw_setWeight (fst c) (snd c) a /\ (l' + i_blocks a = l + i_blocks a')%nat) \/ (o = Out /\ a' = a /\ l' = l)).
Proof.
  intros [w x] a p l. unfold i_setWeight. cbn [ho_obj ho_plan ho_live fst snd]. pose proof (set_blocks w x a) as Hb. destruct (mp_find wltb w a) eqn:Hf.
  - eexists _, _, _, _. split; [reflexivity|]. left. split; [reflexivity|]. split; [reflexivity|]. unfold iw_setWeight. lia.
  - destruct (grab p) as [[] p1]; [|eexists _, _, _, _; split; [reflexivity|now right]]. destruct (Nat.eqb (length w) 0).
    + eexists _, _, _, _. split; [reflexivity|]. left. split; [reflexivity|]. split; [reflexivity|]. unfold iw_setWeight. lia.
    + destruct (grab p1) as [[] p2]; eexists _, _, _, _; (split; [reflexivity|]); [left; split; [reflexivity|]; split; [reflexivity|]; unfold iw_setWeight; lia|right; split; [reflexivity|]; split; [reflexivity|lia]].
Qed.
Lemma i_lucky : forall c a p l, Forall (fun b => b = true) p -> exists a' p' l', i_setWeight c (mkHO a p l) = (mkHO a' p' l', Val tt) /\ Forall (fun b => b = true) p'.
Proof.
  intros [w x] a p l Hp. unfold i_setWeight. cbn [ho_obj ho_plan ho_live fst snd]. destruct (mp_find wltb w a); [eexists _, _, _; now split|].
  destruct (grab p) as [b p1] eqn:Hg. destruct (grab_true Hp Hg) as [-> Hp1]. destruct (Nat.eqb (length w) 0); [eexists _, _, _; now split|].
  destruct (grab p1) as [b p2] eqn:Hg2. destruct (grab_true Hp1 Hg2) as [-> Hp2]. eexists _, _, _; now split.
Qed.
Lemma iw_run calls plan live st os : o_all i_setWeight calls (mkHO [] plan live) = (st, os) -> length os = length calls /\ Forall as_told os /\
  forall w, iw_getWeight (ho_obj st) w = match last_for (returned calls os) w with Some x => x | None => d_of_Z 1 end.
Proof.
  intros H. destruct (@all_ok _ _ i_setWeight (fun c => iw_setWeight (fst c) (snd c)) i_blocks i_step _ _ _ _ _ _ H) as (A & B & C & D). split; [exact A|]. split; [exact B|]. intros w. rewrite C. exact (weights_spec (returned calls os) w).
Qed.

(** ** MatcherStatistics *)
Lemma st_len : forall s id v, length (st_set s id v) = (match st_find s id with Some _ => 0 | None => 1 end + length s)%nat.
Proof.
  unfold st_find. induction s as [|[k c] s IH]; intros id v; [reflexivity|]. cbn [st_set find fst]. destruct (k =? id)%N; [reflexivity|]. cbn [length]. rewrite IH. lia.
Qed.
Lemma t_step : forall c a p l, exists a' p' l' o, t_wordProcessed c (mkHO a p l) = (mkHO a' p' l', o) /\ ((o = Val tt /\ a' = st_wordProcessed c a /\ (l' + t_blocks a = l + t_blocks a')%nat) \/ (o = Out /\ a' = a /\ l' = l)).
Proof.
  intros id a p l. unfold t_wordProcessed, st_wordProcessed, t_blocks. cbn [ho_obj ho_plan ho_live]. destruct (st_find a id) as [c|] eqn:Hf.
  - eexists _, _, _, _. split; [reflexivity|]. left. split; [reflexivity|]. split; [reflexivity|]. rewrite st_len, Hf. lia.
  - destruct (grab p) as [[] p1]; eexists _, _, _, _; (split; [reflexivity|]); [left; split; [reflexivity|]; split; [reflexivity|]; rewrite st_len, Hf; lia|now right].
Qed.
Lemma t_lucky : forall c a p l, Forall (fun b => b = true) p -> exists a' p' l', t_wordProcessed c (mkHO a p l) = (mkHO a' p' l', Val tt) /\ Forall (fun b => b = true) p'.
Proof.
  intros id a p l Hp. unfold t_wordProcessed. cbn [ho_obj ho_plan ho_live]. destruct (st_find a id); [eexists _, _, _; now split|].
  destruct (grab p) as [b p1] eqn:Hg. destruct (grab_true Hp Hg) as [-> Hp1]. eexists _, _, _; now split.
Qed.
Lemma ms_run ids plan live st os : o_all t_wordProcessed ids (mkHO [] plan live) = (st, os) -> length os = length ids /\ Forall as_told os /\
  forall id, st_getTotalWordCount (ho_obj st) id = N.of_nat (count_occ N.eq_dec (returned ids os) id).
Proof.
  intros H. destruct (@all_ok _ _ t_wordProcessed st_wordProcessed t_blocks t_step _ _ _ _ _ _ H) as (A & B & C & D). split; [exact A|]. split; [exact B|]. intros id. rewrite C. exact (stats_spec (returned ids os) id).
Qed.
Lemma iw_life calls plan live os live' : o_life i_setWeight i_blocks [] calls plan live = (os, live') -> live' = live /\ Forall as_told os.
Proof. exact (@life_ok _ _ i_setWeight (fun c => iw_setWeight (fst c) (snd c)) i_blocks i_step [] eq_refl calls plan live os live'). Qed.
Lemma ms_life ids plan live os live' : o_life t_wordProcessed t_blocks [] ids plan live = (os, live') -> live' = live /\ Forall as_told os.
Proof. exact (@life_ok _ _ t_wordProcessed st_wordProcessed t_blocks t_step [] eq_refl ids plan live os live'). Qed.
Lemma iw_held calls plan live st os : o_all i_setWeight calls (mkHO [] plan live) = (st, os) -> ho_live st = (live + i_blocks (ho_obj st))%nat.
Proof. intros H. destruct (@all_ok _ _ i_setWeight (fun c => iw_setWeight (fst c) (snd c)) i_blocks i_step _ _ _ _ _ _ H) as (A & B & C & D). cbn in D. lia. Qed.
Lemma ms_held ids plan live st os : o_all t_wordProcessed ids (mkHO [] plan live) = (st, os) -> ho_live st = (live + t_blocks (ho_obj st))%nat.
Proof. intros H. destruct (@all_ok _ _ t_wordProcessed st_wordProcessed t_blocks t_step _ _ _ _ _ _ H) as (A & B & C & D). cbn in D. lia. Qed.
Lemma iw_enough calls plan live : Forall (fun b => b = true) plan -> snd (o_all i_setWeight calls (mkHO [] plan live)) = repeat (Val tt) (length calls).
Proof. exact (@all_lucky _ _ i_setWeight i_lucky calls [] plan live). Qed.
Lemma ms_enough ids plan live : Forall (fun b => b = true) plan -> snd (o_all t_wordProcessed ids (mkHO [] plan live)) = repeat (Val tt) (length ids).
Proof. exact (@all_lucky _ _ t_wordProcessed t_lucky ids [] plan live). Qed.
