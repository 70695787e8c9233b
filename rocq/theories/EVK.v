(** Keyboard and number pad prices, and concrete ErrorValues histories. *)
From Verif Require Import Base ErrorValuesM Spec_EV EVP.
From Coq Require Import ZifyBool ZifyN ZifyNat.
Local Open Scope N_scope.

Definition final (ps : list (N * N * Z)) (a b : N) : option Z :=
  fold_left (fun o p => if same_pair a b (fst (fst p)) (snd (fst p)) then Some (snd p) else o) ps None.
Lemma final_fold ps a b : forall (o : option Z) (x : outcome Z),
  fold_left (fun o p => if same_pair a b (fst (fst p)) (snd (fst p)) then Ok (snd p) else o) ps
            (match o with Some v => Ok v | None => x end) =
  match fold_left (fun o p => if same_pair a b (fst (fst p)) (snd (fst p)) then Some (snd p) else o) ps o with
  | Some v => Ok v | None => x end.
Proof.
  induction ps as [|p r IH]; intros o x; [reflexivity|]. cbn [fold_left]. rewrite <- IH. f_equal.
  now destruct (same_pair _ _ _ _).
Qed.
Lemma pairs_final ps calls a b : forallb (fun p => negb (fst (fst p) =? snd (fst p))) ps = true ->
  getSubstituteError (set_pairs ps (ev_after calls)) a b =
  match final ps a b with Some v => Ok v | None => getSubstituteError (ev_after calls) a b end.
Proof.
  intros Hf. rewrite pairs_get by (try apply after_wf; exact Hf).
  apply (@final_fold ps a b None (getSubstituteError (ev_after calls) a b)).
Qed.

(** Letters that occur in none of the pairs. *)
Lemma final_none ps ks a b : forallb (fun p => memb (fst (fst p)) ks && memb (snd (fst p)) ks) ps = true ->
  memb a ks = false \/ memb b ks = false -> final ps a b = None.
Proof.
  intros Hf Hn. unfold final.
  assert (H : forall o : option Z, o = None -> fold_left (fun o p => if same_pair a b (fst (fst p)) (snd (fst p)) then Some (snd p) else o) ps o = None).
  { induction ps as [|p r IH]; intros o Ho; [exact Ho|]. cbn [forallb fold_left] in *.
    apply andb_true_iff in Hf as [Hp Hf]. apply andb_true_iff in Hp as [H1 H2]. apply IH; [exact Hf|].
    destruct (same_pair a b _ _) eqn:Hs; [|exact Ho]. exfalso. unfold same_pair in Hs.
    assert (Hc : (a = fst (fst p) /\ b = snd (fst p)) \/ (a = snd (fst p) /\ b = fst (fst p))) by lia.
    destruct Hc as [[-> ->]|[-> ->]]; destruct Hn; congruence. }
  now apply H.
Qed.
Lemma check2 (f g : N -> N -> option Z) ks : (forall a b, memb a ks = false \/ memb b ks = false -> f a b = None /\ g a b = None) ->
  forallb (fun a => forallb (fun b => match f a b, g a b with Some x, Some y => (x =? y)%Z | None, None => true | _, _ => false end) ks) ks = true ->
  forall a b, f a b = g a b.
Proof.
  intros Hn Hc a b. destruct (memb a ks) eqn:Ha; [destruct (memb b ks) eqn:Hb|].
  - apply memb_in in Ha. apply memb_in in Hb. rewrite forallb_forall in Hc. specialize (Hc a Ha).
    rewrite forallb_forall in Hc. specialize (Hc b Hb). destruct (f a b), (g a b); try discriminate; [|reflexivity].
    f_equal. lia.
  - destruct (Hn a b) as [-> ->]; [now right|reflexivity].
  - destruct (Hn a b) as [-> ->]; [now left|reflexivity].
Qed.

Lemma index_in_none l row : memb l row = false -> index_in l row = None.
Proof.
  induction row as [|x r IH]; [reflexivity|]. cbn [memb existsb index_in]. destruct (l =? x); [discriminate|].
  intros H. now rewrite IH.
Qed.
Lemma place_in_none l rows : memb l (concat rows) = false -> place_in l rows = None.
Proof.
  induction rows as [|row r IH]; [reflexivity|]. cbn [concat place_in]. unfold memb in *. rewrite existsb_app. intros H.
  apply orb_false_iff in H as [H1 H2]. rewrite index_in_none by exact H1. now rewrite IH.
Qed.
Lemma letter_place_none l rows : memb l (concat (concat rows)) = false -> letter_place_in l rows = None.
Proof.
  induction rows as [|row r IH]; [reflexivity|]. cbn [concat letter_place_in]. rewrite concat_app.
  unfold memb in *. rewrite existsb_app. intros H. apply orb_false_iff in H as [H1 H2].
  rewrite place_in_none by exact H1. now rewrite IH.
Qed.

Definition kb_rule (a b : N) : option Z :=
  if (side_by_side a b && negb (in_row 3 a)) || just_below a b || just_below b a then Some 30%Z else None.
Lemma kb_final a b : final kb_calls a b = kb_rule a b.
Proof.
  revert a b. apply (@check2 _ _ (concat key_rows)).
  - intros a b Hn. split; [apply (@final_none _ (concat key_rows)); [vm_compute; reflexivity|exact Hn]|].
    unfold kb_rule, side_by_side, just_below.
    destruct Hn as [Hn|Hn].
    + replace (key_place a) with (@None (nat * nat)) by (symmetry; now apply place_in_none).
      destruct (key_place b) as [[]|]; reflexivity.
    + replace (key_place b) with (@None (nat * nat)) by (symmetry; now apply place_in_none).
      destruct (key_place a) as [[]|]; reflexivity.
  - vm_compute. reflexivity.
Qed.

Lemma keyboard_prices calls a b :
  getSubstituteError (ev_after (calls ++ [AddKeyboardErrors])) a b =
  if (side_by_side a b && negb (in_row 3 a)) || just_below a b || just_below b a
  then Ok 30%Z else getSubstituteError (ev_after calls) a b.
Proof.
  unfold ev_after at 1. rewrite run_app. fold (ev_after calls). cbn [ev_run fold_left ev_do pure fst].
  rewrite kb_pairs, pairs_final by reflexivity. rewrite kb_final. unfold kb_rule. now destruct (_ || _).
Qed.

Definition pad_one (d l : N) : option Z :=
  if on_key d l then Some 0%Z else if on_touching_key d l && negb (missed d l) then Some 50%Z else None.
Definition pad_rule (a b : N) : option Z :=
  match pad_one a b with Some v => Some v | None => pad_one b a end.
Definition pad_keys : list N := concat pad_digit_rows ++ concat (concat pad_letter_rows).
Lemma pad_one_none a b : memb a pad_keys = false \/ memb b pad_keys = false -> pad_one a b = None.
Proof.
  unfold pad_one, on_key, on_touching_key, pad_keys, memb. rewrite !existsb_app.
  intros [H|H]; apply orb_false_iff in H as [H1 H2].
  - replace (digit_place a) with (@None (nat * nat)) by (symmetry; now apply place_in_none). reflexivity.
  - replace (letter_place b) with (@None (nat * nat)) by (symmetry; now apply letter_place_none).
    destruct (digit_place a) as [[]|]; reflexivity.
Qed.
Lemma pad_final a b : final pad_calls a b = pad_rule a b.
Proof.
  revert a b. apply (@check2 _ _ pad_keys).
  - intros a b Hn. split; [apply (@final_none _ pad_keys); [vm_compute; reflexivity|exact Hn]|].
    unfold pad_rule. rewrite !pad_one_none by tauto. reflexivity.
  - vm_compute. reflexivity.
Qed.
Lemma numberpad_prices calls a b :
  getSubstituteError (ev_after (calls ++ [AddNumberpadErrors])) a b =
  if on_key a b || on_key b a then Ok 0%Z
  else if (on_touching_key a b && negb (missed a b)) || (on_touching_key b a && negb (missed b a)) then Ok 50%Z
  else getSubstituteError (ev_after calls) a b.
Proof.
  unfold ev_after at 1. rewrite run_app. fold (ev_after calls). cbn [ev_run fold_left ev_do pure fst].
  rewrite pad_pairs, pairs_final by reflexivity. rewrite pad_final. unfold pad_rule, pad_one.
  destruct (on_key a b) eqn:H1; [reflexivity|]. cbn [orb].
  destruct (on_touching_key a b && negb (missed a b)) eqn:H2.
  - cbn [orb]. destruct (on_key b a) eqn:H3; [|reflexivity]. exfalso.
    unfold on_touching_key in H2. destruct (digit_place a) as [[r c]|] eqn:Hd; [|discriminate].
    unfold on_key in H3. destruct (letter_place a) as [[r' c']|] eqn:Hl; [|destruct (digit_place b) as [[]|]; discriminate].
    destruct (memb a (concat pad_digit_rows)) eqn:Hm; [|unfold digit_place in Hd; rewrite place_in_none in Hd by exact Hm; discriminate].
    clear - Hm Hl. apply memb_in in Hm. cbn in Hm.
    repeat (destruct Hm as [<-|Hm]; [discriminate|]). exact Hm.
  - destruct (on_key b a) eqn:H3; cbn [orb]; [reflexivity|]. now destruct (on_touching_key b a && negb (missed b a)).
Qed.

(** ** Concrete histories for the refuted properties *)
Lemma last_call_refuted : exists calls a b v,
  Forall basic calls /\ all_ok (calls ++ [SetGroupError [a; b] v]) ev_new /\ a <> b /\ 
  exists w, getSubstituteError (ev_after (calls ++ [SetGroupError [a; b] v])) a b = Ok w /\ w <> v.
Proof.
  exists [SetError 600 601 7%Z], 600, 601, 30%Z. split; [repeat constructor|]. split; [vm_compute; auto|].
  split; [discriminate|]. exists 7%Z. split; [vm_compute; reflexivity|discriminate].
Qed.
Lemma self_refuted : exists calls a v, getSubstituteError (ev_after calls) a a = Ok v /\ v <> 0%Z.
Proof. exists [SetError 97 97 5%Z], 97, 5%Z. split; [vm_compute; reflexivity|discriminate]. Qed.
Lemma bottom_row_refuted : exists a b, side_by_side a b = true /\
  getSubstituteError (ev_after [AddKeyboardErrors]) a b = Ok 100%Z.
Proof. exists 122, 120. split; vm_compute; reflexivity. Qed.
Lemma pad_refuted : exists d l, on_touching_key d l = true /\
  getSubstituteError (ev_after [AddNumberpadErrors]) d l = Ok 100%Z.
Proof. exists 53, 103. split; vm_compute; reflexivity. Qed.
(** A failing setGroupError does change the price of letters from 512 up. *)
Lemma throw_changes_refuted : exists calls g v a b,
  snd (ev_do (SetGroupError g v) (ev_after calls)) = Throw ERuntime /\
  getSubstituteError (ev_after (calls ++ [SetGroupError g v])) a b <> getSubstituteError (ev_after calls) a b.
Proof.
  exists [SetGroupError [97] 30%Z], [600; 601; 97], 5%Z, 600, 601.
  split; [vm_compute; reflexivity|]. vm_compute. discriminate.
Qed.
