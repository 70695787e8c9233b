(** Proofs about OomM: the theorems. *)
From Verif Require Import Base TrieM WordM WordP WordQ SplitP MapM DoubleM ContM OwnM OwnP OwnQ Spec_Word Spec_Own OomM Spec_Oom OomP OomQ OomR OomS.
Local Open Scope Z_scope.

Section Thms.
Variable E : env.
Lemma sum_pos A (fp : A -> Z) l : (forall x, 0 <= fp x) -> 0 <= sum fp l.
Proof. intros H. induction l as [|x l IH]; [reflexivity|]. rewrite sum_cons. specialize (H x). lia. Qed.
Lemma st_pos A (v : vec A) : 0 <= fp_st v.
Proof. unfold fp_st. destruct (Nat.eqb _ 0); lia. Qed.
Lemma word_pos o : 0 <= fp_w o.
Proof. unfold fp_w. destruct (o_text o); lia. Qed.
Lemma list_pos l : 0 <= fp_list l.
Proof. unfold fp_list, fp_vec. pose proof (@st_pos _ l). pose proof (@sum_pos _ _ (v_elems l) word_pos). lia. Qed.
Lemma doc_pos d : 0 <= fp_doc d.
Proof. unfold fp_doc. enough (0 <= sum fp_node (od_texts d)) by lia. apply sum_pos. intros t. unfold fp_node. pose proof (@word_pos (fst t)). pose proof (@list_pos (snd t)). lia. Qed.
Lemma held_pos vs : 0 <= held vs.
Proof.
  apply sum_pos. intros [[o|l|d|c]|]; cbn; [apply word_pos|apply list_pos|apply doc_pos| |lia]. unfold fp_corpus, fp_vec. pose proof (@st_pos _ c). pose proof (@sum_pos _ _ (v_elems c) doc_pos). unfold ocorpus in *. lia.
Qed.
(** The statements undefined even with memory enough. *)
Lemma text_not_ub s : word_of_utf8 E s <> UB.
Proof.
  unfold word_of_utf8. destruct (internal_cases E s) as [[w ->]| ->]; cbn [obind]; [|discriminate]. pose proof (validate_kind E w) as H. intros H1. now rewrite H1 in H.
Qed.
Lemma words_not_ub rs : all_of (word_of_utf8 E) rs <> UB.
Proof.
  induction rs as [|r rs IH]; cbn [all_of]; [discriminate|]. pose proof (@text_not_ub r). destruct (word_of_utf8 E r); cbn [obind]; try congruence.
  destruct (all_of _ rs); cbn [obind]; congruence.
Qed.
Lemma split_not_ub s : splitToWords E s <> UB.
Proof. destruct (cut_ws_exists s) as [rs Hr]. rewrite (split_ws E Hr). apply words_not_ub. Qed.
Lemma ub_only c vs f : Forall whole_v vs -> step E c vs = Some f -> snd (v_exec E (same c) (the_values vs)) = UB ->
  c = SWordLetters [] \/ exists x w, c = SWordUtf8 x /\ nth_error (the_values vs) x = Some (Some (VWord (WGood w))) /\ asUtf8 w = UB.
Proof.
  intros Hv. destruct c; cbn [step same v_exec].
  all: repeat match goal with
  | |- context [a_word ?vs ?x] => let H := fresh "H" in destruct (a_word vs x) as [?|] eqn:H; [|discriminate]; apply a_word_in in H
  | |- context [a_list ?vs ?x] => let H := fresh "H" in destruct (a_list vs x) as [?|] eqn:H; [|discriminate]; apply a_list_in in H
  | |- context [a_doc ?vs ?x] => let H := fresh "H" in destruct (a_doc vs x) as [?|] eqn:H; [|discriminate]; apply a_doc_in in H
  | |- context [a_corpus ?vs ?x] => let H := fresh "H" in destruct (a_corpus vs x) as [?|] eqn:H; [|discriminate]; apply a_corpus_in in H
  end; cbn [v_word v_list v_doc]; unfold v_wvar, v_lvar, v_dvar, v_cvar;
  repeat match goal with H : nth_error ?vs ?x = Some (Some _) |- _ => rewrite (values_var H) end; cbn [obind the_obj with_ present self_w self_l snd fst].
  all: try (intros _ H'; discriminate H').
  - intros _ H'. pose proof (@text_not_ub s). destruct (word_of_utf8 E s); cbn in H'; congruence.
  - intros _ H'. pose proof (letters_kind E ls) as Hk. destruct (word_of_letters E ls); cbn in H'; try discriminate H'. left. now rewrite Hk.
  - destruct (Nat.eqb x y); intros _ H'; discriminate H'.
  - intros _ H'. pose proof (@text_not_ub s) as Ht. unfold word_of_utf8 in Ht. destruct (utf8ToInternal E s) as [ls| | | |]; cbn [obind] in Ht; try discriminate H'; [|congruence]. destruct (validate E ls); cbn in H'; congruence.
  - intros _ H'. right. exists x, (the_word o). split; [reflexivity|]. split; [unfold the_values; rewrite nth_error_map, H; reflexivity|]. destruct (asUtf8 (the_word o)); try discriminate H'. reflexivity.
  - intros _ H'. pose proof (@split_not_ub s). destruct (splitToWords E s); cbn in H'; congruence.
  - destruct (Nat.eqb x y); intros _ H'; discriminate H'.
  - intros _ H'. unfold wl_at, at_or_throw in H'. destruct (N.of_nat _ <=? i)%N eqn:Hi; [discriminate H'|]. destruct (nth_error (the_list o) _) eqn:Hn; [discriminate H'|]. apply nth_error_None in Hn. apply N.leb_gt in Hi. lia.
  - intros _ H'. pose proof (@split_not_ub s). destruct (splitToWords E s); cbn in H'; congruence.
  - destruct (nth_error vs x) as [[o|]|] eqn:H; [|discriminate|discriminate]. rewrite (values_var H). intros _ H'. discriminate H'.
Qed.

Lemma effects p ops m vs fs : runs E ops (mkMem p 0) [] = (m, vs, fs) -> never_threw assigns ops fs -> e_ndebug E = false \/ p = [] ->
  v_prog E (map same (done ops fs)) [] = (the_values vs, Ok (map (fun _ => Ok tt) (done ops fs))).
Proof. intros Hr Ha. destruct (@runs_ok E _ _ _ _ _ _ Hr ltac:(constructor) (@never_undamaged E _ _ _ _ _ _ Hr ltac:(constructor) Ha)) as (_ & _ & H & _). exact (H Ha). Qed.
Section Program.
Variables (p : list bool) (ops : list stmt) (m : memory) (vs : ovars) (fs : list fate).
Hypothesis Hr : runs E ops (mkMem p 0) [] = (m, vs, fs).
Hypothesis Hn : undamaged E ops (mkMem p 0) [].
Lemma safe k : nth_error fs k = Some Died_undefined ->
  nth_error ops k = Some (SWordLetters []) \/ exists x w, nth_error ops k = Some (SWordUtf8 x) /\ nth_error (the_values vs) x = Some (Some (VWord (WGood w))) /\ asUtf8 w = UB.
Proof.
  intros H. destruct (@runs_ok E _ _ _ _ _ _ Hr ltac:(constructor) Hn) as (W & _ & _ & _ & _ & H7 & _). destruct (H7 k H) as (c & Hc & Hu & f & Hf).
  destruct (ub_only W Hf Hu) as [->|(x & w & -> & Hx & Hw)]; [left; exact Hc|right; exists x, w; auto].
Qed.
Lemma fuel : ~ In Died_fuel fs.
Proof. destruct (@runs_ok E _ _ _ _ _ _ Hr ltac:(constructor) Hn) as (_ & _ & _ & H & _). exact H. Qed.
Lemma enough : p = [] -> ~ In (Threw OutOfMemory) fs.
Proof. destruct (@runs_ok E _ _ _ _ _ _ Hr ltac:(constructor) Hn) as (_ & _ & _ & _ & _ & _ & H). exact H. Qed.
Lemma gone_held : (forall v, In v vs -> v = None) -> held vs = 0.
Proof. unfold held. clear. induction vs as [|v l IH]; intros H; [reflexivity|]. rewrite sum_cons, IH by (intros x Hx; apply H; now right). rewrite (H v) by now left. reflexivity. Qed.
Lemma freed : no_crash fs -> (forall v, In v vs -> v = None) -> 0 <= live m <= may_be_lost ops fs.
Proof.
  intros Hc Hg. apply not_crashed in Hc. destruct (@runs_ok E _ _ _ _ _ _ Hr ltac:(constructor) Hn) as (_ & [H1|H1] & _); [tauto|]. rewrite (gone_held Hg) in H1. cbn in H1. lia.
Qed.
Lemma not_too_much : no_crash fs -> 0 <= live m.
Proof.
  intros Hc. apply not_crashed in Hc. destruct (@runs_ok E _ _ _ _ _ _ Hr ltac:(constructor) Hn) as (W & [H|H] & _); [tauto|]. cbn in H. pose proof (@held_pos vs). lia.
Qed.
(** What comes next. *)
Lemma word_at x : has_letters (the_values vs) x -> exists o ls, nth_error vs x = Some (Some (OWord o)) /\ o_text o = TOwn ls /\ (o_len o < N.of_nat (length ls))%N /\ o_len o <> 0%N.
Proof.
  intros (v & Hx & Hv). destruct (@runs_ok E _ _ _ _ _ _ Hr ltac:(constructor) Hn) as (W & _). unfold the_values in Hx. rewrite nth_error_map in Hx. destruct (nth_error vs x) as [[[o|l|d|c]|]|] eqn:Ho; try discriminate Hx.
  pose proof (whole_in W Ho) as Wo. cbn in Wo. injection Hx as Hx. unfold whole_w in Wo. unfold the_word in Hx. destruct (o_text o) as [|ls|] eqn:Ht; [congruence| |destruct Wo].
  exists o, ls. repeat split; auto. intros H0. rewrite H0 in Hx. cbn in Hx. congruence.
Qed.
Lemma bad_assign x y r : no_crash fs -> x <> y -> has_letters (the_values vs) x -> has_letters (the_values vs) y -> plan m = false :: r ->
  exists m' vs', runs E (ops ++ [SWordAssign x y; SDestroy x]) (mkMem p 0) [] = (m', vs', fs ++ [Threw OutOfMemory; Died_undefined]).
Proof.
  intros Hc Hxy Hx Hy Hp. apply not_crashed in Hc. destruct (word_at Hx) as (o & ls & Hox & Htx & _). destruct (word_at Hy) as (o2 & ls2 & Hoy & Hty & _ & Hl).
  rewrite (@runs_app E _ [SWordAssign x y; SDestroy x] _ _ _ _ _ Hr ltac:(constructor) Hn Hc). cbn [runs step]. unfold a_word at 1. rewrite Hox. unfold a_word. rewrite Hoy. apply Nat.eqb_neq in Hxy. rewrite Hxy.
  unfold change, o_duplicate, tbind, t_delete, free, try, alloc. rewrite Htx. cbn [plan live]. apply N.eqb_neq in Hl. rewrite Hl, Hp. cbn [plan live fst snd]. unfold val. cbn [fst snd deleted].
  rewrite (@upd_same _ x (Some (OWord (mkOW TDangling (o_len o2)))) _ vs Hox). cbn [o_kill o_destroy t_delete o_text]. eauto.
Qed.
Lemma leak_copy x l r : no_crash fs -> nth_error (the_values vs) x = Some (Some (VList (Some l))) -> l <> [] -> plan m = true :: false :: r ->
  runs E (ops ++ [SListCopy x]) (mkMem p 0) [] = (mkMem r (live m + 1), vs, fs ++ [Threw OutOfMemory]).
Proof.
  intros Hc Hx Hl Hp. apply not_crashed in Hc. rewrite (@runs_app E _ [SListCopy x] _ _ _ _ _ Hr ltac:(constructor) Hn Hc). cbn [runs step]. unfold the_values in Hx. rewrite nth_error_map in Hx. unfold a_list.
  destruct (nth_error vs x) as [[[o|l0|d|c]|]|] eqn:Ho; try discriminate Hx. injection Hx as <-. unfold make, l_copy, construct, v_assign, tbind, try, alloc, v_new. rewrite Hp. cbn [plan live v_cap v_elems].
  unfold the_list in Hl. destruct (v_elems l0) as [|w ws]; [now destruct Hl|]. cbn [length Nat.ltb Nat.leb]. reflexivity.
Qed.
Lemma text_assign x w s m' vs' fs' : no_crash fs -> nth_error (the_values vs) x = Some (Some (VWord w)) ->
  runs E (ops ++ [SWordAssignText x s; SDestroy x]) (mkMem p 0) [] = (m', vs', fs') -> ~ In Died_undefined fs'.
Proof.
  intros Hc Hx. pose proof (proj1 (@not_crashed fs) Hc) as Hc'. rewrite (@runs_app E _ [SWordAssignText x s; SDestroy x] _ _ _ _ _ Hr ltac:(constructor) Hn Hc').
  destruct (@runs_ok E _ _ _ _ _ _ Hr ltac:(constructor) Hn) as (W & _). unfold the_values in Hx. rewrite nth_error_map in Hx. cbn [runs step]. unfold a_word.
  destruct (nth_error vs x) as [[[o|l0|d|c]|]|] eqn:Ho; try discriminate Hx. pose proof (whole_in W Ho) as Wo. cbn in Wo.
  assert (H : sp (change x (o_assign_text E o s) OWord vs) m (fun _ r => exists o', fst r = upd x (Some (OWord o')) vs /\ forall m0, exists m1, o_destroy o' m0 = (m1, Val tt)) (fun _ _ => False) (fun c => c = CAbort)).
  { unfold change, o_assign_text. apply sp_bind, sp_bind. eapply sp_frees; [apply delete_frees, Wo|]. intros m1 _ _. eapply sp_mono; [apply (convert_ok E s m1)| |easy|].
    - cbn beta. intros m2 [r [e|]] [_ H]; apply sp_val; exists r; (split; [reflexivity|]); intros m0; cbn [fst snd] in H; unfold o_destroy, t_delete.
      + destruct H as [H _]. unfold gone in H. rewrite H. unfold val. eauto.
      + destruct H as [H _]. unfold whole_w in H. destruct (o_text r); [unfold val|unfold free|destruct H]; eauto.
    - intros []; easy. }
  unfold sp in H. destruct (change x _ OWord vs m) as [m1 [[vs1 e]|e| | |]]; cbn [fst] in H.
  - destruct H as (o' & -> & H). rewrite (@upd_same _ x (Some (OWord o')) _ vs Ho). cbn [o_kill]. unfold tbind. destruct (H m1) as [m2 ->]. unfold val. intros [= <- <- <-] Hin.
    apply in_app_or in Hin as [Hin|[Hin|[Hin|[]]]]; [now apply Hc|destruct e; discriminate|discriminate].
  - destruct H.
  - intros [= <- <- <-] Hin. apply in_app_or in Hin as [Hin|[Hin|[]]]; [now apply Hc|discriminate].
  - discriminate H.
  - discriminate H.
Qed.
End Program.
(** strdup fails. *)
Lemma strdup_abort s r : e_ndebug E = false -> runs E [SWordText s] (mkMem (true :: false :: r) 0) [] = (mkMem r 1, [], [Died_abort]).
Proof. intros H. cbn [runs step]. unfold make, o_of_text, construct, o_convert, tbind, try, alloc. cbn [plan live]. rewrite H. reflexivity. Qed.
Lemma strdup_silent s : e_ndebug E = true -> exists m vs, runs E [SWordText s] (mkMem [true; false] 0) [] = (m, vs, [Done]) /\ the_values vs = [Some (VWord (WGood []))].
Proof.
  intros H. cbn [runs step]. unfold make, o_of_text, construct, o_convert, tbind, try, alloc. cbn [plan live]. rewrite H. unfold o_finish, tbind, try, alloc, free, val, validate, has_ws, has_broken, pure. cbn [length existsb broken_loop obind].
  change (N.of_nat 0) with 0%N. destruct (2 * 0 <? N.of_nat (length s))%N; cbn [plan live fst snd obind]; eauto.
Qed.
End Thms.
