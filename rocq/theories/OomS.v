(** Proofs about OomM: statements and programs. *)
From Verif Require Import Base TrieM WordM WordP WordQ MapM DoubleM ContM OwnM OwnP OwnQ Spec_Own OomM Spec_Oom OomP OomQ OomR.
Local Open Scope Z_scope.

Definition whole_o (c : oobj) : Prop := match c with OWord o => whole_w o | OList l => whole_l l | ODoc d => whole_d d | OCorpus c => whole_c c end.
Definition fp_o (c : oobj) : Z := match c with OWord o => fp_w o | OList l => fp_list l | ODoc d => fp_doc d | OCorpus c => fp_corpus c end.
Definition whole_v (v : option oobj) : Prop := match v with None => True | Some c => whole_o c end.
Definition fp_v (v : option oobj) : Z := match v with None => 0 | Some c => fp_o c end.
Definition held (vs : ovars) : Z := sum fp_v vs.

Lemma kill_frees c : whole_o c -> frees (o_kill c) (fp_o c).
Proof. destruct c; cbn; [apply word_frees|apply list_frees|apply doc_frees|apply corpus_frees]. Qed.
Lemma values_app vs c : the_values (vs ++ [Some c]) = add (the_obj c) (the_values vs).
Proof. unfold the_values, add. now rewrite map_app. Qed.
Lemma values_upd x c vs : the_values (upd x (Some c) vs) = becomes x (the_obj c) (the_values vs).
Proof. unfold the_values, becomes. now rewrite upd_map. Qed.
Lemma values_var vs x c : nth_error vs x = Some (Some c) -> v_var (the_values vs) x = Ok (the_obj c).
Proof. intros H. unfold v_var, the_values. rewrite nth_error_map, H. reflexivity. Qed.
Lemma a_word_in vs x o : a_word vs x = Some o -> nth_error vs x = Some (Some (OWord o)).
Proof. unfold a_word. destruct (nth_error vs x) as [[[]|]|]; congruence. Qed.
Lemma a_list_in vs x o : a_list vs x = Some o -> nth_error vs x = Some (Some (OList o)).
Proof. unfold a_list. destruct (nth_error vs x) as [[[]|]|]; congruence. Qed.
Lemma a_doc_in vs x o : a_doc vs x = Some o -> nth_error vs x = Some (Some (ODoc o)).
Proof. unfold a_doc. destruct (nth_error vs x) as [[[]|]|]; congruence. Qed.
Lemma a_corpus_in vs x o : a_corpus vs x = Some o -> nth_error vs x = Some (Some (OCorpus o)).
Proof. unfold a_corpus. destruct (nth_error vs x) as [[[]|]|]; congruence. Qed.
Lemma whole_in vs x c : Forall whole_v vs -> nth_error vs x = Some (Some c) -> whole_o c.
Proof. intros H Hn. rewrite Forall_forall in H. exact (H _ (nth_error_In _ _ Hn)). Qed.
Lemma upd_same A i (x y : A) l : nth_error l i = Some y -> nth_error (upd i x l) i = Some x.
Proof. revert i. induction l as [|z l IH]; intros [|i] H; try discriminate H; cbn in *; auto. Qed.
Lemma upd_other A i j (x : A) l : i <> j -> nth_error (upd i x l) j = nth_error l j.
Proof. revert i j. induction l as [|z l IH]; intros [|i] [|j] H; cbn; auto; try congruence. Qed.

Section Steps.
Variable E : env.
(** What a statement does when the same statement on values does [R]. *)
Definition good_step (asg : bool) (over : Prop) (leak : Z) (vs : ovars) (R : values * outcome unit) (f : T (ovars * option stop)) (m : memory) : Prop := sp f m
  (fun m' r => quiet m m' /\ match snd r with
    | None => Forall whole_v (fst r) /\ (e_ndebug E = false \/ plan m = [] -> R = (the_values (fst r), Ok tt)) /\ live m' - held (fst r) = live m - held vs
    | Some p => (asg = false -> fst r = vs) /\ (~ over -> Forall whole_v (fst r) /\ live m - held vs <= live m' - held (fst r) <= live m - held vs + leak) /\ (plan m = [] -> exists e, p = Thrown e /\ snd R = Throw e) end)
  (fun _ _ => False)
  (fun k => match k with CAbort => e_ndebug E = false | CUndef => snd R = UB | CFuel => False end).
Lemma make_ok A V (f : T A) (o : outcome V) whole the fp leak over (obj : A -> oobj) (tov : V -> vobj) vs m :
  ref E f o whole the fp leak -> (forall a, whole a -> whole_o (obj a)) -> (forall a, the_obj (obj a) = tov (the a)) -> (forall a, fp_o (obj a) = fp a) ->
  Forall whole_v vs -> good_step false over leak vs (with_ (the_values vs) o (fun v => (add (tov v) (the_values vs), Ok tt))) (make f obj vs) m.
Proof.
  intros Hr Hw Ht Hf Hv. unfold good_step, make. apply sp_bind, sp_try. eapply sp_ref; [exact Hr| | | |].
  - intros m' a W V' L Q. apply sp_val. cbn [fst snd]. split; [exact Q|]. split; [apply Forall_app; split; [exact Hv|constructor; [exact (Hw _ W)|constructor]]|]. split.
    + intros H. rewrite (V' H). cbn [with_]. rewrite values_app, Ht. reflexivity.
    + unfold held. rewrite sum_app, sum_cons, sum_nil. cbn [fp_v]. rewrite Hf. lia.
  - intros m' p L P. apply sp_val. cbn [fst snd]. split; [intros H; apply P, H|]. split; [auto|]. split; [intros _; split; [exact Hv|unfold lost in L; lia]|]. intros H. destruct (P H) as (_ & e & -> & ->). exists e. split; reflexivity.
  - auto.
  - intros ->. reflexivity.
Qed.
Lemma update_ok A V (f : T A) (v : V) whole the fp leak over (obj : A -> oobj) (tov : V -> vobj) vs x old m :
  ref E f (Ok v) whole the fp leak -> (forall a, whole a -> whole_o (obj a)) -> (forall a, the_obj (obj a) = tov (the a)) -> nth_error vs x = Some (Some old) -> (forall a, fp_o (obj a) - fp_o old = fp a) ->
  Forall whole_v vs -> good_step false over leak vs (becomes x (tov v) (the_values vs), Ok tt) (update x f obj vs) m.
Proof.
  intros Hr Hw Ht Hn Hf Hv. unfold good_step, update. apply sp_bind, sp_try. eapply sp_ok; [exact Hr| | |].
  - intros m' a W V' L Q. apply sp_val. cbn [fst snd]. split; [exact Q|]. split; [apply upd_Forall; [exact (Hw _ W)|exact Hv]|]. split.
    + intros H. rewrite (V' H), values_upd, Ht. reflexivity.
    + unfold held. rewrite (upd_sum fp_v _ Hn). cbn [fp_v]. specialize (Hf a). lia.
  - intros m' p L P. apply sp_val. cbn [fst snd]. unfold quiet. split; [easy|]. split; [auto|]. split; [intros _; split; [exact Hv|unfold lost in L; lia]|easy].
  - auto.
Qed.
Ltac here := eauto using a_word_in, a_list_in, a_doc_in, a_corpus_in.
Ltac wl H := let W := fresh "W" in pose proof (whole_in ltac:(eassumption) H) as W; cbn [whole_o] in W.
Lemma step_ok c vs f m : Forall whole_v vs -> step E c vs = Some f -> good_step (assigns c) (overwrites (the_values vs) c) (may_lose c) vs (v_exec E (same c) (the_values vs)) f m.
Proof.
  intros Hv. destruct c; cbn [step same v_exec assigns may_lose overwrites].
  - intros [= <-]. exact (@make_ok _ _ (val o_empty) (Ok []) whole_w the_word fp_w 0 (false = true) OWord (fun w => VWord (WGood w)) vs m ltac:(intros m0; apply sp_val; repeat split; auto; [cbn; lia|red; auto]) ltac:(auto) ltac:(auto) ltac:(auto) Hv).
  - intros [= <-]. exact (make_ok (obj := OWord) (tov := fun w => VWord (WGood w)) _ m (of_text_ref E s) ltac:(auto) ltac:(auto) ltac:(auto) Hv).
  - intros [= <-]. exact (make_ok (obj := OWord) (tov := fun w => VWord (WGood w)) _ m (of_letters_ref E ls) ltac:(auto) ltac:(auto) ltac:(auto) Hv).
  - destruct (a_word vs x) as [o|] eqn:Hx; [|discriminate]. apply a_word_in in Hx. wl Hx. intros [= <-]. cbn [v_word]. unfold v_wvar. rewrite (values_var Hx). cbn [obind the_obj].
    exact (make_ok (obj := OWord) (tov := fun w => VWord (WGood w)) _ m (copy_ref E W) ltac:(auto) ltac:(auto) ltac:(auto) Hv).
  - destruct (a_word vs x) as [o|] eqn:Hx; [|discriminate]. apply a_word_in in Hx. wl Hx. intros [= <-]. unfold v_wvar. rewrite (values_var Hx). cbn [obind the_obj with_].
    unfold make, good_step. apply sp_bind, sp_try, sp_val, sp_val. cbn [fst snd]. split; [red; auto|]. split; [apply Forall_app; split; [apply upd_Forall; [reflexivity|exact Hv]|constructor; [exact W|constructor]]|].
    split; [intros _; rewrite values_app, values_upd; reflexivity|]. unfold held. rewrite sum_app, sum_cons, sum_nil, (upd_sum fp_v _ Hx). cbn [fp_v fp_o]. change (fp_w o_empty) with 0. lia.
  - (* WordAssign *) destruct (a_word vs x) as [o|] eqn:Hx; [|discriminate]. destruct (a_word vs y) as [o2|] eqn:Hy; [|discriminate]. apply a_word_in in Hx, Hy. wl Hx. wl Hy.
    intros [= <-]. unfold v_wvar at 1. rewrite (values_var Hx). cbn [obind the_obj with_ self_w v_word]. destruct (Nat.eqb x y).
    + unfold good_step. apply sp_val. cbn [fst snd]. split; [red; auto|]. split; [exact Hv|]. split; [reflexivity|lia].
    + unfold v_wvar. rewrite (values_var Hy). cbn [obind the_obj with_]. unfold change, good_step. apply sp_bind.
      eapply sp_mono; [apply (@duplicate_ok o o2 m (fun _ _ => False) (fun _ => False) W W0)| |easy|easy]. cbn beta. intros m1 [r [p|]] [H Q]; apply sp_val; cbn [fst snd] in *; (split; [exact Q|]).
      * split; [discriminate|]. split; [intros H0; now destruct H0|]. intros H0. destruct H as (_ & H & _). destruct (H H0).
      * destruct H as (W1 & V1 & L1). split; [apply upd_Forall; [exact W1|exact Hv]|]. split; [intros _; rewrite values_upd; cbn [the_obj]; rewrite V1; reflexivity|].
        unfold held. rewrite (upd_sum fp_v _ Hx). cbn [fp_v fp_o]. lia.
  - (* WordMoveAssign *) destruct (a_word vs x) as [o|] eqn:Hx; [|discriminate]. destruct (a_word vs y) as [o2|] eqn:Hy; [|discriminate]. apply a_word_in in Hx, Hy. wl Hx. wl Hy.
    intros [= <-]. unfold v_wvar at 1. rewrite (values_var Hx). cbn [obind the_obj with_]. unfold v_wvar. rewrite (values_var Hy). cbn [obind the_obj with_].
    unfold good_step. apply sp_bind. eapply sp_frees; [apply delete_frees, W|]. intros m1 L1 P1. apply sp_val. cbn [fst snd]. unfold quiet. rewrite P1. split; [auto|].
    split; [apply upd_Forall; [reflexivity|]; apply upd_Forall; [exact W0|exact Hv]|]. split; [intros _; rewrite !values_upd; reflexivity|].
    unfold held. destruct (Nat.eq_dec x y) as [->|Hne].
    + rewrite (upd_sum fp_v _ (@upd_same _ y (Some (OWord o2)) _ vs Hy)), (upd_sum fp_v _ Hy). cbn [fp_v fp_o]. change (fp_w o_empty) with 0. rewrite Hx in Hy. injection Hy as <-. lia.
    + rewrite (upd_sum fp_v _ (eq_trans (@upd_other _ x y (Some (OWord o2)) vs Hne) Hy)), (upd_sum fp_v _ Hx). cbn [fp_v fp_o]. change (fp_w o_empty) with 0. lia.
  - (* WordAssignText *) destruct (a_word vs x) as [o|] eqn:Hx; [|discriminate]. apply a_word_in in Hx. wl Hx. intros [= <-]. unfold v_wvar. rewrite (values_var Hx). cbn [obind the_obj with_].
    unfold good_step, change, o_assign_text. apply sp_bind, sp_bind. eapply sp_frees; [apply delete_frees, W|]. intros m1 L1 P1. eapply sp_mono; [apply (convert_ok E s m1)| |easy|].
    + cbn beta. rewrite P1. intros m2 [r [p|]] [Q H]; apply sp_val; cbn [fst snd] in *; (split; [unfold quiet in *; rewrite <- P1; exact Q|]).
      * split; [discriminate|]. split; [intros H0; now destruct H0|]. intros H0. destruct H as (_ & _ & H). destruct (H H0) as (e & -> & He). exists e. split; [reflexivity|]. unfold word_of_utf8 in He.
        destruct (utf8ToInternal E s) as [ls|e'| | |]; cbn [obind] in He; try discriminate He; [|cbn; congruence]. rewrite He. reflexivity.
      * destruct H as (W1 & V1 & L2). split; [apply upd_Forall; [exact W1|exact Hv]|]. split.
        -- intros H. specialize (V1 H). unfold word_of_utf8 in V1. destruct (utf8ToInternal E s) as [ls|e'| | |]; cbn [obind] in V1; try discriminate V1. rewrite V1. cbn [with_]. rewrite values_upd. reflexivity.
        -- unfold held. rewrite (upd_sum fp_v _ Hx). cbn [fp_v fp_o]. lia.
    + intros [] H; try easy; apply H.
  - (* WordJoin *) destruct (a_word vs x) as [o|] eqn:Hx; [|discriminate]. destruct (a_word vs y) as [o2|] eqn:Hy; [|discriminate]. apply a_word_in in Hx, Hy. wl Hx. wl Hy.
    intros [= <-]. cbn [v_word]. unfold v_wvar at 1. rewrite (values_var Hx). cbn [obind the_obj with_]. unfold v_wvar. rewrite (values_var Hy). cbn [obind the_obj with_].
    exact (make_ok (obj := OWord) (tov := fun w => VWord (WGood w)) _ m (join_ref E W W0) ltac:(auto) ltac:(auto) ltac:(auto) Hv).
  - (* WordUtf8 *) destruct (a_word vs x) as [o|] eqn:Hx; [|discriminate]. apply a_word_in in Hx. wl Hx. intros [= <-]. cbn [v_word]. unfold v_wvar. rewrite (values_var Hx). cbn [obind the_obj with_].
    unfold good_step. apply sp_bind, sp_try. eapply sp_ref; [apply (asUtf8_ref E W)| | | |].
    + intros m1 s _ V1 L1 Q1. cbn beta in L1. apply sp_val. cbn [fst snd]. split; [exact Q1|]. split; [exact Hv|]. split; [intros H; rewrite (V1 H); reflexivity|lia].
    + intros m1 p L1 P1. apply sp_val. cbn [fst snd]. split; [intros H; apply P1, H|]. split; [auto|]. split; [intros _; split; [exact Hv|unfold lost in L1; lia]|]. intros H. destruct (P1 H) as (_ & e & -> & ->). exists e. split; reflexivity.
    + auto.
    + intros ->. reflexivity.
  - intros [= <-]. exact (make_ok (obj := OList) (tov := fun w => VList (Some w)) _ m (l_new_ref E) ltac:(auto) ltac:(auto) ltac:(auto) Hv).
  - intros [= <-]. exact (make_ok (obj := OList) (tov := fun w => VList (Some w)) _ m (split_ref E s) ltac:(auto) ltac:(auto) ltac:(auto) Hv).
  - destruct (a_list vs x) as [o|] eqn:Hx; [|discriminate]. apply a_list_in in Hx. wl Hx. intros [= <-]. cbn [v_list]. unfold v_lvar. rewrite (values_var Hx). cbn [obind the_obj present].
    exact (make_ok (obj := OList) (tov := fun w => VList (Some w)) _ m (l_copy_ref E W) ltac:(auto) ltac:(auto) ltac:(auto) Hv).
  - (* ListAssign *) destruct (a_list vs x) as [o|] eqn:Hx; [|discriminate]. destruct (a_list vs y) as [o2|] eqn:Hy; [|discriminate]. apply a_list_in in Hx, Hy. wl Hx. wl Hy.
    intros [= <-]. unfold v_lvar at 1. rewrite (values_var Hx). cbn [obind the_obj with_ self_l v_list]. destruct (Nat.eqb x y).
    + unfold good_step. apply sp_val. cbn [fst snd]. split; [red; auto|]. split; [exact Hv|]. split; [reflexivity|lia].
    + unfold v_lvar. rewrite (values_var Hy). cbn [obind the_obj with_ present]. unfold change, good_step. apply sp_bind.
      eapply sp_mono; [apply (@v_assign_ok o (v_elems o2) m (fun _ _ => False) (fun _ => False) W W0)| |easy|easy]. cbn beta. intros m1 [r [p|]] [Q H]; apply sp_val; cbn [fst snd] in *; (split; [exact Q|]).
      * split; [discriminate|]. split; [intros H0; now destruct H0|]. intros H0. destruct H as (_ & H & _). destruct (H H0).
      * destruct H as (W1 & V1 & L1). split; [apply upd_Forall; [exact W1|exact Hv]|]. split; [intros _; rewrite values_upd; cbn [the_obj]; rewrite V1; reflexivity|].
        unfold held. rewrite (upd_sum fp_v _ Hx). cbn [fp_v fp_o]. unfold fp_list. lia.
  - (* ListAdd *) destruct (a_list vs x) as [o|] eqn:Hx; [|discriminate]. destruct (a_word vs y) as [o2|] eqn:Hy; [|discriminate]. apply a_list_in in Hx. apply a_word_in in Hy. wl Hx. wl Hy.
    intros [= <-]. unfold v_lvar. rewrite (values_var Hx). cbn [obind the_obj with_ v_word]. unfold v_wvar. rewrite (values_var Hy). cbn [obind the_obj with_ present].
    exact (update_ok (obj := OList) (tov := fun w => VList (Some w)) _ m (l_add_ref E W W0) ltac:(auto) ltac:(auto) Hx ltac:(intros a; cbn [fp_o]; unfold fp_list; lia) Hv).
  - (* ListAt *) destruct (a_list vs x) as [o|] eqn:Hx; [|discriminate]. apply a_list_in in Hx. wl Hx. intros [= <-]. cbn [v_word]. unfold v_lvar. rewrite (values_var Hx). cbn [obind the_obj present].
    exact (make_ok (obj := OWord) (tov := fun w => VWord (WGood w)) _ m (l_at_ref E i W) ltac:(auto) ltac:(auto) ltac:(auto) Hv).
  - intros [= <-]. exact (make_ok (obj := ODoc) (tov := VDoc) _ m (d_new_ref E id) ltac:(auto) ltac:(auto) ltac:(auto) Hv).
  - destruct (a_doc vs x) as [o|] eqn:Hx; [|discriminate]. apply a_doc_in in Hx. wl Hx. intros [= <-]. cbn [v_doc]. unfold v_dvar. rewrite (values_var Hx). cbn [obind the_obj].
    exact (make_ok (obj := ODoc) (tov := VDoc) _ m (doc_ref E W) ltac:(auto) ltac:(auto) ltac:(auto) Hv).
  - (* AddText *) destruct (a_doc vs x) as [d|] eqn:Hx; [|discriminate]. destruct (a_word vs y) as [o|] eqn:Hy; [|discriminate]. destruct (a_list vs z) as [l|] eqn:Hz; [|discriminate].
    apply a_doc_in in Hx. apply a_word_in in Hy. apply a_list_in in Hz. wl Hx. wl Hy. wl Hz. intros [= <-].
    unfold v_dvar. rewrite (values_var Hx). cbn [obind the_obj with_ v_word]. unfold v_wvar. rewrite (values_var Hy). cbn [obind the_obj with_ v_list]. unfold v_lvar. rewrite (values_var Hz). cbn [obind the_obj with_ present].
    unfold good_step, change. apply sp_bind. eapply sp_mono; [apply (@addText_ok d o l m (fun _ _ => False) (fun _ => False) W W0 W1)| |easy|easy]. cbn beta. intros m1 [r [p|]] [Q H]; apply sp_val; cbn [fst snd] in *; (split; [exact Q|]).
    + destruct H as [H0 H]. split; [discriminate|]. split; [|intros H1; destruct (H0 H1)]. intros Hov. destruct H as [W2 L2].
      { intros Hin. apply Hov. intros d' f Hd' Hf. unfold the_values in Hd', Hf. rewrite nth_error_map, Hx in Hd'. rewrite nth_error_map, Hy in Hf. injection Hd' as <-. injection Hf as <-. exact Hin. }
      split; [apply upd_Forall; [exact W2|exact Hv]|]. unfold held. rewrite (upd_sum fp_v _ Hx). cbn [fp_v fp_o]. lia.
    + destruct H as (W2 & V2 & L2). split; [apply upd_Forall; [exact W2|exact Hv]|]. split; [intros _; rewrite values_upd; cbn [the_obj]; rewrite V2; reflexivity|].
      unfold held. rewrite (upd_sum fp_v _ Hx). cbn [fp_v fp_o]. lia.
  - (* AddUtf8 *) destruct (a_doc vs x) as [d|] eqn:Hx; [|discriminate]. destruct (a_word vs y) as [o|] eqn:Hy; [|discriminate].
    apply a_doc_in in Hx. apply a_word_in in Hy. wl Hx. wl Hy. intros [= <-].
    unfold v_dvar. rewrite (values_var Hx). cbn [obind the_obj with_ v_word]. unfold v_wvar. rewrite (values_var Hy). cbn [obind the_obj with_].
    unfold good_step, change. apply sp_bind. eapply sp_mono; [apply (@addUtf8_ok E d o s m W W0)| |easy|]; cbn beta.
    + intros m1 [r [p|]] [Q H]; apply sp_val; cbn [fst snd] in *; (split; [exact Q|]).
      * destruct H as [H0 H]. split; [discriminate|]. split; [|intros H1; destruct (H0 H1) as (e & -> & ->); exists e; split; reflexivity]. intros Hov. destruct H as [W2 L2].
        { intros Hin. apply Hov. intros d' f Hd' Hf. unfold the_values in Hd', Hf. rewrite nth_error_map, Hx in Hd'. rewrite nth_error_map, Hy in Hf. injection Hd' as <-. injection Hf as <-. exact Hin. }
        split; [apply upd_Forall; [exact W2|exact Hv]|]. unfold held. rewrite (upd_sum fp_v _ Hx). cbn [fp_v fp_o]. lia.
      * destruct H as (W2 & V2 & L2). split; [apply upd_Forall; [exact W2|exact Hv]|]. split.
        -- intros H. destruct (V2 H) as (ws & -> & Hd). cbn [with_]. rewrite values_upd. cbn [the_obj]. rewrite Hd. reflexivity.
        -- unfold held. rewrite (upd_sum fp_v _ Hx). cbn [fp_v fp_o]. lia.
    + intros []; try easy. intros ->. reflexivity.
  - intros [= <-]. exact (make_ok (obj := OCorpus) (tov := VCorpus) _ m (c_new_ref E) ltac:(auto) ltac:(auto) ltac:(auto) Hv).
  - (* CorpusAdd *) destruct (a_corpus vs x) as [o|] eqn:Hx; [|discriminate]. destruct (a_doc vs y) as [d|] eqn:Hy; [|discriminate]. apply a_corpus_in in Hx. apply a_doc_in in Hy. wl Hx. wl Hy.
    intros [= <-]. unfold v_cvar. rewrite (values_var Hx). cbn [obind the_obj with_ v_doc]. unfold v_dvar. rewrite (values_var Hy). cbn [obind the_obj with_].
    exact (update_ok (obj := OCorpus) (tov := VCorpus) _ m (c_add_ref E W W0) ltac:(auto) ltac:(auto) Hx ltac:(intros a; cbn [fp_o]; unfold fp_corpus; lia) Hv).
  - (* Destroy *) destruct (nth_error vs x) as [[c|]|] eqn:Hx; [|discriminate|discriminate]. wl Hx. intros [= <-]. rewrite (values_var Hx). cbn [with_].
    unfold good_step. apply sp_bind. eapply sp_frees; [apply kill_frees, W|]. intros m1 L1 P1. apply sp_val. cbn [fst snd]. unfold quiet. rewrite P1. split; [auto|].
    split; [apply upd_Forall; [exact I|exact Hv]|]. split; [intros _; unfold the_values; now rewrite upd_map|]. unfold held. rewrite (upd_sum fp_v _ Hx). cbn [fp_v]. lia.
Qed.
End Steps.

(** ** Programs *)
Section Progs.
Variable E : env.
Lemma step_some c vs f m : Forall whole_v vs -> step E c vs = Some f ->
  match f m with
  | (m1, Val (vs1, None)) => Forall whole_v vs1 /\ (e_ndebug E = false \/ plan m = [] -> v_exec E (same c) (the_values vs) = (the_values vs1, Ok tt)) /\ live m1 - held vs1 = live m - held vs
  | (m1, Val (vs1, Some p)) => (assigns c = false -> vs1 = vs) /\ (~ overwrites (the_values vs) c -> Forall whole_v vs1 /\ live m - held vs <= live m1 - held vs1 <= live m - held vs + may_lose c) /\ (plan m = [] -> exists e, p = Thrown e /\ snd (v_exec E (same c) (the_values vs)) = Throw e)
  | (_, Fail _) => False
  | (_, Aborted) => e_ndebug E = false
  | (_, Undefined) => snd (v_exec E (same c) (the_values vs)) = UB
  | (_, NoFuel) => False
  end /\ (forall m1 r, f m = (m1, Val r) -> quiet m m1).
Proof.
  intros Hv Hs. pose proof (@step_ok E c vs f m Hv Hs) as H. unfold good_step, sp in H. destruct (f m) as [m1 [[vs1 [p|]]|p| | |]]; cbn [fst snd] in H.
  - split; [apply H|]. intros m2 r [= <- _]. apply H.
  - split; [apply H|]. intros m2 r [= <- _]. apply H.
  - destruct H.
  - split; [exact H|discriminate].
  - split; [exact H|discriminate].
  - destruct H.
Qed.
Lemma never_cons k c ops f fs : never_threw k (c :: ops) (f :: fs) -> (k c = true -> forall p, f <> Threw p) /\ never_threw k ops fs.
Proof.
  intros H. split.
  - intros Hc p ->. exact (H 0%nat c p eq_refl Hc eq_refl).
  - intros j d p Hj Hd. exact (H (S j) d p Hj Hd).
Qed.
Definition crashed (fs : list fate) : Prop := In Died_abort fs \/ In Died_undefined fs.
Lemma crashed_cons f fs : crashed fs -> crashed (f :: fs).
Proof. intros [H|H]; [left|right]; now right. Qed.
Lemma not_crashed fs : no_crash fs <-> ~ crashed fs.
Proof. unfold no_crash, crashed. tauto. Qed.
Lemma over_assigns vs c : assigns c = false -> ~ overwrites vs c.
Proof. destruct c; cbn; congruence. Qed.
Definition fate_of (e : option stop) : fate := match e with None => Done | Some p => Threw p end.
Lemma fine_cons e fs : no_crash fs -> no_crash (fate_of e :: fs).
Proof. unfold no_crash. intros [H1 H2]. split; (intros [H|H]; [destruct e; discriminate|auto]). Qed.
Lemma fine_skip fs : no_crash fs -> no_crash (Skipped :: fs).
Proof. unfold no_crash. intros [H1 H2]. split; (intros [H|H]; [discriminate|auto]). Qed.
Lemma undamaged_head c ops m vs f m1 vs1 p : undamaged E (c :: ops) m vs -> step E c vs = Some f -> f m = (m1, Val (vs1, Some p)) -> ~ overwrites (the_values vs) c.
Proof.
  intros H Hs Hf Ho. refine (H 0%nat c m vs [] m1 vs1 p eq_refl eq_refl (conj _ _) Ho _); [intros []|intros []|]. cbn [runs]. rewrite Hs, Hf. reflexivity.
Qed.
Lemma undamaged_tail c ops m vs f m1 vs1 e : undamaged E (c :: ops) m vs -> step E c vs = Some f -> f m = (m1, Val (vs1, e)) -> undamaged E ops m1 vs1.
Proof.
  intros H Hs Hf k c' m2 vs2 fs2 m3 vs3 p Hk Hr Hc Ho. refine (H (S k) c' m2 vs2 (fate_of e :: fs2) m3 vs3 p Hk _ (fine_cons e Hc) Ho). cbn [firstn runs]. rewrite Hs, Hf, Hr. reflexivity.
Qed.
Lemma undamaged_skip c ops m vs : undamaged E (c :: ops) m vs -> step E c vs = None -> undamaged E ops m vs.
Proof.
  intros H Hs k c' m2 vs2 fs2 m3 vs3 p Hk Hr Hc Ho. refine (H (S k) c' m2 vs2 (Skipped :: fs2) m3 vs3 p Hk _ (fine_skip Hc) Ho). cbn [firstn runs]. rewrite Hs, Hr. reflexivity.
Qed.
Lemma never_undamaged ops : forall m vs m' vs' fs, runs E ops m vs = (m', vs', fs) -> Forall whole_v vs -> never_threw assigns ops fs -> undamaged E ops m vs.
Proof.
  induction ops as [|c ops IH]; intros m vs m' vs' fs Hr Hv Hn k c' m2 vs2 fs2 m3 vs3 p Hk H2 Hc Ho H3; [destruct k; discriminate|].
  assert (Hh : forall m0 vs0, runs E [c] m vs = (m0, vs0, [Threw p]) -> assigns c = true -> False).
  { intros m0 vs0 H Ha. cbn [runs] in H, Hr. destruct (step E c vs) as [f|]; [|discriminate H]. destruct (f m) as [m1 [[vs1 [q|]]|q| | |]]; try discriminate H.
    - destruct (runs E ops m1 vs1) as [[m4 vs4] fs4]. injection Hr as <- <- <-. apply never_cons in Hn as [Hn _]. exact (Hn Ha q eq_refl).
    - injection Hr as <- <- <-. exact (Hn 0%nat c q eq_refl Ha eq_refl). }
  destruct k as [|k]; cbn [nth_error firstn] in Hk, H2.
  - injection Hk as <-. injection H2 as <- <- <-. apply (Hh _ _ H3). destruct (assigns c) eqn:Ha; [reflexivity|]. destruct (over_assigns Ha Ho).
  - clear Hh. cbn [runs] in Hr, H2. destruct (step E c vs) as [f|] eqn:Hs.
    + destruct (@step_some c vs f m Hv Hs) as [Hst _]. destruct (f m) as [m1 [[vs1 e]|q| | |]].
      * destruct (runs E ops m1 vs1) as [[m4 vs4] fs4] eqn:H4. injection Hr as <- <- <-. destruct (runs E (firstn k ops) m1 vs1) as [[m5 vs5] fs5] eqn:H5. injection H2 as <- <- <-.
        apply never_cons in Hn as [Hn0 Hn].
        assert (Hv1 : Forall whole_v vs1) by (destruct e as [q|]; [|apply Hst]; apply Hst, over_assigns; destruct (assigns c); [destruct (Hn0 eq_refl q eq_refl)|reflexivity]).
        refine (IH _ _ _ _ _ H4 Hv1 Hn k c' _ _ _ _ _ p Hk H5 _ Ho H3). destruct Hc as [C1 C2]. split; intros H; [apply C1|apply C2]; now right.
      * destruct Hst.
      * injection H2 as <- <- <-. destruct Hc as [Hc _]. destruct Hc. now left.
      * injection H2 as <- <- <-. destruct Hc as [_ Hc]. destruct Hc. now left.
      * destruct Hst.
    + destruct (runs E ops m vs) as [[m4 vs4] fs4] eqn:H4. injection Hr as <- <- <-. destruct (runs E (firstn k ops) m vs) as [[m5 vs5] fs5] eqn:H5. injection H2 as <- <- <-.
      apply never_cons in Hn as [_ Hn]. refine (IH _ _ _ _ _ H4 Hv Hn k c' _ _ _ _ _ p Hk H5 _ Ho H3). destruct Hc as [C1 C2]. split; intros H; [apply C1|apply C2]; now right.
Qed.
(** The state as long as no statement that overwrites throws. *)
Lemma runs_ok ops : forall m vs m' vs' fs, runs E ops m vs = (m', vs', fs) -> Forall whole_v vs -> undamaged E ops m vs ->
  Forall whole_v vs' /\
  (crashed fs \/ live m - held vs <= live m' - held vs' <= live m - held vs + may_be_lost ops fs) /\
  (never_threw assigns ops fs -> e_ndebug E = false \/ plan m = [] -> v_prog E (map same (done ops fs)) (the_values vs) = (the_values vs', Ok (map (fun _ => Ok tt) (done ops fs)))) /\
  ~ In Died_fuel fs /\
  (In Died_abort fs -> e_ndebug E = false) /\
  (forall k, nth_error fs k = Some Died_undefined -> exists c, nth_error ops k = Some c /\ snd (v_exec E (same c) (the_values vs')) = UB /\ exists f, step E c vs' = Some f) /\
  (plan m = [] -> ~ In (Threw OutOfMemory) fs).
Proof.
  induction ops as [|c ops IH]; intros m vs m' vs' fs; cbn [runs].
  - intros [= <- <- <-] Hv _. split; [exact Hv|]. split; [right; cbn; lia|]. split; [auto|]. split; [intros []|]. split; [intros []|]. split; [intros [|k]; discriminate|intros _ []].
  - destruct (step E c vs) as [f|] eqn:Hs.
    2: { destruct (runs E ops m vs) as [[m2 vs2] fs2] eqn:Hr. intros [= <- <- <-] Hv Hn. pose proof (undamaged_skip Hn Hs) as Hn1. destruct (IH _ _ _ _ _ Hr Hv Hn1) as (I1 & I2 & I4 & I5 & I6 & I7 & I8).
      split; [exact I1|]. split; [destruct I2; [left; auto using crashed_cons|right; cbn [may_be_lost]; lia]|]. split; [intros H; apply never_cons in H as [_ H]; exact (I4 H)|]. split; [intros [H|H]; [discriminate|auto]|]. split; [intros [H|H]; [discriminate|auto]|].
      split; [intros [|k] H; [discriminate|exact (I7 k H)]|]. intros H [H1|H1]; [discriminate|exact (I8 H H1)]. }
    intros Hr Hv Hn. destruct (@step_some c vs f m Hv Hs) as [Hst HQ]. destruct (f m) as [m1 [[vs1 e]|p| | |]] eqn:Hf.
    + destruct (runs E ops m1 vs1) as [[m2 vs2] fs2] eqn:Hr2. injection Hr as <- <- <-. pose proof (undamaged_tail Hn Hs Hf) as Hn1. specialize (HQ _ _ eq_refl).
      assert (Hgo : Forall whole_v vs1 /\ live m - held vs <= live m1 - held vs1 <= live m - held vs + match e with None => 0 | Some _ => may_lose c end /\
        (never_threw assigns (c :: ops) (fate_of e :: fs2) -> e_ndebug E = false \/ plan m = [] -> match e with None => v_exec E (same c) (the_values vs) = (the_values vs1, Ok tt) | Some _ => vs1 = vs end) /\ (plan m = [] -> e <> Some OutOfMemory)).
      { destruct e as [p|].
        - destruct Hst as (H1 & H2 & H3). destruct (H2 (undamaged_head Hn Hs Hf)) as [H4 H5]. split; [exact H4|]. split; [exact H5|]. split.
          + intros H _. apply H1. apply never_cons in H as [H _]. destruct (assigns c); [destruct (H eq_refl p eq_refl)|reflexivity].
          + intros H. destruct (H3 H) as (e & -> & _). discriminate.
        - destruct Hst as (H1 & H2 & H3). repeat split; auto; try lia. discriminate. }
      destruct Hgo as (G1 & G2 & G4 & G5). destruct (IH _ _ _ _ _ Hr2 G1 Hn1) as (I1 & I2 & I4 & I5 & I6 & I7 & I8).
      split; [exact I1|]. split; [destruct I2; [left; auto using crashed_cons|right; cbn [may_be_lost]; destruct e; lia]|]. split; [|split; [|split; [|split]]].
      * intros Ha H. specialize (G4 Ha H). apply never_cons in Ha as [_ Ha]. specialize (I4 Ha). assert (H' : e_ndebug E = false \/ plan m1 = []) by (destruct H; auto). specialize (I4 H'). destruct e as [p|]; cbn [done map v_prog]; [subst vs1; exact I4|].
        rewrite G4, I4. reflexivity.
      * intros [H|H]; [destruct e; discriminate|auto].
      * intros [H|H]; [destruct e; discriminate|auto].
      * intros [|k] H; [destruct e; discriminate|exact (I7 k H)].
      * intros H [H1|H1]; [|exact (I8 (HQ H) H1)]. destruct e as [p|]; [|discriminate]. injection H1 as ->. now destruct (G5 H).
    + destruct Hst.
    + injection Hr as <- <- <-. assert (Hc : crashed [Died_abort]) by (left; now left). split; [exact Hv|]. split; [auto|]. split; [intros _ _; cbn [done]; replace (done ops []) with (@nil stmt) by now destruct ops|]; [reflexivity|]. split; [intros [H|[]]; discriminate|].
      split; [auto|]. split; [intros [|[|k]] H; discriminate|]. intros _ [H|[]]; discriminate.
    + injection Hr as <- <- <-. assert (Hc : crashed [Died_undefined]) by (right; now left). split; [exact Hv|]. split; [auto|]. split; [intros _ _; cbn [done]; replace (done ops []) with (@nil stmt) by now destruct ops|]; [reflexivity|]. split; [intros [H|[]]; discriminate|].
      split; [intros [H|[]]; discriminate|]. split; [intros [|[|k]] H; try discriminate; exists c; eauto|]. intros _ [H|[]]; discriminate.
    + destruct Hst.
Qed.
(** One program after another. *)
Lemma runs_app ops : forall more m vs m' vs' fs, runs E ops m vs = (m', vs', fs) -> Forall whole_v vs -> undamaged E ops m vs -> ~ crashed fs ->
  runs E (ops ++ more) m vs = let '(m2, vs2, fs2) := runs E more m' vs' in (m2, vs2, fs ++ fs2).
Proof.
  induction ops as [|c ops IH]; intros more m vs m' vs' fs; cbn [runs app].
  - intros [= <- <- <-] _ _ _. now destruct (runs E more m vs) as [[m2 vs2] fs2].
  - intros Hr Hv Hn Hc. destruct (step E c vs) as [f|] eqn:Hs.
    + destruct (@step_some c vs f m Hv Hs) as [Hst _]. destruct (f m) as [m1 [[vs1 e]|p| | |]] eqn:Hf.
      * destruct (runs E ops m1 vs1) as [[m2 vs2] fs2] eqn:Hr2. injection Hr as <- <- <-.
        assert (Hv1 : Forall whole_v vs1) by (destruct e as [p|]; [|apply Hst]; apply Hst, (undamaged_head Hn Hs Hf)).
        rewrite (IH more _ _ _ _ _ Hr2 Hv1 (undamaged_tail Hn Hs Hf)); [|intros H; apply Hc; now apply crashed_cons]. now destruct (runs E more m2 vs2) as [[m3 vs3] fs3].
      * destruct Hst.
      * injection Hr as <- <- <-. destruct Hc. left. now left.
      * injection Hr as <- <- <-. destruct Hc. right. now left.
      * destruct Hst.
    + destruct (runs E ops m vs) as [[m2 vs2] fs2] eqn:Hr2. injection Hr as <- <- <-. rewrite (IH more _ _ _ _ _ Hr2 Hv (undamaged_skip Hn Hs)); [|intros H; apply Hc; now apply crashed_cons].
      now destruct (runs E more m2 vs2) as [[m3 vs3] fs3].
Qed.
End Progs.
