(** The C interface: what the objects of a C program hold. *)
From Verif Require Import Base TrieM WordStoreM ErrorValuesM LevIndexM WordM MapM DoubleM ContM MatcherM DataFileM CApiM
  Spec_Hist Spec_EV Spec_Word Spec_Cont Spec_Lev Spec_Match Spec_File Spec_CApi WordP SplitP MapP ContP DataP EVR ScalarP TypoP MatchY MatchZ CApiP.
From Coq Require Import ZifyBool ZifyN ZifyNat.
Local Open Scope N_scope.
Local Open Scope m_scope.

Section Objects.
Variables (E : env) (W : world).
Hypothesis HE : lower_ok E.
Hypothesis HF : folds_shipped E.
Hypothesis HW : shipped W.

(** ** Split texts *)
Lemma all_of_words runs q : Forall (fun r => c_text r /\ r <> []) runs -> all_of (word_of_utf8 E) runs = Ok q -> Forall (text_word E) q.
Proof.
  clear. revert q. induction runs as [|r runs IH]; intros q Hr Hq; [injection Hq as <-; constructor|]. cbn [all_of] in Hq.
  apply Forall_cons_iff in Hr as [[H1 H2] Hr]. destruct (word_of_utf8 E r) as [w| | | |] eqn:Hw; try discriminate. cbn [obind] in Hq.
  destruct (all_of (word_of_utf8 E) runs) as [ws| | | |]; try discriminate. cbn [obind] in Hq. injection Hq as <-. constructor; [now exists r|]. now apply IH.
Qed.
Lemma split_words s q : c_text s -> splitToWords E s = Ok q -> Forall (text_word E) q.
Proof.
  clear. intros Hs Hq. destruct (cut_ws_exists s) as [runs Hc]. rewrite (split_ws E Hc) in Hq. refine (all_of_words _ Hq).
  eapply Forall_impl; [|exact (cut_runs Hc)]. intros r [Hr Hb]. split; [|exact Hr]. unfold c_text in *. rewrite Forall_forall in *. intros b Hin. apply Hs. now apply Hb.
Qed.

(** ** What an object may be *)
Definition doc_fine (d : document) : Prop := doc_ok d /\ Forall (fun x => field_word E (fst x) /\ Forall (text_word E) (snd x)) (d_texts d).
Definition c_like (c : m_call) : Prop :=
  match c with
  | MIndex cp => Forall doc_fine cp
  | MErr e => e = AddStandardErrors latin_groups greek_groups \/ e = SetSubstringMode \/ e = AddNumberpadErrors
  | MWeight f _ => field_word E f
  | MMatch q p => p = sp_new /\ Forall (text_word E) q
  | MOnline _ _ => False
  end.
Definition obj_ok (log : list m_call) (o : obj) : Prop :=
  match o with
  | OWord w => field_word E w
  | ODoc d => doc_fine d
  | OCorpus c => Forall doc_fine c
  | OMatcher m => (exists m0, mt_new E = Ok m0 /\ m = m_all E log m0) /\ Forall c_like log
  | OResults _ => True
  end.
Definition inv (lg : nat -> list m_call) (h : heap) : Prop :=
  (forall n o, live h n o -> obj_ok (lg n) o) /\ (forall n, (length h <= n)%nat -> lg n = []).

Lemma live_lt h n o : live h n o -> (n < length h)%nat.
Proof. clear. unfold live. intros H. apply nth_error_Some. congruence. Qed.
Lemma inv_ext lg lg' h : (forall n, lg' n = lg n) -> inv lg h -> inv lg' h.
Proof. clear. intros He [H1 H2]. split; intros; rewrite He; auto. Qed.
Lemma inv_alloc lg lg' h o : (forall n, lg' n = lg n) -> inv lg h -> obj_ok [] o -> inv lg' (h ++ [Some o]).
Proof.
  clear. intros He [H1 H2] Ho. split.
  - intros n x Hl. rewrite He. unfold live in Hl. destruct (Nat.lt_ge_cases n (length h)) as [Hn|Hn].
    + rewrite nth_error_app1 in Hl by exact Hn. now apply H1.
    + rewrite nth_error_app2 in Hl by exact Hn. rewrite H2 by exact Hn. destruct (n - length h)%nat as [|k]; [|destruct k; discriminate Hl]. cbn in Hl. congruence.
  - intros n Hn. rewrite app_length in Hn. rewrite He. apply H2. lia.
Qed.
Lemma inv_upd lg lg' h n x : (n < length h)%nat -> (forall k, k <> n -> lg' k = lg k) -> inv lg h -> match x with Some o => obj_ok (lg' n) o | None => True end -> inv lg' (upd n x h).
Proof.
  clear. intros Hn He [H1 H2] Hx. split.
  - intros k o Hl. unfold live in Hl. destruct (Nat.eq_dec k n) as [->|Hk].
    + rewrite upd_same in Hl by exact Hn. injection Hl as ->. exact Hx.
    + rewrite upd_other in Hl by congruence. rewrite He by exact Hk. now apply H1.
  - intros k Hk. rewrite upd_len in Hk. rewrite He by lia. now apply H2.
Qed.

(** ** Documents *)
Lemma texts_set (P : word * wordlist -> Prop) f t (l : list (word * wordlist)) : P (f, t) -> Forall P l -> Forall P (mp_set wltb f t l).
Proof.
  clear. intros Hp Hl. induction l as [|[k v] l IH]; cbn; [now constructor|]. apply Forall_cons_iff in Hl as [H1 Hl].
  destruct (lt_cases wltb_order f k) as [[A B]|[[A B]|(<- & A & B)]]; rewrite A; [repeat constructor; auto|rewrite B; constructor; auto|constructor; auto].
Qed.
Lemma doc_fine_new id : doc_fine (doc_new id).
Proof. clear. split; [|constructor]. now exists id, []. Qed.
Lemma doc_fine_add d f t d' o : doc_fine d -> field_word E f -> c_text t -> doc_addText_utf8 E f t d = (d', o) -> doc_fine d'.
Proof.
  clear. intros [(id & cs & ->) Ht] Hf Hs. unfold doc_addText_utf8, reads, mbind. cbn [fst snd]. destruct (splitToWords E t) as [q|x| | |] eqn:Hq; intros [= <- <-];
    try (split; [now exists id, cs|exact Ht]; fail).
  split.
  - exists id, (cs ++ [(f, q)]). unfold add_texts. now rewrite fold_left_app.
  - cbn [d_texts]. apply texts_set; [|exact Ht]. cbn. split; [exact Hf|]. exact (split_words Hs Hq).
Qed.

(** ** Every call keeps it *)
Definition grow (lg : nat -> list m_call) (c : c_call) (h : heap) : nat -> list m_call := fun n => lg n ++ cpp_calls E c h n.
Lemma m_all_one log c m : m_all E (log ++ [c]) m = fst (m_do E c (m_all E log m)).
Proof. clear. unfold m_all. now rewrite fold_left_app. Qed.
Lemma grow_eq h lg n k c l : live h n k -> cpp_calls E c h n = l -> grow lg c h n = lg n ++ l.
Proof. clear. intros _ <-. reflexivity. Qed.
Lemma obj_live lg h n o : inv lg h -> live h n o -> obj_ok (lg n) o.
Proof. intros [H _]. apply H. Qed.

Lemma matcher_step lg c h n m mc m' : inv lg h -> live h n (OMatcher m) -> (forall k, cpp_calls E c h k = if Nat.eqb n k then [mc] else []) ->
  c_like mc -> m' = fst (m_do E mc m) -> inv (grow lg c h) (upd n (Some (OMatcher m')) h).
Proof.
  clear. intros HI Hl Hc Hm ->. apply (inv_upd (lg := lg) (live_lt Hl)); [|exact HI|].
  - intros k Hk. unfold grow. rewrite Hc. destruct (Nat.eqb_spec n k); [congruence|apply app_nil_r].
  - unfold grow. rewrite Hc, Nat.eqb_refl. destruct (obj_live HI Hl) as [(m0 & H0 & ->) Hf]. split.
    + exists m0. split; [exact H0|]. now rewrite m_all_one.
    + apply Forall_app. split; [exact Hf|]. repeat constructor. exact Hm.
Qed.
Lemma same_step lg c h : inv lg h -> (forall k, cpp_calls E c h k = []) -> inv (grow lg c h) h.
Proof. clear. intros HI Hc. apply (inv_ext (lg := lg)); [|exact HI]. intros k. unfold grow. now rewrite Hc, app_nil_r. Qed.
Lemma alloc_step lg c h o : inv lg h -> (forall k, cpp_calls E c h k = []) -> obj_ok [] o -> inv (grow lg c h) (h ++ [Some o]).
Proof. clear. intros HI Hc Ho. apply (inv_alloc (lg := lg)); [|exact HI|exact Ho]. intros k. unfold grow. now rewrite Hc, app_nil_r. Qed.
Lemma upd_step lg c h n o x : inv lg h -> live h n o -> (forall k, cpp_calls E c h k = []) -> match x with Some o => obj_ok (lg n) o | None => True end -> inv (grow lg c h) (upd n x h).
Proof.
  clear. intros HI Hl Hc Hx. apply (inv_upd (lg := lg) (live_lt Hl)); [|exact HI|].
  - intros k _. unfold grow. now rewrite Hc, app_nil_r.
  - unfold grow. rewrite Hc, app_nil_r. exact Hx.
Qed.

Ltac step H := lazymatch type of H with
  | caught _ _ _ = _ => apply caught_inv in H; destruct H as [H|[? [H ->]]]
  | mbind _ _ _ = (_, Ok _) => apply bind_ok in H; let h1 := fresh "h" in let a := fresh "a" in let H1 := fresh "H" in destruct H as (h1 & a & H1 & H)
  | mbind _ _ _ = (_, Throw _) => apply bind_throw in H; let h1 := fresh "h" in let a := fresh "a" in let H1 := fresh "H" in destruct H as [H|(h1 & a & H1 & H)]
  end.
Lemma del_step lg c p mine h h' o : inv lg h -> (forall k, cpp_calls E c h k = []) -> del p mine h = (h', o) -> inv (grow lg c h) h'.
Proof.
  clear. intros HI Hc H. apply del_inv in H as [[_ ->]|[(_ & -> & _)|(n & x & _ & Hl & _ & -> & _)]].
  - now apply same_step.
  - now apply same_step.
  - exact (upd_step (x := None) HI Hl Hc I).
Qed.

Ltac tame := repeat match goal with
  | H : reads _ ?h = (_, _) |- _ => unfold reads in H; cbn [fst snd] in H; injection H; clear H; intros; subst
  | H : alloc _ _ = (_, Ok _) |- _ => unfold alloc in H; injection H; clear H; intros; subst
  | H : alloc _ _ = (_, Throw _) |- _ => discriminate H
  | H : ret _ _ = (_, Ok _) |- _ => unfold ret in H; injection H; clear H; intros; subst
  | H : ret _ _ = (_, Throw _) |- _ => discriminate H
  | H : the_word _ _ = (_, _) |- _ => let n := fresh "n" in let w := fresh "w" in let Hl := fresh "Hl" in let Hx := fresh "Hx" in
      apply the_word_inv in H; destruct H as [-> [H|(n & w & -> & Hl & Hx)]]; [discriminate H|try discriminate Hx; injection Hx as ->]
  | H : the_doc _ _ = (_, _) |- _ => let n := fresh "n" in let w := fresh "w" in let Hl := fresh "Hl" in let Hx := fresh "Hx" in
      apply the_doc_inv in H; destruct H as [-> [H|(n & w & -> & Hl & Hx)]]; [discriminate H|try discriminate Hx; injection Hx as ->]
  | H : the_corpus _ _ = (_, _) |- _ => let n := fresh "n" in let w := fresh "w" in let Hl := fresh "Hl" in let Hx := fresh "Hx" in
      apply the_corpus_inv in H; destruct H as [-> [H|(n & w & -> & Hl & Hx)]]; [discriminate H|try discriminate Hx; injection Hx as ->]
  | H : the_results _ _ = (_, _) |- _ => let n := fresh "n" in let w := fresh "w" in let Hl := fresh "Hl" in let Hx := fresh "Hx" in
      apply the_results_inv in H; destruct H as [-> [H|(n & w & -> & Hl & Hx)]]; [discriminate H|try discriminate Hx; injection Hx as ->]
  | H : the_matcher _ _ = (_, _) |- _ => let n := fresh "n" in let w := fresh "w" in let Hl := fresh "Hl" in let Hx := fresh "Hx" in
      apply the_matcher_inv in H; destruct H as [-> [H|(n & w & -> & Hl & Hx)]]; [discriminate H|try discriminate Hx; injection Hx as ->]
  | H : the_errors _ _ = (_, _) |- _ => let n := fresh "n" in let w := fresh "w" in let Hl := fresh "Hl" in let Hx := fresh "Hx" in
      apply the_errors_inv in H; destruct H as [-> [H|(n & w & -> & Hl & Hx)]]; [discriminate H|try discriminate Hx; injection Hx as ->]
  | H : the_weights _ _ = (_, _) |- _ => let n := fresh "n" in let w := fresh "w" in let Hl := fresh "Hl" in let Hx := fresh "Hx" in
      apply the_weights_inv in H; destruct H as [-> [H|(n & w & -> & Hl & Hx)]]; [discriminate H|try discriminate Hx; injection Hx as ->]
  | H : method _ _ _ _ _ = (_, _) |- _ => let s := fresh "s" in let Hs := fresh "Hs" in apply method_inv in H; destruct H as (s & Hs & ->); cbn [fst snd] in *
  end.
Ltac dels := lazymatch goal with
  | H : del _ _ _ = (_, _) |- _ => eapply del_step; [eassumption|intros; reflexivity|exact H]
  end.
Lemma match_grow lg h n m s m' o : inv lg h -> live h n (OMatcher m) -> c_text s -> mt_match_utf8 E s sp_new m = (m', o) ->
  inv (grow lg (col_matcher_match (PAt n) s) h) (upd n (Some (OMatcher m')) h).
Proof.
  clear. intros HI Hl Hs. unfold mt_match_utf8, reads, mbind. cbn [fst snd]. destruct (splitToWords E s) as [q|x| | |] eqn:Hq; intros H;
    try (injection H as <- <-; apply (upd_step (o := OMatcher m)); [exact HI|exact Hl|intros k; cbn [cpp_calls]; rewrite Hq; now destruct (Nat.eqb n k)|exact (obj_live HI Hl)]; fail).
  apply (matcher_step (m := m) (mc := MMatch q sp_new)); [exact HI|exact Hl|intros k; cbn [cpp_calls]; now rewrite Hq|split; [reflexivity|exact (split_words Hs Hq)]|].
  cbn [m_do]. unfold mbind. rewrite H. now destruct o.
Qed.
Lemma errors_grow m m' o : on_ev (addStandardErrors_file E W) m = (m', o) -> m' = fst (m_do E (MErr (AddStandardErrors latin_groups greek_groups)) m).
Proof. intros H. cbn [m_do]. unfold on_ev in *. rewrite (shipped_standard (mt_ev m) HF HW) in H. now rewrite H. Qed.
Lemma call_inv lg c h h' v : inv lg h -> c_strings c -> c_do E W c h = (h', Ok v) -> inv (grow lg c h) h'.
Proof.
  intros HI Hs H. destruct c; cbn [c_do] in H; repeat step H; tame; cbn [c_strings] in Hs; try dels; try (apply same_step; [exact HI|intros; reflexivity]).
  all: try (apply alloc_step; [exact HI|intros; reflexivity|]).
  all: try (eapply upd_step; [exact HI|eassumption|intros; reflexivity|]; exact I).
  - exists utf8_word. now split.
  - apply doc_fine_new.
  - eapply upd_step; [exact HI|eassumption|intros; reflexivity|]. cbn. eapply doc_fine_add; [exact (obj_live HI Hl0)|exact (obj_live HI Hl)|exact Hs|eassumption].
  - eapply upd_step; [exact HI|eassumption|intros; reflexivity|]. cbn. eapply doc_fine_add; [exact (obj_live HI Hl0)|exact (obj_live HI Hl)|exact Hs|eassumption].
  - cbn. split; [|constructor]. now exists a.
  - eapply (matcher_step (mc := MIndex w)); [exact HI|eassumption| | |].
    + intros k. cbn [cpp_calls]. apply live_get in Hl. now rewrite Hl.
    + exact (obj_live HI Hl).
    + cbn [m_do]. now rewrite Hs0.
  - eapply (matcher_step (mc := MIndex w)); [exact HI|eassumption| | |].
    + intros k. cbn [cpp_calls]. apply live_get in Hl. now rewrite Hl.
    + exact (obj_live HI Hl).
    + cbn [m_do]. now rewrite Hs0.
  - pose proof (match_grow HI Hl Hs Hs0) as HI'. apply (inv_alloc (lg := grow lg (col_matcher_match (PAt n) query_as_utf8) h)); [reflexivity|exact HI'|exact I].
  - exact (match_grow HI Hl Hs Hs0).
  - exact I.
  - constructor.
  - eapply upd_step; [exact HI|eassumption|intros; reflexivity|]. unfold co_addDocument in *. injection Hs0 as <-. apply Forall_app. split; [exact (obj_live HI Hl0)|]. constructor; [exact (obj_live HI Hl)|constructor].
  - discriminate Hs0.
  - eapply (matcher_step (mc := MErr (AddStandardErrors latin_groups greek_groups))); [exact HI|eassumption|reflexivity|now left|]. exact (errors_grow Hs0).
  - eapply (matcher_step (mc := MErr (AddStandardErrors latin_groups greek_groups))); [exact HI|eassumption|reflexivity|now left|]. exact (errors_grow Hs0).
  - eapply (matcher_step (mc := MErr SetSubstringMode)); [exact HI|eassumption|reflexivity|right; now left|]. cbn [m_do]. change (ev_do SetSubstringMode) with (fun e => (setSubstringMode e, Ok tt)). now rewrite Hs0.
  - discriminate Hs0.
  - eapply (matcher_step (mc := MWeight w new_weight)); [exact HI|eassumption| |exact (obj_live HI Hl)|].
    + intros k. cbn [cpp_calls]. apply live_get in Hl. now rewrite Hl.
    + cbn [m_do]. now rewrite Hs0.
  - discriminate Hs0.
Qed.
End Objects.
