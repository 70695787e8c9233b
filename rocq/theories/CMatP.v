(** C programs whose matchers run out of memory: the calls one by one. *)
From Verif Require Import Base TrieM WordStoreM ErrorValuesM LevIndexM WordM MapM DoubleM ContM MatcherM DataFileM CApiM FailM
  Spec_Hist Spec_EV Spec_Word Spec_Cont Spec_Lev Spec_Match Spec_File Spec_CApi Spec_Fail CMatM Spec_CMat WordP SplitP MapP ContP DataP EVR MatchY MatchZ CApiP CApiQ CApiR.
From Coq Require Import ZifyBool ZifyN ZifyNat.
Local Open Scope N_scope.

(** ** What a function takes from the plan and writes down *)
Definition framed {A} (f : F A) : Prop := forall m p l s' o, f (mkF m p l) = (s', o) -> exists c t,
  (forall k, f (mkF m p k) = (mkF (f_m s') (f_plan s') (k ++ t), o)) /\ (forall r k, f (mkF m (c ++ r) k) = (mkF (f_m s') r (k ++ t), o)) /\ (p = [] -> f_plan s' = []).
Lemma fr_val {A} (a : A) : framed (val a).
Proof. intros m p l s' o [= <- <-]. exists [], []. (split; [|split]); [intros; cbn; now rewrite app_nil_r..|easy]. Qed.
Lemma fr_on {A} (x : M matcher A) : framed (on_m x).
Proof. intros m p l s' o. unfold on_m. cbn [f_m f_plan f_failed]. destruct (x m) as [m' r]. intros [= <- <-]. exists [], []. (split; [|split]); [intros; cbn; now rewrite app_nil_r..|easy]. Qed.
Lemma fr_need p : framed (need p).
Proof.
  intros m pl l s' o. unfold need. cbn [f_m f_plan f_failed]. destruct pl as [|b pl]; [intros [= <- <-]|destruct b; intros [= <- <-]]; cbn [f_m f_plan].
  - exists [true], []. (split; [|split]); [intros; cbn; now rewrite app_nil_r..|easy].
  - exists [true], []. (split; [|split]); [intros; cbn; now rewrite app_nil_r..|easy].
  - exists [false], [p]. (split; [|split]); [intros; reflexivity..|easy].
Qed.
Lemma fr_need_if p b : framed (need_if p b).
Proof.
  intros m pl l s' o. unfold need_if. cbn [f_m]. destruct (b m); [apply fr_need|]. intros [= <- <-]. exists [], []. (split; [|split]); [intros; cbn; now rewrite app_nil_r..|easy].
Qed.
Lemma fr_bind {A B} (c : F A) (k : A -> F B) : framed c -> (forall a, framed (k a)) -> framed (fbind c k).
Proof.
  intros Hc Hk m p l s' o. unfold fbind. destruct (c (mkF m p l)) as [s1 o1] eqn:H1. destruct (Hc _ _ _ _ _ H1) as (c1 & t1 & X1 & Y1 & Z1).
  destruct o1 as [a| |e| | |]; try (intros [= <- <-]; exists c1, t1; (split; [|split]); [intros; now rewrite X1|intros; now rewrite Y1|exact Z1]; fail).
  intros H2. assert (Hs1 : s1 = mkF (f_m s1) (f_plan s1) (f_failed s1)) by now destruct s1. rewrite Hs1 in H2. destruct (Hk a _ _ _ _ _ H2) as (c2 & t2 & X2 & Y2 & Z2).
  exists (c1 ++ c2), (t1 ++ t2). (split; [|split]); intros; [| |now apply Z2, Z1].
  - rewrite X1, X2. now rewrite app_assoc.
  - rewrite <- app_assoc, Y1, Y2. now rewrite app_assoc.
Qed.
Ltac fz := repeat first [apply fr_bind; [|intros] | apply fr_val | apply fr_on | apply fr_need | apply fr_need_if | progress cbv zeta | match goal with |- framed (if ?b then _ else _) => destruct b | |- framed (let (_, _) := ?p in _) => destruct p end].
Lemma fr_getID E w : framed (f_getID E w).
Proof. unfold f_getID. fz. Qed.
Lemma fr_words E d f ws : framed (f_words E d f ws).
Proof. induction ws as [|w ws IH]; cbn [f_words]; unfold f_addToIndex, f_insertWord, f_add; fz; try apply fr_getID; exact IH. Qed.
Lemma fr_fields E d fs : framed (f_fields E d fs).
Proof. induction fs as [|f fs IH]; cbn [f_fields]; fz; [apply fr_words|exact IH]. Qed.
Lemma fr_index E c : framed (f_index E c).
Proof. induction c as [|d c IH]; cbn [f_index]; fz; [apply fr_fields|exact IH]. Qed.
Lemma fr_subs E fl t id n : forall sub, framed (f_subtermsMatch E fl t id n sub).
Proof. induction n as [|n IH]; intros sub; cbn [f_subtermsMatch]; unfold f_both_ids; fz; try apply fr_getID; apply IH. Qed.
Lemma fr_terms E fl id n : forall t, framed (f_termsMatch E fl id n t).
Proof. induction n as [|n IH]; intros t; cbn [f_termsMatch]; fz; [apply fr_subs|apply IH]. Qed.
Lemma fr_loop E fl n : forall i all mt, framed (f_filter_loop E fl n i all mt).
Proof. induction n as [|n IH]; intros i all mt; cbn [f_filter_loop]; fz; [apply fr_terms|apply IH..]. Qed.
Lemma fr_match E q p : framed (f_match E q p).
Proof. unfold f_match. apply fr_bind; [apply fr_need|]. intros _. destruct q; fz. apply fr_loop. Qed.
Lemma fr_weight w x : framed (f_setWeight w x).
Proof. unfold f_setWeight. fz. Qed.

(** ** All calls, whatever they end with *)
Fixpoint f_all (E : env) (calls : list m_call) (s : fst_) : fst_ * list (fres unit) :=
  match calls with [] => (s, []) | c :: r => let (s1, o) := f_do E c s in let (s2, os) := f_all E r s1 in (s2, o :: os) end.
Lemma all_app E a b s : f_all E (a ++ b) s = (let (s1, os) := f_all E a s in let (s2, os2) := f_all E b s1 in (s2, os ++ os2)).
Proof.
  revert s. induction a as [|c a IH]; intros s; cbn [f_all app]; [now destruct (f_all E b s)|]. destruct (f_do E c s) as [s1 o]. rewrite IH. destruct (f_all E a s1) as [s2 os]. now destruct (f_all E b s2).
Qed.
Lemma all_run E calls : forall s s' outs, f_all E calls s = (s', outs) -> Forall (fun x => f_fatal (fst x) (snd x) = false) (combine calls outs) -> f_run E calls s = Some (s', outs).
Proof.
  induction calls as [|c calls IH]; intros s s' outs; cbn [f_all f_run]; [intros [= <- <-]; reflexivity|]. destruct (f_do E c s) as [s1 o]. destruct (f_all E calls s1) as [s2 os] eqn:H2. intros [= <- <-]. cbn [combine].
  intros HF. apply Forall_cons_iff in HF as [Hf HF]. cbn [fst snd] in Hf. rewrite Hf. now rewrite (IH _ _ _ H2 HF).
Qed.
Lemma combine_map A B (l : list (A * B)) : combine (map fst l) (map snd l) = l.
Proof. induction l as [|[a b] l IH]; [reflexivity|]. cbn. now rewrite IH. Qed.

Section Calls.
Variables (E : env) (W : world).
Hypothesis HF : folds_shipped E.
Hypothesis HW : shipped W.

(** ** Functions that use no matcher *)
Definition plain (c : c_call) : bool :=
  match c with
  | col_matcher_new | col_matcher_index _ _ | col_matcher_match _ _ | col_error_values_add_standard_errors _ | col_error_values_set_substring_mode _ | col_index_weights_set_weight _ _ _ => false
  | _ => true
  end.
Definition good (o : obj) : Prop := match o with OMatcher _ => False | _ => obj_ok E [] o end.
Definition shape (h h' : heap) : Prop :=
  h' = h \/ (exists o, h' = h ++ [Some o] /\ good o) \/ (exists n x y, live h n y /\ h' = upd n x h /\ match x with Some o => good o /\ (forall m, y <> OMatcher m) | None => True end).
Ltac step H := lazymatch type of H with
  | caught _ _ _ = _ => apply caught_inv in H; destruct H as [H|[? [H ->]]]
  | mbind _ _ _ = (_, Ok _) => apply bind_ok in H; let h1 := fresh "h" in let a := fresh "a" in let H1 := fresh "H" in destruct H as (h1 & a & H1 & H)
  | mbind _ _ _ = (_, Throw _) => apply bind_throw in H; let h1 := fresh "h" in let a := fresh "a" in let H1 := fresh "H" in destruct H as [H|(h1 & a & H1 & H)]
  end.
Ltac tame := repeat match goal with
  | H : reads _ ?h = (_, _) |- _ => unfold reads in H; cbn [fst snd] in H; injection H; clear H; intros; subst
  | H : alloc _ _ = (_, Ok _) |- _ => unfold alloc in H; injection H; clear H; intros; subst
  | H : alloc _ _ = (_, Throw _) |- _ => discriminate H
  | H : ret _ _ = (_, Ok _) |- _ => unfold ret in H; injection H; clear H; intros; subst
  | H : ret _ _ = (_, Throw _) |- _ => discriminate H
  | H : the_word _ _ = (_, _) |- _ => let n := fresh "n" in let w := fresh "w" in let Hl := fresh "Hl" in let Hx := fresh "Hx" in
      apply the_word_inv in H; destruct H as [-> [H|(n & w & -> & Hl & Hx)]]; [discriminate H|try discriminate Hx; injection Hx as ->]
  | H : the_doc _ _ = (_, _) |- _ => let n := fresh "n" in let w := fresh "w" in let Hl := fresh "Hl" in let Hx := fresh "Hx" in
      apply the_doc_inv in H; destruct H as [-> [H|(n & w & -> & Hl & Hx)]]; [discriminate H|try discriminate Hx; injection Hx as ->]
  | H : the_corpus _ _ = (_, _) |- _ => let n := fresh "n" in let w := fresh "w" in let Hl := fresh "Hl" in let Hx := fresh "Hx" in
      apply the_corpus_inv in H; destruct H as [-> [H|(n & w & -> & Hl & Hx)]]; [discriminate H|try discriminate Hx; injection Hx as ->]
  | H : the_results _ _ = (_, _) |- _ => let n := fresh "n" in let w := fresh "w" in let Hl := fresh "Hl" in let Hx := fresh "Hx" in
      apply the_results_inv in H; destruct H as [-> [H|(n & w & -> & Hl & Hx)]]; [discriminate H|try discriminate Hx; injection Hx as ->]
  | H : the_matcher _ _ = (_, _) |- _ => let n := fresh "n" in let w := fresh "w" in let Hl := fresh "Hl" in let Hx := fresh "Hx" in
      apply the_matcher_inv in H; destruct H as [-> [H|(n & w & -> & Hl & Hx)]]; [discriminate H|try discriminate Hx; injection Hx as ->]
  | H : the_errors _ _ = (_, _) |- _ => let n := fresh "n" in let w := fresh "w" in let Hl := fresh "Hl" in let Hx := fresh "Hx" in
      apply the_errors_inv in H; destruct H as [-> [H|(n & w & -> & Hl & Hx)]]; [discriminate H|try discriminate Hx; injection Hx as ->]
  | H : the_weights _ _ = (_, _) |- _ => let n := fresh "n" in let w := fresh "w" in let Hl := fresh "Hl" in let Hx := fresh "Hx" in
      apply the_weights_inv in H; destruct H as [-> [H|(n & w & -> & Hl & Hx)]]; [discriminate H|try discriminate Hx; injection Hx as ->]
  | H : method _ _ _ _ _ = (_, _) |- _ => let s := fresh "s" in let Hs := fresh "Hs" in apply method_inv in H; destruct H as (s & Hs & ->); cbn [fst snd] in *
  end.

Lemma shape_del p mine h h' o : del p mine h = (h', o) -> shape h h'.
Proof.
  clear. intros H. apply del_inv in H as [[_ ->]|[(_ & -> & _)|(n & x & _ & Hl & _ & -> & _)]]; [now left|now left|]. right. right. exists n, None, x. now split.
Qed.
Lemma plain_shape c h h' v : plain c = true -> c_strings c -> (forall n o, live h n o -> match o with OMatcher _ => True | _ => good o end) -> c_do E W c h = (h', Ok v) -> shape h h'.
Proof.
  clear HF HW. intros Hp Hs HI H. destruct c; try discriminate Hp; cbn [c_do] in H; repeat step H; tame; cbn [c_strings] in Hs;
    try (left; reflexivity); try (match goal with H : del _ _ _ = _ |- _ => exact (shape_del H) end).
  all: try (right; left; eexists; split; [reflexivity|]; cbn; first [exact I|apply doc_fine_new|apply Forall_nil|now exists utf8_word]; fail).
  all: try (right; right; eexists _, (Some (OResults _)), _; split; [eassumption|]; split; [reflexivity|]; split; [exact I|discriminate]; fail).
  - right. right. eexists _, (Some (ODoc _)), _. split; [exact Hl0|]. split; [reflexivity|]. split; [|discriminate]. eapply doc_fine_add; [exact (HI _ _ Hl0)|exact (HI _ _ Hl)|exact Hs|eassumption].
  - right. right. eexists _, (Some (ODoc _)), _. split; [exact Hl0|]. split; [reflexivity|]. split; [|discriminate]. eapply doc_fine_add; [exact (HI _ _ Hl0)|exact (HI _ _ Hl)|exact Hs|eassumption].
  - right. right. eexists _, (Some (OCorpus _)), _. split; [exact Hl0|]. split; [reflexivity|]. split; [|discriminate]. unfold co_addDocument in *. injection Hs0 as <-. apply Forall_app. split; [exact (HI _ _ Hl0)|]. constructor; [exact (HI _ _ Hl)|constructor].
  - discriminate Hs0.
Qed.
End Calls.
