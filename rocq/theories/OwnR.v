(** Every statement keeps each variable's value where only that variable reaches. *)
From Verif Require Import Base TrieM WordM MapM DoubleM ContM OwnM Spec_Own OwnP OwnQ.
From Coq Require Import ZifyBool ZifyN ZifyNat.
Local Open Scope N_scope.

Inductive rep_obj : vobj -> cobj -> list cell -> Prop :=
| ro_word v o W : rep_wv v o W -> rep_obj (VWord v) (CWord o) W
| ro_list l p W : rep_list l p W -> rep_obj (VList (Some l)) (CList p) W
| ro_moved : rep_obj (VList None) (CList None) []
| ro_doc d a W : rep_doc d a W -> rep_obj (VDoc d) (CDoc a) W
| ro_corpus c a W : rep_corpus c a W -> rep_obj (VCorpus c) (CCorpus a) W
| ro_res r a : rep_obj (VRes (Some r)) (CRes (Some a)) [(a, BResults r)]
| ro_gone : rep_obj (VRes None) (CRes None) []
| ro_other a : rep_obj VOther (COther a) [(a, BOther)].
Inductive rep_var : option vobj -> option cobj -> list cell -> Prop :=
| rep_dead : rep_var None None []
| rep_live v c W : rep_obj v c W -> rep_var (Some v) (Some c) W.
Definition inv (vs : values) (m : mem) (cs : vars) (n : nat) : Prop :=
  exists W L, rep_all rep_var vs cs W /\ length L = n /\ forall g, ms m g = (lsum g W + lsum g L)%nat.

Lemma on_mem_eq A (f : M mem A) m cs m' r : f m = (m', r) -> on_mem f (m, cs) = ((m', cs), r).
Proof. intros H. unfold on_mem. cbn [fst snd]. now rewrite H. Qed.
Lemma bind_mem A B (f : M mem A) (k : A -> M state B) m cs m' a : f m = (m', Ok a) -> mbind (on_mem f) k (m, cs) = k a (m', cs).
Proof. intros H. apply bind_eq. now apply on_mem_eq. Qed.
Lemma bind_mem_throw A B (f : M mem A) (k : A -> M state B) m cs m' e : f m = (m', Throw e) -> mbind (on_mem f) k (m, cs) = ((m', cs), Throw e).
Proof. intros H. unfold mbind. now rewrite (on_mem_eq cs H). Qed.
Lemma bind_throw_eq S A B (f : M S A) (k : A -> M S B) s s1 e : f s = (s1, Throw e) -> mbind f k s = (s1, Throw e).
Proof. intros H. unfold mbind. now rewrite H. Qed.
Lemma var_ok x m cs c : nth_error cs x = Some (Some c) -> var x (m, cs) = ((m, cs), Ok c).
Proof. intros H. unfold var. cbn [snd]. now rewrite H. Qed.
Lemma v_var_nth vs x v : v_var vs x = Ok v <-> nth_error vs x = Some (Some v).
Proof. unfold v_var. destruct (nth_error vs x) as [[y|]|]; split; congruence. Qed.

(** Looking at one variable. *)
Lemma one_var vs cs W x v : rep_all rep_var vs cs W -> v_var vs x = Ok v ->
  exists c X Y, nth_error cs x = Some (Some c) /\ rep_obj v c X /\ (forall g, lsum g W = (lsum g X + lsum g Y)%nat) /\
    (forall v' c' X', rep_obj v' c' X' -> exists W', rep_all rep_var (becomes x v' vs) (upd x (Some c') cs) W' /\ forall g, lsum g W' = (lsum g X' + lsum g Y)%nat) /\
    exists W', rep_all rep_var (upd x None vs) (upd x None cs) W' /\ forall g, lsum g W' = lsum g Y.
Proof.
  intros Hr Hv. apply v_var_nth in Hv. destruct (all_nth Hr Hv) as (oc & X & Y & H1 & H2 & H3 & H4). inversion H2 as [|v0 c W0 Ho]; subst. exists c, X, Y.
  split; [exact H1|]. split; [exact Ho|]. split; [exact H3|]. split.
  - intros v' c' X' Hx. apply (H4 (Some v') (Some c') X'). now constructor.
  - destruct (H4 None None [] rep_dead) as (W' & Hw & Hg). exists W'. split; [exact Hw|hs].
Qed.
(** Two different ones. *)
Lemma two_vars vs cs W x y v u : rep_all rep_var vs cs W -> x <> y -> v_var vs x = Ok v -> v_var vs y = Ok u ->
  exists c X b Y Z, nth_error cs x = Some (Some c) /\ rep_obj v c X /\ nth_error cs y = Some (Some b) /\ rep_obj u b Y /\ (forall g, lsum g W = (lsum g X + lsum g Y + lsum g Z)%nat) /\
    (forall v' c' X', rep_obj v' c' X' -> exists W', rep_all rep_var (becomes x v' vs) (upd x (Some c') cs) W' /\ forall g, lsum g W' = (lsum g X' + lsum g Y + lsum g Z)%nat) /\
    (forall v' c' X' u' b' Y', rep_obj v' c' X' -> rep_obj u' b' Y' -> exists W', rep_all rep_var (becomes y u' (becomes x v' vs)) (upd y (Some b') (upd x (Some c') cs)) W' /\
       forall g, lsum g W' = (lsum g X' + lsum g Y' + lsum g Z)%nat).
Proof.
  intros Hr Hn Hv Hu. apply v_var_nth in Hv, Hu. destruct (all_two Hr Hn Hv Hu) as (oc & X & ob & Y & Z & H1 & H2 & H3 & H4 & H5 & H6 & H7).
  inversion H2 as [|v0 c W0 Ho]; subst. inversion H4 as [|u0 b W1 Hb]; subst. exists c, X, b, Y, Z. repeat (split; [eassumption|]). split.
  - intros v' c' X' Hx. apply (H6 (Some v') (Some c') X'). now constructor.
  - intros v' c' X' u' b' Y' Hx Hy. apply (H7 (Some v') (Some c') X' (Some u') (Some b') Y'); now constructor.
Qed.
Lemma declared vs cs W v c X : rep_all rep_var vs cs W -> rep_obj v c X -> exists W', rep_all rep_var (add v vs) (cs ++ [Some c]) W' /\ forall g, lsum g W' = (lsum g W + lsum g X)%nat.
Proof. intros Hr Hx. apply all_snoc; [exact Hr|now constructor]. Qed.

(** ** Arguments *)
Definition w_owner (r : w_ref) : nat := match r with WVar x => x | WElem x _ => x end.
Definition l_owner (l : l_ref) : nat := match l with LVar x => x | LText x _ => x end.
Definition d_owner (d : d_ref) : nat := match d with DVar x => x | DElem x _ => x end.
Ltac inv_obj H := let k := fresh "A" in let v0 := fresh "v0" in let o0 := fresh "o0" in let W0 := fresh "W0" in let l0 := fresh "l0" in let p0 := fresh "p0" in
  let d0 := fresh "d0" in let a0 := fresh "a0" in let c0 := fresh "c0" in let r0 := fresh "r0" in
  inversion H as [v0 o0 W0 k|l0 p0 W0 k| |d0 a0 W0 k|c0 a0 W0 k|r0 a0| |a0]; subst; clear H; try rename k into H.
Lemma v_wvar_ok vs x w : v_wvar vs x = Ok w <-> v_var vs x = Ok (VWord w).
Proof. unfold v_wvar. destruct (v_var vs x) as [[]| | | |]; cbn [obind]; split; congruence. Qed.
Lemma v_lvar_ok vs x w : v_lvar vs x = Ok w <-> v_var vs x = Ok (VList w).
Proof. unfold v_lvar. destruct (v_var vs x) as [[]| | | |]; cbn [obind]; split; congruence. Qed.
Lemma v_dvar_ok vs x w : v_dvar vs x = Ok w <-> v_var vs x = Ok (VDoc w).
Proof. unfold v_dvar. destruct (v_var vs x) as [[]| | | |]; cbn [obind]; split; congruence. Qed.
Lemma v_cvar_ok vs x w : v_cvar vs x = Ok w <-> v_var vs x = Ok (VCorpus w).
Proof. unfold v_cvar. destruct (v_var vs x) as [[]| | | |]; cbn [obind]; split; congruence. Qed.
Lemma v_rvar_ok vs x w : v_rvar vs x = Ok w <-> v_var vs x = Ok (VRes w).
Proof. unfold v_rvar. destruct (v_var vs x) as [[]| | | |]; cbn [obind]; split; congruence. Qed.
Lemma v_var_cases vs x : (exists v, v_var vs x = Ok v) \/ v_var vs x = UB.
Proof. unfold v_var. destruct (nth_error vs x) as [[y|]|]; eauto. Qed.
Lemma word_var_ok x m cs o : nth_error cs x = Some (Some (CWord o)) -> word_var x (m, cs) = ((m, cs), Ok o).
Proof. intros H. unfold word_var. now rewrite (bind_eq _ (var_ok m H)). Qed.
Lemma list_var_ok x m cs o : nth_error cs x = Some (Some (CList o)) -> list_var x (m, cs) = ((m, cs), Ok o).
Proof. intros H. unfold list_var. now rewrite (bind_eq _ (var_ok m H)). Qed.
Lemma doc_var_ok x m cs o : nth_error cs x = Some (Some (CDoc o)) -> doc_var x (m, cs) = ((m, cs), Ok o).
Proof. intros H. unfold doc_var. now rewrite (bind_eq _ (var_ok m H)). Qed.
Lemma corpus_var_ok x m cs o : nth_error cs x = Some (Some (CCorpus o)) -> corpus_var x (m, cs) = ((m, cs), Ok o).
Proof. intros H. unfold corpus_var. now rewrite (bind_eq _ (var_ok m H)). Qed.
Lemma res_var_ok x m cs o : nth_error cs x = Some (Some (CRes o)) -> res_var x (m, cs) = ((m, cs), Ok o).
Proof. intros H. unfold res_var. now rewrite (bind_eq _ (var_ok m H)). Qed.
(** A word: in the variable that owns it. *)
Lemma word_owned vs r w : v_word vs r = Ok w -> exists v, v_var vs (w_owner r) = Ok v /\ match r with WVar _ => v = VWord (WGood w) | WElem _ i => exists l, v = VList (Some l) /\ wl_at l i = Ok w end.
Proof.
  destruct r as [x|x i]; cbn [v_word w_owner].
  - destruct (v_wvar vs x) as [[v|n]| | | |] eqn:Hv; cbn [obind]; try discriminate. apply v_wvar_ok in Hv. intros [= <-]. eauto.
  - destruct (v_lvar vs x) as [[l|]| | | |] eqn:Hv; cbn [obind present]; try discriminate. apply v_lvar_ok in Hv. eauto.
Qed.
Lemma word_arg_at r m cs vs w v c X : v_word vs r = Ok w -> v_var vs (w_owner r) = Ok v -> nth_error cs (w_owner r) = Some (Some c) -> rep_obj v c X -> sub X m ->
  exists o Y, word_arg r (m, cs) = ((m, cs), Ok o) /\ rep_word w o Y /\ forall g, (lsum g Y <= lsum g X)%nat.
Proof.
  intros Hw Hv Hn Ho Hs. destruct (word_owned Hw) as (v' & Hv' & H). rewrite Hv in Hv'. injection Hv' as <-. destruct r as [x|x i]; cbn [word_arg w_owner] in *.
  - subst v. inv_obj Ho. inversion Ho as [w0 o1 W1 Hr|]; subst. exists o0, X. split; [now apply word_var_ok|]. split; [exact Hr|hs].
  - destruct H as (l & -> & Hi). inv_obj Ho. rewrite (bind_eq _ (list_var_ok m Hn)). pose proof (list_at i Ho Hs) as Ha. rewrite Hi in Ha. destruct Ha as (o & Y & H1 & H2 & H3).
    exists o, Y. split; [now apply on_mem_eq|]. split; [exact H2|exact H3].
Qed.
Lemma word_arg_ok r m cs vs W w : rep_all rep_var vs cs W -> sub W m -> v_word vs r = Ok w ->
  exists o Y, word_arg r (m, cs) = ((m, cs), Ok o) /\ rep_word w o Y /\ forall g, (lsum g Y <= lsum g W)%nat.
Proof.
  intros Hr Hs Hw. destruct (word_owned Hw) as (v & Hv & _). destruct (one_var Hr Hv) as (c & X & Y & H1 & H2 & H3 & _).
  destruct (word_arg_at (m := m) Hw Hv H1 H2 ltac:(hs)) as (o & Z & A & B & C). exists o, Z. split; [exact A|]. split; [exact B|hs].
Qed.
Lemma word_arg_throw r m cs vs W e : rep_all rep_var vs cs W -> sub W m -> v_word vs r = Throw e -> word_arg r (m, cs) = ((m, cs), Throw e) /\ e = EOutOfRange.
Proof.
  intros Hr Hs Hw. destruct r as [x|x i]; cbn [v_word word_arg] in *.
  - unfold v_wvar in Hw. destruct (v_var_cases vs x) as [(v & Hv)|Hv]; rewrite Hv in Hw; cbn [obind] in Hw; [|discriminate]. destruct v as [[]| | | | |]; cbn in Hw; discriminate.
  - destruct (v_lvar vs x) as [[l|]|e'| | |] eqn:Hv; cbn [obind present] in Hw; try discriminate.
    + apply v_lvar_ok in Hv. destruct (one_var Hr Hv) as (c & X & Y & H1 & H2 & H3 & _). inv_obj H2. rewrite (bind_eq _ (list_var_ok m H1)).
      pose proof (list_at (m := m) i H2 ltac:(hs)) as Ha. rewrite Hw in Ha. destruct Ha as [Ha ->]. split; [now apply on_mem_eq|reflexivity].
    + unfold v_lvar in Hv. destruct (v_var_cases vs x) as [(v & Hq)|Hq]; rewrite Hq in Hv; cbn [obind] in Hv; [|discriminate]. destruct v; discriminate.
Qed.
(** A list. *)
Lemma list_owned vs l ws : v_list vs l = Ok ws -> exists v, v_var vs (l_owner l) = Ok v /\
  match l with LVar _ => v = VList (Some ws) | LText _ r => exists f d, v_word vs r = Ok f /\ v = VDoc d /\ doc_getText d f = Ok ws end.
Proof.
  destruct l as [x|x r]; cbn [v_list l_owner].
  - destruct (v_lvar vs x) as [[l|]| | | |] eqn:Hv; cbn [obind present]; try discriminate. apply v_lvar_ok in Hv. intros [= <-]. eauto.
  - destruct (v_word vs r) as [f| | | |] eqn:Hf; cbn [obind]; try discriminate. destruct (v_dvar vs x) as [d| | | |] eqn:Hv; cbn [obind]; try discriminate. apply v_dvar_ok in Hv. eauto 8.
Qed.
Lemma list_arg_at l m cs vs W ws v c X : rep_all rep_var vs cs W -> sub W m -> v_list vs l = Ok ws -> v_var vs (l_owner l) = Ok v -> nth_error cs (l_owner l) = Some (Some c) -> rep_obj v c X -> sub X m ->
  exists at_ p Y, list_arg l (m, cs) = ((m, cs), Ok (at_, p)) /\ rep_list ws p Y /\ (forall g, (lsum g Y <= lsum g X)%nat) /\
    match l with LVar x => at_ = InVar x
    | LText x _ => exists d a i t os o, v = VDoc d /\ c = CDoc a /\ at_ = InDoc a i /\ nth_error (d_texts d) i = Some t /\ snd t = ws /\ nth_error m a = Some (Some (BDoc (d_id d) os)) /\ nth_error os i = Some (o, p) end.
Proof.
  intros Hr HW Hl Hv Hn Ho Hs. destruct (list_owned Hl) as (v' & Hv' & H). rewrite Hv in Hv'. injection Hv' as <-. destruct l as [x|x r]; cbn [list_arg l_owner] in *.
  - subst v. inv_obj Ho. exists (InVar x), p0, X. rewrite (bind_eq _ (list_var_ok m Hn)). split; [reflexivity|]. split; [exact Ho|]. split; [hs|reflexivity].
  - destruct H as (f & d & Hf & -> & Ht). inv_obj Ho. destruct (word_arg_ok Hr HW Hf) as (o & Y & H1 & H2 & H3). rewrite (bind_eq _ H1), (bind_eq _ (doc_var_ok m Hn)).
    pose proof (text_at_ok Ho H2 Hs (m := m) ltac:(hs)) as Ha. rewrite Ht in Ha. destruct Ha as (i & ts & p & Z & A1 & A2 & A3 & A4 & A5 & os & o1 & A6 & A7).
    exists (InDoc a0 i), p, Z. split; [now apply on_mem_eq|]. split; [exact A4|]. split; [exact A5|]. exists d, a0, i, ts, os, o1. repeat (split; [first [reflexivity|eassumption]|]). exact A7.
Qed.
Lemma list_arg_ok l m cs vs W ws : rep_all rep_var vs cs W -> sub W m -> v_list vs l = Ok ws ->
  exists at_ p Y, list_arg l (m, cs) = ((m, cs), Ok (at_, p)) /\ rep_list ws p Y /\ (forall g, (lsum g Y <= lsum g W)%nat).
Proof.
  intros Hr Hs Hl. destruct (list_owned Hl) as (v & Hv & _). destruct (one_var Hr Hv) as (c & X & Y & H1 & H2 & H3 & _).
  destruct (list_arg_at (m := m) Hr Hs Hl Hv H1 H2 ltac:(hs)) as (a & p & Z & A & B & C & _). exists a, p, Z. split; [exact A|]. split; [exact B|hs].
Qed.
Lemma v_wvar_throw vs x e : v_wvar vs x <> Throw e.
Proof. unfold v_wvar. destruct (v_var_cases vs x) as [(v & ->)| ->]; cbn [obind]; [destruct v|]; discriminate. Qed.
Lemma v_lvar_throw vs x e : v_lvar vs x <> Throw e.
Proof. unfold v_lvar. destruct (v_var_cases vs x) as [(v & ->)| ->]; cbn [obind]; [destruct v|]; discriminate. Qed.
Lemma v_dvar_throw vs x e : v_dvar vs x <> Throw e.
Proof. unfold v_dvar. destruct (v_var_cases vs x) as [(v & ->)| ->]; cbn [obind]; [destruct v|]; discriminate. Qed.
Lemma v_cvar_throw vs x e : v_cvar vs x <> Throw e.
Proof. unfold v_cvar. destruct (v_var_cases vs x) as [(v & ->)| ->]; cbn [obind]; [destruct v|]; discriminate. Qed.
Lemma v_rvar_throw vs x e : v_rvar vs x <> Throw e.
Proof. unfold v_rvar. destruct (v_var_cases vs x) as [(v & ->)| ->]; cbn [obind]; [destruct v|]; discriminate. Qed.
Lemma list_arg_throw l m cs vs W e : rep_all rep_var vs cs W -> sub W m -> v_list vs l = Throw e -> list_arg l (m, cs) = ((m, cs), Throw e) /\ e <> ERuntime.
Proof.
  intros Hr Hs Hl. destruct l as [x|x r]; cbn [v_list list_arg] in *.
  - destruct (v_lvar vs x) as [[l|]|e'| | |] eqn:Hv; cbn [obind present] in Hl; try discriminate. now destruct (v_lvar_throw Hv).
  - destruct (v_word vs r) as [f|e'| | |] eqn:Hf; cbn [obind] in Hl; try discriminate.
    + destruct (v_dvar vs x) as [d|e'| | |] eqn:Hv; cbn [obind] in Hl; try discriminate; [|now destruct (v_dvar_throw Hv)]. apply v_dvar_ok in Hv.
      destruct (one_var Hr Hv) as (c & X & Y & H1 & H2 & H3 & _). inv_obj H2. destruct (word_arg_ok Hr Hs Hf) as (o & Z & A1 & A2 & A3).
      rewrite (bind_eq _ A1), (bind_eq _ (doc_var_ok m H1)). pose proof (text_at_ok H2 A2 (m := m) ltac:(hs) ltac:(hs)) as Ha. rewrite Hl in Ha. destruct Ha as [Ha ->].
      split; [now apply on_mem_eq|discriminate].
    + injection Hl as ->. destruct (word_arg_throw Hr Hs Hf) as [H ->]. split; [now apply bind_throw_eq|discriminate].
Qed.
(** A document. *)
Lemma doc_owned vs r d : v_doc vs r = Ok d -> exists v, v_var vs (d_owner r) = Ok v /\ match r with DVar _ => v = VDoc d | DElem _ i => exists c, v = VCorpus c /\ co_getDocument c i = Ok d end.
Proof.
  destruct r as [x|x i]; cbn [v_doc d_owner].
  - intros Hv. apply v_dvar_ok in Hv. eauto.
  - destruct (v_cvar vs x) as [c| | | |] eqn:Hv; cbn [obind]; try discriminate. apply v_cvar_ok in Hv. eauto.
Qed.
Lemma doc_arg_at r m cs vs d v c X : v_doc vs r = Ok d -> v_var vs (d_owner r) = Ok v -> nth_error cs (d_owner r) = Some (Some c) -> rep_obj v c X -> sub X m ->
  exists a Y, doc_arg r (m, cs) = ((m, cs), Ok a) /\ rep_doc d a Y /\ forall g, (lsum g Y <= lsum g X)%nat.
Proof.
  intros Hw Hv Hn Ho Hs. destruct (doc_owned Hw) as (v' & Hv' & H). rewrite Hv in Hv'. injection Hv' as <-. destruct r as [x|x i]; cbn [doc_arg d_owner] in *.
  - subst v. inv_obj Ho. exists a0, X. split; [now apply doc_var_ok|]. split; [exact Ho|hs].
  - destruct H as (l & -> & Hi). inv_obj Ho. destruct Ho as (ds & Y & Hy & ->). rewrite (bind_eq _ (corpus_var_ok m Hn)). pose proof (all_at i Hy) as Ha. unfold co_getDocument in Hi. rewrite Hi in Ha.
    destruct Ha as (a & Z & H1 & H2 & H3). exists a, Z. split; [apply on_mem_eq; rewrite (bind_eq _ (corpus_docs Hs)); unfold lift; now rewrite H1|]. split; [exact H2|hs].
Qed.
Lemma doc_arg_ok r m cs vs W d : rep_all rep_var vs cs W -> sub W m -> v_doc vs r = Ok d ->
  exists a Y, doc_arg r (m, cs) = ((m, cs), Ok a) /\ rep_doc d a Y /\ forall g, (lsum g Y <= lsum g W)%nat.
Proof.
  intros Hr Hs Hw. destruct (doc_owned Hw) as (v & Hv & _). destruct (one_var Hr Hv) as (c & X & Y & H1 & H2 & H3 & _).
  destruct (doc_arg_at (m := m) Hw Hv H1 H2 ltac:(hs)) as (o & Z & A & B & C). exists o, Z. split; [exact A|]. split; [exact B|hs].
Qed.
Lemma doc_arg_throw r m cs vs W e : rep_all rep_var vs cs W -> sub W m -> v_doc vs r = Throw e -> doc_arg r (m, cs) = ((m, cs), Throw e) /\ e = EOutOfRange.
Proof.
  intros Hr Hs Hw. destruct r as [x|x i]; cbn [v_doc doc_arg] in *; [now destruct (v_dvar_throw Hw)|].
  destruct (v_cvar vs x) as [c|e'| | |] eqn:Hv; cbn [obind] in Hw; try discriminate; [|now destruct (v_cvar_throw Hv)]. apply v_cvar_ok in Hv.
  destruct (one_var Hr Hv) as (b & X & Y & H1 & H2 & H3 & _). inv_obj H2. destruct H2 as (ds & Z & Hz & ->). rewrite (bind_eq _ (corpus_var_ok m H1)).
  pose proof (all_at i Hz) as Ha. unfold co_getDocument in Hw. rewrite Hw in Ha. destruct Ha as [Ha ->]. split; [|reflexivity].
  apply on_mem_eq. rewrite (bind_eq _ (@corpus_docs a0 ds Z m ltac:(hs))). unfold lift. now rewrite Ha.
Qed.

(** ** The invariant, one variable at a time *)
Lemma inv_more vs m cs n m' L : inv vs m cs n -> (forall g, ms m' g = (ms m g + lsum g L)%nat) -> inv vs m' cs (n + length L).
Proof. intros (W & K & Hr & Hn & Hm) Hg. exists W, (K ++ L). split; [exact Hr|]. split; [rewrite app_length; lia|hs]. Qed.
Lemma inv_same vs m cs n m' : inv vs m cs n -> (forall g, ms m' g = ms m g) -> inv vs m' cs (n + 0).
Proof. intros Hi Hg. apply (@inv_more vs m cs n m' [] Hi). hs. Qed.
Lemma inv_add vs m cs n v c X m' : inv vs m cs n -> rep_obj v c X -> (forall g, ms m' g = (ms m g + lsum g X)%nat) -> inv (add v vs) m' (cs ++ [Some c]) (n + 0).
Proof.
  intros (W & L & Hr & Hn & Hm) Ho Hg. destruct (declared Hr Ho) as (W' & Hw & Hg'). exists W', L. split; [exact Hw|]. split; [lia|hs].
Qed.
Lemma inv_one vs m cs n x v : inv vs m cs n -> v_var vs x = Ok v ->
  exists c X, nth_error cs x = Some (Some c) /\ rep_obj v c X /\ sub X m /\
    (forall v' c' X' m' L, rep_obj v' c' X' -> (forall g, (ms m' g + lsum g X = ms m g + lsum g X' + lsum g L)%nat) -> inv (becomes x v' vs) m' (upd x (Some c') cs) (n + length L)) /\
    (forall v' X' m', rep_obj v' c X' -> (forall g, (ms m' g + lsum g X = ms m g + lsum g X')%nat) -> inv (becomes x v' vs) m' cs (n + 0)) /\
    (forall m', (forall g, (ms m' g + lsum g X = ms m g)%nat) -> inv (upd x None vs) m' (upd x None cs) (n + 0)).
Proof.
  intros (W & K & Hr & Hn & Hm) Hv. destruct (one_var Hr Hv) as (c & X & Y & H1 & H2 & H3 & H4 & W1 & H5 & H6). exists c, X.
  split; [exact H1|]. split; [exact H2|]. split; [hs|]. split; [|split].
  - intros v' c' X' m' L Ho Hg. destruct (H4 _ _ _ Ho) as (W' & Hw & Hg'). exists W', (K ++ L). split; [exact Hw|]. split; [rewrite app_length; lia|hs].
  - intros v' X' m' Ho Hg. destruct (H4 _ _ _ Ho) as (W' & Hw & Hg'). rewrite (upd_id H1) in Hw. exists W', K. split; [exact Hw|]. split; [lia|hs].
  - intros m' Hg. exists W1, K. split; [exact H5|]. split; [lia|hs].
Qed.
Lemma inv_two vs m cs n x y v u : inv vs m cs n -> x <> y -> v_var vs x = Ok v -> v_var vs y = Ok u ->
  exists c X b Y, nth_error cs x = Some (Some c) /\ rep_obj v c X /\ nth_error cs y = Some (Some b) /\ rep_obj u b Y /\ (forall g, (lsum g X + lsum g Y <= ms m g)%nat) /\
    (forall v' c' X' m', rep_obj v' c' X' -> (forall g, (ms m' g + lsum g X = ms m g + lsum g X')%nat) -> inv (becomes x v' vs) m' (upd x (Some c') cs) (n + 0)) /\
    (forall v' X' m', rep_obj v' c X' -> (forall g, (ms m' g + lsum g X = ms m g + lsum g X')%nat) -> inv (becomes x v' vs) m' cs (n + 0)) /\
    (forall v' c' X' u' b' Y' m', rep_obj v' c' X' -> rep_obj u' b' Y' -> (forall g, (ms m' g + lsum g X + lsum g Y = ms m g + lsum g X' + lsum g Y')%nat) ->
       inv (becomes y u' (becomes x v' vs)) m' (upd y (Some b') (upd x (Some c') cs)) (n + 0)).
Proof.
  intros (W & K & Hr & Hn & Hm) Hne Hv Hu. destruct (two_vars Hr Hne Hv Hu) as (c & X & b & Y & Z & H1 & H2 & H3 & H4 & H5 & H6 & H7). exists c, X, b, Y.
  repeat (split; [eassumption|]). split; [hs|]. split; [|split].
  - intros v' c' X' m' Ho Hg. destruct (H6 _ _ _ Ho) as (W' & Hw & Hg'). exists W', K. split; [exact Hw|]. split; [lia|hs].
  - intros v' X' m' Ho Hg. destruct (H6 _ _ _ Ho) as (W' & Hw & Hg'). rewrite (upd_id H1) in Hw. exists W', K. split; [exact Hw|]. split; [lia|hs].
  - intros v' c' X' u' b' Y' m' Ho Hq Hg. destruct (H7 _ _ _ _ _ _ Ho Hq) as (W' & Hw & Hg'). exists W', K. split; [exact Hw|]. split; [lia|hs].
Qed.
Lemma inv_word vs m cs n r w : inv vs m cs n -> v_word vs r = Ok w -> exists o Y, word_arg r (m, cs) = ((m, cs), Ok o) /\ rep_word w o Y /\ sub Y m.
Proof. intros (W & K & Hr & Hn & Hm) Hw. destruct (word_arg_ok (m := m) Hr ltac:(hs) Hw) as (o & Y & A & B & C). exists o, Y. split; [exact A|]. split; [exact B|hs]. Qed.
Lemma inv_word_throw vs m cs n r e : inv vs m cs n -> v_word vs r = Throw e -> word_arg r (m, cs) = ((m, cs), Throw e) /\ e <> ERuntime.
Proof. intros (W & K & Hr & Hn & Hm) Hw. destruct (word_arg_throw (m := m) Hr ltac:(hs) Hw) as [H ->]. split; [exact H|discriminate]. Qed.
Lemma inv_list vs m cs n r w : inv vs m cs n -> v_list vs r = Ok w -> exists a p Y, list_arg r (m, cs) = ((m, cs), Ok (a, p)) /\ rep_list w p Y /\ sub Y m.
Proof. intros (W & K & Hr & Hn & Hm) Hw. destruct (list_arg_ok (m := m) Hr ltac:(hs) Hw) as (a & o & Y & A & B & C). exists a, o, Y. split; [exact A|]. split; [exact B|hs]. Qed.
Lemma inv_list_throw vs m cs n r e : inv vs m cs n -> v_list vs r = Throw e -> list_arg r (m, cs) = ((m, cs), Throw e) /\ e <> ERuntime.
Proof. intros (W & K & Hr & Hn & Hm) Hw. exact (list_arg_throw (m := m) Hr ltac:(hs) Hw). Qed.
Lemma inv_doc vs m cs n r w : inv vs m cs n -> v_doc vs r = Ok w -> exists a Y, doc_arg r (m, cs) = ((m, cs), Ok a) /\ rep_doc w a Y /\ sub Y m.
Proof. intros (W & K & Hr & Hn & Hm) Hw. destruct (doc_arg_ok (m := m) Hr ltac:(hs) Hw) as (a & Y & A & B & C). exists a, Y. split; [exact A|]. split; [exact B|hs]. Qed.
Lemma inv_doc_throw vs m cs n r e : inv vs m cs n -> v_doc vs r = Throw e -> doc_arg r (m, cs) = ((m, cs), Throw e) /\ e <> ERuntime.
Proof. intros (W & K & Hr & Hn & Hm) Hw. destruct (doc_arg_throw (m := m) Hr ltac:(hs) Hw) as [H ->]. split; [exact H|discriminate]. Qed.

(** ** One statement *)
Lemma with_inv A vs (o : outcome A) k vs' r : with_ vs o k = (vs', r) -> fine r -> (exists a, o = Ok a /\ k a = (vs', r)) \/ (exists e, o = Throw e /\ vs' = vs /\ r = Throw e).
Proof. destruct o; cbn; intros H Hf; [left; eauto| | | |]. all: injection H as <- <-; try destruct Hf; right; eauto. Qed.
Definition follows (E : env) (c : op) : Prop := forall vs m cs n vs' r, inv vs m cs n -> v_exec E c vs = (vs', r) -> fine r ->
  exists m' cs', exec E c (m, cs) = ((m', cs'), r) /\ inv vs' m' cs' (n + lost c r).
Ltac start := let vs := fresh "vs" in intros vs m cs n vs' r Hi H Hf; cbn [v_exec] in H; cbn [exec].
Ltac wi H Ho := let a := fresh "a" in let e := fresh "e" in
  let K := fresh "K" in
  match type of H with with_ _ _ _ = (_, ?r) => match goal with Hf : fine r |- _ => destruct (with_inv H Hf) as [(a & Ho & K)|(e & Ho & -> & ->)]; clear H; [rename K into H; cbn beta in H|] end end.
Lemma stays vs m cs n c e : inv vs m cs n -> e <> ERuntime -> inv vs m cs (n + lost c (Throw e)).
Proof. intros Hi He. replace (lost c (Throw e)) with 0%nat by (destruct e; cbn; congruence). apply (inv_same Hi). reflexivity. Qed.
Lemma lost_1 c e L : match c with ListSplit _ | DocAddUtf8 _ _ _ => False | _ => True end -> length L = lost_by 1 e -> @length cell L = lost c (Throw e).
Proof. intros Hc ->. destruct e; try reflexivity. destruct c; reflexivity || destruct Hc. Qed.

Lemma f_WordNew E : follows E WordNew.
Proof.
  start. injection H as <- <-. exists m, (cs ++ [Some (CWord hw_empty)]). split; [reflexivity|].
  apply (@inv_add vs m cs n _ _ [] m Hi); [do 2 constructor; constructor|hs].
Qed.
Lemma f_WordText E s : follows E (WordText s).
Proof.
  start. wi H Ho.
  - pose proof (of_text_ok E s m) as Hc. rewrite Ho in Hc. destruct Hc as (m1 & o & W & H1 & H2 & H3). injection H as <- <-.
    exists m1, (cs ++ [Some (CWord o)]). split; [now rewrite (bind_mem _ cs H1)|]. apply (@inv_add vs m cs n _ _ W m1 Hi); [do 2 constructor; exact H2|exact H3].
  - pose proof (of_text_ok E s m) as Hc. rewrite Ho in Hc. destruct Hc as (m1 & L & H1 & H2 & H3).
    exists m1, cs. split; [now rewrite (bind_mem_throw _ cs H1)|]. rewrite <- (@lost_1 (WordText s) _ L I H2). exact (inv_more Hi H3).
Qed.
Lemma f_WordLetters E s : follows E (WordLetters s).
Proof.
  start. wi H Ho.
  - pose proof (of_letters_ok E s m) as Hc. rewrite Ho in Hc. destruct Hc as (m1 & o & W & H1 & H2 & H3). injection H as <- <-.
    exists m1, (cs ++ [Some (CWord o)]). split; [now rewrite (bind_mem _ cs H1)|]. apply (@inv_add vs m cs n _ _ W m1 Hi); [do 2 constructor; exact H2|exact H3].
  - pose proof (of_letters_ok E s m) as Hc. rewrite Ho in Hc. destruct Hc as (m1 & H1 & H3). apply letters_throw in Ho. subst e.
    exists m1, cs. split; [now rewrite (bind_mem_throw _ cs H1)|]. exact (inv_same Hi H3).
Qed.
Lemma f_WordCopy E q : follows E (WordCopy q).
Proof.
  start. wi H Ho.
  - destruct (inv_word Hi Ho) as (o & Y & A & B & C). destruct (copy_ok B C) as (m1 & o' & W & H1 & H2 & H3). injection H as <- <-.
    exists m1, (cs ++ [Some (CWord o')]). split; [now rewrite (bind_eq _ A), (bind_mem _ cs H1)|]. apply (@inv_add vs m cs n _ _ W m1 Hi); [do 2 constructor; exact H2|exact H3].
  - destruct (inv_word_throw Hi Ho) as [A B]. exists m, cs. split; [now rewrite (bind_throw_eq _ A)|now apply stays].
Qed.
(** Moving out of a variable into a new one. *)
Lemma moved vs m cs n x v v0 c0 : inv vs m cs n -> v_var vs x = Ok v -> rep_obj v0 c0 [] ->
  exists c X, nth_error cs x = Some (Some c) /\ rep_obj v c X /\ inv (add v (becomes x v0 vs)) m (upd x (Some c0) cs ++ [Some c]) (n + 0).
Proof.
  intros (W & K & Hr & Hn & Hm) Hv H0. destruct (one_var Hr Hv) as (c & X & Y & H1 & H2 & H3 & H4 & _). exists c, X. split; [exact H1|]. split; [exact H2|].
  destruct (H4 _ _ _ H0) as (W' & Hw & Hg). destruct (declared Hw H2) as (W2 & Hw2 & Hg2). exists W2, K. split; [exact Hw2|]. split; [lia|hs].
Qed.
Lemma empty_word : rep_obj (VWord (WGood [])) (CWord hw_empty) [].
Proof. do 3 constructor. Qed.
Lemma f_WordMove E x : follows E (WordMove x).
Proof.
  start. wi H Ho; [|now destruct (v_wvar_throw Ho)]. apply v_wvar_ok in Ho. destruct (moved Hi Ho empty_word) as (c & X & H1 & H2 & H3). injection H as <- <-. inv_obj H2.
  exists m, (upd x (Some (CWord hw_empty)) cs ++ [Some (CWord o0)]). split; [now rewrite (bind_eq _ (word_var_ok m H1))|exact H3].
Qed.
Lemma f_WordAssign E x q : follows E (WordAssign x q).
Proof.
  start. wi H Ho; [|now destruct (v_wvar_throw Ho)]. apply v_wvar_ok in Ho. change (self_w x q) with (is_wvar q x) in H. destruct (is_wvar q x) eqn:Hq.
  - injection H as <- <-. destruct (inv_one Hi Ho) as (c & X & H1 & H2 & _). inv_obj H2. exists m, cs. split; [now rewrite (bind_eq _ (word_var_ok m H1))|now apply (inv_same Hi)].
  - wi H Hw.
    + destruct (word_owned Hw) as (u & Hu & Hs). assert (Hne : x <> w_owner q). { intros ->. rewrite Ho in Hu. injection Hu as <-. destruct q as [y|y i]; cbn in *; [rewrite PeanoNat.Nat.eqb_refl in Hq; discriminate|]. destruct Hs as (l & Hs & _). discriminate. }
      destruct (inv_two Hi Hne Ho Hu) as (c & X & b & Y & H1 & H2 & H3 & H4 & H5 & H6 & _). inv_obj H2. destruct (word_arg_at (m := m) Hw Hu H3 H4 ltac:(hs)) as (o & Z & A & B & C).
      injection H as <- <-. destruct (del_text H2 (m := m) ltac:(hs)) as (m1 & K4 & K5). destruct (copy_ok B (m := m1) ltac:(hs)) as (m2 & o' & W & K1 & K2 & K3).
      exists m2, (upd x (Some (CWord o')) cs). split; [|apply (H6 _ _ W); [do 2 constructor; exact K2|hs]].
      rewrite (bind_eq _ (word_var_ok m H1)), (bind_eq _ A). assert (He : hw_assign o0 o m = (m2, Ok o')) by (unfold hw_assign; rewrite (bind_eq _ K4); exact K1).
      now rewrite (bind_mem _ cs He).
    + destruct (inv_word_throw Hi Hw) as [A B]. destruct (inv_one Hi Ho) as (c & X & H1 & H2 & _). inv_obj H2.
      exists m, cs. split; [now rewrite (bind_eq _ (word_var_ok m H1)), (bind_throw_eq _ A)|now apply stays].
Qed.
Lemma upd_upd A x (a b : A) l : upd x a (upd x b l) = upd x a l.
Proof. revert x; induction l as [|y l IH]; intros [|x]; cbn; congruence. Qed.
Lemma f_WordMoveAssign E x y : follows E (WordMoveAssign x y).
Proof.
  start. wi H Ho; [|now destruct (v_wvar_throw Ho)]. apply v_wvar_ok in Ho. wi H Hw; [|now destruct (v_wvar_throw Hw)]. apply v_wvar_ok in Hw. injection H as <- <-.
  destruct (PeanoNat.Nat.eq_dec x y) as [<-|Hne].
  - destruct (inv_one Hi Ho) as (c & X & H1 & H2 & H3 & H4 & _). inv_obj H2. destruct (del_text H2 H3) as (m1 & K1 & K2).
    exists m1, (upd x (Some (CWord hw_empty)) cs). unfold becomes. rewrite upd_upd. split.
    + rewrite (bind_eq _ (word_var_ok m H1)), (bind_eq _ (word_var_ok m H1)), (bind_mem _ cs K1). unfold mbind, set_var. cbn [fst snd]. now rewrite upd_upd.
    + apply (H4 _ _ [] m1 [] empty_word). hs.
  - destruct (inv_two Hi Hne Ho Hw) as (c & X & b & Y & H1 & H2 & H3 & H4 & H5 & _ & _ & H6). inv_obj H2. inv_obj H4. destruct (del_text H2 (m := m) ltac:(hs)) as (m1 & K1 & K2).
    exists m1, (upd y (Some (CWord hw_empty)) (upd x (Some (CWord o1)) cs)). split.
    + rewrite (bind_eq _ (word_var_ok m H1)), (bind_eq _ (word_var_ok m H3)), (bind_mem _ cs K1). reflexivity.
    + apply (H6 _ _ Y _ _ []); [constructor; exact H4|exact empty_word|hs].
Qed.
Lemma f_WordAssignText E x s : follows E (WordAssignText x s).
Proof.
  start. wi H Ho; [|now destruct (v_wvar_throw Ho)]. apply v_wvar_ok in Ho. destruct (inv_one Hi Ho) as (c & X & H1 & H2 & H3 & H4 & _). inv_obj H2. destruct (del_text H2 H3) as (m1 & K1 & K2).
  pose proof (convert_ok E s m1) as Hc. rewrite (bind_eq _ (word_var_ok m H1)), (bind_mem _ cs K1). destruct (utf8ToInternal E s) as [ls|e| | |] eqn:Hu; cbn [with_] in H.
  - destruct (validate E ls) as [w|e| | |] eqn:Hv; cbn [with_] in H.
    + apply validate_id in Hv. subst w. destruct Hc as (m2 & b & A & B). injection H as <- <-. exists m2, (upd x (Some (CWord (mkHW (Some b) (N.of_nat (length ls))))) cs).
      split; [now rewrite (bind_mem _ cs A)|]. apply (H4 _ _ [(b, BText (ls ++ [0]))] m2 []); [do 3 constructor|hs].
    + apply validate_throw in Hv. subst e. destruct Hc as (m2 & A & B). injection H as <- <-. exists m2, (upd x (Some (CWord (mkHW None (N.of_nat (length ls))))) cs).
      split; [now rewrite (bind_mem _ cs A)|]. apply (H4 _ _ [] m2 []); [|hs]. destruct ls as [|z ls]; [exact empty_word|]. do 2 constructor. cbn [length]. lia.
    + injection H as <- <-. destruct Hf.
    + injection H as <- <-. destruct Hf.
    + injection H as <- <-. destruct Hf.
  - apply utf8_throw in Hu. subst e. destruct Hc as (m2 & k & A & B). injection H as <- <-. exists m2, (upd x (Some (CWord hw_empty)) cs).
    split; [now rewrite (bind_mem _ cs A)|]. apply (H4 _ _ [] m2 [k] empty_word). hs.
  - injection H as <- <-. destruct Hf.
  - injection H as <- <-. destruct Hf.
  - injection H as <- <-. destruct Hf.
Qed.
Lemma f_WordJoin E q t : follows E (WordJoin q t).
Proof.
  start. wi H Ho; [destruct (inv_word Hi Ho) as (o & Y & A & B & C); wi H Hq|].
  - destruct (inv_word Hi Hq) as (o2 & Y2 & A2 & B2 & C2). destruct (join_ok B B2 C C2) as (m1 & o' & W & H1 & H2 & H3). injection H as <- <-.
    exists m1, (cs ++ [Some (CWord o')]). split; [now rewrite (bind_eq _ A), (bind_eq _ A2), (bind_mem _ cs H1)|]. apply (@inv_add vs m cs n _ _ W m1 Hi); [do 2 constructor; exact H2|exact H3].
  - destruct (inv_word_throw Hi Hq) as [A2 B2]. exists m, cs. split; [now rewrite (bind_eq _ A), (bind_throw_eq _ A2)|now apply stays].
  - destruct (inv_word_throw Hi Ho) as [A2 B2]. exists m, cs. split; [now rewrite (bind_throw_eq _ A2)|now apply stays].
Qed.
Lemma f_WordUtf8 E q : follows E (WordUtf8 q).
Proof.
  start. wi H Ho; [destruct (inv_word Hi Ho) as (o & Y & A & B & C); pose proof (asUtf8_ok B C) as Ha; wi H Hq|].
  - rewrite Hq in Ha. destruct Ha as (m1 & H1 & H2). injection H as <- <-. exists m1, cs. split; [now rewrite (bind_eq _ A), (bind_mem _ cs H1)|]. exact (inv_same Hi H2).
  - rewrite Hq in Ha. destruct Ha as (m1 & k & H1 & H2). apply asUtf8_throw in Hq. subst e. exists m1, cs. split; [now rewrite (bind_eq _ A), (bind_mem_throw _ cs H1)|].
    apply (@inv_more _ _ _ _ _ [k] Hi). hs.
  - destruct (inv_word_throw Hi Ho) as [A2 B2]. exists m, cs. split; [now rewrite (bind_throw_eq _ A2)|now apply stays].
Qed.
Lemma f_ListNew E : follows E ListNew.
Proof.
  start. injection H as <- <-. destruct (list_new m) as (m1 & p & W & H1 & H2 & H3). exists m1, (cs ++ [Some (CList p)]). split; [now rewrite (bind_mem _ cs H1)|].
  apply (@inv_add vs m cs n _ _ W m1 Hi); [constructor; exact H2|exact H3].
Qed.
Lemma f_ListSplit E s : follows E (ListSplit s).
Proof.
  start. pose proof (split_ok E s m) as Hc. wi H Ho; rewrite Ho in Hc.
  - destruct Hc as (m1 & p & W & H1 & H2 & H3). injection H as <- <-. exists m1, (cs ++ [Some (CList p)]). split; [now rewrite (bind_mem _ cs H1)|].
    apply (@inv_add vs m cs n _ _ W m1 Hi); [constructor; exact H2|exact H3].
  - destruct Hc as (m1 & L & H1 & H2 & H3). exists m1, cs. split; [now rewrite (bind_mem_throw _ cs H1)|]. replace (lost _ _) with (length L) by (rewrite H2; destruct e; reflexivity). exact (inv_more Hi H3).
Qed.
Lemma f_ListCopy E l : follows E (ListCopy l).
Proof.
  start. wi H Ho.
  - destruct (inv_list Hi Ho) as (z & p & Y & A & B & C). destruct (list_copies B C) as (m1 & p' & W & H1 & H2 & H3). injection H as <- <-.
    exists m1, (cs ++ [Some (CList p')]). split; [now rewrite (bind_eq _ A), (bind_mem _ cs H1)|]. apply (@inv_add vs m cs n _ _ W m1 Hi); [constructor; exact H2|exact H3].
  - destruct (inv_list_throw Hi Ho) as [A2 B2]. exists m, cs. split; [now rewrite (bind_throw_eq _ A2)|now apply stays].
Qed.
Lemma f_ListMove E x : follows E (ListMove x).
Proof.
  start. wi H Ho; [|now destruct (v_lvar_throw Ho)]. apply v_lvar_ok in Ho. destruct (moved Hi Ho ro_moved) as (c & X & H1 & H2 & H3). injection H as <- <-.
  assert (exists p, c = CList p) as (p & ->) by (inversion H2; eauto).
  exists m, (upd x (Some (CList None)) cs ++ [Some (CList p)]). split; [now rewrite (bind_eq _ (list_var_ok m H1))|exact H3].
Qed.
Lemma obj_list o c X : rep_obj (VList o) c X -> exists p, c = CList p.
Proof. inversion 1; eauto. Qed.
Lemma obj_res o c X : rep_obj (VRes o) c X -> exists p, c = CRes p.
Proof. inversion 1; eauto. Qed.
Lemma f_ListAssign E x l : follows E (ListAssign x l).
Proof.
  start. wi H Ho; [|now destruct (v_lvar_throw Ho)]. apply v_lvar_ok in Ho. change (self_l x l) with (is_lvar l x) in H. destruct (is_lvar l x) eqn:Hq.
  - injection H as <- <-. destruct (inv_one Hi Ho) as (c & X & H1 & H2 & _). destruct (obj_list H2) as (p & ->).
    exists m, cs. split; [now rewrite (bind_eq _ (list_var_ok m H1))|now apply (inv_same Hi)].
  - wi H Hw.
    + wi H Hp; [|destruct a; discriminate Hp]. destruct a as [t|]; [|discriminate Hp]. clear Hp.
      destruct (list_owned Hw) as (u & Hu & Hs). assert (Hne : x <> l_owner l). { intros ->. rewrite Ho in Hu. injection Hu as <-. destruct l as [y|y i]; cbn in *; [rewrite PeanoNat.Nat.eqb_refl in Hq; discriminate|]. destruct Hs as (f & d & _ & Hs & _). discriminate. }
      destruct (inv_two Hi Hne Ho Hu) as (c & X & b & Y & H1 & H2 & H3 & H4 & H5 & _ & H6 & _). inv_obj H2. destruct Hi as (W & K & Hr & Hn & Hm).
      destruct (list_arg_at (m := m) Hr ltac:(hs) Hw Hu H3 H4 ltac:(hs)) as (z & p & Z & A & B & C & _).
      injection H as <- <-. destruct (@list_set t p0 X a0 p Z m H2 B ltac:(hs)) as (m1 & W1 & K1 & K2 & K3).
      exists m1, cs. split; [|apply (H6 _ W1); [constructor; exact K2|exact K3]].
      rewrite (bind_eq _ (list_var_ok m H1)), (bind_eq _ A). now apply on_mem_eq.
    + destruct (inv_list_throw Hi Hw) as [A B]. destruct (inv_one Hi Ho) as (c & X & H1 & H2 & _). destruct (obj_list H2) as (p & ->).
      exists m, cs. split; [now rewrite (bind_eq _ (list_var_ok m H1)), (bind_throw_eq _ A)|now apply stays].
Qed.
Lemma destroy_list o p X m : rep_obj (VList o) (CList p) X -> sub X m -> exists m', hl_destroy p m = (m', Ok tt) /\ forall g, (ms m' g + lsum g X = ms m g)%nat.
Proof. intros Ho Hs. inversion Ho; subst; [eapply list_frees; eassumption|]. exists m. split; [reflexivity|hs]. Qed.
Lemma f_ListMoveAssign E x y : follows E (ListMoveAssign x y).
Proof.
  start. wi H Ho; [|now destruct (v_lvar_throw Ho)]. apply v_lvar_ok in Ho. wi H Hw; [|now destruct (v_lvar_throw Hw)]. apply v_lvar_ok in Hw.
  destruct (PeanoNat.Nat.eqb_spec x y) as [<-|Hne]; injection H as <- <-.
  - destruct (inv_one Hi Ho) as (c & X & H1 & H2 & _). destruct (obj_list H2) as (p & ->).
    exists m, cs. split; [now rewrite (bind_eq _ (list_var_ok m H1)), (bind_eq _ (list_var_ok m H1))|now apply (inv_same Hi)].
  - destruct (inv_two Hi Hne Ho Hw) as (c & X & b & Y & H1 & H2 & H3 & H4 & H5 & _ & _ & H6). destruct (obj_list H2) as (p & ->). destruct (obj_list H4) as (q & ->).
    destruct (destroy_list (m := m) H2 ltac:(hs)) as (m1 & K1 & K2). exists m1, (upd y (Some (CList None)) (upd x (Some (CList q)) cs)). split.
    + rewrite (bind_eq _ (list_var_ok m H1)), (bind_eq _ (list_var_ok m H3)), (bind_mem _ cs K1). reflexivity.
    + apply (H6 _ _ Y _ _ []); [exact H4|exact ro_moved|hs].
Qed.
Lemma f_ListAdd E x q : follows E (ListAdd x q).
Proof.
  start. wi H Ho; [|now destruct (v_lvar_throw Ho)]. apply v_lvar_ok in Ho. destruct (inv_one Hi Ho) as (c & X & H1 & H2 & H3 & _ & H4 & _). wi H Hw.
  - wi H Hp; [|destruct a; discriminate Hp]. destruct a as [t|]; [|discriminate Hp]. injection Hp as <-. inv_obj H2. destruct (inv_word Hi Hw) as (o & Y & A & B & C).
    destruct (list_add H2 B H3 C) as (m1 & W & K1 & K2 & K3). injection H as <- <-. exists m1, cs. split; [|apply (H4 _ W); [constructor; exact K2|exact K3]].
    rewrite (bind_eq _ (list_var_ok m H1)), (bind_eq _ A). now apply on_mem_eq.
  - destruct (obj_list H2) as (p & ->). destruct (inv_word_throw Hi Hw) as [A B]. exists m, cs. split; [now rewrite (bind_eq _ (list_var_ok m H1)), (bind_throw_eq _ A)|now apply stays].
Qed.
Lemma f_DocNew E id : follows E (DocNew id).
Proof.
  start. injection H as <- <-. destruct (doc_made id m) as (m1 & p & W & H1 & H2 & H3). exists m1, (cs ++ [Some (CDoc p)]). split; [now rewrite (bind_mem _ cs H1)|].
  apply (@inv_add vs m cs n _ _ W m1 Hi); [constructor; exact H2|exact H3].
Qed.
Lemma f_DocCopy E d : follows E (DocCopy d).
Proof.
  start. wi H Ho.
  - destruct (inv_doc Hi Ho) as (p & Y & A & B & C). destruct (doc_copies B C) as (m1 & p' & W & H1 & H2 & H3). injection H as <- <-.
    exists m1, (cs ++ [Some (CDoc p')]). split; [now rewrite (bind_eq _ A), (bind_mem _ cs H1)|]. apply (@inv_add vs m cs n _ _ W m1 Hi); [constructor; exact H2|exact H3].
  - destruct (inv_doc_throw Hi Ho) as [A2 B2]. exists m, cs. split; [now rewrite (bind_throw_eq _ A2)|now apply stays].
Qed.
Lemma f_DocAssign E x d : follows E (DocAssign x d).
Proof.
  start. wi H Ho; [|now destruct (v_dvar_throw Ho)]. apply v_dvar_ok in Ho. change (self_d x d) with (is_dvar d x) in H. destruct (is_dvar d x) eqn:Hq.
  - injection H as <- <-. destruct (inv_one Hi Ho) as (c & X & H1 & H2 & _). inv_obj H2.
    exists m, cs. split; [now rewrite (bind_eq _ (doc_var_ok m H1))|now apply (inv_same Hi)].
  - wi H Hw.
    + destruct (doc_owned Hw) as (u & Hu & Hs). assert (Hne : x <> d_owner d). { intros ->. rewrite Ho in Hu. injection Hu as <-. destruct d as [y|y i]; cbn in *; [rewrite PeanoNat.Nat.eqb_refl in Hq; discriminate|]. destruct Hs as (f & Hs & _). discriminate. }
      destruct (inv_two Hi Hne Ho Hu) as (c & X & b & Y & H1 & H2 & H3 & H4 & H5 & _ & H6 & _). inv_obj H2.
      destruct (doc_arg_at (m := m) Hw Hu H3 H4 ltac:(hs)) as (p & Z & A & B & C).
      injection H as <- <-. destruct (@doc_set a a1 X a0 p Z m H2 B ltac:(hs)) as (m1 & W1 & K1 & K2 & K3).
      exists m1, cs. split; [|apply (H6 _ W1); [constructor; exact K2|exact K3]].
      rewrite (bind_eq _ (doc_var_ok m H1)), (bind_eq _ A). now apply on_mem_eq.
    + destruct (inv_doc_throw Hi Hw) as [A B]. destruct (inv_one Hi Ho) as (c & X & H1 & H2 & _). inv_obj H2.
      exists m, cs. split; [now rewrite (bind_eq _ (doc_var_ok m H1)), (bind_throw_eq _ A)|now apply stays].
Qed.
(** No two cells at one address. *)
Definition at_addr (a : nat) (c : cell) : nat := if Nat.eqb (fst c) a then 1%nat else 0%nat.
Lemma lives_addr a m : forall k, (lsum (at_addr a) (lives k m) <= 1)%nat /\ ((a < k)%nat -> lsum (at_addr a) (lives k m) = 0%nat).
Proof.
  induction m as [|[b|] m IH]; intros k; cbn [lives]; [cbn; lia| |].
  - destruct (IH (S k)) as [H1 H2]. cbn [lsum]. unfold at_addr at 1 3. cbn [fst]. destruct (PeanoNat.Nat.eqb_spec k a) as [->|Hk]; [rewrite (H2 ltac:(lia)); lia|]. split; [lia|]. intros Hl. now rewrite (H2 ltac:(lia)).
  - destruct (IH (S k)) as [H1 H2]. split; [exact H1|]. intros Hl. apply H2. lia.
Qed.
Lemma addr_ne a b b' m : sub [(a, b); (a, b')] m -> False.
Proof.
  intros Hs. specialize (Hs (at_addr a)). unfold ms in Hs. destruct (@lives_addr a m 0%nat) as [H _]. cbn [lsum] in Hs. unfold at_addr in Hs at 1 2. cbn [fst] in Hs. rewrite PeanoNat.Nat.eqb_refl in Hs. lia.
Qed.
Lemma f_DocAddText E x q l : follows E (DocAddText x q l).
Proof.
  start. wi H Ho; [|now destruct (v_dvar_throw Ho)]. apply v_dvar_ok in Ho. destruct (inv_one Hi Ho) as (c & X & H1 & H2 & H3 & _ & H4 & _). inv_obj H2. rewrite (bind_eq _ (doc_var_ok m H1)). wi H Hw.
  - destruct (inv_word Hi Hw) as (o & Y & A & B & C). rewrite (bind_eq _ A). wi H Hl.
    + injection H as <- <-. assert (HS : exists X' at_ p, rep_doc a a0 X' /\ sub X' m /\ (forall v' W' m', rep_obj v' (CDoc a0) W' -> (forall g, (ms m' g + lsum g X' = ms m g + lsum g W')%nat) -> inv (becomes x v' vs) m' cs (n + 0)) /\
        list_arg l (m, cs) = ((m, cs), Ok (at_, p)) /\ source a a0 X' a2 at_ p m).
      { destruct (list_owned Hl) as (u & Hu & Hs). destruct (PeanoNat.Nat.eq_dec x (l_owner l)) as [Hx|Hne].
        - exists X. pose proof Hi as (W & K & Hr & Hn & Hm). rewrite <- Hx, Ho in Hu. injection Hu as <-. pose proof H1 as H1'. rewrite Hx in H1'.
          pose proof Ho as Ho'. rewrite Hx in Ho'. destruct (list_arg_at (m := m) (X := X) Hr ltac:(hs) Hl Ho' H1' ltac:(constructor; exact H2) H3) as (at_ & p & Z & Q1 & Q2 & Q3 & Q4).
          exists at_, p. split; [exact H2|]. split; [exact H3|]. split; [exact H4|]. split; [exact Q1|]. left. destruct l as [y|y f]; [discriminate Hs|].
          destruct Q4 as (d & a3 & i & t & os & o1 & E1 & E2 & E3 & E4 & E5 & E6 & E7). injection E1 as <-. injection E2 as <-. now exists i, t, os, o1.
        - destruct (inv_two Hi Hne Ho Hu) as (c & X' & b & Y' & G1 & G2 & G3 & G4 & G5 & _ & G6 & _). rewrite H1 in G1. injection G1 as <-. inv_obj G2. exists X'.
          pose proof Hi as (W & K & Hr & Hn & Hm). destruct (list_arg_at (m := m) Hr ltac:(hs) Hl Hu G3 G4 ltac:(hs)) as (at_ & p & Z & Q1 & Q2 & Q3 & Q4).
          exists at_, p. split; [exact G2|]. split; [hs|]. split; [exact G6|]. split; [exact Q1|]. right. split; [|exists Z; split; [exact Q2|hs]].
          intros i ->. destruct l as [y|y f]; [discriminate Q4|]. destruct Q4 as (d & a3 & i' & t & os & o1 & E1 & E2 & E3 & _). subst u b. injection E3 as <- <-. inv_obj G4.
          destruct G2 as (t1 & X1 & _ & ->). destruct G4 as (t2 & X2 & _ & ->). apply (@addr_ne a0 (BDoc (d_id a) t1) (BDoc (d_id d) t2) m). hs. }
      clear X H2 H3 H4. destruct HS as (X & at_ & p & H2 & H3 & H4 & Q1 & Q2). destruct (add_text_ok H2 B H3 C Q2) as (m1 & W & K1 & K2 & K3).
      exists m1, cs. split; [rewrite (bind_eq _ Q1); now apply on_mem_eq|]. apply (H4 _ W); [constructor; exact K2|exact K3].
    + destruct (inv_list_throw Hi Hl) as [A2 B2]. exists m, cs. split; [now rewrite (bind_throw_eq _ A2)|now apply stays].
  - destruct (inv_word_throw Hi Hw) as [A B]. exists m, cs. split; [now rewrite (bind_throw_eq _ A)|now apply stays].
Qed.
Lemma f_DocAddUtf8 E x q s : follows E (DocAddUtf8 x q s).
Proof.
  start. wi H Ho; [|now destruct (v_dvar_throw Ho)]. apply v_dvar_ok in Ho. destruct (inv_one Hi Ho) as (c & X & H1 & H2 & H3 & _ & H4 & _). inv_obj H2. rewrite (bind_eq _ (doc_var_ok m H1)). wi H Hw.
  - destruct (inv_word Hi Hw) as (o & Y & A & B & C). rewrite (bind_eq _ A). pose proof (split_ok E s m) as Hc. wi H Hl; rewrite Hl in Hc.
    + destruct Hc as (m1 & p & Z & K1 & K2 & K3). injection H as <- <-.
      destruct (@add_text_ok a a0 X a1 o Y (InVar (length cs)) a2 p m1 H2 B ltac:(hs) ltac:(hs)) as (m2 & W & Q1 & Q2 & Q3); [right; split; [discriminate|]; exists Z; split; [exact K2|hs]|].
      destruct (list_frees K2 (m := m2) ltac:(hs)) as (m3 & P1 & P2). exists m3, cs. split; [|apply (H4 _ W); [constructor; exact Q2|hs]].
      apply on_mem_eq. cbn [snd]. unfold hd_addUtf8. now rewrite (bind_eq _ K1), (bind_eq _ Q1).
    + destruct Hc as (m1 & L & K1 & K2 & K3). exists m1, cs. split; [apply on_mem_eq; unfold hd_addUtf8; now rewrite (bind_throw_eq _ K1)|].
      replace (lost _ _) with (length L) by (rewrite K2; destruct e; reflexivity). exact (inv_more Hi K3).
  - destruct (inv_word_throw Hi Hw) as [A B]. exists m, cs. split; [now rewrite (bind_throw_eq _ A)|now apply stays].
Qed.
Lemma f_DocFields E x y : follows E (DocFields x y).
Proof.
  start. wi H Ho; [|now destruct (v_dvar_throw Ho)]. apply v_dvar_ok in Ho. wi H Hw; [|now destruct (v_lvar_throw Hw)]. apply v_lvar_ok in Hw. wi H Hp; [|destruct a0; discriminate Hp].
  destruct a0 as [t|]; [|discriminate Hp]. injection Hp as <-. injection H as <- <-. assert (Hne : y <> x) by (intros ->; congruence).
  destruct (inv_two Hi Hne Hw Ho) as (c & X & b & Y & H1 & H2 & H3 & H4 & H5 & _ & H6 & _). inv_obj H2. inv_obj H4.
  destruct (@fields_ok a a0 Y t p0 X m H4 H2 ltac:(hs)) as (m1 & W & K1 & K2 & K3). exists m1, cs. split; [|apply (H6 _ W); [constructor; exact K2|exact K3]].
  rewrite (bind_eq _ (doc_var_ok m H3)), (bind_eq _ (list_var_ok m H1)). now apply on_mem_eq.
Qed.
Lemma f_CorpusNew E : follows E CorpusNew.
Proof.
  start. injection H as <- <-. destruct (ms_new m (BDocs [])) as (m1 & a & H1 & H2). exists m1, (cs ++ [Some (CCorpus a)]). split; [now rewrite (bind_mem _ cs H1)|].
  apply (@inv_add vs m cs n _ _ [(a, BDocs [])] m1 Hi); [constructor; exists [], []; split; [constructor|reflexivity]|hs].
Qed.
Lemma f_CorpusAdd E x d : follows E (CorpusAdd x d).
Proof.
  start. wi H Ho; [|now destruct (v_cvar_throw Ho)]. apply v_cvar_ok in Ho. destruct (inv_one Hi Ho) as (c & X & H1 & H2 & H3 & _ & H4 & _). inv_obj H2. rewrite (bind_eq _ (corpus_var_ok m H1)). wi H Hw.
  - destruct (inv_doc Hi Hw) as (o & Y & A & B & C). rewrite (bind_eq _ A). destruct (corpus_add H2 B H3 C) as (m1 & W & K1 & K2 & K3). injection H as <- <-.
    exists m1, cs. split; [now apply on_mem_eq|]. apply (H4 _ W); [constructor; exact K2|exact K3].
  - destruct (inv_doc_throw Hi Hw) as [A B]. exists m, cs. split; [now rewrite (bind_throw_eq _ A)|now apply stays].
Qed.
Lemma f_ResNew E : follows E ResNew.
Proof.
  start. injection H as <- <-. destruct (ms_new m (BResults mr_new)) as (m1 & a & H1 & H2). exists m1, (cs ++ [Some (CRes (Some a))]). split; [now rewrite (bind_mem _ cs H1)|].
  apply (@inv_add vs m cs n _ _ [(a, BResults mr_new)] m1 Hi); [constructor|hs].
Qed.
Lemma get_res r a m : sub [(a, BResults r)] m -> hr_get (Some a) m = (m, Ok r).
Proof. intros H. unfold hr_get. now rewrite (bind_eq _ (ms_get H)). Qed.
Lemma f_ResCopy E x : follows E (ResCopy x).
Proof.
  start. wi H Ho; [|now destruct (v_rvar_throw Ho)]. apply v_rvar_ok in Ho. wi H Hp; [|destruct a; discriminate Hp]. destruct a as [t|]; [|discriminate Hp]. injection Hp as <-. injection H as <- <-.
  destruct (inv_one Hi Ho) as (c & X & H1 & H2 & H3 & _). inv_obj H2. destruct (ms_new m (BResults t)) as (m1 & a & K1 & K2). exists m1, (cs ++ [Some (CRes (Some a))]). split.
  - now rewrite (bind_eq _ (res_var_ok m H1)), (bind_mem _ cs (get_res H3)), (bind_mem _ cs K1).
  - apply (@inv_add vs m cs n _ _ [(a, BResults t)] m1 Hi); [constructor|hs].
Qed.
Lemma f_ResMove E x : follows E (ResMove x).
Proof.
  start. wi H Ho; [|now destruct (v_rvar_throw Ho)]. apply v_rvar_ok in Ho. destruct (moved Hi Ho ro_gone) as (c & X & H1 & H2 & H3). injection H as <- <-. destruct (obj_res H2) as (p & ->).
  exists m, (upd x (Some (CRes None)) cs ++ [Some (CRes p)]). split; [now rewrite (bind_eq _ (res_var_ok m H1))|exact H3].
Qed.
Lemma f_ResAssign E x y : follows E (ResAssign x y).
Proof.
  start. wi H Ho; [|now destruct (v_rvar_throw Ho)]. apply v_rvar_ok in Ho. wi H Hw; [|now destruct (v_rvar_throw Hw)]. apply v_rvar_ok in Hw.
  destruct (PeanoNat.Nat.eqb_spec x y) as [<-|Hne].
  - injection H as <- <-. destruct (inv_one Hi Ho) as (c & X & H1 & H2 & _). destruct (obj_res H2) as (p & ->).
    exists m, cs. split; [now rewrite (bind_eq _ (res_var_ok m H1)), (bind_eq _ (res_var_ok m H1))|now apply (inv_same Hi)].
  - wi H Hp; [|destruct a0; discriminate Hp]. destruct a0 as [u|]; [|discriminate Hp]. injection Hp as <-. wi H Hp; [|destruct a; discriminate Hp]. destruct a as [t|]; [|discriminate Hp]. injection Hp as <-.
    injection H as <- <-. destruct (inv_two Hi Hne Ho Hw) as (c & X & b & Y & H1 & H2 & H3 & H4 & H5 & _ & H6 & _). inv_obj H2. inv_obj H4.
    destruct (@ms_put m a0 (BResults t) (BResults u) ltac:(hs)) as (m1 & K1 & K2). exists m1, cs. split; [|apply (H6 _ [(a0, BResults u)]); [constructor|hs]].
    rewrite (bind_eq _ (res_var_ok m H1)), (bind_eq _ (res_var_ok m H3)). apply on_mem_eq. rewrite (bind_eq _ (@get_res u a1 m ltac:(hs))), (bind_eq _ (@get_res t a0 m ltac:(hs))). exact K1.
Qed.
Lemma destroy_res o p X m : rep_obj (VRes o) (CRes p) X -> sub X m -> exists m', del p m = (m', Ok tt) /\ forall g, (ms m' g + lsum g X = ms m g)%nat.
Proof. intros Ho Hs. inversion Ho; subst; [destruct (ms_del Hs) as (m1 & H1 & H2); exists m1; split; [exact H1|hs]|]. exists m. split; [reflexivity|hs]. Qed.
Lemma f_ResMoveAssign E x y : follows E (ResMoveAssign x y).
Proof.
  start. wi H Ho; [|now destruct (v_rvar_throw Ho)]. apply v_rvar_ok in Ho. wi H Hw; [|now destruct (v_rvar_throw Hw)]. apply v_rvar_ok in Hw.
  destruct (PeanoNat.Nat.eqb_spec x y) as [<-|Hne]; injection H as <- <-.
  - destruct (inv_one Hi Ho) as (c & X & H1 & H2 & _). destruct (obj_res H2) as (p & ->).
    exists m, cs. split; [now rewrite (bind_eq _ (res_var_ok m H1)), (bind_eq _ (res_var_ok m H1))|now apply (inv_same Hi)].
  - destruct (inv_two Hi Hne Ho Hw) as (c & X & b & Y & H1 & H2 & H3 & H4 & H5 & _ & _ & H6). destruct (obj_res H2) as (p & ->). destruct (obj_res H4) as (q & ->).
    destruct (destroy_res (m := m) H2 ltac:(hs)) as (m1 & K1 & K2). exists m1, (upd y (Some (CRes None)) (upd x (Some (CRes q)) cs)). split.
    + rewrite (bind_eq _ (res_var_ok m H1)), (bind_eq _ (res_var_ok m H3)), (bind_mem _ cs K1). reflexivity.
    + apply (H6 _ _ Y _ _ []); [exact H4|exact ro_gone|hs].
Qed.
(** Methods of the results. *)
Lemma method_ok A (f : M mresults A) c vs m cs n x vs' r : inv vs m cs n -> v_method vs x f = (vs', r) -> fine r -> (forall t e, snd (f t) = Throw e -> e <> ERuntime) ->
  exists p m', nth_error cs x = Some (Some (CRes p)) /\ hr_do p f m = (m', r) /\ inv vs' m' cs (n + lost c r).
Proof.
  intros Hi H Hf Hn. unfold v_method in H. wi H Ho; [|now destruct (v_rvar_throw Ho)]. apply v_rvar_ok in Ho. wi H Hp; [|destruct a; discriminate Hp]. destruct a as [t|]; [|discriminate Hp]. injection Hp as <-.
  destruct (inv_one Hi Ho) as (k & X & H1 & H2 & H3 & _ & H4 & _). inv_obj H2. specialize (Hn t). injection H as <- Hr. destruct (f t) as [t' o] eqn:Et. cbn [fst snd] in *.
  destruct (@ms_put m a0 (BResults t) (BResults t') H3) as (m1 & K1 & K2). exists (Some a0), m1. split; [exact H1|].
  assert (HI : inv (becomes x (VRes (Some t')) vs) m1 cs (n + 0)) by (apply (H4 _ [(a0, BResults t')]); [constructor|hs]). split.
  - unfold hr_do. rewrite (bind_eq _ (get_res H3)), Et, (bind_eq _ K1). subst r. unfold mbind, lift. destruct o; try reflexivity.
  - replace (lost c r) with 0%nat; [exact HI|]. subst r. destruct o as [|e| | |]; try reflexivity. cbn. specialize (Hn e eq_refl). destruct e; congruence.
Qed.
Lemma at_not_runtime A (l : list A) i e : at_or_throw l i = Throw e -> e <> ERuntime.
Proof. rewrite at_cases. destruct (nth_error _ _); congruence. Qed.
Lemma copyResult_safe o i t e : snd (mr_copyResult o i t) = Throw e -> e <> ERuntime.
Proof. unfold mr_copyResult. destruct (at_or_throw _ i) eqn:H; cbn; try discriminate. intros [= <-]. exact (at_not_runtime H). Qed.
Lemma get_safe i t e : snd (mr_get i t) = Throw e -> e <> ERuntime.
Proof.
  unfold mr_get. destruct (_ <=? i); [cbn; congruence|]. unfold mbind, mr_sortIfRequired, reads. destruct (mr_sorted t); [|destruct (_ && _)]; cbn [snd]; try discriminate; match goal with |- context [nth_error ?l ?k] => destruct (nth_error l k) end; discriminate.
Qed.
Lemma f_ResAdd E x id rel : follows E (ResAdd x id rel).
Proof.
  start. destruct (method_ok (ResAdd x id rel) Hi H Hf) as (p & m1 & H1 & H2 & H3); [intros t e He; discriminate He|]. exists m1, cs. split; [rewrite (bind_eq _ (res_var_ok m H1)); now apply on_mem_eq|exact H3].
Qed.
Lemma f_ResGet E x i : follows E (ResGet x i).
Proof.
  start. destruct (method_ok (ResGet x i) Hi H Hf) as (p & m1 & H1 & H2 & H3); [exact (@get_safe i)|]. exists m1, cs. split; [rewrite (bind_eq _ (res_var_ok m H1)); now apply on_mem_eq|exact H3].
Qed.
Lemma f_ResAddAll E x y : follows E (ResAddAll x y).
Proof.
  start. destruct (PeanoNat.Nat.eqb_spec x y) as [<-|Hne]; [injection H as <- <-; destruct Hf|].
  wi H Ho; [|now destruct (v_rvar_throw Ho)]. apply v_rvar_ok in Ho. wi H Hp; [|destruct a; discriminate Hp]. destruct a as [t|]; [|discriminate Hp]. injection Hp as <-.
  destruct (inv_one Hi Ho) as (k & X & K1 & K2 & K3 & _). inv_obj K2.
  destruct (method_ok (ResAddAll x y) Hi H Hf) as (p & m1 & H1 & H2 & H3); [intros u e He; discriminate He|]. exists m1, cs. split; [|exact H3].
  rewrite (bind_eq _ (res_var_ok m H1)), (bind_eq _ (res_var_ok m K1)). apply on_mem_eq. now rewrite (bind_eq _ (get_res K3)).
Qed.
Lemma f_ResCopyResult E x y i : follows E (ResCopyResult x y i).
Proof.
  start. wi H Ho; [|now destruct (v_rvar_throw Ho)]. apply v_rvar_ok in Ho. wi H Hp; [|destruct a; discriminate Hp]. destruct a as [t|]; [|discriminate Hp]. injection Hp as <-.
  destruct (inv_one Hi Ho) as (k & X & K1 & K2 & K3 & _). inv_obj K2.
  destruct (method_ok (ResCopyResult x y i) Hi H Hf) as (p & m1 & H1 & H2 & H3); [exact (@copyResult_safe t i)|]. exists m1, cs. split; [|exact H3].
  rewrite (bind_eq _ (res_var_ok m H1)), (bind_eq _ (res_var_ok m K1)). apply on_mem_eq. now rewrite (bind_eq _ (get_res K3)).
Qed.
Lemma f_OtherNew E : follows E OtherNew.
Proof.
  start. injection H as <- <-. destruct (ms_new m BOther) as (m1 & a & H1 & H2). exists m1, (cs ++ [Some (COther a)]). split; [now rewrite (bind_mem _ cs H1)|].
  apply (@inv_add vs m cs n _ _ [(a, BOther)] m1 Hi); [constructor|hs].
Qed.
Lemma obj_frees v c X m : rep_obj v c X -> sub X m -> exists m', destroy c m = (m', Ok tt) /\ forall g, (ms m' g + lsum g X = ms m g)%nat.
Proof.
  intros Ho Hs. destruct Ho as [v o W Ho|l p W Ho| |d a W Ho|k a W Ho|r a| |a]; cbn [destroy].
  - exact (del_text Ho Hs).
  - exact (list_frees Ho Hs).
  - exists m. split; [reflexivity|hs].
  - exact (doc_frees Ho Hs).
  - exact (corpus_frees Ho Hs).
  - destruct (ms_del Hs) as (m1 & H1 & H2). exists m1. split; [exact H1|hs].
  - exists m. split; [reflexivity|hs].
  - destruct (ms_del Hs) as (m1 & H1 & H2). exists m1. split; [exact H1|hs].
Qed.
Lemma f_Destroy E x : follows E (Destroy x).
Proof.
  start. wi H Ho.
  - injection H as <- <-. destruct (inv_one Hi Ho) as (c & X & H1 & H2 & H3 & _ & _ & H4). destruct (obj_frees H2 H3) as (m1 & K1 & K2). exists m1, (upd x None cs).
    split; [now rewrite (bind_eq _ (var_ok m H1)), (bind_mem _ cs K1)|now apply H4].
  - destruct (v_var_cases vs x) as [(v & Hv)|Hv]; congruence.
Qed.
Lemma exec_follows E c : ~ implicit_copy c -> follows E c.
Proof.
  intros Hc. destruct c.
  - apply f_WordNew.
  - apply f_WordText.
  - apply f_WordLetters.
  - apply f_WordCopy.
  - apply f_WordMove.
  - apply f_WordAssign.
  - apply f_WordMoveAssign.
  - apply f_WordAssignText.
  - apply f_WordJoin.
  - apply f_WordUtf8.
  - apply f_ListNew.
  - apply f_ListSplit.
  - apply f_ListCopy.
  - apply f_ListMove.
  - apply f_ListAssign.
  - apply f_ListMoveAssign.
  - apply f_ListAdd.
  - apply f_DocNew.
  - apply f_DocCopy.
  - apply f_DocAssign.
  - apply f_DocAddText.
  - apply f_DocAddUtf8.
  - apply f_DocFields.
  - apply f_CorpusNew.
  - apply f_CorpusAdd.
  - apply f_ResNew.
  - apply f_ResCopy.
  - apply f_ResMove.
  - apply f_ResAssign.
  - apply f_ResMoveAssign.
  - apply f_ResAdd.
  - apply f_ResAddAll.
  - apply f_ResCopyResult.
  - apply f_ResGet.
  - apply f_OtherNew.
  - destruct Hc. now exists x.
  - apply f_Destroy.
Qed.
