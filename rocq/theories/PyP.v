(** The Python module: arguments, and what each statement does. *)
From Verif Require Import Base TrieM WordStoreM ErrorValuesM LevIndexM WordM MapM DoubleM ContM MatcherM DataFileM PyM
  Spec_Hist Spec_EV Spec_Word Spec_Cont Spec_Match Spec_File Spec_Py.
From Coq Require Import ZifyBool ZifyN ZifyNat.
Local Open Scope N_scope.
Local Open Scope m_scope.

(** ** The monad *)
Lemma pbind_inl A B (m : P A) (k : A -> P B) s s1 a : m s = (s1, Ok (inl a)) -> pbind m k s = k a s1.
Proof. intros H. unfold pbind, mbind. now rewrite H. Qed.
Lemma pbind_inr A B (m : P A) (k : A -> P B) s s1 x : m s = (s1, Ok (inr x)) -> pbind m k s = (s1, Ok (inr x)).
Proof. intros H. unfold pbind, mbind. now rewrite H. Qed.
Lemma pbind_ub A B (m : P A) (k : A -> P B) s s1 : m s = (s1, UB) -> pbind m k s = (s1, UB).
Proof. intros H. unfold pbind, mbind. now rewrite H. Qed.
Lemma pbind_inv A B (m : P A) (k : A -> P B) s s' r : pbind m k s = (s', Ok r) ->
  (exists x, m s = (s', Ok (inr x)) /\ r = inr x) \/ exists s1 a, m s = (s1, Ok (inl a)) /\ k a s1 = (s', Ok r).
Proof.
  unfold pbind, mbind. destruct (m s) as [s1 [[a|x]|x| | |]] eqn:H; try discriminate; [|intros [= <- <-]; left; now exists x]. intros Hk. right. now exists s1, a.
Qed.

(** ** Bound variables *)
Lemma bound_nth s k : bound s k <-> nth k (py_bound s) false = true.
Proof.
  unfold bound. revert k. induction (py_bound s) as [|b l IH]; intros [|k]; cbn; split; try discriminate; try congruence; apply IH.
Qed.
Lemma bound_dec s k : bound s k \/ ~ bound s k.
Proof. rewrite bound_nth. destruct (nth k (py_bound s) false); [now left|right; discriminate]. Qed.
Lemma get_some s k x : py_get s k = Some x <-> nth_error (py_objs s) k = Some (Some x).
Proof. unfold py_get. destruct (nth_error (py_objs s) k) as [[y|]|]; split; congruence. Qed.
Lemma look_ok s k x : bound s k -> nth_error (py_objs s) k = Some (Some x) -> look k s = (s, Ok (inl x)).
Proof. intros Hb Hx. unfold look. apply bound_nth in Hb. rewrite Hb. apply get_some in Hx. now rewrite Hx. Qed.
Lemma look_unbound s k : ~ bound s k -> look k s = (s, Ok (inr PyNameError)).
Proof. intros Hb. unfold look. destruct (nth k (py_bound s) false) eqn:H; [|reflexivity]. apply bound_nth in H. contradiction. Qed.
Lemma look_inv s k s' o : look k s = (s', o) -> s' = s /\
  (o = Ok (inr PyNameError) /\ ~ bound s k \/ o = UB /\ bound s k /\ py_get s k = None \/ exists x, o = Ok (inl x) /\ bound s k /\ nth_error (py_objs s) k = Some (Some x)).
Proof.
  intros H. destruct (bound_dec s k) as [Hb|Hb].
  - unfold look in H. pose proof Hb as Hb'. apply bound_nth in Hb. rewrite Hb in H. destruct (py_get s k) as [x|] eqn:Hg; injection H as <- <-; split; [reflexivity|right; right|reflexivity|right; left; auto].
    exists x. apply get_some in Hg. auto.
  - rewrite (look_unbound Hb) in H. injection H as <- <-. split; [reflexivity|left; auto].
Qed.

(** ** Lists *)
Lemma held_ok s n o : holds s n o -> held n s = (s, Ok (inl o)).
Proof. intros H. unfold held. apply get_some in H. now rewrite H. Qed.
Lemma held_inv s n s' r : held n s = (s', r) -> s' = s /\ (r = UB /\ (forall o, ~ holds s n o) \/ exists o, r = Ok (inl o) /\ holds s n o).
Proof.
  unfold held. destruct (py_get s n) as [[o|p w]|] eqn:Hg; intros [= <- <-]; (split; [reflexivity|]).
  - right. exists o. apply get_some in Hg. now split.
  - left. split; [reflexivity|]. intros o Ho. apply get_some in Ho. congruence.
  - left. split; [reflexivity|]. intros o Ho. apply get_some in Ho. congruence.
Qed.
Lemma find_text d f ws : doc_getText d f = Ok ws <-> mp_find wltb f (d_texts d) = Some ws.
Proof. unfold doc_getText. destruct (mp_find wltb f (d_texts d)); split; congruence. Qed.
Lemma list_ok s l ws : contents s l ws -> list_at l s = (s, Ok (inl ws)).
Proof.
  intros [n ws' Hn|n d f ws' Hn Ht]; cbn [list_at]; rewrite (pbind_inl _ (held_ok Hn)); [reflexivity|]. apply find_text in Ht. now rewrite Ht.
Qed.
Lemma list_at_inv s l s' r : list_at l s = (s', r) -> s' = s /\ (r = UB /\ (forall ws, ~ contents s l ws) \/ exists ws, r = Ok (inl ws) /\ contents s l ws).
Proof.
  destruct l as [n|n f]; cbn [list_at]; unfold pbind at 1, mbind; destruct (held n s) as [s1 r1] eqn:Hh; apply held_inv in Hh as [-> [[-> Hno]|(o & -> & Ho)]].
  - intros [= <- <-]. split; [reflexivity|left; split; [reflexivity|]]. intros ws Hc. inversion Hc; subst. exact (Hno _ H0).
  - destruct o; intros [= <- <-]; (split; [reflexivity|]); try (left; split; [reflexivity|]; intros ws Hc; inversion Hc; subst; unfold holds in *; congruence).
    right. exists l. split; [reflexivity|]. now constructor.
  - intros [= <- <-]. split; [reflexivity|left; split; [reflexivity|]]. intros ws Hc. inversion Hc; subst. exact (Hno _ H1).
  - destruct o; try (intros [= <- <-]; (split; [reflexivity|]); left; split; [reflexivity|]; intros ws Hc; inversion Hc; subst; unfold holds in *; congruence).
    destruct (mp_find wltb f (d_texts d)) as [ws|] eqn:Hf; intros [= <- <-]; (split; [reflexivity|]).
    + right. exists ws. split; [reflexivity|]. apply find_text in Hf. econstructor; eassumption.
    + left. split; [reflexivity|]. intros ws Hc. inversion Hc; subst. unfold holds in *. rewrite Ho in H1. injection H1 as <-. apply find_text in H3. congruence.
Qed.
Lemma contents_eq s l a b : contents s l a -> contents s l b -> a = b.
Proof. intros Ha Hb. apply list_ok in Ha, Hb. congruence. Qed.

(** ** Arguments *)
Lemma word_ok s k w : word_var s k w -> word_arg k s = (s, Ok (inl w)).
Proof.
  intros [Hb Hh|l i v n ws Hb Hr Hc Hn Hv]; unfold word_arg.
  - now rewrite (pbind_inl _ (look_ok Hb Hh)).
  - rewrite (pbind_inl _ (look_ok Hb Hr)). rewrite (pbind_inl _ (list_ok Hc)). unfold mbind, reads. rewrite Hv, Nat.eqb_refl, Hn. reflexivity.
Qed.
Lemma list_arg_ok s k l ws : list_var s k l ws -> list_arg k s = (s, Ok (inl l)) /\ contents s l ws.
Proof.
  intros [ws' Hb Hh|n f ws' w Hb Hr Hc]; (split; [|try assumption]); try (unfold list_arg; now rewrite (pbind_inl _ (look_ok Hb ltac:(eassumption)))). now constructor.
Qed.
Lemma doc_ok_ s k d : doc_var s k d -> doc_arg k s = (s, Ok (inl d)).
Proof. intros [Hb H]. unfold doc_arg. now rewrite (pbind_inl _ (look_ok Hb H)). Qed.
Lemma corpus_ok s k d : corpus_var s k d -> corpus_arg k s = (s, Ok (inl d)).
Proof. intros [Hb H]. unfold corpus_arg. now rewrite (pbind_inl _ (look_ok Hb H)). Qed.
Lemma results_ok s k d : results_var s k d -> results_arg k s = (s, Ok (inl d)).
Proof. intros [Hb H]. unfold results_arg. now rewrite (pbind_inl _ (look_ok Hb H)). Qed.
Lemma matcher_ok s k d : matcher_var s k d -> matcher_arg k s = (s, Ok (inl d)).
Proof. intros [Hb H]. unfold matcher_arg. now rewrite (pbind_inl _ (look_ok Hb H)). Qed.
Lemma errors_ok s k n e put : errors_var s k n e put -> errors_arg k s = (s, Ok (inl (n, e, put))).
Proof.
  intros [e' Hb H|n' m w Hb Hr Hh]; unfold errors_arg.
  - now rewrite (pbind_inl _ (look_ok Hb H)).
  - rewrite (pbind_inl _ (look_ok Hb Hr)). now rewrite (pbind_inl _ (held_ok Hh)).
Qed.
Lemma weights_ok s k n e put : weights_var s k n e put -> weights_arg k s = (s, Ok (inl (n, e, put))).
Proof.
  intros [e' Hb H|n' m w Hb Hr Hh]; unfold weights_arg.
  - now rewrite (pbind_inl _ (look_ok Hb H)).
  - rewrite (pbind_inl _ (look_ok Hb Hr)). now rewrite (pbind_inl _ (held_ok Hh)).
Qed.

(** What comes of an argument: fine, an exception, or undefined; the state is left alone. *)
Definition reading {A} (s : py_state) (m : P A) (good : A -> Prop) (bad : py_exn -> Prop) (und : Prop) : Prop :=
  exists o, m s = (s, o) /\ ((exists a, o = Ok (inl a) /\ good a) \/ (exists x, o = Ok (inr x) /\ bad x) \/ (o = UB /\ und)).
Definition wrong (s : py_state) (k : nat) (c : cls) (x : py_exn) : Prop := ~ has_class s k c /\ (x = PyTypeError \/ x = PyNameError).
Definition gone (s : py_state) (k : nat) : Prop := bound s k /\ py_get s k = None.

Lemma look_reading s k c : reading s (look k) (fun x => bound s k /\ nth_error (py_objs s) k = Some (Some x)) (wrong s k c) (gone s k).
Proof.
  destruct (look k s) as [s' o] eqn:H. apply look_inv in H as [-> H]. exists o. destruct H as [[-> Hb]|[(-> & Hb & Hg)|(x & -> & Hb & Hx)]].
  - split; [apply look_unbound; exact Hb|]. right. left. exists PyNameError. split; [reflexivity|]. split; [|now right]. intros [Hb' _]. contradiction.
  - split; [|right; right; split; [reflexivity|now split]]. unfold look. apply bound_nth in Hb. now rewrite Hb, Hg.
  - split; [now apply look_ok|]. left. exists x. auto.
Qed.
Lemma reading_bind A B s (m : P A) (k : A -> P B) g b u g' b' u' : reading s m g b u -> (forall a, g a -> reading s (k a) g' b' u') ->
  (forall x, b x -> b' x) -> (u -> u') -> reading s (pbind m k) g' b' u'.
Proof.
  intros (o & Hm & H) Hk Hb Hu. destruct H as [(a & -> & Ha)|[(x & -> & Hx)|[-> Hx]]].
  - destruct (Hk a Ha) as (o & Ho & H). exists o. split; [rewrite (pbind_inl _ Hm); exact Ho|exact H].
  - exists (Ok (inr x)). split; [exact (pbind_inr _ Hm)|]. right. left. exists x. auto.
  - exists UB. split; [exact (pbind_ub _ Hm)|]. right. right. auto.
Qed.
Lemma reading_ret A s (a : A) (g : A -> Prop) b u : g a -> reading s (pret a) g b u.
Proof. intros H. exists (Ok (inl a)). split; [reflexivity|]. left. now exists a. Qed.
Lemma reading_raise A s x (g : A -> Prop) (b : py_exn -> Prop) u : b x -> reading s (raise x) g b u.
Proof. intros H. exists (Ok (inr x)). split; [reflexivity|]. right. left. now exists x. Qed.
Lemma reading_pub A s (g : A -> Prop) b (u : Prop) : u -> reading s pub g b u.
Proof. intros H. exists UB. split; [reflexivity|]. right. right. now split. Qed.
Lemma held_reading s n : reading s (held n) (holds s n) (fun _ => False) (forall o, ~ holds s n o).
Proof.
  destruct (held n s) as [s' o] eqn:H. pose proof H as H0. apply held_inv in H as [-> H]. exists o. split; [exact H0|]. destruct H as [[-> Hx]|(x & -> & Hx)]; [right; right; auto|]. left. exists x. auto.
Qed.
Lemma list_reading s l : reading s (list_at l) (contents s l) (fun _ => False) (forall ws, ~ contents s l ws).
Proof.
  destruct (list_at l s) as [s' o] eqn:H. pose proof H as H0. apply list_at_inv in H as [-> H]. exists o. split; [exact H0|]. destruct H as [[-> Hx]|(x & -> & Hx)]; [right; right; auto|]. left. exists x. auto.
Qed.
Ltac nope := let H1 := fresh in let H2 := fresh in split; [|now left]; intros [_ (? & H1 & H2)];
  match goal with H : nth_error _ _ = Some (Some ?y) |- _ => lazymatch H with H1 => fail | _ => rewrite H in H1 end end; injection H1 as <-; discriminate H2.
Lemma word_reading s k : reading s (word_arg k) (word_var s k) (wrong s k CWord) (gone s k \/ stale s k).
Proof.
  apply (reading_bind (@look_reading s k CWord)); [|auto|auto]. intros x [Hb Hx]. destruct x as [o|p w].
  - destruct o; try (apply reading_raise; nope). apply reading_ret. now apply own_word.
  - destruct p; try (apply reading_raise; nope).
    assert (Hcl : has_class s k CWord) by (split; [exact Hb|]; eexists; split; [exact Hx|reflexivity]).
    apply (reading_bind (@list_reading s l)); [|intros ? []|].
    + intros ws Hws. unfold reading, mbind, reads. destruct (Nat.eqb_spec (moves_of l s) moves) as [Hm|Hm].
      * destruct (nth_error ws (N.to_nat i)) as [v|] eqn:Hn.
        -- apply reading_ret. exact (list_word Hb Hx Hws Hn Hm).
        -- apply reading_pub. right. split; [exact Hcl|]. intros v [Hb' Hh|l' i' v' n' ws' Hb' Hr' Hc' Hn' Hv']; [unfold holds in Hh; congruence|].
           unfold refers in Hr'. rewrite Hx in Hr'. injection Hr' as <- <- <- <-. rewrite (contents_eq Hc' Hws) in Hn'. congruence.
      * apply reading_pub. right. split; [exact Hcl|]. intros v [Hb' Hh|l' i' v' n' ws' Hb' Hr' Hc' Hn' Hv']; [unfold holds in Hh; congruence|].
        unfold refers in Hr'. rewrite Hx in Hr'. injection Hr' as <- <- <- <-. congruence.
    + intros Hno. right. split; [exact Hcl|]. intros v [Hb' Hh|l' i' v' n' ws' Hb' Hr' Hc' Hn' Hv']; [unfold holds in Hh; congruence|].
      unfold refers in Hr'. rewrite Hx in Hr'. injection Hr' as <- <- <- <-. exact (Hno _ Hc').
Qed.
Lemma list_arg_reading s k : reading s (list_arg k) (fun l => (l = LVal k /\ bound s k /\ exists ws, holds s k (OList ws)) \/ exists n f w, l = LText n f /\ bound s k /\ refers s k (AtText n f) w)
  (wrong s k CList) (gone s k).
Proof.
  apply (reading_bind (@look_reading s k CList)); [|auto|auto]. intros x [Hb Hx]. destruct x as [o|p w].
  - destruct o; try (apply reading_raise; nope). apply reading_ret. left. eauto.
  - destruct p; try (apply reading_raise; nope). apply reading_ret. right. eauto 7.
Qed.
Lemma doc_reading s k : reading s (doc_arg k) (doc_var s k) (wrong s k CDoc) (gone s k).
Proof. apply (reading_bind (@look_reading s k CDoc)); [|auto|auto]. intros x [Hb Hx]. destruct x as [[]|[]]; try (apply reading_raise; nope). apply reading_ret. now split. Qed.
Lemma corpus_reading s k : reading s (corpus_arg k) (corpus_var s k) (wrong s k CCorpus) (gone s k).
Proof. apply (reading_bind (@look_reading s k CCorpus)); [|auto|auto]. intros x [Hb Hx]. destruct x as [[]|[]]; try (apply reading_raise; nope). apply reading_ret. now split. Qed.
Lemma results_reading s k : reading s (results_arg k) (results_var s k) (wrong s k CResults) (gone s k).
Proof. apply (reading_bind (@look_reading s k CResults)); [|auto|auto]. intros x [Hb Hx]. destruct x as [[]|[]]; try (apply reading_raise; nope). apply reading_ret. now split. Qed.
Lemma matcher_reading s k : reading s (matcher_arg k) (matcher_var s k) (wrong s k CMatcher) (gone s k).
Proof. apply (reading_bind (@look_reading s k CMatcher)); [|auto|auto]. intros x [Hb Hx]. destruct x as [[]|[]]; try (apply reading_raise; nope). apply reading_ret. now split. Qed.
Definition lost (s : py_state) (k : nat) : Prop := gone s k \/ exists n w, (refers s k (AtErrors n) w \/ refers s k (AtWeights n) w) /\ forall m, ~ holds s n (OMatcher m).
Lemma errors_reading s k : reading s (errors_arg k) (fun x => errors_var s k (fst (fst x)) (snd (fst x)) (snd x)) (wrong s k CErrors) (lost s k).
Proof.
  apply (reading_bind (@look_reading s k CErrors)); [|auto|now left]. intros x [Hb Hx]. destruct x as [[]|[] ward]; try (apply reading_raise; nope).
  - apply reading_ret. now constructor.
  - apply (reading_bind (@held_reading s n)); [|intros ? []|intros Hn; right; exists n, ward; auto].
    intros [] Ho; try (apply reading_pub; right; exists n, ward; split; [now left|]; intros m Hm; unfold holds in *; congruence).
    apply reading_ret. cbn [fst snd]. econstructor; eassumption.
Qed.
Lemma weights_reading s k : reading s (weights_arg k) (fun x => weights_var s k (fst (fst x)) (snd (fst x)) (snd x)) (wrong s k CWeights) (lost s k).
Proof.
  apply (reading_bind (@look_reading s k CWeights)); [|auto|now left]. intros x [Hb Hx]. destruct x as [[]|[] ward]; try (apply reading_raise; nope).
  - apply reading_ret. now constructor.
  - apply (reading_bind (@held_reading s n)); [|intros ? []|intros Hn; right; exists n, ward; auto].
    intros [] Ho; try (apply reading_pub; right; exists n, ward; split; [now left + now right|]; intros m' Hm; unfold holds in *; congruence).
    apply reading_ret. cbn [fst snd]. econstructor; eassumption.
Qed.
