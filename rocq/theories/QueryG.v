(** The documents found depend on which words each document has, not on how often or in which order they were given. *)
From Verif Require Import Base TrieM TrieA TrieP TrieP2 TrieD WordStoreM Spec_Hist TrieH WordStoreP ErrorValuesM LevIndexM
  Spec_Edit Spec_EV Spec_Lev EVP EditP HitsP LevP WordM MapM DoubleM FloatP ContM MatcherM MapP Spec_Cont ContP Spec_Match MatchP MatchQ MatchR MatchS MatchT MatchU MatchV MatchW MatchZ Spec_Query QueryP.
From Coq Require Import ZifyBool ZifyN ZifyNat.
Local Open Scope N_scope.
Local Open Scope m_scope.

Lemma longest_incl o1 o2 : (forall w, In w (map fst o1) -> In w (map fst o2)) -> (longest o1 <= longest o2)%nat.
Proof.
  intros H. assert (G : forall w, In w (map fst o2) -> (length w <= longest o2)%nat).
  { clear. unfold longest. induction o2 as [|a o2 IH]; intros w Hw; [destruct Hw|]. cbn in *. destruct Hw as [<-|Hw]; [apply Nat.le_max_l|]. specialize (IH w Hw). cbn [fold_right]. eapply Nat.le_trans; [exact IH|apply Nat.le_max_r]. }
  revert H. induction o1 as [|a o1 IH]; intros H; [cbn; lia|]. cbn. pose proof (G _ (H (fst a) (or_introl eq_refl))).
  apply Nat.max_lub; [assumption|]. exact (IH (fun w Hw => H w (or_intror Hw))).
Qed.
Lemma query_incl c1 c2 q : (forall d f w, In (d, f, w) (occ c2) -> In (d, f, w) (occ c1)) -> prices_after c2 = prices_after c1 -> sound_query c1 q -> sound_query c2 q.
Proof.
  intros Ho Hp [H1 H2]. constructor; [exact H1|]. rewrite Hp. apply Forall_impl with (2 := H2). intros w (B & B0 & B1 & B2 & B3 & B4 & B5 & B6 & B7). exists B. repeat (split; [assumption|]).
  assert (Hl : (longest (map (fun x => (snd x, 0%N)) (occ c2)) <= longest (map (fun x => (snd x, 0%N)) (occ c1)))%nat).
  { apply longest_incl. intros v. rewrite !map_map. cbn. rewrite !in_map_iff. intros ([[d f] w'] & <- & Hi). exists (d, f, w'). split; [reflexivity|now apply Ho]. }
  nia.
Qed.
Lemma same_words E c1 c2 m1 m2 q p m1' m2' r1 r2 : sound_setup E c1 -> sound_setup E c2 -> sound_query c1 q -> history E c1 m1 -> history E c2 m2 ->
  (forall d f w, In (d, f, w) (occ c1) <-> In (d, f, w) (occ c2)) -> prices_after c2 = prices_after c1 ->
  clean (MMatch q p) -> mt_match E q p m1 = (m1', Ok r1) -> mt_match E q p m2 = (m2', Ok r2) ->
  exists v1 v2, shows r1 v1 /\ shows r2 v2 /\ forall d, (exists x, In (x, d) v1) <-> (exists x, In (x, d) v2).
Proof.
  intros S1 S2 SQ H1 H2 Ho Hp Hc R1 R2. assert (SQ2 : sound_query c2 q) by (apply (query_incl (fun d f w => proj2 (Ho d f w)) Hp SQ)).
  destruct (match_exact S1 SQ H1 Hc R1) as (o1 & v1 & _ & V1 & _ & _ & D1 & _). destruct (match_exact S2 SQ2 H2 Hc R2) as (o2 & v2 & _ & V2 & _ & _ & D2 & _).
  exists v1, v2. split; [exact V1|]. split; [exact V2|]. intros d. rewrite D1, D2, Hp.
  assert (F : filter_holds (occ c1) (sp_filter p) d <-> filter_holds (occ c2) (sp_filter p) d) by (split; apply holds_more; intros [[a b] c]; apply Ho).
  rewrite F. assert (G : (exists f w qw err, In (d, f, w) (occ c1) /\ searching p f /\ In qw q /\ reached (prices_after c1) p qw w err) <->
                         (exists f w qw err, In (d, f, w) (occ c2) /\ searching p f /\ In qw q /\ reached (prices_after c1) p qw w err)).
  { split; intros (f & w & qw & err & A & B); exists f, w, qw, err; (split; [now apply Ho|exact B]). }
  now rewrite G.
Qed.
Lemma told_in s l : In s (told l) -> In s l.
Proof. induction l as [|a l IH]; [easy|]. cbn. destruct (said a); [easy|]. intros [->|H]; [now left|right; now apply IH]. Qed.
Lemma told_all l : Forall (fun s => said s <> []) l -> told l = l.
Proof. induction 1 as [|a l Ha _ IH]; [reflexivity|]. cbn. destruct (said a); [now elim Ha|]. now rewrite IH. Qed.
Lemma occ_corpora c d f w : Forall whole c -> In (d, f, w) (occ c) <-> In (SWord d f w) (flat_map plan_doc (corpora c)).
Proof.
  intros Hw. unfold occ, occs. rewrite in_flat_map. assert (E : (exists s, In s (indexed c) /\ In (d, f, w) match s with SWord d f w => [(d, f, w)] | _ => [] end) <-> In (SWord d f w) (indexed c)).
  { split; [intros (s & Hs & Hi); destruct s; try contradiction; destruct Hi as [Hi|[]]; injection Hi as -> -> ->; exact Hs|]. intros H. exists (SWord d f w). split; [exact H|now left]. }
  rewrite E. clear E. induction Hw as [|a c Ha _ IH]; [reflexivity|]. unfold indexed, corpora. cbn [flat_map]. rewrite flat_map_app, !in_app_iff.
  destruct a; try exact (conj (fun H => or_intror (proj1 IH (match H with or_introl n => False_ind _ n | or_intror n => n end))) (fun H => or_intror (proj2 IH (match H with or_introl n => False_ind _ n | or_intror n => n end)))).
  rewrite (told_all Ha). fold (indexed c) (corpora c). now rewrite IH.
Qed.
Lemma indexed_again E c k m1 m2 q p m1' m2' r1 r2 : sound_setup E (c ++ [MIndex k]) -> sound_query c q -> history E c m1 -> m_do E (MIndex k) m1 = (m2, Ok tt) -> Forall whole c -> incl k (corpora c) ->
  clean (MMatch q p) -> mt_match E q p m1 = (m1', Ok r1) -> mt_match E q p m2 = (m2', Ok r2) ->
  exists v1 v2, shows r1 v1 /\ shows r2 v2 /\ forall d, (exists x, In (x, d) v1) <-> (exists x, In (x, d) v2).
Proof.
  intros S2 SQ H1 Hk Hw Hi Hc R1 R2. assert (NP : Forall not_price [MIndex k]) by repeat constructor. pose proof (setup_before NP S2) as S1.
  assert (H2 : history E (c ++ [MIndex k]) m2).
  { destruct H1 as (m0 & Hn & Hr). exists m0. split; [exact Hn|]. clear -Hr Hk. revert m0 Hr. induction c as [|a c IH]; intros m0 Hr.
    - cbn [m_run] in Hr. unfold ret in Hr. injection Hr as ->. cbn [app m_run]. cbn [m_do] in Hk. cbn [m_do]. rewrite Hk. reflexivity.
    - cbn [app m_run] in *. destruct (m_do E a m0) as [m' o']. destruct (fatal a o') eqn:Hf; [|now apply IH]. injection Hr as -> ->. discriminate Hf. }
  refine (same_words S1 S2 SQ H1 H2 _ (prices_more c NP) Hc R1 R2).
  intros d f w. rewrite occ_app, in_app_iff. split; [now left|]. intros [H|H]; [exact H|]. apply (occ_corpora d f w Hw).
  assert (H3 : In (SWord d f w) (flat_map plan_doc k)).
  { unfold occ, occs, indexed in H. cbn [flat_map] in H. rewrite app_nil_r in H. apply in_flat_map in H as (s & Hs & Hx). apply told_in in Hs.
    destruct s; try contradiction. destruct Hx as [Hx|[]]. injection Hx as -> -> ->. exact Hs. }
  apply in_flat_map in H3 as (D & HD & Hs). apply in_flat_map. exists D. split; [now apply Hi|exact Hs].
Qed.
