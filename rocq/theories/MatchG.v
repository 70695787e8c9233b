(** C106: a matcher works as long as the operating system grants the storage. *)
From Verif Require Import Base TrieM TrieA TrieP TrieP2 TrieD WordStoreM Spec_Hist TrieH WordStoreP ErrorValuesM LevIndexM
  Spec_Edit Spec_EV Spec_Lev EVP LevP WordM MapM DoubleM ContM MatcherM MapP Spec_Cont ContP Spec_Match MatchP MatchQ MatchR MatchS MatchT MatchU MatchV MatchW MatchY MatchZ Spec_Word Spec_Room.
From Coq Require Import ZifyBool ZifyN ZifyNat.
Local Open Scope N_scope.
Local Open Scope m_scope.

Lemma letters_eq calls : letters_given calls = word_letters (flat_map given calls).
Proof. reflexivity. Qed.
Lemma letters_app a b : letters_given (a ++ b) = letters_given a + letters_given b.
Proof. rewrite !letters_eq, flat_map_app. apply word_letters_app. Qed.
Lemma told_le l : word_letters (map said (told l)) <= word_letters (map said l).
Proof.
  induction l as [|s l IH]; [reflexivity|]. cbn [told]. destruct (said s) eqn:Hs; cbn [map]; rewrite ?letters_cons; [apply N.le_0_l|]. rewrite Hs. lia.
Qed.
Lemma occs_le l : word_letters (map snd (occs l)) <= word_letters (map said l).
Proof.
  induction l as [|s l IH]; [reflexivity|]. change (s :: l) with ([s] ++ l) at 1. rewrite (occs_app [s] l). rewrite map_app, word_letters_app. cbn [map]. rewrite letters_cons.
  destruct s; cbn [occs flat_map app map snd said]; rewrite ?letters_cons; change (word_letters []) with 0; lia.
Qed.
(** What has been asked for after the calls, and in the next one. *)
Lemma indexed_in calls w : In w (map said (indexed calls)) -> In w (flat_map given calls).
Proof.
  intros H. apply in_map_iff in H as (s & <- & H). unfold indexed in H. apply in_flat_map in H as (c & Hc & H). apply in_flat_map. exists c. split; [exact Hc|].
  destruct c; cbn in H; try contradiction. cbn [given]. apply in_map.
  assert (G : forall l s, In s (told l) -> In s l).
  { clear. induction l as [|x l IH]; intros s Hs; [destruct Hs|]. cbn in Hs. destruct (said x); [destruct Hs|]. destruct Hs as [<-|Hs]; [now left|right; now apply IH]. }
  now apply G.
Qed.
Lemma words_given calls w : In w (flat_map call_words calls) -> In w (flat_map given calls).
Proof.
  intros H. apply in_flat_map in H as (c & Hc & H). apply in_flat_map. exists c. split; [exact Hc|]. destruct c; try contradiction. exact H.
Qed.
Lemma log_in calls m l w : HI calls m l -> In w (map said l) -> In w (flat_map given calls).
Proof.
  intros H Hw. apply in_map_iff in Hw as (s & <- & Hs). destruct (real_step s) eqn:Hr.
  - apply indexed_in. apply in_map. rewrite <- (hi_told H). unfold told_only. now apply filter_In.
  - apply words_given, (hi_names H). apply in_map. apply filter_In. rewrite Hr. now split.
Qed.
Lemma occ_le calls : word_letters (map snd (occ calls)) <= letters_given calls.
Proof.
  unfold occ. rewrite letters_eq. etransitivity; [apply occs_le|]. induction calls as [|c calls IH]; [reflexivity|].
  change (c :: calls) with ([c] ++ calls) at 1. rewrite (indexed_app [c] calls). rewrite map_app, word_letters_app. cbn [flat_map]. rewrite word_letters_app.
  assert (H : word_letters (map said (indexed [c])) <= word_letters (given c)); [|lia].
  destruct c; cbn [indexed flat_map given map]; try (apply N.le_0_l). rewrite app_nil_r. apply told_le.
Qed.
Lemma asked_le calls m l c x : HI calls m l -> incl (map said x) (given c) -> word_letters (map snd (occs x)) <= word_letters (given c) ->
  asked (l ++ x) <= letters_given (calls ++ [c]).
Proof.
  intros H Hi Ho. unfold asked. apply N.max_lub.
  - rewrite letters_eq. apply letters_incl; [apply names_nodup|]. intros w Hw. apply names_in in Hw. rewrite map_app, in_app_iff in Hw. rewrite flat_map_app, in_app_iff.
    destruct Hw as [Hw|Hw]; [left; exact (log_in H Hw)|right]. cbn [flat_map]. rewrite app_nil_r. now apply Hi.
  - rewrite occs_app, map_app, word_letters_app, letters_app, (hi_occ H). pose proof (@occ_le calls). rewrite (letters_eq [c]). cbn [flat_map]. rewrite app_nil_r. lia.
Qed.
Lemma refused_little E n calls : n <= letters_given calls -> refused E n -> too_little E calls.
Proof.
  intros Hn (s & H1 & H2 & H3). exists s. split; [lia|]. destruct (N.lt_ge_cases s 4294967296) as [Hs|Hs]; [left|now right].
  replace (u32 s) with s in H3; [exact H3|]. unfold u32. now rewrite N.mod_small.
Qed.
Lemma enough_not E calls : enough E calls -> ~ too_little E calls.
Proof. intros [H1 H2] (s & Hs & [Hg|Hg]); [|lia]. rewrite H1 in Hg; [discriminate|lia]. Qed.

(** ** Who is to blame *)
Section Blame.
Variables (E : env) (calls : list m_call) (m : matcher).
Hypothesis HE : env_ok E.
Hypothesis Hcl : Forall clean calls.
Hypothesis HH : history E calls m.
Lemma index_blame c m' : clean (MIndex c) -> mt_index E c m = (m', Throw ERuntime) -> too_little E (calls ++ [MIndex c]).
Proof.
  intros [Hd Hu] Hr. destruct (history_HI HE Hcl HH) as [l H]. destruct (history_li HH) as [li0 Hli].
  destruct (docs_do Hli (hi_mi H) Hd Hu) as (m1 & o1 & Hx & C). unfold mt_index in Hr. rewrite Hr in Hx. injection Hx as <- <-.
  destruct C as [[_ Z]|(_ & _ & [[C _]|[C _]])]; try discriminate C. refine (refused_little _ Z).
  apply (@asked_le calls m l (MIndex c)); [exact H| |]; cbn [given]; [apply incl_refl|apply occs_le].
Qed.
Lemma match_blame q p m' : clean (MMatch q p) -> sound_setup E calls -> sound_query calls q -> mt_match E q p m = (m', Throw ERuntime) -> too_little E (calls ++ [MMatch q p]).
Proof.
  intros Hc SS SQ Hr. destruct (history_HI HE Hcl HH) as [l H]. destruct (match_yield H SS SQ Hc) as (m1 & o1 & Hx & C). rewrite Hr in Hx. injection Hx as <- <-.
  destruct C as [[_ Z]|[[] _]]. refine (refused_little _ Z).
  apply (@asked_le calls m l (MMatch q p)); [exact H| |]; cbn [given].
  - rewrite map_map. cbn [said]. rewrite map_id. apply incl_refl.
  - pose proof (occs_names [] (filter_words p)) as Hn. cbn [app] in Hn. rewrite Hn. apply N.le_0_l.
Qed.
Lemma index_works c : clean (MIndex c) -> no_empty (MIndex c) -> enough E (calls ++ [MIndex c]) -> exists m', mt_index E c m = (m', Ok tt).
Proof.
  intros Hc Hn He. destruct (history_HI HE Hcl HH) as [l H]. destruct (history_li HH) as [li0 Hli]. pose proof Hc as [Hd Hu].
  destruct (docs_do Hli (hi_mi H) Hd Hu) as (m1 & o1 & Hx & C). exists m1. unfold mt_index. rewrite Hx. f_equal.
  destruct C as [[-> _]|(_ & _ & [[-> _]|[-> Hs]])]; [| reflexivity |].
  - exfalso. exact (enough_not He (index_blame Hc Hx)).
  - exfalso. unfold stops in Hs. unfold no_empty in Hn. cbn [given] in Hn. rewrite Forall_forall in Hn. exact (Hn _ Hs eq_refl).
Qed.
Lemma match_works q p : clean (MMatch q p) -> no_empty (MMatch q p) -> sound_setup E calls -> sound_query calls q -> enough E (calls ++ [MMatch q p]) ->
  exists m' r, mt_match E q p m = (m', Ok r).
Proof.
  intros Hc Hn SS SQ He. destruct (mt_match E q p m) as [m' o] eqn:Hm. exists m'. destruct (history_HI HE Hcl HH) as [l H].
  destruct (match_yield H SS SQ Hc) as (m1 & o1 & Hx & C). rewrite Hm in Hx. injection Hx as <- <-. destruct C as [[-> _]|[C _]].
  - exfalso. exact (enough_not He (match_blame Hc SS SQ Hm)).
  - destruct o as [r|[]| | |]; try contradiction; [now exists r|]. exfalso. unfold no_empty in Hn. cbn [given] in Hn. rewrite Forall_forall in Hn.
    apply Exists_exists in C as (t & Ht & C). apply Exists_exists in C as (s & Hs & C).
    destruct C as [C|C]; apply (Hn []); try reflexivity; apply in_flat_map; exists t; (split; [exact Ht|]); apply in_flat_map; exists s; (split; [exact Hs|]); rewrite <- C; cbn; auto.
Qed.
End Blame.

(** ** Whole runs *)
Definition name_formed (c : m_call) : Prop := match c with MOnline _ f => well_formed f | _ => True end.
Lemma new_enough E calls : enough E calls -> exists m0, mt_new E = Ok m0.
Proof.
  intros [H _]. assert (Hg : grow_ok E 1024 = true) by (apply H; lia). destruct (TR_new Hg) as (t & Ht & _). unfold mt_new, ws_new. rewrite Ht. cbn [obind]. eauto.
Qed.
Lemma enough_less E a b : enough E (a ++ b) -> enough E a.
Proof. intros [H1 H2]. rewrite letters_app in *. split; [|lia]. intros s Hs. apply H1. lia. Qed.
Lemma run_works E calls : env_ok E -> sound_history E calls -> Forall nameable calls -> Forall name_formed calls -> enough E calls ->
  exists m0 m, mt_new E = Ok m0 /\ m_run E calls m0 = (m, Ok tt).
Proof.
  intros HE HS Hn Hf He. destruct (new_enough He) as [m0 H0]. exists m0.
  assert (G : exists m, m_run E calls m0 = (m, Ok tt)); [|destruct G as [m G]; now exists m].
  induction calls as [|c calls IH] using rev_ind; [now exists m0|].
  assert (HS1 : sound_history E calls) by (intros a x b Hx; apply (HS a x (b ++ [c])); now rewrite Hx, <- app_assoc).
  apply Forall_app in Hn as [Hn1 Hn2]. apply Forall_app in Hf as [Hf1 Hf2]. destruct (IH HS1 Hn1 Hf1 (enough_less He)) as [m1 Hr].
  assert (HH : history E calls m1) by (now exists m0). apply Forall_inv in Hn2, Hf2.
  destruct (m_do E c m1) as [m2 o] eqn:Hd. pose proof (call_expected HE HS Hn2 HH Hd) as Hx. exists m2. rewrite run_app, Hr. cbn [m_run]. rewrite Hd.
  enough (Hff : fatal c o = false) by (now rewrite Hff).
  assert (Hcl : Forall clean calls).
  { rewrite Forall_forall. intros x Hin. apply in_split in Hin as (a & b & ->). destruct (HS1 a x b eq_refl) as [G _]. exact G. }
  destruct (HS calls c [] eq_refl) as [Hc Hq]. destruct c as [c|c|f x|q p|q f]; cbn [expected m_do name_formed] in *.
  - destruct Hx as [->|[->|[-> _]]]; [reflexivity| |reflexivity]. exfalso. exact (enough_not He (index_blame HE Hcl HH Hc Hd)).
  - destruct Hx as [->| ->]; reflexivity.
  - now subst o.
  - destruct Hq as [SS SQ]. destruct Hx as [->|[[-> _]|[-> _]]]; [reflexivity| |reflexivity]. exfalso.
    unfold mbind in Hd. destruct (mt_match E q p m1) as [m3 o3] eqn:Hm. destruct o3 as [r|e| | |]; try discriminate Hd. assert (e = ERuntime) as -> by congruence.
    exact (enough_not He (match_blame HE Hcl HH Hc SS SQ Hm)).
  - destruct Hx as [->|[->|[-> Hx]]]; [reflexivity|reflexivity|contradiction].
Qed.
Lemma run_works_all E calls : env_ok E -> sound_history E calls -> Forall nameable calls -> (forall q f, In (MOnline q f) calls -> well_formed f) -> enough E calls ->
  exists m0 m, mt_new E = Ok m0 /\ m_run E calls m0 = (m, Ok tt).
Proof.
  intros HE HS Hn Hf. apply run_works; [exact HE|exact HS|exact Hn|]. rewrite Forall_forall. intros c Hc. destruct c; try exact I. cbn. exact (Hf _ _ Hc).
Qed.
