(** Concrete runs for Thm_Float. *)
From Verif Require Import Base TrieM TrieH WordStoreM ErrorValuesM LevIndexM Spec_Hist Spec_EV Spec_Edit Spec_Lev EVR WordM Spec_Word MapM DoubleM ContM MatcherM MapP Spec_Cont ContP
  Spec_Match Spec_First EditP LevP MatchP MatchQ MatchT MatchU MatchZ EnvP MatchY TypoP Demo StoreX MatchX.
From Coq Require Import Permutation.
From Coq Require Import ZifyBool ZifyN ZifyNat.
Local Open Scope N_scope.
Local Open Scope m_scope.

Definition w_xyq : word := [120; 121; 113].
Definition calls_f : list m_call := [MIndex (docs [(1, [(w_title, [w_abc; w_def])]); (2, [(w_title, [w_xyz])])]); MWeight w_title (d_of_Z 3)].
Definition m_f : matcher := after demo calls_f.
Definition q_f : wordlist := [w_abc; w_xyq].
Lemma f_setup : sound_setup demo calls_f.
Proof. setup. Qed.
Lemma f_query : sound_query calls_f q_f.
Proof. query. Qed.
Lemma f_history : history demo calls_f m_f.
Proof. happens. Qed.
Lemma f_weights : real_weights calls_f.
Proof. intros f x [H|[]]. injection H as <- <-. reflexivity. Qed.
Lemma m_weights : real_weights calls_m.
Proof. intros f x [H|[]]. injection H as <- <-. reflexivity. Qed.
Lemma near_D e p qw w err : near e p qw w err -> err = D (prices_of e (length qw)) qw (rev w) (length qw) /\ (err <= limit p qw)%Z.
Proof. intros [H1 H2]. split; [|exact H2]. exact (min_cost_D H1). Qed.
Lemma D_near e p qw w : (D (prices_of e (length qw)) qw (rev w) (length qw) <=? limit p qw)%Z = true -> near e p qw w (D (prices_of e (length qw)) qw (rev w) (length qw)).
Proof. intros H. split; [apply D_min|lia]. Qed.
Lemma f_only1 : only_hit (occ calls_f) (near (prices_after calls_f) sp_new) q_f sp_new 1 w_title w_abc 0.
Proof.
  split; [vm_compute; tauto|]. split; [reflexivity|]. split.
  - split.
    + exists w_abc. split; [now left|]. exact (@D_near (prices_after calls_f) sp_new w_abc w_abc eq_refl).
    + intros qw err [<-|[<-|[]]] H; apply near_D in H as [-> H]; vm_compute in *; first [discriminate|now elim H].
  - intros f' w' qw err H _ Hq Hn. vm_compute in H. destruct H as [H|[H|[H|[]]]]; injection H; intros; subst; try discriminate; [now split|].
    exfalso. destruct Hq as [<-|[<-|[]]]; apply near_D in Hn as [-> Hn]; vm_compute in Hn; now elim Hn.
Qed.
Lemma f_only2 : only_hit (occ calls_f) (near (prices_after calls_f) sp_new) q_f sp_new 2 w_title w_xyz 100.
Proof.
  split; [vm_compute; tauto|]. split; [reflexivity|]. split.
  - split.
    + exists w_xyq. split; [right; now left|]. exact (@D_near (prices_after calls_f) sp_new w_xyq w_xyz eq_refl).
    + intros qw err [<-|[<-|[]]] H; apply near_D in H as [-> H]; vm_compute in *; first [discriminate|now elim H].
  - intros f' w' qw err H _ Hq Hn. vm_compute in H. destruct H as [H|[H|[H|[]]]]; injection H; intros; subst; try discriminate. now split.
Qed.
Lemma f_swaps qw : In qw q_f -> swaps_not_cheap (prices_after calls_f) (length qw).
Proof. intros _. apply (@default_swaps calls_f). defaults. Qed.

(** ** Bounds *)
Lemma f_weight f : weight_after calls_f f = if weqb w_title f then d_of_Z 3 else d_of_Z 1.
Proof. unfold weight_after, last_for. cbn [calls_f weight_calls flat_map app rev assoc]. unfold assoc. cbn [find fst]. destruct (weqb_spec w_title f), (weqb_spec f w_title); try congruence; reflexivity. Qed.
Lemma f_heavy f : at_least (d_of_Z 3) (weight_after calls_f f).
Proof. rewrite f_weight. destruct (weqb w_title f); vm_compute; (split; [discriminate|split; [discriminate|reflexivity]]). Qed.
Lemma f_light f : at_least (weight_after calls_f f) millionth.
Proof. rewrite f_weight. destruct (weqb w_title f); vm_compute; (split; [discriminate|split; [discriminate|reflexivity]]). Qed.
Lemma f_hits f w qw err : In (1, f, w) (occ calls_f) -> searching sp_new f -> In qw q_f -> near (prices_after calls_f) sp_new qw w err -> In (f, w) [(w_title, w_abc)].
Proof. intros H1 H2 H3 H4. destruct f_only1 as (_ & _ & _ & H). destruct (H f w qw err H1 H2 H3 H4) as [-> ->]. now left. Qed.
Definition calls_z : list m_call := calls_f ++ [MWeight w_title (d_of_Z 0)].

(** C125: documents 2 and 3 have some of the words; the first is what is typed. *)
Definition w_body : word := [98; 111; 100; 121].
Definition w_dex : word := [100; 101; 120].
Definition calls_t : list m_call := [MIndex (docs [(3, [(w_title, [w_abc; w_dex])]); (2, [(w_title, [w_abc]); (w_body, [w_def])]); (1, [(w_title, [w_abc; w_def])])]); MWeight w_title (d_of_Z 3)].
Definition m_t : matcher := after demo calls_t.
Definition q_t : wordlist := [w_def; w_abc].
Definition d_t (i : nat) : document := nth i (corpora calls_t) (add_texts 0 []).
Lemma t_setup : sound_setup demo calls_t.
Proof. setup. Qed.
Lemma t_query : sound_query calls_t q_t.
Proof. query. Qed.
Lemma t_history : history demo calls_t m_t.
Proof. happens. Qed.
Lemma t_weights : real_weights calls_t.
Proof. intros f x [H|[]]. injection H as <- <-. reflexivity. Qed.
Lemma t_weight f : weight_after calls_t f = if weqb w_title f then d_of_Z 3 else d_of_Z 1.
Proof. unfold weight_after, last_for. cbn [calls_t weight_calls flat_map app rev assoc]. unfold assoc. cbn [find fst]. destruct (weqb_spec w_title f), (weqb_spec f w_title); try congruence; reflexivity. Qed.
Lemma t_heavy f : at_least (d_of_Z 3) (weight_after calls_t f).
Proof. rewrite t_weight. destruct (weqb w_title f); vm_compute; (split; [discriminate|split; [discriminate|reflexivity]]). Qed.
Lemma t_whole : Forall whole calls_t.
Proof. unfold calls_t. repeat (apply Forall_cons; [first [exact I|cbn [whole]; vm_compute; repeat (constructor; [discriminate|]); constructor]|]). apply Forall_nil. Qed.
Lemma t_light i : (i < 2)%nat -> light calls_t q_t (doc_getID (d_t i)).
Proof.
  intros Hi. exists 3%Z, (map (fun x => (snd (fst x), snd x)) (occ calls_t)). split; [|split; [intros; apply t_heavy|vm_compute; now split]].
  intros g w qw err Ho _ _. apply in_map_iff. now exists (doc_getID (d_t i), g, w).
Qed.
(** A heavy field: document 2 has the word in its body. *)
Definition calls_h : list m_call := [MIndex (docs [(1, [(w_title, [w_abc])]); (2, [(w_title, [w_xyz]); (w_body, [w_abc])])]); MWeight w_body (d_of_Z 1000)].
Definition d_h (i : nat) : document := nth i (corpora calls_h) (add_texts 0 []).
Lemma h_refuted : exists E calls m q f D D' r, sound_setup E calls /\ real_weights calls /\ sound_query calls q /\ history E calls m /\ Forall whole calls /\
  NoDup (map doc_getID (corpora calls)) /\ NoDup q /\ In D (corpora calls) /\ reads_as D f q /\ In D' (corpora calls) /\ ~ reads_as D' f q /\
  mt_onlineMatch E q f m = (m, Ok r) /\ at_place r 0 (doc_getID D') /\ at_place r 1 (doc_getID D).
Proof.
  assert (SS : sound_setup demo calls_h) by setup. assert (SQ : sound_query calls_h [w_abc]) by query.
  assert (HH : history demo calls_h (after demo calls_h)) by happens.
  exists demo, calls_h, (after demo calls_h), [w_abc], w_title, (d_h 0), (d_h 1).
  destruct (online_exact SS SQ HH (f := w_title)) as (r & _ & _ & Hr & _); [vm_compute; tauto|]. exists r.
  split; [exact SS|]. split; [intros f x [H|[]]; injection H as <- <-; reflexivity|]. split; [exact SQ|]. split; [exact HH|].
  split; [unfold calls_h; repeat (apply Forall_cons; [first [exact I|cbn [whole]; vm_compute; repeat (constructor; [discriminate|]); constructor]|]); apply Forall_nil|].
  split; [vm_compute; constructor; [intros [H|[]]; discriminate H|constructor; [intros []|constructor]]|].
  split; [constructor; [intros []|constructor]|]. split; [vm_compute; tauto|]. split; [exists [w_abc]; split; [vm_compute; reflexivity|apply Permutation_refl]|].
  split; [vm_compute; tauto|]. split; [intros (t & Ht & Hp); vm_compute in Ht; injection Ht as <-; apply Permutation_length_1 in Hp; discriminate Hp|]. split; [exact Hr|].
  assert (G : r = get_ok mr_new (snd (mt_onlineMatch demo [w_abc] w_title (after demo calls_h)))) by (rewrite Hr; reflexivity). rewrite G. clear.
  split; vm_compute; reflexivity.
Qed.
