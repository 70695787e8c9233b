(** Concrete runs of a matcher for Thm_Match, and the counterexamples. *)
From Verif Require Import Base TrieM TrieH WordStoreM ErrorValuesM LevIndexM Spec_Hist Spec_EV Spec_Edit Spec_Lev EVR WordM Spec_Word MapM DoubleM ContM MatcherM MapP Spec_Cont ContP
  Spec_Match EditP MatchP MatchQ MatchT MatchU MatchZ EnvP MatchY TypoP Demo StoreX.
From Coq Require Import ZifyBool ZifyN ZifyNat.
Local Open Scope N_scope.
Local Open Scope m_scope.

(** ** Checking hypotheses by evaluation *)
Definition insb (w : word) : bool := negb (Nat.eqb (length w) 0) && forallb (fun l => (0 <? l) && (l <? 65536)) w && negb (low_half (hd 0 w)).
Lemma nonnulb w : forallb (fun l => (0 <? l) && (l <? 65536)) w = true -> Forall nonnul w.
Proof. intros H. rewrite Forall_forall. rewrite forallb_forall in H. intros l Hl. apply H in Hl. unfold nonnul. lia. Qed.
Lemma insb_ok w : insb w = true -> insertable w.
Proof.
  unfold insb. intros H. apply andb_true_iff in H as [H H3]. apply andb_true_iff in H as [H1 H2]. split; [intros ->; discriminate|]. split; [now apply nonnulb|].
  destruct (low_half (hd 0 w)); [discriminate|reflexivity].
Qed.
Definition usableb (w : word) : bool := Nat.eqb (length w) 0 || insb w.
Lemma usableb_ok w : usableb w = true -> usable w.
Proof. unfold usableb. intros H. apply orb_true_iff in H as [H|H]; [left; now destruct w|right; now apply insb_ok]. Qed.
(** Documents made with addText. *)
Definition docs (l : list (N * list (word * wordlist))) : corpus := map (fun x => add_texts (fst x) (snd x)) l.
Lemma clean_index l : forallb (fun s => usableb (said s)) (flat_map plan_doc (docs l)) = true -> clean (MIndex (docs l)).
Proof.
  intros H. split.
  - unfold docs. apply Forall_map. rewrite Forall_forall. intros [id cs] _. now exists id, cs.
  - rewrite Forall_forall. rewrite forallb_forall in H. intros s Hs. apply usableb_ok. now apply H.
Qed.
Lemma clean_filter q p : forallb (forallb (fun s => usableb (fst s) && usableb (snd s))) (sp_filter p) = true -> clean (MMatch q p).
Proof.
  intros H. cbn [clean]. rewrite Forall_forall. rewrite forallb_forall in H. intros t Ht. apply H in Ht. rewrite Forall_forall. rewrite forallb_forall in Ht. intros s Hs.
  apply Ht, andb_true_iff in Hs as [H1 H2]. split; now apply usableb_ok.
Qed.
Lemma clean_online q f : forallb (forallb (fun l => (0 <? l) && (l <? 65536))) (f :: q) = true -> clean (MOnline q f).
Proof.
  intros H. cbn [forallb] in H. apply andb_true_iff in H as [H1 H2]. split; [|now apply nonnulb].
  rewrite Forall_forall. rewrite forallb_forall in H2. intros w Hw. apply nonnulb. now apply H2.
Qed.
Ltac clean1 := first [apply clean_index; vm_compute; reflexivity | apply clean_filter; vm_compute; reflexivity | apply clean_online; vm_compute; reflexivity | exact I].
Ltac cleans := repeat (apply Forall_cons; [clean1|]); apply Forall_nil.
Definition buildsb (E : env) (w : word) : bool := match word_of_letters E w with Ok v => weqb v w | _ => false end.
Definition goodb (x : double) : bool := match x with S754_zero _ => true | S754_finite false _ _ => true | _ => false end.
Lemma easy_setup E calls : env_ok E -> Forall clean calls -> default_like (price_calls calls) ->
  getInsertionError (prices_after calls) = getDeletionError (prices_after calls) ->
  forallb (fun x => goodb (snd x)) (weight_calls calls) = true -> forallb (fun x => buildsb E (snd (fst x))) (occ calls) = true ->
  (N.of_nat (length (occ calls)) + 1 <? 9007199254740992) = true -> sound_setup E calls.
Proof.
  intros HE Hc Hd He Hw Hf Hn. constructor; [exact HE|exact Hc| |now right| | |now apply N.ltb_lt].
  - rewrite prices_calls. apply (default_prices Hd).
  - intros f x Hin. rewrite forallb_forall in Hw. apply Hw in Hin. cbn in Hin. unfold goodb, good_weight in *. destruct x as [s'|s'| |s' k e]; try discriminate; [exact I|]. now destruct s'.
  - intros d f w Hin. rewrite forallb_forall in Hf. apply Hf in Hin. cbn in Hin. exists f. unfold buildsb in Hin. destruct (word_of_letters E f) as [v| | | |]; try discriminate.
    destruct (weqb_spec v f); [now subst|discriminate].
Qed.
Lemma easy_query calls q : default_like (price_calls calls) -> forallb (forallb (fun l => (0 <? l) && (l <? 65536))) q = true ->
  forallb (fun w => (Z.of_nat (longest (map (fun x : N * word * word => (snd x, 0%N)) (occ calls)) + length w + 2) * 100 + 10000 <=? 2147483647)%Z) q = true -> sound_query calls q.
Proof.
  intros Hd Hq Hf. split.
  - rewrite Forall_forall. rewrite forallb_forall in Hq. intros w Hw. apply nonnulb. now apply Hq.
  - rewrite Forall_forall. rewrite forallb_forall in Hf. intros w Hw. rewrite prices_calls. apply (default_prices Hd). apply Z.leb_le. now apply Hf.
Qed.
Definition defb (c : ev_call) : bool :=
  match c with
  | SetError _ _ v | SetGroupError _ v | SetInsertionError v | SetDeletionError v | SetEndDeletionError v | SetStartInsertionError v => (0 <=? v)%Z && (v <=? 100)%Z
  | SetTransposeError _ => false
  | _ => true
  end.
Lemma defb_ok cs : forallb defb cs = true -> default_like cs.
Proof.
  intros H. unfold default_like. rewrite Forall_forall. rewrite forallb_forall in H. intros c Hc. apply H in Hc.
  destruct c; cbn in *; try discriminate; split; try exact I; lia.
Qed.
Ltac defaults := apply defb_ok; vm_compute; reflexivity.
Ltac setup := apply easy_setup; [first [exact demo_ok|assumption]|cleans|defaults|vm_compute; reflexivity..].
Ltac query := apply easy_query; [defaults|vm_compute; reflexivity..].

(** ** The state after some calls *)
Definition dmatcher : matcher := mkMt [] [] ev_new [] [] (mkWS dtrie []) [].
Definition after (E : env) (calls : list m_call) : matcher := fst (m_run E calls (get_ok dmatcher (mt_new E))).
Lemma after_ok E calls : is_ok (mt_new E) = true -> snd (m_run E calls (get_ok dmatcher (mt_new E))) = Ok tt -> history E calls (after E calls).
Proof. intros H1 H2. exists (get_ok dmatcher (mt_new E)). split; [now apply get_ok_eq|]. now apply run_eq. Qed.
Ltac happens := apply after_ok; [vm_compute; reflexivity|vm_compute; reflexivity].

(** ** The matcher of the examples *)
Definition w_a : word := [97]. Definition w_b : word := [98]. Definition w_c : word := [99].
Definition w_abc : word := [97; 98; 99]. Definition w_def : word := [100; 101; 102]. Definition w_abd : word := [97; 98; 100].
Definition w_xyz : word := [120; 121; 122]. Definition w_abcd : word := [97; 98; 99; 100].
Definition w_title : word := [116; 105]. Definition w_body : word := [98; 111]. Definition w_other : word := [111].
Definition docs_ex : corpus := docs
  [(1, [(w_title, [w_abc; w_def]); (w_body, [w_abd])]); (2, [(w_title, [w_abc])]); (3, [(w_body, [w_xyz; w_abcd])])].
Definition p_filter : sparams := mkSP true [[(w_body, w_abd)]; [(w_title, w_abc); (w_title, w_xyz)]] [].
Definition calls_m : list m_call :=
  [MIndex docs_ex; MWeight w_title (d_of_Z 2); MErr (SetGroupError [99; 100] 30); MMatch [w_abc] p_filter; MIndex (docs [(4, [(w_title, [w_xyz])])])].
Definition m_ex : matcher := after demo calls_m.
Lemma m_ex_history : history demo calls_m m_ex.
Proof. happens. Qed.
Lemma m_ex_setup : sound_setup demo calls_m.
Proof. setup. Qed.
Definition q_ex : wordlist := [w_abc; w_xyz].
Lemma q_ex_ok : sound_query calls_m q_ex.
Proof. query. Qed.
Definition r_ex : mresults := get_ok mr_new (snd (mt_match demo q_ex sp_new m_ex)).
Lemma r_ex_run : exists m', mt_match demo q_ex sp_new m_ex = (m', Ok r_ex).
Proof. eexists. apply run_eq. vm_compute. reflexivity. Qed.


(** ** Views *)
Definition viewb (r : mresults) : list (double * N) :=
  map (fun k => (get_ok d_zero (snd (mr_getRelevancy (N.of_nat k) r)), get_ok 0 (snd (mr_getDocumentID (N.of_nat k) r)))) (seq 0 (length (mr_results r))).
(** What a search shows. *)
Definition found (E : env) (q : wordlist) (p : sparams) (m : matcher) : list (double * N) := viewb (get_ok mr_new (snd (mt_match E q p m))).
Definition online (E : env) (q : wordlist) (f : word) (m : matcher) : list (double * N) := viewb (get_ok mr_new (snd (mt_onlineMatch E q f m))).
(** The results of one search, named. *)
Definition result (E : env) (q : wordlist) (p : sparams) (m : matcher) : mresults := get_ok mr_new (snd (mt_match E q p m)).
Definition state (E : env) (q : wordlist) (p : sparams) (m : matcher) : matcher := fst (mt_match E q p m).
Lemma result_ok E q p m : is_ok (snd (mt_match E q p m)) = true -> mt_match E q p m = (state E q p m, Ok (result E q p m)).
Proof. intros H. unfold state, result. rewrite <- get_ok_eq by exact H. now destruct (mt_match E q p m). Qed.
Definition result_o (E : env) (q : wordlist) (f : word) (m : matcher) : mresults := get_ok mr_new (snd (mt_onlineMatch E q f m)).
Definition state_o (E : env) (q : wordlist) (f : word) (m : matcher) : matcher := fst (mt_onlineMatch E q f m).
Lemma result_o_ok E q f m : is_ok (snd (mt_onlineMatch E q f m)) = true -> mt_onlineMatch E q f m = (state_o E q f m, Ok (result_o E q f m)).
Proof. intros H. unfold state_o, result_o. rewrite <- get_ok_eq by exact H. now destruct (mt_onlineMatch E q f m). Qed.
Ltac searched := apply result_ok; vm_compute; reflexivity.
Ltac searched_o := apply result_o_ok; vm_compute; reflexivity.

(** ** C46: cheap swaps are missed *)
Definition c46_prices : list ev_call :=
  [SetInsertionError 300; SetDeletionError 300; SetEndDeletionError 300; SetStartInsertionError 300; SetError 97 98 300; SetTransposeError 10].
Definition w_ab : word := [97; 98]. Definition w_ba : word := [98; 97].
Definition c46 : list m_call := map MErr c46_prices ++ [MIndex (docs [(1, [(w_title, [w_ab])])])].
Lemma c46_values : Forall (value_in 0 300) c46_prices.
Proof. unfold c46_prices. repeat (constructor; [cbn; lia|]). constructor. Qed.
Lemma c46_setup : sound_setup demo c46.
Proof.
  assert (Hv : Forall (value_in 0 300) (price_calls c46)) by exact c46_values.
  constructor; [exact demo_ok|unfold c46, c46_prices; cbn [map app]; cleans| |right; vm_compute; reflexivity|intros f x []| |vm_compute; reflexivity].
  - rewrite prices_calls. pose proof (fun n => @prices_ranged 0 300 ltac:(lia) ltac:(lia) _ n Hv) as Hp. cbv zeta in Hp.
    destruct (Hp 0%N) as (H1 & H2 & H3 & _ & H5 & H6). split; [lia|]. split; [lia|]. split; [lia|]. split; [|split; [lia|]].
    + intros n. destruct (Hp n) as (_ & _ & _ & [H4 _] & _). exact H4.
    + intros a b v Hx. apply H6 in Hx. lia.
  - intros d f w Hin. vm_compute in Hin. destruct Hin as [[= <- <- <-]|[]]. exists w_title. vm_compute. reflexivity.
Qed.
Lemma c46_query : sound_query c46 [w_ba].
Proof.
  split; [repeat constructor; unfold nonnul; lia|]. apply Forall_cons; [|constructor]. rewrite prices_calls. apply (@fits_bounded _ 300); [lia|repeat (constructor; [cbn; lia|]); constructor|vm_compute; discriminate].
Qed.
Lemma c46_near : near (prices_after c46) sp_new w_ba w_ab 10.
Proof.
  split; [|vm_compute; discriminate].
  assert (Hd : D (prices_of (prices_after c46) 2) w_ba (rev w_ab) 2 = 10%Z) by (vm_compute; reflexivity).
  pose proof (@D_min (prices_of (prices_after c46) 2) w_ba w_ab) as Hm. cbn [length w_ba] in *. rewrite Hd in Hm. exact Hm.
Qed.
Lemma c46_refuted : exists E calls m q m' r d f w qw err, sound_setup E calls /\ sound_query calls q /\ history E calls m /\ mt_match E q sp_new m = (m', Ok r) /\
  In (d, f, w) (occ calls) /\ In qw q /\ near (prices_after calls) sp_new qw w err /\ mr_size r = 0.
Proof.
  exists demo, c46, (after demo c46), [w_ba], (state demo [w_ba] sp_new (after demo c46)), (result demo [w_ba] sp_new (after demo c46)), 1, w_title, w_ab, w_ba, 10%Z.
  split; [exact c46_setup|]. split; [exact c46_query|]. split; [happens|]. split; [searched|]. split; [vm_compute; now left|]. split; [now left|]. split; [exact c46_near|]. vm_compute. reflexivity.
Qed.

(** ** C54: a filtered search makes later names get other ids *)
Definition f1 : word := [102]. Definition f2 : word := [103]. Definition f3 : word := [104].
Definition big : double := d_of_Z 18014398509481984.
Definition c54_setup : list m_call := [MWeight f1 big; MWeight f2 (d_of_Z 2); MWeight f3 (d_of_Z 2); MIndex (docs [(9, [(w_other, [w_xyz])])])].
Definition c54_search : m_call := MMatch [w_xyz] (mkSP true [[(f2, f3)]] []).
Definition c54_index : m_call := MIndex (docs [(1, [(f1, [w_abc]); (f2, [w_abc]); (f3, [w_abc])])]).
Definition c54_a : list m_call := c54_setup ++ [c54_index].
Definition c54_b : list m_call := c54_setup ++ [c54_search; c54_index].
Lemma c54_refuted : exists E c1 c2 m1 m2 q m1' m2' r1 r2, setup_calls c1 = setup_calls c2 /\ sound_setup E c1 /\ sound_setup E c2 /\ sound_query c1 q /\ history E c1 m1 /\ history E c2 m2 /\
  mt_match E q sp_new m1 = (m1', Ok r1) /\ mt_match E q sp_new m2 = (m2', Ok r2) /\
  snd (mr_getDocumentID 0 r1) = snd (mr_getDocumentID 0 r2) /\ snd (mr_getRelevancy 0 r1) <> snd (mr_getRelevancy 0 r2).
Proof.
  exists demo, c54_a, c54_b, (after demo c54_a), (after demo c54_b), [w_abc]. exists (state demo [w_abc] sp_new (after demo c54_a)), (state demo [w_abc] sp_new (after demo c54_b)), (result demo [w_abc] sp_new (after demo c54_a)), (result demo [w_abc] sp_new (after demo c54_b)).
  split; [reflexivity|]. split; [unfold c54_a, c54_setup, c54_index; cbn [app]; setup|]. split; [unfold c54_b, c54_setup, c54_search, c54_index; cbn [app]; setup|]. split; [query|]. split; [happens|]. split; [happens|].
  split; [searched|]. split; [searched|]. split; [vm_compute; reflexivity|]. vm_compute. discriminate.
Qed.

(** ** C49: the words of a field that is not searched can change the order of summation *)
Definition c49_doc : list (word * wordlist) := [(w_a, [f2; f3]); (f1, [w_abc]); (f2, [w_abc]); (f3, [w_abc])].
Definition c49_a : list m_call := [MWeight f1 big; MWeight f2 (d_of_Z 2); MWeight f3 (d_of_Z 2); MIndex (docs [(1, c49_doc)])].
Definition c49_b : list m_call := [MWeight f1 big; MWeight f2 (d_of_Z 2); MWeight f3 (d_of_Z 2); MIndex (docs [(1, tl c49_doc)])].
Definition c49_p : sparams := sp_addNonsearchingField w_a sp_new.
Lemma c49_stripped : Forall2 (stripped c49_p) c49_a c49_b.
Proof.
  unfold c49_a, c49_b. constructor; [reflexivity|]. constructor; [reflexivity|]. constructor; [reflexivity|]. constructor; [|constructor]. constructor; [|constructor]. exists 1, c49_doc. split; reflexivity.
Qed.
Lemma c49_refuted : exists E p c1 c2 m1 m2 q m1' m2' r1 r2, Forall2 (stripped p) c1 c2 /\ Forall whole c1 /\ sound_setup E c1 /\ sound_query c1 q /\ history E c1 m1 /\ history E c2 m2 /\ unfiltered p /\
  mt_match E q p m1 = (m1', Ok r1) /\ mt_match E q p m2 = (m2', Ok r2) /\
  snd (mr_getDocumentID 0 r1) = snd (mr_getDocumentID 0 r2) /\ snd (mr_getRelevancy 0 r1) <> snd (mr_getRelevancy 0 r2).
Proof.
  exists demo, c49_p, c49_a, c49_b, (after demo c49_a), (after demo c49_b), [w_abc]. exists (state demo [w_abc] c49_p (after demo c49_a)), (state demo [w_abc] c49_p (after demo c49_b)), (result demo [w_abc] c49_p (after demo c49_a)), (result demo [w_abc] c49_p (after demo c49_b)).
  split; [exact c49_stripped|]. split; [unfold c49_a; repeat (constructor; [first [exact I|cbn [whole]; vm_compute; repeat (constructor; [discriminate|]); constructor]|]); constructor|].
  split; [unfold c49_a; setup|]. split; [query|]. split; [happens|]. split; [happens|]. split; [now left|].
  split; [searched|]. split; [searched|]. split; [vm_compute; reflexivity|]. vm_compute. discriminate.
Qed.

(** ** C57: a repeated query word *)
Definition c57 : list m_call := [MIndex (docs [(1, [(w_title, [w_a; w_b])])])].
Lemma c57_refuted : exists E calls m q f m' r D t x, sound_setup E calls /\ sound_query calls q /\ history E calls m /\ In f (map said (indexed calls)) /\
  mt_onlineMatch E q f m = (m', Ok r) /\ corpora calls = [D] /\ doc_getText D f = Ok t /\ ~ Permutation q t /\
  snd (mr_getDocumentID 0 r) = Ok (doc_getID D) /\ snd (mr_getRelevancy 0 r) = Ok x /\ d_lt (d_of_Z 100) x = true.
Proof.
  exists demo, c57, (after demo c57), [w_a; w_a], w_title, (state_o demo [w_a; w_a] w_title (after demo c57)), (result_o demo [w_a; w_a] w_title (after demo c57)).
  exists (add_texts 1 [(w_title, [w_a; w_b])]), [w_a; w_b]. eexists.
  split; [unfold c57; setup|]. split; [query|]. split; [happens|]. split; [vm_compute; now left|]. split; [searched_o|]. split; [reflexivity|]. split; [reflexivity|].
  split; [intros H; assert (Hb : In w_b [w_a; w_a]) by (apply (Permutation_in w_b (Permutation_sym H)); right; now left); destruct Hb as [Hb|[Hb|[]]]; discriminate|].
  split; [vm_compute; reflexivity|]. split; [vm_compute; reflexivity|]. vm_compute. reflexivity.
Qed.

(** ** C60: the part of the bad document that was indexed changes the relevancies *)
Definition c60_1 : corpus := docs [(1, [(w_title, [w_abc])]); (2, [(w_title, [w_abd; w_abd])])].
Definition c60_bad : document := add_texts 3 [(w_title, [w_abc; w_abc; []; w_xyz])].
Definition M0 : matcher := get_ok dmatcher (mt_new demo).
Definition c60_A : matcher := fst (mt_index demo c60_1 M0). Definition c60_B : matcher := fst (mt_index demo (c60_1 ++ [c60_bad]) M0).
Lemma c60_refuted : exists E c1 D c2 m0 m1 m2 q m1' m2' r1 r2, env_ok E /\ mt_new E = Ok m0 /\ clean (MIndex (c1 ++ D :: c2)) /\ whole (MIndex c1) /\ In [] (map said (plan_doc D)) /\
  mt_index E c1 m0 = (m1, Ok tt) /\ mt_index E (c1 ++ D :: c2) m0 = (m2, Throw EOutOfRange) /\
  sound_setup E [MIndex c1] /\ sound_setup E [MIndex (c1 ++ D :: c2)] /\ sound_query [MIndex c1] q /\
  mt_match E q sp_new m1 = (m1', Ok r1) /\ mt_match E q sp_new m2 = (m2', Ok r2) /\
  mr_size r1 <> mr_size r2 /\ snd (mr_getDocumentID 0 r1) = snd (mr_getDocumentID 0 r2) /\ snd (mr_getRelevancy 0 r1) <> snd (mr_getRelevancy 0 r2).
Proof.
  exists demo, c60_1, c60_bad, (@nil document), M0, c60_A, c60_B, [w_abc]. exists (state demo [w_abc] sp_new c60_A), (state demo [w_abc] sp_new c60_B), (result demo [w_abc] sp_new c60_A), (result demo [w_abc] sp_new c60_B).
  assert (Hb : clean (MIndex (c60_1 ++ [c60_bad]))) by (apply (@clean_index [(1, [(w_title, [w_abc])]); (2, [(w_title, [w_abd; w_abd])]); (3, [(w_title, [w_abc; w_abc; []; w_xyz])])]); vm_compute; reflexivity).
  split; [exact demo_ok|]. split; [apply get_ok_eq; vm_compute; reflexivity|]. split; [exact Hb|]. split; [cbn [whole]; vm_compute; repeat (constructor; [discriminate|]); constructor|].
  split; [vm_compute; tauto|]. split; [apply run_eq; vm_compute; reflexivity|]. split; [apply run_eq; vm_compute; reflexivity|].
  split; [unfold c60_1; setup|]. split; [apply easy_setup; [exact demo_ok|constructor; [exact Hb|constructor]|defaults|vm_compute; reflexivity..]|]. split; [query|].
  split; [searched|]. split; [searched|]. split; [vm_compute; discriminate|]. split; [vm_compute; reflexivity|]. vm_compute. discriminate.
Qed.

(** ** C65: a letter left out, then a swap over the gap *)
Definition c65 : list m_call := [MIndex (docs [(1, [(w_title, [w_abc])])])].
Definition w_ac : word := [97; 99]. Definition w_ca : word := [99; 97].
Lemma c65_refuted : exists E calls m q m' r d f w w' qw, sound_setup E calls /\ sound_query calls q /\ history E calls m /\ price_calls calls = [] /\
  mt_match E q sp_new m = (m', Ok r) /\ In (d, f, w) (occ calls) /\ In qw q /\ (2 <= length qw)%nat /\ typo w w' /\ swapped w' qw /\ mr_size r = 0.
Proof.
  exists demo, c65, (after demo c65), [w_ca], (state demo [w_ca] sp_new (after demo c65)), (result demo [w_ca] sp_new (after demo c65)), 1, w_title, w_abc, w_ac, w_ca.
  split; [unfold c65; setup|]. split; [query|]. split; [happens|]. split; [reflexivity|]. split; [searched|]. split; [vm_compute; now left|]. split; [now left|]. split; [cbn; lia|].
  split; [exact (ty_leave w_a 98 w_c)|]. split; [exists [], 97, 99, []; now split|]. vm_compute. reflexivity.
Qed.

(** ** Whole histories *)
Fixpoint sound_from (E : env) (pre calls : list m_call) : Prop :=
  match calls with
  | [] => True
  | c :: r => (clean c /\ match c with MMatch q _ | MOnline q _ => sound_setup E pre /\ sound_query pre q | _ => True end) /\ sound_from E (pre ++ [c]) r
  end.
Lemma sound_from_ok E calls : forall pre, sound_from E pre calls -> forall a c b, calls = a ++ c :: b ->
  clean c /\ match c with MMatch q _ | MOnline q _ => sound_setup E (pre ++ a) /\ sound_query (pre ++ a) q | _ => True end.
Proof.
  induction calls as [|x calls IH]; intros pre H a c b He; [destruct a; discriminate|]. destruct H as [H1 H2]. destruct a as [|y a]; cbn in He; injection He as <- He.
  - now rewrite app_nil_r.
  - specialize (IH _ H2 a c b He). now rewrite <- app_assoc in IH.
Qed.
Lemma sound_from_history E calls : sound_from E [] calls -> sound_history E calls.
Proof. intros H a c b He. exact (sound_from_ok H He). Qed.
Definition calls_h : list m_call := calls_m ++ [MMatch q_ex sp_new; MOnline [w_abc] w_title; MOnline [w_abc] w_c].
Lemma calls_h_sound : sound_history demo calls_h.
Proof.
  apply sound_from_history. unfold calls_h, calls_m. cbn [app sound_from].
  repeat (split; [split; [clean1|first [exact I|split; [setup|query]]]|]). exact I.
Qed.
Lemma calls_h_nameable : Forall nameable calls_h.
Proof.
  unfold calls_h, calls_m. cbn [app]. repeat (apply Forall_cons; [first [exact I|split; [repeat (constructor; [lia|]); constructor|vm_compute; reflexivity]]|]). apply Forall_nil.
Qed.
(** Another machine: descending hash order and another stable sort. *)
Definition demo_rev : env := reorder demo isort (fun _ l => rev l).
Lemma demo_rev_ok : env_ok demo_rev.
Proof.
  destruct demo_ok as [A B C]. constructor; [exact A|exact B|]. intros c l. cbn. symmetry. apply Permutation_rev.
Qed.
Lemma m_ex_whole : Forall whole calls_m.
Proof. unfold calls_m. repeat (apply Forall_cons; [first [exact I|cbn [whole]; vm_compute; repeat (constructor; [discriminate|]); constructor]|]). apply Forall_nil. Qed.
Lemma M0_new : mt_new demo = Ok M0.
Proof. apply get_ok_eq. vm_compute. reflexivity. Qed.
Definition docs_rev : corpus := docs [(3, [(w_body, [w_xyz; w_abcd])]); (2, [(w_title, [w_abc])]); (1, [(w_title, [w_abc; w_def]); (w_body, [w_abd])])].
Lemma rev_setup : sound_setup demo [MIndex (rev docs_ex)].
Proof. change (rev docs_ex) with docs_rev. unfold docs_rev. setup. Qed.
Lemma rev_corpora : Permutation (corpora [MIndex docs_ex]) (corpora [MIndex (rev docs_ex)]).
Proof. unfold corpora. cbn [flat_map]. rewrite !app_nil_r. apply Permutation_rev. Qed.
Definition c66 : list m_call := [MErr SetSubstringMode; MIndex (docs [(1, [(w_title, [[120; 121] ++ w_abc ++ [122]; w_def])])])].
