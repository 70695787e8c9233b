(** The words of a Python program, and its searches. *)
From Verif Require Import Base TrieM WordStoreM ErrorValuesM LevIndexM WordM MapM DoubleM ContM MatcherM DataFileM CApiM PyM
  Spec_Hist Spec_EV Spec_Word Spec_Cont Spec_Edit Spec_Lev Spec_Match Spec_File Spec_CApi Spec_Py WordP SplitP MapP ContP DataP EVR ScalarP TypoP MatchY MatchZ CApiP CApiQ CApiS PyP PyQ PyR PyS PyT.
From Coq Require Import ZifyBool ZifyN ZifyNat.
Local Open Scope N_scope.
Local Open Scope m_scope.

Definition doc_words (E : env) (d : document) : Prop := forall f t, doc_getText d f = Ok t -> field_word E f /\ Forall (field_word E) t.
Definition words_fine (E : env) (o : obj) : Prop :=
  match o with
  | OWord w => field_word E w
  | OList ws => Forall (field_word E) ws
  | ODoc d => doc_words E d
  | OCorpus c => Forall (doc_words E) c
  | _ => True
  end.
Definition all_words (E : env) (s : py_state) : Prop := forall n o, holds s n o -> words_fine E o.
Lemma contents_words E s l ws : all_words E s -> contents s l ws -> Forall (field_word E) ws.
Proof. intros H [n ws0 Hn|n d f ws0 Hn Ht]; [exact (H _ _ Hn)|exact (proj2 (H _ _ Hn _ _ Ht))]. Qed.
Lemma var_word E s k w : all_words E s -> word_var s k w -> field_word E w.
Proof.
  intros H [_ Hw|l i v n ws _ _ Hc Hi _]; [exact (H _ _ Hw)|]. pose proof (contents_words H Hc) as Hf. rewrite Forall_forall in Hf. apply Hf. exact (nth_error_In _ _ Hi).
Qed.
Lemma words_plus E s x : all_words E s -> match x with Holds o => words_fine E o | _ => True end -> all_words E (plus s x).
Proof. intros H Hx n o Hn. apply at_plus in Hn as [Hn|[_ Hn]]; [exact (H _ _ Hn)|]. now subst x. Qed.
Lemma words_now E s n o o' : all_words E s -> holds s n o -> words_fine E o' -> all_words E (now_holds n o' s).
Proof. intros H Hn Ho k u Hk. apply (at_now _ _ _ Hn) in Hk as [[_ Hk]|[_ [= ->]]]; [exact (H _ _ Hk)|exact Ho]. Qed.
Lemma byte_text t r : Forall (fun b => b < 256) t -> before_nul t r -> c_text r.
Proof.
  intros Ht [Hz H]. assert (Hr : Forall (fun b => b < 256) r) by (destruct H as [-> |[rest ->]]; [exact Ht|apply Forall_app in Ht; apply Ht]). unfold c_text. rewrite Forall_forall in *. intros b Hb.
  specialize (Hr b Hb). destruct (N.eq_dec b 0) as [-> |]; [contradiction|lia].
Qed.
Lemma utf8_byte c : scalar c -> Forall (fun b => b < 256) (utf8 c).
Proof.
  intros Hc. assert (c < 1114112) by (destruct Hc; lia). unfold utf8. destruct (N.ltb_spec c 128); [repeat constructor; lia|]. destruct (N.ltb_spec c 2048).
  { repeat constructor; [assert (c / 64 < 32) by (apply N.div_lt_upper_bound; lia); lia|pose proof (N.mod_lt c 64); lia]. }
  destruct (N.ltb_spec c 65536).
  { repeat constructor; [assert (c / 4096 < 16) by (apply N.div_lt_upper_bound; lia); lia|pose proof (N.mod_lt (c / 64) 64); lia|pose proof (N.mod_lt c 64); lia]. }
  repeat constructor; [assert (c / 262144 < 8) by (apply N.div_lt_upper_bound; lia); lia|pose proof (N.mod_lt (c / 4096) 64); lia|pose proof (N.mod_lt (c / 64) 64); lia|pose proof (N.mod_lt c 64); lia].
Qed.
Lemma valid_bytes t : valid_utf8 t -> Forall (fun b => b < 256) t.
Proof. intros (cs & Hs & ->). unfold bytes_of. induction Hs as [|c cs Hc _ IH]; [constructor|]. cbn [flat_map]. apply Forall_app. split; [now apply utf8_byte|exact IH]. Qed.
Lemma text_field E w : text_word E w -> field_word E w.
Proof. intros (s & H1 & _ & H2). now exists s. Qed.
Lemma doc_words_set E d f t : doc_ok d -> doc_words E d -> field_word E f -> Forall (field_word E) t -> doc_words E (mkDoc (d_id d) (mp_set wltb f t (d_texts d))).
Proof.
  intros Hd Hw Hf Ht g u Hg. destruct (list_eq_dec N.eq_dec g f) as [-> |Hne]; [rewrite (get_same _ _ Hd) in Hg; injection Hg as <-; now split|]. rewrite (get_other _ Hd Hne) in Hg. exact (Hw _ _ Hg).
Qed.
Lemma errors_words E s k n e put x : all_words E s -> errors_var s k n e put -> all_words E (now_holds n (put x) s).
Proof. intros HA [e0 Hb H|n0 m w Hb H Hm]; [apply (words_now HA H)|apply (words_now HA Hm)]; exact I. Qed.
Lemma weights_words E s k n e put x : all_words E s -> weights_var s k n e put -> all_words E (now_holds n (put x) s).
Proof. intros HA [e0 Hb H|n0 m w Hb H Hm]; [apply (words_now HA H)|apply (words_now HA Hm)]; exact I. Qed.
Section Words.
Variables (E : env) (W : world).
Hypothesis HF : folds_shipped E.
Hypothesis HW : shipped W.
Lemma str_text s0 r : match s0 with Utf8 t => valid_utf8 t | _ => True end -> (exists x, s0 = Utf8 x /\ before_nul x r) -> c_text r.
Proof. clear. intros HT (t & -> & Hn). exact (byte_text (valid_bytes HT) Hn). Qed.
Lemma split_fields r q : c_text r -> splitToWords E r = Ok q -> Forall (field_word E) q.
Proof. clear. intros Hr Hq. eapply Forall_impl; [|exact (split_words Hr Hq)]. exact (@text_field E). Qed.
Lemma call_words b c s s' r : good s -> all_words E s -> py_text c -> py_do' E W b c s = (s', Ok r) -> all_words E s'.
Proof.
  intros HG HA HT H. assert (HD := g_fine HG). destruct c; cbn [py_do' py_text] in *; repeat rd.
  all: try exact HA.
  all: try (apply (words_plus HA); try exact I).
  all: try (match goal with A : results_var ?s ?k _ |- all_words _ (now_holds ?k _ ?s) => apply (words_now HA (proj2 A)); exact I end).
  all: try (match goal with A : matcher_var ?s ?k _ |- all_words _ (now_holds ?k _ ?s) => apply (words_now HA (proj2 A)); exact I end).
  all: try (match goal with A : errors_var ?s ?k _ _ _ |- all_words _ _ => exact (@errors_words _ _ _ _ _ _ _ HA A) end).
  all: try (match goal with A : weights_var ?s ?k _ _ _ |- all_words _ _ => exact (@weights_words _ _ _ _ _ _ _ HA A) end).
  - exists x0. split; [exact (str_text HT A)|exact A0].
  - constructor.
  - exact (contents_words HA A0).
  - assert (Hws : Forall (field_word E) (fst (wl_addWord x2 x4))) by (cbn; apply Forall_app; split; [exact (contents_words HA A1)|repeat constructor; exact (var_word HA A0)]).
    destruct A as [(-> & Hb & ws & Hl)|(n & f & v & -> & Hb & Hr)]; cbn [put_list] in H.
    + unfold store in H. repeat rd. refine (@words_now E s l (OList ws) (OList (fst (wl_addWord x2 x4))) HA Hl _). exact Hws.
    + inversion A1 as [|? d ? ? H2 H3]; subst. unfold mbind in H. rewrite (pbind_inl _ (held_ok H2)) in H. unfold store in H. injection H as <- <-.
      refine (words_now HA H2 _). apply doc_words_set; [exact (HD _ _ H2)|exact (HA _ _ H2)|exact (proj1 (HA _ _ H2 _ _ H3))|exact Hws].
  - apply (split_fields (str_text HT A)). exact A0.
  - intros f t Hf. discriminate Hf.
  - exact (HA _ _ (proj2 A)).
  - destruct H as (e & -> & _). unfold doc_addText_utf8, mbind, reads in F. destruct (splitToWords E x4) as [ws|y| | |]; try discriminate F. injection F as <- _. rewrite (now_same (proj2 A)). exact HA.
  - unfold doc_addText_utf8, mbind, reads in F. destruct (splitToWords E x4) as [ws|y| | |] eqn:Hq; try discriminate F. injection F as <- _.
    refine (words_now HA (proj2 A) _). apply doc_words_set; [exact (HD _ _ (proj2 A))|exact (HA _ _ (proj2 A))|exact (var_word HA A0)|exact (split_fields (str_text HT A1) Hq)].
  - constructor.
  - destruct H as (e & -> & _). discriminate F.
  - injection F as <- _. apply (words_now HA (proj2 A)). apply Forall_app. split; [exact (HA _ _ (proj2 A))|]. constructor; [exact (HA _ _ (proj2 A0))|constructor].
  - destruct (Nat.eqb r0 other); [discriminate H|]; repeat rd; apply (words_now HA (proj2 A)); exact I.
  - apply words_plus; [|exact I]. apply (words_now HA (proj2 A)). exact I.
  - match goal with H : (if ?x then _ else _) = _ |- _ => destruct x; [|injection H as <- _; exact HA] end. injection H as <- _.
    destruct (del_good k HG) as (_ & _ & _ & Hat & _). intros n o Hn. exact (HA _ _ (Hat _ _ Hn)).
Qed.
Lemma run_words prog : forall s s' rs, good s -> all_words E s -> Forall (fun x => py_text (fst x)) prog -> py_run E W prog s = (s', Ok rs) -> all_words E s'.
Proof.
  induction prog as [|[c b] prog IH]; intros s s' rs HG HA HT H; [injection H as <- <-; exact HA|]. inversion HT as [|? ? Hc Hp]; subst. apply run_inv in H as (s1 & r & rs' & H3 & H4 & _).
  assert (HG1 := good_eff HG (do_eff HF HW HG H3)). apply do_inv in H3 as (v & H3 & _). refine (IH _ _ _ HG1 _ Hp H4). exact (call_words HG HA Hc H3).
Qed.
Lemma words_start : all_words E py_start.
Proof. intros [|n] o; discriminate. Qed.
Lemma reached_words prog s : Forall (fun x => py_text (fst x)) prog -> py_reached E W prog s -> all_words E s.
Proof. intros HT [rs H]. exact (run_words good_start words_start HT H). Qed.

(** ** Strings *)
Lemma strings prog s k w : lower_ok E -> Forall (fun x => py_text (fst x)) prog -> py_reached E W prog s -> word_var s k w ->
  exists cs, Forall scalar cs /\ (forall c, In c cs -> ~ blank c /\ c <> 0) /\ w = letters_of (map (fold E) cs) /\
    (short w -> forall b, gives E W b s (get_string k) (VStr (bytes_of (map (fold E) cs)))).
Proof.
  intros HE HT Hr Hk. destruct (var_word (reached_words HT Hr) Hk) as (t & Ht & Hw). destruct (word_inv HE Hw) as (cs & Hs & -> & Hb & ->). pose proof (ctext_nonnul Ht) as Hn. rewrite Forall_forall in Hn.
  assert (Hc : forall c, In c cs -> ~ blank c /\ c <> 0) by (intros c Hc; split; [exact (Hb c Hc)|exact (Hn c Hc)]). exists cs. split; [exact Hs|]. split; [exact Hc|]. split; [reflexivity|]. intros Hl b.
  destruct (round_trip HE Hs Hc) as (w & _ & -> & Ha). pose proof (word_string E W b Hk) as H. rewrite (Ha Hl) in H. exact H.
Qed.
Lemma nul_self t : ~ In 0 t -> before_nul t t.
Proof. clear. intros H. split; [exact H|now left]. Qed.
Lemma bytes_nul cs : (forall c, In c cs -> c <> 0) -> ~ In 0 (bytes_of cs).
Proof.
  clear. intros H Hin. unfold bytes_of in Hin. apply in_flat_map in Hin as (c & Hc & Hin). specialize (H c Hc). unfold utf8 in Hin.
  destruct (N.ltb_spec c 128); [cbn [In] in Hin; lia|]. destruct (N.ltb_spec c 2048); [cbn [In] in Hin; lia|]. destruct (N.ltb_spec c 65536); cbn [In] in Hin; lia.
Qed.
Lemma new_string b s cs : lower_ok E -> good s -> Forall scalar cs -> (forall c, In c cs -> ~ blank c /\ c <> 0) -> let w := letters_of (map (fold E) cs) in
  let s' := plus s (Holds (OWord w)) in makes E W b s (Word_ (Utf8 (bytes_of cs))) (Holds (OWord w)) /\ word_var s' (fresh s) w /\
  gives E W b s' (len_word (fresh s)) (VInt (Z.of_nat (length w))) /\ (short w -> gives E W b s' (get_string (fresh s)) (VStr (bytes_of (map (fold E) cs)))).
Proof.
  clear HF HW. intros HE HG Hs Hc w s'. assert (Hz : before_nul (bytes_of cs) (bytes_of cs)) by (apply nul_self, bytes_nul; intros c Hin; exact (proj2 (Hc c Hin))).
  destruct (round_trip HE Hs Hc) as (w0 & Hw & -> & Ha). fold w in Hw, Ha. pose proof (word_new E W b s Hz) as Hn. rewrite Hw in Hn. split; [exact Hn|].
  assert (Hv : word_var s' (fresh s) w) by (apply own_word; [apply (bound_plus _ _ (g_len HG)); now right|apply at_plus; now right]). split; [exact Hv|]. split; [exact (word_len E W b Hv)|].
  intros Hl. pose proof (word_string E W b Hv) as H. rewrite (Ha Hl) in H. exact H.
Qed.

(** ** Searching *)
Definition py_like (c : m_call) : Prop :=
  match c with
  | MIndex cp => Forall doc_ok cp /\ Forall (doc_words E) cp
  | MErr e => e = AddStandardErrors latin_groups greek_groups \/ e = SetSubstringMode \/ e = ClearErrors \/ exists v, e = SetEndDeletionError v
  | MWeight _ _ => True
  | MMatch q p => p = sp_new /\ Forall (text_word E) q
  | _ => False
  end.
Lemma calls_like c s n mc : good s -> all_words E s -> py_text c -> py_calls E c s n mc -> py_like mc.
Proof.
  clear HF HW. intros HG HA HT H. destruct c; cbn [py_calls py_text] in *; try contradiction.
  - destruct H as (m' & cp & _ & _ & [_ Hc] & ->). split; [exact (g_fine HG Hc)|exact (HA _ _ Hc)].
  - destruct s0 as [t| |]; try contradiction. destruct H as (m' & r & q & _ & _ & Ht & Hq & ->). split; [reflexivity|]. refine (split_words _ Hq). exact (byte_text (valid_bytes HT) Ht).
  - destruct H as (m & w & _ & _ & _ & ->). cbn. auto.
  - destruct H as (m & w & _ & _ & _ & ->). cbn. auto.
  - destruct H as (m & w & _ & _ & _ & _ & ->). cbn. eauto.
  - destruct H as (m & w & _ & _ & _ & ->). cbn. auto.
  - destruct H as (m & w0 & f0 & _ & _ & _ & _ & ->). exact I.
Qed.
Lemma history_like n prog : forall s s' rs cs, good s -> all_words E s -> Forall (fun x => py_text (fst x)) prog -> py_run E W prog s = (s', Ok rs) -> py_history E W n prog s cs -> Forall py_like cs.
Proof.
  induction prog as [|[c b] prog IH]; intros s s' rs cs HG HA HT H Hh; [inversion Hh; constructor|]. inversion HT as [|? ? Hc Hp]; subst. apply run_inv in H as (s1 & r & rs' & H1 & H2 & _).
  assert (HG1 := good_eff HG (do_eff HF HW HG H1)). assert (HA1 : all_words E s1) by (apply do_inv in H1 as (v & H1 & _); exact (call_words HG HA Hc H1)). assert (Hf : fst (py_do E W b c s) = s1) by now rewrite H1.
  inversion Hh as [|? ? ? ? mc cs' Hmc Hh'|? ? ? ? ? _ Hh']; subst; [constructor; [exact (calls_like HG HA Hc Hmc)|]|]; exact (IH _ _ _ _ HG1 HA1 Hp H2 Hh').
Qed.
Lemma text_fine d f t : doc_words E d -> doc_getText d f = Ok t -> field_word E f /\ Forall (field_word E) t.
Proof. clear. intros H Ht. exact (H _ _ Ht). Qed.
Lemma plan_words d st : doc_words E d -> In st (plan_doc d) ->
  match st with SField _ f _ => field_word E f | SWord _ f w => field_word E f /\ field_word E w | SName _ => False end.
Proof.
  clear. intros Hd Hin. unfold plan_doc in Hin. apply in_flat_map in Hin as (f & _ & Hin). destruct (doc_getText d f) as [t| | | |] eqn:Ht; try (destruct Hin; fail).
  destruct (Hd _ _ Ht) as [Hf Hw]. destruct Hin as [<-|Hin]; [exact Hf|]. apply in_map_iff in Hin as (w & <- & Hin). split; [exact Hf|]. rewrite Forall_forall in Hw. now apply Hw.
Qed.
Lemma py_clean c : lower_ok E -> py_like c -> clean c.
Proof.
  clear. intros HE. destruct c as [cp|e|f x|q p|q f]; cbn [py_like clean]; auto; [|intros [-> _]; repeat constructor|intros []].
  intros [H1 H2]. split; [exact H1|]. rewrite Forall_forall in *. intros st Hs. apply in_flat_map in Hs as (d & Hd & Hs). pose proof (plan_words (H2 d Hd) Hs) as Hf.
  destruct st as [i f n|i f w|w]; cbn [said]; [exact (field_usable HE Hf)|exact (field_usable HE (proj2 Hf))|destruct Hf].
Qed.
Lemma py_occ cs d f w : Forall py_like cs -> In (d, f, w) (occ cs) -> field_word E f /\ f <> [].
Proof.
  clear. intros H Hin. unfold occ, occs, indexed in Hin. apply in_flat_map in Hin as (s & Hs & Hin). destruct s as [|d' f' w'|]; try (destruct Hin; fail). destruct Hin as [[= -> -> ->]|[]].
  apply in_flat_map in Hs as (c & Hc & Hs). rewrite Forall_forall in H. specialize (H c Hc). destruct c as [cp| | | |]; try (destruct Hs; fail). destruct H as [_ H].
  assert (Hne : f <> []) by (eapply told_field; [|exact Hs]; apply led_flat, led_plan). apply told_in in Hs. apply in_flat_map in Hs as (D & HD & Hs).
  rewrite Forall_forall in H. destruct (plan_words (H D HD) Hs) as [A _]. now split.
Qed.
Lemma py_prices cs : Forall py_like cs -> ends_ok cs -> default_like (price_calls cs).
Proof.
  clear. intros H He. unfold default_like, price_calls. rewrite Forall_forall in *. intros e Hin. apply in_flat_map in Hin as (c & Hc & Hin). pose proof (H c Hc) as Hl.
  destruct c as [|e'| | |]; try (destruct Hin; fail). destruct Hin as [<-|[]]. destruct Hl as [-> |[-> |[-> |[v ->]]]]; cbn; (split; [|exact I]); try exact I. now apply He.
Qed.
Lemma py_equal cs : Forall py_like cs -> getInsertionError (prices_after cs) = getDeletionError (prices_after cs).
Proof.
  clear. intros H. rewrite prices_calls. assert (Hp : Forall (fun e => e = AddStandardErrors latin_groups greek_groups \/ e = SetSubstringMode \/ e = ClearErrors \/ exists v, e = SetEndDeletionError v) (price_calls cs)).
  { unfold price_calls. rewrite Forall_forall in *. intros e He. apply in_flat_map in He as (c & Hc & He). specialize (H c Hc). destruct c as [|e'| | |]; try (destruct He; fail). destruct He as [<-|[]]. exact H. }
  destruct (getters_spec (price_calls cs) 0) as (-> & -> & _). unfold scalars_after.
  assert (G : forall s, s_ins s = s_del s -> s_ins (fold_left (fun s c => set_scalar c s) (price_calls cs) s) = s_del (fold_left (fun s c => set_scalar c s) (price_calls cs) s)).
  { revert Hp. generalize (price_calls cs). clear. intros l Hl. induction Hl as [|e l He Hl IH]; intros s Hs; [exact Hs|]. cbn [fold_left]. apply IH. destruct He as [-> |[-> |[-> |[v ->]]]]; exact Hs. }
  now apply G.
Qed.
Lemma py_setup cs : env_ok E -> lower_ok E -> Forall py_like cs -> ends_ok cs -> (forall f x, In (f, x) (weight_calls cs) -> good_weight x) -> N.of_nat (length (occ cs)) + 1 < 9007199254740992 -> sound_setup E cs.
Proof.
  clear HF HW. intros HEo HE HL He Hw Ho. constructor; [exact HEo|eapply Forall_impl; [|exact HL]; intros c; exact (@py_clean c HE)| |right; exact (py_equal HL)|exact Hw| |exact Ho].
  - rewrite prices_calls. apply (default_prices (py_prices HL He)).
  - intros d f w Hin. destruct (py_occ HL Hin) as (Hf & Hne). exact (field_constructible HE Hf Hne).
Qed.
Lemma py_query cs q : lower_ok E -> Forall py_like cs -> ends_ok cs -> Forall (text_word E) q -> moderate cs q -> sound_query cs q.
Proof.
  clear HF HW. intros HE HL He Hq [M1 M2]. split.
  - eapply Forall_impl; [|exact Hq]. intros w Hw. exact (proj1 (proj2 (text_insertable HE Hw))).
  - rewrite Forall_forall in *. intros w Hw. rewrite prices_calls. apply (default_prices (py_prices (proj2 (Forall_forall _ _) HL) He)).
    specialize (M1 w Hw). assert (longest (map (fun x : N * word * word => (snd x, 0%N)) (occ cs)) <= N.to_nat 10000000)%nat.
    { apply longest_below. intros op Hop. apply in_map_iff in Hop as ([[d f] w'] & <- & Hin). cbn. specialize (M2 _ _ _ Hin). lia. }
    lia.
Qed.
Lemma py_search b prog s n m cs t r q : env_ok E -> lower_ok E -> Forall (fun x => py_text (fst x)) prog -> py_reached E W prog s -> matcher_var s n m ->
  py_history E W n prog py_start cs -> py_calm E cs m -> valid_utf8 t -> before_nul t r -> splitToWords E r = Ok q -> moderate cs q ->
  exists res view, makes E W b s (match_ n (Utf8 t)) (Holds (OResults res)) /\ shows res view /\ ranked view /\
    forall d, (exists x, In (x, d) view) <-> exists f w qw err, In (d, f, w) (occ cs) /\ In qw q /\ near (prices_after cs) sp_new qw w err.
Proof.
  intros HEo HE HT [rs Hr] Hm Hh (HH & He & Hw & Ho) Ht Hn Hq HM. pose proof (history_like good_start words_start HT Hr Hh) as HL.
  pose proof (py_setup HEo HE HL He Hw Ho) as SS. pose proof (py_query HE HL He (split_words (byte_text (valid_bytes Ht) Hn) Hq) HM) as SQ.
  destruct (MatchT.the_log SS HH) as [l HI]. destruct (@MatchW.match_plain E cs m l q sp_new HI SS SQ) as (res & Hmr & _); [repeat constructor|discriminate|].
  destruct (match_finds_default SS SQ HH (py_prices HL He) Hmr) as (view & Hv & Hiff). exists res, view.
  destruct (@match_ranked_le E cs m q sp_new m res SS SQ HH) as (v2 & Hv2 & Hk & _); [repeat constructor|exact Hmr|].
  rewrite (MatchT.shows_unique Hv2 Hv) in *. split; [|split; [exact Hv|split; [exact Hk|exact Hiff]]].
  assert (Hu : mt_match_utf8 E r sp_new m = (m, Ok res)) by (unfold mt_match_utf8, reads, mbind; cbn [fst snd]; now rewrite Hq).
  pose proof (matcher_match E W b Hm Hn) as HC. cbv zeta in HC. rewrite Hu in HC. cbn [fst snd] in HC. rewrite (now_same (proj2 Hm)) in HC. exact HC.
Qed.
Lemma py_safe b prog s c : env_ok E -> lower_ok E -> Forall (fun x => py_text (fst x)) prog -> py_reached E W prog s -> py_text c -> py_prepared E W prog s c ->
  exists s' r, py_do E W b c s = (s', Ok r).
Proof.
  intros HEo HE HT HR Hc [HS HP]. pose proof (reached_good HF HW HR) as HG. apply (safe_call HF HW b HE HG HS).
  - intros ->. now apply HP.
  - intros k ->. now apply HP.
  - destruct c; cbn [method_defined py_text] in *; try exact I.
    + intros v Hv. destruct (strings HE HT HR Hv) as (cs & Hs & Hcs & -> & _). destruct (round_trip HE Hs Hcs) as (v & _ & -> & Ha). now rewrite (Ha (HP _ Hv)).
    + intros x y _ _. exact I.
    + intros x Hx _. destruct (HP _ Hx) as [view [_ Hv]]. destruct (Hv (Z.to_N i)) as (r' & -> & _). cbn [snd]. destruct (nth_error view _); exact I.
    + intros x Hx _. destruct (HP _ Hx) as [view [_ Hv]]. destruct (Hv (Z.to_N i)) as (r' & _ & ->). cbn [snd]. destruct (nth_error view _); exact I.
    + intros m' cp Hm Hcp. destruct HR as [rs Hr]. destruct (py_as_cpp HF HW (ex_intro _ rs Hr) (proj2 Hm)) as [[cs Hcs] _]. pose proof (HP _ _ Hm Hcs) as HH.
      pose proof (history_like good_start words_start HT Hr Hcs) as HL. assert (Hcl : Forall clean cs) by (eapply Forall_impl; [|exact HL]; intros mc; exact (@py_clean mc HE)).
      destruct (MatchQ.history_HI HEo Hcl HH) as [l HL2]. destruct (MatchV.history_li HH) as [li0 Hli]. pose proof (run_words good_start words_start HT Hr) as HA.
      destruct (mt_index E cp m') as [m2 o] eqn:Hmi. cbn [snd]. apply safe_defined. apply (@expected_safe (MIndex cp)).
      apply (@call_safe E li0 _ (MIndex cp) m' l m2 o Hli HL2); [apply (@py_clean (MIndex cp) HE); split; [exact (g_fine HG (proj2 Hcp))|exact (HA _ _ (proj2 Hcp))]|exact I|exact I|exact Hmi].
    + destruct s0 as [t| |]; try exact I. intros m' r Hm Ht. destruct (py_as_cpp HF HW HR (proj2 Hm)) as [[cs Hcs] _]. destruct (split_safe r HE) as [[q Hq]|[x Hq]]; [|unfold mt_match_utf8, reads, mbind; cbn [fst snd]; now rewrite Hq].
      destruct (HP _ _ _ _ Hm Hcs Ht Hq) as [HC HM]. destruct (py_search b HEo HE HT HR Hm Hcs HC Hc Ht Hq HM) as (res & view & Hmk & _). pose proof (matcher_match E W b Hm Ht) as HX. cbv zeta in HX.
      destruct (snd (mt_match_utf8 E r sp_new m')); try exact I; unfold makes in Hmk; rewrite Hmk in HX; discriminate HX.
Qed.
Lemma py_results b s k res view : results_var s k res -> shows res view ->
  gives E W b s (len_results k) (VInt (Z.of_nat (length view))) /\
  forall i, size_ok i -> exists res', shows res' view /\ let s' := now_holds k (OResults res') s in
    py_do E W b (get_document_id k i) s = (s', Ok (match nth_error view (Z.to_nat i) with Some x => Returns (VInt (Z.of_N (snd x))) | None => Raises PyIndexError end)) /\
    py_do E W b (get_relevancy k i) s = (s', Ok (match nth_error view (Z.to_nat i) with Some x => Returns (VFloat (fst x)) | None => Raises PyIndexError end)).
Proof.
  clear HF HW. intros Hr Hv. split.
  - pose proof (results_len E W b Hr) as H. rewrite (proj1 Hv) in H. unfold gives in *. rewrite H. now rewrite nat_N_Z.
  - intros i Hi. pose proof (proj2 Hv (Z.to_N i)) as (r' & H1 & H2). exists r'. split; [exact (shows_kept Hv H1)|]. cbv zeta. rewrite (results_id E W b Hr Hi), (results_rel E W b Hr Hi). cbv zeta. rewrite H1, H2. cbn [fst snd].
    rewrite Z_N_nat. destruct (nth_error view (Z.to_nat i)); split; reflexivity.
Qed.
End Words.
