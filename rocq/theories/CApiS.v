(** The C interface: searching and safety. *)
From Verif Require Import Base TrieM WordStoreM ErrorValuesM LevIndexM WordM MapM DoubleM ContM MatcherM DataFileM CApiM
  Spec_Hist Spec_EV Spec_Word Spec_Cont Spec_Edit Spec_Lev Spec_Match Spec_File Spec_CApi WordP SplitP MapP ContP DataP EVR ScalarP TypoP MatchY MatchZ CApiP CApiQ CApiR.
From Coq Require Import ZifyBool ZifyN ZifyNat.
Local Open Scope N_scope.
Local Open Scope m_scope.

(** ** A word comes after its field *)
Definition led (l : list step) : Prop := forall a d f w b, l = a ++ SWord d f w :: b -> exists n, In (SField d f n) a.
Lemma led_app l1 l2 : led l1 -> led l2 -> led (l1 ++ l2).
Proof.
  intros H1 H2 a d f w b He. destruct (app_eq_app _ _ _ _ He) as (l & [[-> Hb]|[-> Hb]]).
  - destruct l as [|s l]; [cbn in Hb|].
    + destruct (H2 [] d f w b) as (n & []). now rewrite <- Hb.
    + cbn in Hb. injection Hb as <- ->. exact (H1 a d f w l eq_refl).
  - destruct (H2 l d f w b Hb) as (n & Hn). exists n. apply in_app_iff. now right.
Qed.
Lemma led_text d f t n : led (SField d f n :: map (SWord d f) t).
Proof.
  intros a d' f' w b He. destruct a as [|s a]; [discriminate|]. cbn in He. injection He as <- He. exists n. left.
  assert (Hin : In (SWord d' f' w) (map (SWord d f) t)) by (rewrite He; apply in_app_iff; right; now left).
  apply in_map_iff in Hin as (w' & [= <- <- <-] & _). reflexivity.
Qed.
Lemma led_flat A (g : A -> list step) l : (forall x, led (g x)) -> led (flat_map g l).
Proof. intros H. induction l as [|x l IH]; [intros a d f w b He; destruct a; discriminate|]. cbn. now apply led_app. Qed.
Lemma led_plan d : led (plan_doc d).
Proof.
  apply led_flat. intros f. destruct (doc_getText d f); try (intros a d' f' w b He; destruct a; discriminate). apply led_text.
Qed.
Lemma told_prefix l : exists r, l = told l ++ r /\ Forall (fun s => said s <> []) (told l).
Proof.
  induction l as [|s l (r & IH & HF)]; [exists []; split; [reflexivity|constructor]|]. cbn [told]. destruct (said s) eqn:Hs; [exists (s :: l); split; [reflexivity|constructor]|].
  exists r. cbn. split; [now rewrite <- IH|]. constructor; [congruence|exact HF].
Qed.
Lemma told_field l d f w : led l -> In (SWord d f w) (told l) -> f <> [].
Proof.
  intros HL Hin. destruct (told_prefix l) as (r & Hl & HF). apply in_split in Hin as (a & b & Hab).
  destruct (HL a d f w (b ++ r)) as (n & Hn); [rewrite Hl, Hab, <- app_assoc; reflexivity|].
  rewrite Forall_forall in HF. apply (HF (SField d f n)). rewrite Hab. apply in_app_iff. now left.
Qed.
Lemma told_in l s : In s (told l) -> In s l.
Proof. destruct (told_prefix l) as (r & Hl & _). intros H. rewrite Hl. apply in_app_iff. now left. Qed.

Section Sound.
Variables (E : env).
Hypothesis HE : lower_ok E.
Lemma fine_text d f t : doc_fine E d -> doc_getText d f = Ok t -> field_word E f /\ Forall (text_word E) t.
Proof.
  intros [Hd Ht] Hg. unfold doc_getText in Hg. destruct (mp_find wltb f (d_texts d)) as [t'|] eqn:Hf; [|discriminate]. injection Hg as ->.
  apply (find_in wltb_order) in Hf; [|now apply doc_sorted]. rewrite Forall_forall in Ht. exact (Ht _ Hf).
Qed.
Lemma fine_plan d s : doc_fine E d -> In s (plan_doc d) ->
  match s with SField _ f _ => field_word E f | SWord _ f w => field_word E f /\ text_word E w | SName _ => False end.
Proof.
  intros Hd Hin. unfold plan_doc in Hin. apply in_flat_map in Hin as (f & _ & Hin). destruct (doc_getText d f) as [t| | | |] eqn:Ht; try (destruct Hin; fail).
  destruct (fine_text Hd Ht) as [Hf Hw]. destruct Hin as [<-|Hin]; [exact Hf|]. apply in_map_iff in Hin as (w & <- & Hin). split; [exact Hf|]. rewrite Forall_forall in Hw. now apply Hw.
Qed.
Lemma like_clean c : c_like E c -> clean c.
Proof.
  destruct c as [cp|e|f x|q p|q f]; cbn [c_like clean]; auto; [|intros [-> _]; repeat constructor|intros []].
  intros H. split; [eapply Forall_impl; [|exact H]; now intros d [Hd _]|]. rewrite Forall_forall in *. intros s Hs. apply in_flat_map in Hs as (d & Hd & Hs).
  pose proof (fine_plan (H d Hd) Hs) as Hf. destruct s as [i f n|i f w|w]; cbn [said]; [|destruct Hf as [_ Hf]|destruct Hf].
  - exact (field_usable HE Hf).
  - right. exact (text_insertable HE Hf).
Qed.
Lemma like_occ cs d f w : Forall (c_like E) cs -> In (d, f, w) (occ cs) -> field_word E f /\ f <> [] /\ text_word E w.
Proof.
  intros H Hin. unfold occ, occs, indexed in Hin. apply in_flat_map in Hin as (s & Hs & Hin). destruct s as [|d' f' w'|]; try (destruct Hin; fail). destruct Hin as [[= -> -> ->]|[]].
  apply in_flat_map in Hs as (c & Hc & Hs). rewrite Forall_forall in H. specialize (H c Hc). destruct c as [cp| | | |]; try (destruct Hs; fail). cbn [c_like] in H.
  assert (Hne : f <> []) by (eapply told_field; [|exact Hs]; apply led_flat, led_plan). apply told_in in Hs. apply in_flat_map in Hs as (D & HD & Hs).
  rewrite Forall_forall in H. destruct (fine_plan (H D HD) Hs) as [A B]. now split.
Qed.
Lemma like_prices cs : Forall (c_like E) cs -> default_like (price_calls cs).
Proof.
  intros H. unfold default_like, price_calls. rewrite Forall_forall in *. intros e He. apply in_flat_map in He as (c & Hc & He). specialize (H c Hc).
  destruct c as [|e'| | |]; try (destruct He; fail). destruct He as [<-|[]]. destruct H as [-> | [-> | ->]]; cbn; split; exact I.
Qed.
Lemma like_equal cs : Forall (c_like E) cs -> getInsertionError (prices_after cs) = getDeletionError (prices_after cs).
Proof.
  intros H. rewrite prices_calls. assert (Hp : Forall (fun e => e = AddStandardErrors latin_groups greek_groups \/ e = SetSubstringMode \/ e = AddNumberpadErrors) (price_calls cs)).
  { unfold price_calls. rewrite Forall_forall in *. intros e He. apply in_flat_map in He as (c & Hc & He). specialize (H c Hc). destruct c as [|e'| | |]; try (destruct He; fail). destruct He as [<-|[]]. exact H. }
  destruct (getters_spec (price_calls cs) 0) as (-> & -> & _). unfold scalars_after.
  assert (G : forall s, s_ins s = s_del s -> s_ins (fold_left (fun s c => set_scalar c s) (price_calls cs) s) = s_del (fold_left (fun s c => set_scalar c s) (price_calls cs) s)).
  { revert Hp. generalize (price_calls cs). clear. intros l Hl. induction Hl as [|e l He Hl IH]; intros s Hs; [exact Hs|]. cbn [fold_left]. apply IH. destruct He as [-> | [-> | ->]]; exact Hs. }
  now apply G.
Qed.
Lemma like_setup cs m : env_ok E -> Forall (c_like E) cs -> (forall f x, In (f, x) (weight_calls cs) -> good_weight x) -> N.of_nat (length (occ cs)) + 1 < 9007199254740992 ->
  history E cs m -> sound_setup E cs.
Proof.
  intros HEo HL Hw Ho _. constructor; [exact HEo|eapply Forall_impl; [|exact HL]; exact like_clean| |right; exact (like_equal HL)|exact Hw| |exact Ho].
  - rewrite prices_calls. apply (default_prices (like_prices HL)).
  - intros d f w Hin. destruct (like_occ HL Hin) as (Hf & Hne & _). exact (field_constructible HE Hf Hne).
Qed.
Lemma longest_below ops n : (forall op, In op ops -> (length (fst op) <= n)%nat) -> (longest ops <= n)%nat.
Proof.
  induction ops as [|op ops IH]; intros H; cbn; [lia|]. pose proof (H op (or_introl eq_refl)). assert (longest ops <= n)%nat by (apply IH; intros x Hx; apply H; now right). unfold longest in *. lia.
Qed.
Lemma like_query cs q : Forall (c_like E) cs -> Forall (text_word E) q -> moderate cs q -> sound_query cs q.
Proof.
  intros HL Hq [M1 M2]. split.
  - eapply Forall_impl; [|exact Hq]. intros w Hw. exact (proj1 (proj2 (text_insertable HE Hw))).
  - rewrite Forall_forall in *. intros w Hw. rewrite prices_calls. apply (default_prices (like_prices (proj2 (Forall_forall _ _) HL))).
    specialize (M1 w Hw). assert (longest (map (fun x : N * word * word => (snd x, 0%N)) (occ cs)) <= N.to_nat 10000000)%nat.
    { apply longest_below. intros op Hop. apply in_map_iff in Hop as ([[d f] w'] & <- & Hin). cbn. specialize (M2 _ _ _ Hin). lia. }
    lia.
Qed.
End Sound.

(** ** Searching *)
Lemma shows_kept r view k r' o : shows r view -> mr_getDocumentID k r = (r', o) -> shows r' view.
Proof.
  intros [S G] H. destruct (G k) as (r1 & Hr1 & _). rewrite H in Hr1. injection Hr1 as -> Ho. unfold mr_getDocumentID, mr_get, mbind at 1 in H.
  destruct (N.of_nat (length (mr_results r)) <=? k) eqn:Hk; [injection H as <- _; now split|].
  unfold mr_sortIfRequired, mbind in H. destruct (mr_sorted r) eqn:Hs.
  { unfold reads, ret in H. cbn [fst snd] in H. destruct (nth_error (mr_results r) (N.to_nat k)) as [x|]; injection H as <- _; now split. }
  destruct (existsb (fun x => is_nan (fst x)) (mr_results r) && Nat.ltb 1 (length (mr_results r)))%bool eqn:Hn.
  { injection H as _ <-. destruct (nth_error view (N.to_nat k)); discriminate. }
  set (r2 := mkMR (rev (stable_sort (rev (mr_results r)))) true) in *. assert (Hr' : r1 = r2) by (unfold reads, ret in H; cbn [fst snd] in H; destruct (nth_error (mr_results r2) (N.to_nat k)) as [x|]; now injection H).
  assert (Hlen : length (mr_results r2) = length (mr_results r)).
  { unfold r2. cbn [mr_results]. rewrite rev_length. etransitivity; [|apply rev_length]. clear. generalize (rev (mr_results r)). intros l.
    unfold stable_sort. induction l as [|x l IH]; [reflexivity|]. cbn [fold_right length]. rewrite <- IH. generalize (fold_right ss_insert [] l). clear. intros l. induction l as [|y l IH]; [reflexivity|]. cbn. destruct (d_lt (fst y) (fst x)); cbn; congruence. }
  rewrite Hr' in *. split; [unfold mr_size in *; rewrite Hlen; exact S|]. intros j. exists r2. destruct (G j) as (r3 & A & B).
  assert (Hget : forall B (g : double * N -> B), (x <- mr_get j ;; ret (g x)) r2 = (r2, snd ((x <- mr_get j ;; ret (g x)) r))).
  { intros X g. unfold mr_get, mbind. rewrite Hlen. destruct (N.of_nat (length (mr_results r)) <=? j); [reflexivity|]. unfold mr_sortIfRequired at 1. cbn [mr_sorted r2]. unfold mr_sortIfRequired. rewrite Hs, Hn. fold r2.
    unfold reads. cbn [fst snd]. destruct (nth_error (mr_results r2) (N.to_nat j)); reflexivity. }
  unfold mr_getDocumentID, mr_getRelevancy in *. split; rewrite Hget; f_equal; [now rewrite A|now rewrite B].
Qed.
Lemma read_results E W h n r view : live h n (OResults r) -> shows r view ->
  only_says E W h (col_match_results_size (PAt n)) (VSize (N.of_nat (length view))) /\
  forall i, exists r', shows r' view /\ only n (Some (OResults r')) h (fst (c_do E W (col_match_results_get_id (PAt n) i) h)) /\
    snd (c_do E W (col_match_results_get_id (PAt n) i) h) =
      Ok (VDocID (match nth_error view (N.to_nat i) with Some x => snd x | None => INVALID_DOCID end)).
Proof.
  intros Hl Hv. split; [rewrite <- (proj1 Hv); exact (results_size E W Hl)|]. intros i. exists (fst (mr_getDocumentID i r)).
  destruct (results_id E W i Hl) as [Ho Hr]. split; [|split; [exact Ho|]].
  - destruct (mr_getDocumentID i r) as [r' o] eqn:Hg. exact (shows_kept Hv Hg).
  - destruct Hv as [_ G]. destruct (G i) as (r' & A & _). rewrite A in Hr. cbn [snd] in Hr. destruct (nth_error view (N.to_nat i)) as [x|]; exact Hr.
Qed.
Lemma c_search E W calls h n m s q : env_ok E -> lower_ok E -> folds_shipped E -> shipped W -> Forall c_strings calls -> c_reached E W calls h ->
  live h n (OMatcher m) -> calm E W calls n m -> c_text s -> splitToWords E s = Ok q -> let cs := cpp_history E W calls [] n in moderate cs q ->
  exists r view, creates E W h (col_matcher_match (PAt n) s) (OResults r) /\ shows r view /\ ranked view /\
    forall d, (exists x, In (x, d) view) <-> exists f w qw err, In (d, f, w) (occ cs) /\ In qw q /\ near (prices_after cs) sp_new qw w err.
Proof.
  intros HEo HE HF HW Hs Hr Hl (HH & Hw & Ho) Ht Hq cs HM. fold cs in HH, Hw, Ho. destruct (obj_live (reached_inv HF HW Hs Hr) Hl) as [_ HL]. fold cs in HL.
  pose proof (like_setup HE HEo HL Hw Ho HH) as SS. pose proof (like_query HE HL (split_words Ht Hq) HM) as SQ.
  destruct (MatchT.the_log SS HH) as [l HI]. destruct (@MatchW.match_plain E cs m l q sp_new HI SS SQ) as (r & Hmr & _); [repeat constructor|discriminate|].
  destruct (match_finds_default SS SQ HH (like_prices HL) Hmr) as (view & Hv & Hiff). exists r, view.
  destruct (@match_ranked_le E cs m q sp_new m r SS SQ HH) as (v2 & Hv2 & Hk & _); [repeat constructor|exact Hmr|].
  rewrite (MatchT.shows_unique Hv2 Hv) in *. split; [|split; [exact Hv|split; [exact Hk|exact Hiff]]].
  assert (Hu : mt_match_utf8 E s sp_new m = (m, Ok r)) by (unfold mt_match_utf8, reads, mbind; cbn [fst snd]; now rewrite Hq).
  pose proof (match_call E W s Hl) as HC. cbv zeta in HC. rewrite Hu in HC. destruct HC as (A & B & C & D). split; [|exact D]. split; [exact B|].
  intros k Hk2. destruct (Nat.eq_dec k n) as [->|Hn]; [rewrite A; symmetry; exact Hl|now apply C].
Qed.

(** ** Safety *)
Lemma word_safe E s : lower_ok E -> (exists w, word_of_utf8 E s = Ok w) \/ exists x, word_of_utf8 E s = Throw x.
Proof.
  intros HE. destruct (valid_dec s) as [(cs & Hs & ->)|Hn]; [|right; exists ERuntime; now apply word_invalid].
  destruct (blank_dec cs) as [Hb|Hb]; [left; eexists; now apply word_valid|right; eexists; now apply word_blank].
Qed.
Lemma all_safe E runs : lower_ok E -> (exists q, all_of (word_of_utf8 E) runs = Ok q) \/ exists x, all_of (word_of_utf8 E) runs = Throw x.
Proof.
  intros HE. induction runs as [|r runs IH]; [left; now exists []|]. cbn [all_of]. destruct (word_safe r HE) as [(w & ->)|(x & ->)]; cbn [obind]; [|right; now exists x].
  destruct IH as [(q & ->)|(x & ->)]; cbn [obind]; [left; now exists (w :: q)|right; now exists x].
Qed.
Lemma split_safe E s : lower_ok E -> (exists q, splitToWords E s = Ok q) \/ exists x, splitToWords E s = Throw x.
Proof. intros HE. destruct (cut_ws_exists s) as [runs Hc]. rewrite (split_ws E Hc). now apply all_safe. Qed.
Lemma new_safe E : (exists m, mt_new E = Ok m) \/ exists x, mt_new E = Throw x.
Proof.
  unfold mt_new, ws_new. destruct (grow_ok E 1024) eqn:Hg; [destruct (TrieP2.trie_new_spec Hg) as (t & -> & _); cbn; eauto|].
  unfold trie_new. rewrite Hg. cbn. eauto.
Qed.
Lemma relay_safe S A c n (wrap : S -> obj) s' (o : outcome A) f h r : relays c n wrap s' o f h r -> (exists a, o = Ok a) \/ (exists x, o = Throw x) -> exists v, snd r = Ok v.
Proof. intros [_ H] [(a & ->)|(x & ->)]; eauto. Qed.
Lemma expected_safe c o : expected c o -> (exists a, o = Ok a) \/ (exists x, o = Throw x).
Proof. destruct c; cbn [expected]; intros H; repeat match goal with H : _ \/ _ |- _ => destruct H as [H|H] | H : _ /\ _ |- _ => destruct H as [H _] end; subst; eauto. Qed.
Ltac gives := cbn; first [eexists; reflexivity|eauto].
Lemma c_safe E W calls h c : env_ok E -> lower_ok E -> folds_shipped E -> shipped W -> Forall c_strings calls -> c_reached E W calls h ->
  handles_ok c h -> c_strings c -> prepared E W calls h c -> exists v, snd (c_do E W c h) = Ok v.
Proof.
  intros HEo HE HF HW Hs Hr Hh Hc Hp. pose proof (reached_inv HF HW Hs Hr) as HI.
  assert (Hdel : forall p, (exists n o, p = PAt n /\ live h n o /\ match o with OWord _ => col_word_delete (PAt n) | ODoc _ => col_document_delete (PAt n) | OMatcher _ => col_matcher_delete (PAt n)
  | OResults _ => col_match_results_delete (PAt n) | OCorpus _ => col_corpus_delete (PAt n) end = c) -> exists v, snd (c_do E W c h) = Ok v).
  { intros p (n & o & -> & Hl & Hx). rewrite (deletes_done E W Hl Hx). gives. }
  destruct c; cbn [handles_ok c_strings prepared] in *.
  - pose proof (word_new E W h utf8_word) as H. destruct (word_safe utf8_word HE) as [(w & Hw)|(x & Hw)]; rewrite Hw in H; [destruct H as [_ H]|]; rewrite H; gives.
  - destruct Hh as [->|(n & w' & -> & Hl)]; [now eexists|]. apply (Hdel (PAt n)). exists n, (OWord w'). auto.
  - destruct Hh as (n & w' & -> & Hl). rewrite (word_length E W Hl). gives.
  - destruct Hh as (n & w' & -> & Hl). destruct (obj_live HI Hl) as (s & Hst & Hw). destruct (word_inv HE Hw) as (cs & Hcs & -> & _ & ->).
    pose proof (fold_scalars HE Hcs) as Hf. specialize (Hp _ Hf Hl). pose proof (word_utf8 E W bufSize Hl) as H. rewrite (toUtf8_letters bufSize Hf) in H.
    destruct (bufSize <? N.of_nat (length (bytes_of (map (fold E) cs)))); [rewrite H; gives|].
    destruct (N.eqb_spec bufSize (N.of_nat (length (bytes_of (map (fold E) cs))))); [contradiction|]. rewrite H. gives.
  - destruct (document_new E W h id) as [_ ->]. gives.
  - destruct Hh as [->|(n & w' & -> & Hl)]; [now eexists|]. apply (Hdel (PAt n)). exists n, (ODoc w'). auto.
  - destruct Hh as (n & w' & -> & Hl). rewrite (document_id E W Hl). gives.
  - destruct Hh as [(n & d & -> & Hl) (j & f & -> & Hj)]. eapply relay_safe; [exact (add_text E W text_as_utf8 Hl Hj)|].
    unfold doc_addText_utf8, reads, mbind. cbn [fst snd]. destruct (split_safe text_as_utf8 HE) as [(q & ->)|(x & ->)]; cbn; gives.
  - pose proof (matcher_new E W h) as H. destruct (new_safe E) as [(m & Hm)|(x & Hm)]; rewrite Hm in H; [destruct H as [_ H]|]; rewrite H; gives.
  - destruct Hh as [->|(n & w' & -> & Hl)]; [now eexists|]. apply (Hdel (PAt n)). exists n, (OMatcher w'). auto.
  - destruct Hh as [(n & m' & -> & Hl) (j & cp & -> & Hj)]. eapply relay_safe; [exact (index_call E W Hl Hj)|].
    destruct (obj_live HI Hl) as [_ HL]. pose proof (obj_live HI Hj) as Hcp. specialize (Hp _ Hl).
    assert (Hcl : Forall clean (cpp_history E W calls [] n)) by (eapply Forall_impl; [|exact HL]; exact (@like_clean E HE)).
    destruct (MatchQ.history_HI HEo Hcl Hp) as [l HL2]. destruct (MatchV.history_li Hp) as [li0 Hli].
    destruct (mt_index E cp m') as [m2 o] eqn:Hm. cbn [snd]. apply (@expected_safe (MIndex cp)). apply (@call_safe E li0 _ (MIndex cp) m' l m2 o Hli HL2); [exact (@like_clean E HE (MIndex cp) Hcp)|exact I|exact I|exact Hm].
  - destruct Hh as (n & m' & -> & Hl). destruct (Hp _ Hl) as [Hcalm HM]. destruct (split_safe query_as_utf8 HE) as [(q & Hq)|(x & Hq)].
    + destruct (c_search HEo HE HF HW Hs Hr Hl Hcalm Hc Hq (HM _ Hq)) as (r & view & [_ ->] & _). gives.
    + pose proof (match_call E W query_as_utf8 Hl) as H. cbv zeta in H.
      assert (Hu : mt_match_utf8 E query_as_utf8 sp_new m' = (m', Throw x)) by (unfold mt_match_utf8, reads, mbind; cbn [fst snd]; now rewrite Hq). rewrite Hu in H. destruct H as [_ ->]. gives.
  - destruct Hh as (n & m' & -> & Hl). rewrite (proj1 (members E W Hl)). gives.
  - destruct Hh as (n & m' & -> & Hl). rewrite (proj2 (members E W Hl)). gives.
  - destruct (results_new E W h) as [_ ->]. gives.
  - destruct Hh as [->|(n & w' & -> & Hl)]; [now eexists|]. apply (Hdel (PAt n)). exists n, (OResults w'). auto.
  - destruct Hh as (n & r & -> & Hl). rewrite (results_size E W Hl). gives.
  - destruct Hh as (n & r & -> & Hl). destruct (Hp _ Hl) as [view Hv]. destruct (proj2 (read_results E W Hl Hv) i) as (r' & _ & _ & ->). gives.
  - destruct Hh as (n & r & -> & Hl). destruct (Hp _ Hl) as [view [_ Hv]]. destruct (Hv i) as (r' & Hg & _). eapply relay_safe; [exact (results_relevancy E W i Hl)|]. rewrite Hg. cbn [snd].
    destruct (nth_error view (N.to_nat i)); gives.
  - destruct (corpus_new E W h) as [_ ->]. gives.
  - destruct Hh as [->|(n & w' & -> & Hl)]; [now eexists|]. apply (Hdel (PAt n)). exists n, (OCorpus w'). auto.
  - destruct Hh as [(n & cp & -> & Hl) (j & d' & -> & Hj)]. eapply relay_safe; [exact (add_document E W Hl Hj)|]. cbn. gives.
  - destruct Hh as (n & m' & -> & Hl). eapply relay_safe; [exact (standard E W Hl)|]. unfold on_ev. rewrite (shipped_standard (mt_ev m') HF HW).
    pose proof (ev_safe (AddStandardErrors latin_groups greek_groups) (mt_ev m')) as Hx. destruct (ev_do (AddStandardErrors latin_groups greek_groups) (mt_ev m')) as [e o]. cbn [snd] in *. destruct Hx as [-> | ->]; gives.
  - destruct Hh as (n & m' & -> & Hl). eapply relay_safe; [exact (substring E W Hl eq_refl)|]. cbn. gives.
  - destruct Hh as [(n & m' & -> & Hl) (j & f & -> & Hj)]. eapply relay_safe; [exact (set_weight E W new_weight Hl Hj)|]. cbn. gives.
  - destruct Hh as [(n & m' & -> & Hl) (j & f & -> & Hj)]. rewrite (get_weight E W Hl Hj). gives.
Qed.
