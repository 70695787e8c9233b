(** The graphical programs: items and their rows. *)
From Verif Require Import Base TrieM WordStoreM ErrorValuesM LevIndexM WordM MapM DoubleM ContM DataFileM QIndexM MatcherM CApiM AppM
  Spec_Hist Spec_EV Spec_Cont Spec_Edit Spec_Lev Spec_Match Spec_File Spec_CApi Spec_Tool Spec_Room Spec_Word Spec_App
  WordP SplitP MapP ContP DataP EVR ScalarP TypoP WordStoreP MatchP MatchU MatchV MatchY MatchZ CApiP CApiQ CApiS MatchG QIndexP AppP AppQ AppR.
From Coq Require Import ZifyBool ZifyN ZifyNat.
From Verif Require Import Spec_Word Spec_App.
Local Open Scope N_scope.
Local Open Scope m_scope.

(** ** Texts *)
Lemma plain_bytes cs : plain cs -> c_text (bytes_of cs).
Proof.
  intros [Hs Hn]. unfold c_text. rewrite Forall_forall. intros b Hb. assert (b <> 0).
  { pose proof (@bytes_nonnul cs) as H. rewrite !Forall_forall in H. apply H; [|exact Hb]. intros c Hc ->. contradiction. }
  enough (b < 256) by lia. unfold bytes_of in Hb. apply in_flat_map in Hb as (c & Hc & Hb). rewrite Forall_forall in Hs. specialize (Hs c Hc). clear - Hs Hb. unfold utf8 in Hb. unfold scalar in Hs.
  destruct (N.ltb_spec c 128); [destruct Hb as [<-|[]]; lia|].
  destruct (N.ltb_spec c 2048); [destruct Hb as [<-|[<-|[]]]; [|pose proof (N.mod_upper_bound c 64)]; try lia; assert (c / 64 < 32) by (apply N.div_lt_upper_bound; lia); lia|].
  destruct (N.ltb_spec c 65536).
  { assert (c / 4096 < 16) by (apply N.div_lt_upper_bound; lia). pose proof (N.mod_upper_bound c 64). pose proof (N.mod_upper_bound (c / 64) 64). destruct Hb as [<-|[<-|[<-|[]]]]; lia. }
  assert (c / 262144 < 8) by (apply N.div_lt_upper_bound; lia). pose proof (N.mod_upper_bound c 64). pose proof (N.mod_upper_bound (c / 64) 64). pose proof (N.mod_upper_bound (c / 4096) 64). destruct Hb as [<-|[<-|[<-|[<-|[]]]]]; lia.
Qed.
Lemma ctext_until s : c_text s -> until_nul s = s.
Proof. intros H. apply until_id. eapply Forall_impl; [|exact H]. cbn. intros; lia. Qed.
Lemma words_split E cs ws : lower_ok E -> Forall scalar cs -> words_in E cs ws <-> splitToWords E (bytes_of cs) = Ok ws.
Proof.
  intros HE Hs. split.
  - intros (runs & Hc & ->). exact (split_valid HE Hs Hc).
  - destruct (cut_ws_exists cs) as [runs Hc]. rewrite (split_valid HE Hs Hc). intros [= <-]. now exists runs.
Qed.
Lemma words_exist E cs : exists ws, words_in E cs ws.
Proof. destruct (cut_ws_exists cs) as [runs Hc]. now exists (map (as_word E) runs), runs. Qed.
Lemma words_unique E cs a b : lower_ok E -> Forall scalar cs -> words_in E cs a -> words_in E cs b -> a = b.
Proof. intros HE Hs Ha Hb. apply (words_split a HE Hs) in Ha. apply (words_split b HE Hs) in Hb. congruence. Qed.
Lemma word_bytes E cs : lower_ok E -> (length (as_word E cs) <= length (bytes_of cs))%nat.
Proof.
  intros HE. unfold as_word. induction cs as [|c cs IH]; [reflexivity|]. cbn [map]. rewrite bytes_cons. change (letters_of (fold E c :: map (fold E) cs)) with (utf16 (fold E c) ++ letters_of (map (fold E) cs)).
  rewrite !app_length. enough (length (utf16 (fold E c)) <= length (utf8 c))%nat by lia. clear IH. unfold fold, utf16, utf8. destruct (N.ltb_spec c 65536) as [H|H].
  - pose proof (lo_range HE H). destruct (N.ltb_spec (e_lower E c) 65536); [|lia]. destruct (c <? 128), (c <? 2048); cbn; lia.
  - destruct (N.ltb_spec c 65536), (N.ltb_spec c 128), (N.ltb_spec c 2048); cbn; lia.
Qed.
Lemma cut_bytes_le cs runs : cut blank cs runs -> (length (bytes_of (concat runs)) <= length (bytes_of cs))%nat.
Proof.
  assert (Ha : forall a b, bytes_of (a ++ b) = bytes_of a ++ bytes_of b) by (intros; apply flat_map_app).
  induction 1 as [g Hg|g r Hg Hr Hn|g r b rest l Hg Hr Hn Hb Hc IH]; cbn [concat].
  - cbn. lia.
  - rewrite app_nil_r, Ha, app_length. lia.
  - rewrite !Ha, !app_length. lia.
Qed.
Lemma words_bytes E cs ws : lower_ok E -> words_in E cs ws -> word_letters ws <= N.of_nat (length (bytes_of cs)).
Proof.
  intros HE (runs & Hc & ->). apply cut_bytes_le in Hc. enough (word_letters (map (as_word E) runs) <= N.of_nat (length (bytes_of (concat runs)))) by lia. clear Hc.
  induction runs as [|r runs IH]; [cbn; lia|]. cbn [map concat]. rewrite MatchP.letters_cons. unfold bytes_of in *. rewrite flat_map_app, app_length. pose proof (word_bytes r HE). unfold bytes_of in H. lia.
Qed.
Lemma words_text E cs ws : lower_ok E -> plain cs -> words_in E cs ws -> Forall (text_word E) ws.
Proof. intros HE Hp Hw. apply (words_split ws HE (proj1 Hp)) in Hw. exact (split_words (plain_bytes Hp) Hw). Qed.
Lemma name_word E n : lower_ok E -> field_name n -> field_word E (as_word E n) /\ as_word E n <> [].
Proof.
  intros HE (Hp & Hne & Hb). pose proof (@word_valid E n HE (proj1 Hp) Hb) as Hw. split.
  - exists (bytes_of n). split; [now apply plain_bytes|exact Hw].
  - unfold as_word. destruct n as [|c n]; [congruence|]. cbn [map]. change (letters_of (fold E c :: map (fold E) n)) with (utf16 (fold E c) ++ letters_of (map (fold E) n)). unfold utf16. destruct (fold E c <? 65536); discriminate.
Qed.

Lemma forall2_impl {A B} (P Q : A -> B -> Prop) l l' : (forall a b, P a b -> Q a b) -> Forall2 P l l' -> Forall2 Q l l'.
Proof. intros H. induction 1; constructor; auto. Qed.

(** ** The document of an item *)
Lemma nodup_last {B} (l : list (word * B)) f t : NoDup (map fst l) -> last_for l f = Some t <-> In (f, t) l.
Proof.
  intros Hn. unfold last_for. rewrite in_rev. assert (Hr : NoDup (map fst (rev l))) by (rewrite map_rev; now apply NoDup_rev). revert Hr. generalize (rev l). clear. intros l. unfold assoc. induction l as [|[k v] l IH]; intros Hn; cbn [find map fst In].
  - split; [discriminate|intros []].
  - cbn [map fst] in Hn. apply NoDup_cons_iff in Hn as [Hk Hn]. destruct (weqb_spec f k) as [->|Hkf].
    + cbn. split; [intros [= ->]; now left|]. intros [[= ->]|Hin]; [reflexivity|]. exfalso. apply Hk. now apply (in_map fst) in Hin.
    + rewrite IH by exact Hn. split; [now right|]. intros [[= -> _]|Hin]; [congruence|exact Hin].
Qed.
Lemma combine_in {A B C} (g : A -> B) (R : A -> C -> Prop) l l' b c : Forall2 R l l' -> In (b, c) (combine (map g l) l') <-> exists a, In (a, c) (combine l l') /\ b = g a.
Proof.
  induction 1 as [|x y l l' Hxy HF IH]; cbn [map combine In]; [split; [intros []|intros (a & [] & _)]|]. rewrite IH. split.
  - intros [[= <- <-]|(a & Ha & ->)]; [exists x; split; [now left|reflexivity]|exists a; split; [now right|reflexivity]].
  - intros (a & [[= <- <-]|Ha] & ->); [now left|right; now exists a].
Qed.
Lemma combine_rel {A C} (R : A -> C -> Prop) l l' a c : Forall2 R l l' -> In (a, c) (combine l l') -> In a l /\ R a c.
Proof. induction 1 as [|x y l l' Hxy HF IH]; cbn [combine In]; [intros []|]. intros [[= -> ->]|H]; [auto|]. apply IH in H as [H1 H2]. auto. Qed.
Lemma combine_some {A C} (R : A -> C -> Prop) l l' a : Forall2 R l l' -> In a l -> exists c, In (a, c) (combine l l').
Proof. induction 1 as [|x y l l' Hxy HF IH]; cbn [combine In]; [intros []|]. intros [->|H]; [exists y; now left|]. destruct (IH H) as [c Hc]. exists c. now right. Qed.
Lemma combine_fst {A B C} (g : A -> B) (R : A -> C -> Prop) l l' : Forall2 R l l' -> map fst (combine (map g l) l') = map g l.
Proof. induction 1 as [|x y l l' Hxy HF IH]; [reflexivity|]. cbn. now rewrite IH. Qed.

Section Items.
Variable E : env.
Hypothesis HE : lower_ok E.
Lemma item_texts i it d f t : plain_item E it -> doc_of E i it d -> In (f, t) (d_texts d) <-> exists n cs, In (n, cs) (fields it) /\ f = as_word E n /\ words_in E cs t.
Proof.
  intros (_ & Hf & Hnd) (wss & H2 & ->). destruct (texts_build i (combine (map (fun x => as_word E (fst x)) (fields it)) wss)) as [_ ->].
  rewrite <- (find_in wltb_order) by apply build_sorted. rewrite build_find, nodup_last by (now rewrite (combine_fst _ H2)). rewrite (combine_in _ _ _ H2). split.
  - intros ([n cs] & Hin & ->). destruct (combine_rel H2 Hin) as [H1 Hw]. now exists n, cs.
  - intros (n & cs & Hin & -> & Hw). destruct (combine_some H2 Hin) as [t' Ht']. destruct (combine_rel H2 Ht') as [_ Hw']. exists (n, cs). split; [|reflexivity].
    rewrite Forall_forall in Hf. destruct (Hf _ Hin) as [_ [Hs _]]. cbn [snd] in *. now rewrite (words_unique HE Hs Hw Hw').
Qed.
Lemma item_id i it d : doc_of E i it d -> d_id d = i.
Proof. intros (wss & _ & ->). apply texts_build. Qed.
Lemma item_good i it d : plain_item E it -> doc_of E i it d -> doc_good E d.
Proof.
  intros Hp Hd. pose proof Hp as (_ & Hf & _). rewrite Forall_forall in Hf. assert (Hdo : doc_ok d) by (destruct Hd as (wss & _ & ->); eexists; eexists; reflexivity). split; [split; [exact Hdo|]|].
  - rewrite Forall_forall. intros [f t] Hin. apply (item_texts f t Hp Hd) in Hin as (n & cs & Hin & -> & Hw). destruct (Hf _ Hin) as [H1 H2]. cbn [fst snd] in *.
    split; [apply (name_word HE H1)|exact (words_text HE H2 Hw)].
  - rewrite Forall_forall. intros [f t] Hin. apply (item_texts f t Hp Hd) in Hin as (n & cs & Hin & -> & Hw). destruct (Hf _ Hin) as [H1 _]. apply (name_word HE H1).
Qed.
Lemma item_small i it d : plain_item E it -> doc_of E i it d -> dsize d <= N.of_nat (item_size it).
Proof.
  intros (_ & Hf & Hnd) (wss & H2 & ->). unfold dsize. destruct (texts_build i (combine (map (fun x => as_word E (fst x)) (fields it)) wss)) as [_ ->].
  set (l := combine (map (fun x => as_word E (fst x)) (fields it)) wss). assert (Hk : NoDup (map fst l)) by (unfold l; now rewrite (combine_fst _ H2)).
  assert (Hp : Permutation (build l) l).
  { apply NoDup_Permutation.
    - assert (NoDup (map fst (build l))) by (apply (sorted_nodup wltb_order), build_sorted). now apply NoDup_map_inv in H.
    - now apply NoDup_map_inv in Hk.
    - intros [f t]. rewrite <- (find_in wltb_order) by apply build_sorted. rewrite build_find. now apply nodup_last. }
  assert (Hl : word_letters (flat_map snd (build l)) = word_letters (flat_map snd l)).
  { clear - Hp. induction Hp as [|x a b _ IH|x y a|a b c _ IH1 _ IH2]; [reflexivity| | |congruence]; cbn [flat_map]; rewrite !word_letters_app; lia. }
  refine (N.le_trans _ _ _ (N.eq_le_incl _ _ Hl) _). unfold l. clear - H2 HE. unfold item_size. induction H2 as [|x ws fs wss Hx HF IH]; [cbn; lia|]. cbn [map combine flat_map concat]. rewrite word_letters_app, app_length.
  cbn [snd] in *. pose proof (words_bytes HE Hx). lia.
Qed.

(** ** All items *)
Lemma corpus_in items docs D : corpus_of E items docs -> In D docs -> exists i it, nth_error items i = Some it /\ nth_error docs i = Some D /\ doc_of E (N.of_nat i) it D.
Proof.
  intros [Hl Hc] Hin. apply In_nth_error in Hin as [i Hi]. destruct (nth_error items i) as [it|] eqn:Hit.
  - exists i, it. split; [exact Hit|]. split; [exact Hi|]. now apply Hc.
  - apply nth_error_None in Hit. assert (i < length docs)%nat by (apply nth_error_Some; congruence). lia.
Qed.
Lemma corpus_good items docs : Forall (plain_item E) items -> corpus_of E items docs -> Forall (doc_good E) docs.
Proof.
  intros Hp Hc. rewrite Forall_forall in *. intros D HD. destruct (corpus_in Hc HD) as (i & it & Hi & _ & Hd). exact (item_good (Hp _ (nth_error_In _ _ Hi)) Hd).
Qed.
Lemma corpus_small items docs : Forall (plain_item E) items -> corpus_of E items docs -> csize docs <= items_size items.
Proof.
  intros Hp [Hl Hc]. revert docs Hl Hc. cut (forall docs k, length docs = length items -> (forall i it d, nth_error items i = Some it -> nth_error docs i = Some d -> doc_of E (N.of_nat (k + i)) it d) -> csize docs <= items_size items).
  { intros H docs Hl Hc. exact (H docs O Hl Hc). }
  induction Hp as [|it items Hit Hp IH]; intros docs k Hl Hc.
  - destruct docs; [cbn; lia|discriminate].
  - destruct docs as [|d docs]; [discriminate|]. cbn [csize items_size fold_right]. fold (items_size items). pose proof (Hc O it d eq_refl eq_refl) as Hd. apply (item_small Hit) in Hd.
    assert (csize docs <= items_size items); [|lia]. apply (IH docs (S k)); [now injection Hl|]. intros i it' d' H1 H2. replace (S k + i)%nat with (k + S i)%nat by lia. now apply Hc.
Qed.
Lemma corpus_occ items docs d f w : Forall (plain_item E) items -> corpus_of E items docs ->
  In (d, f, w) (occs (flat_map plan_doc docs)) <-> exists it n cs, nth_error items (N.to_nat d) = Some it /\ In (n, cs) (fields it) /\ f = as_word E n /\ word_in E cs w.
Proof.
  intros Hp Hc. pose proof (corpus_good Hp Hc) as Hg. rewrite occ_docs by (eapply Forall_impl; [|exact Hg]; intros D HD; apply HD). split.
  - intros (D & t & HD & -> & Ht & Hw). destruct (corpus_in Hc HD) as (i & it & Hi & _ & Hd). rewrite (item_id Hd), Nat2N.id. rewrite Forall_forall in Hp.
    apply (item_texts f t (Hp _ (nth_error_In _ _ Hi)) Hd) in Ht as (n & cs & Hin & -> & Hws). exists it, n, cs. repeat split; auto. now exists t.
  - intros (it & n & cs & Hi & Hin & -> & t & Hws & Hw). destruct Hc as [Hl Hc]. destruct (nth_error docs (N.to_nat d)) as [D|] eqn:HD.
    + pose proof (Hc _ _ _ Hi HD) as Hd. exists D, t. split; [now apply nth_error_In in HD|]. split; [rewrite (item_id Hd); lia|]. split; [|exact Hw].
      rewrite Forall_forall in Hp. apply (item_texts _ t (Hp _ (nth_error_In _ _ Hi)) Hd). now exists n, cs.
    + apply nth_error_None in HD. assert (N.to_nat d < length items)%nat by (apply nth_error_Some; congruence). lia.
Qed.
Lemma setting_like c : setting E c -> c_like E c /\ quiet c = true.
Proof. destruct c as [c|e|f x|q p|q f]; cbn [setting c_like quiet]; try (intros []; fail); auto. intros [(n & Hn & ->) _]. split; [apply (name_word HE Hn)|reflexivity]. Qed.
Lemma settings_quiet cs : Forall (setting E) cs -> forallb quiet cs = true.
Proof. intros H. apply forallb_forall. rewrite Forall_forall in H. intros c Hc. now apply setting_like, H. Qed.
Lemma settings_like cs : Forall (setting E) cs -> Forall (c_like E) cs.
Proof. intros H. eapply Forall_impl; [|exact H]. intros c Hc. now apply setting_like. Qed.
Lemma settings_weights cs f x : Forall (setting E) cs -> In (f, x) (weight_calls cs) -> good_weight x.
Proof.
  intros H Hin. unfold weight_calls in Hin. apply in_flat_map in Hin as (c & Hc & Hin). rewrite Forall_forall in H. specialize (H c Hc). destruct c; try (destruct Hin; fail). destruct Hin as [[= -> ->]|[]]. apply H.
Qed.
Lemma calls_prices before docs after : prices_after (before ++ MIndex docs :: after) = prices_after (before ++ after).
Proof. unfold prices_after. now rewrite !flat_map_app. Qed.
Lemma calls_weights before docs after : weight_calls (before ++ MIndex docs :: after) = weight_calls (before ++ after).
Proof. unfold weight_calls. now rewrite !flat_map_app. Qed.

Lemma typed_words q ws w : typed q -> words_in E q ws -> In w ws -> N.of_nat (length w) < 10000000.
Proof.
  intros [Hp Hl] (runs & Hc & ->) Hin. apply in_map_iff in Hin as (r & <- & Hr).
  assert (Hlen : (length (as_word E r) <= 2 * length r)%nat).
  { unfold as_word. clear. induction r as [|c r IH]; [reflexivity|]. cbn [map]. change (letters_of (fold E c :: map (fold E) r)) with (utf16 (fold E c) ++ letters_of (map (fold E) r)). rewrite app_length. unfold utf16. destruct (fold E c <? 65536); cbn [length]; lia. }
  assert (Hr2 : (length r <= length q)%nat).
  { clear - Hc Hr. induction Hc as [g Hg|g r' Hg Hr' Hn|g r' b rest l Hg Hr' Hn Hb Hc IH]; cbn [In] in Hr; [destruct Hr| |].
    - destruct Hr as [<-|[]]. rewrite app_length. lia.
    - rewrite !app_length. destruct Hr as [<-|Hr]; [lia|]. apply IH in Hr. lia. }
  lia.
Qed.
Lemma holds_rows before items after a q : env_ok E -> Forall (setting E) before -> Forall (setting E) after -> Forall (plain_item E) items -> items_size items < 10000000 ->
  holds E before items after a -> typed q ->
  exists rows, doSearch E (bytes_of q) a = (a, Ok (mkWin rows (bytes_of q))) /\ answers E (prices_after (before ++ after)) (weight_after (before ++ after)) items q rows.
Proof.
  intros HEo Hb Ha Hp Hsz (docs & Hc & HH & Hsrc) Hq. pose proof (corpus_good Hp Hc) as Hg. pose proof (corpus_small Hp Hc) as Hcs. destruct (occ_sizes HE Hg) as [Ho1 Ho2].
  destruct (words_exist E q) as [qs Hqs]. pose proof (proj1 (words_split qs HE (proj1 (proj1 Hq))) Hqs) as Hsp.
  set (calls := before ++ MIndex docs :: after) in *. assert (Hocc : occ calls = occs (flat_map plan_doc docs)) by (apply (occ_calls HE Hg); now apply settings_quiet).
  destruct (@search_rows E calls a (bytes_of q) qs HEo HE HH) as (rows & view & Hdo & Hk & Hn & H2 & Hiff & Hsc).
  - unfold calls. apply Forall_app. split; [now apply settings_like|]. constructor; [|now apply settings_like]. cbn. eapply Forall_impl; [|exact Hg]. intros D HD; apply HD.
  - unfold calls. rewrite calls_weights. intros f x Hin. eapply settings_weights; [|exact Hin]. apply Forall_app. now split.
  - rewrite Hocc. lia.
  - rewrite Hocc. intros d f w Hin. apply (corpus_occ d f w Hp Hc) in Hin as (it & n & cs & Hi & _). rewrite Hsrc, map_length. apply nth_error_Some. congruence.
  - apply plain_bytes, Hq.
  - exact Hsp.
  - split; [intros qw Hqw; exact (typed_words Hq Hqs Hqw)|]. rewrite Hocc. intros d f w Hin. specialize (Ho1 d f w Hin). lia.
  - exists rows. split; [exact Hdo|]. exists docs, qs, view. split; [exact Hc|]. split; [exact Hqs|]. split; [|split; [exact Hn|split; [exact Hk|split]]].
    + eapply forall2_impl; [|exact H2]. cbn. intros row x (ts & Ht & ->). rewrite Hsrc, nth_error_map in Ht. destruct (nth_error items (N.to_nat (snd x))) as [it|] eqn:Hi; [|discriminate]. injection Ht as <-.
      exists it. split; [reflexivity|]. f_equal. rewrite map_map. apply map_ext_in. intros cs Hcs2. apply ctext_until, plain_bytes. rewrite Forall_forall in Hp. destruct (Hp it (nth_error_In _ _ Hi)) as [Hsh _]. rewrite Forall_forall in Hsh. now apply Hsh.
    + intros d. rewrite Hiff. unfold calls. rewrite calls_prices. fold calls. rewrite Hocc. split.
      * intros (f & w & qw & err & Hin & Hqw & Hnear). apply (corpus_occ d f w Hp Hc) in Hin as (it & n & cs & Hi & Hin & -> & Hw). exists it, n, cs, w, qw, err. split; [exact Hi|]. split; [exact Hin|]. split; [exact Hw|]. split; [exists qs; auto|exact Hnear].
      * intros (it & n & cs & w & qw & err & Hi & Hin & Hw & (qs' & Hqs' & Hqw) & Hnear). exists (as_word E n), w, qw, err. split; [apply (corpus_occ d _ w Hp Hc); now exists it, n, cs|]. split; [|exact Hnear].
        now rewrite (words_unique HE (proj1 (proj1 Hq)) Hqs Hqs').
    + assert (Hix : indexed calls = indexed [MIndex docs]) by (unfold calls, indexed; rewrite flat_map_app; fold (indexed before); rewrite (quiet_none (settings_quiet Hb)); cbn [flat_map]; fold (indexed after); rewrite (quiet_none (settings_quiet Ha)); reflexivity).
      assert (Hox : occ calls = occ [MIndex docs]) by (unfold occ; now rewrite Hix). intros x i. rewrite Hsc, Hix, Hox. unfold calls. rewrite calls_prices. unfold weight_after. rewrite calls_weights. reflexivity.
Qed.
Lemma scored_ext o order R q p wt wt' d x : (forall f, wt f = wt' f) -> scored o order R q p wt d x -> scored o order R q p wt' d x.
Proof.
  clear. intros H (y & ys & Hp & ->). exists y, ys. split; [exact Hp|]. assert (Hc : forall z, contribution o wt z = contribution o wt' z) by (intros [[f w] err]; unfold contribution; now rewrite H).
  rewrite Hc. generalize (contribution o wt' y). clear - Hc. induction ys as [|z ys IH]; intros b; [reflexivity|]. cbn [fold_left]. rewrite Hc. apply IH.
Qed.
Lemma answers_ext e wt wt' items q rows : (forall f, wt f = wt' f) -> answers E e wt items q rows -> answers E e wt' items q rows.
Proof.
  intros H (docs & qs & view & H1 & H2 & H3 & H4 & H5 & H6 & H7). exists docs, qs, view. split; [exact H1|]. split; [exact H2|]. split; [exact H3|]. split; [exact H4|]. split; [exact H5|]. split; [exact H6|]. intros x i. rewrite H7. split; apply scored_ext; auto.
Qed.
End Items.
