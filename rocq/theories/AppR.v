(** The graphical programs: the documents. *)
From Verif Require Import Base TrieM WordStoreM ErrorValuesM LevIndexM WordM MapM DoubleM ContM DataFileM QIndexM MatcherM CApiM AppM
  Spec_Hist Spec_EV Spec_Cont Spec_Edit Spec_Lev Spec_Match Spec_File Spec_CApi Spec_Tool Spec_Room Spec_Word Spec_App
  WordP SplitP MapP ContP DataP EVR ScalarP TypoP WordStoreP MatchP MatchU MatchV MatchY MatchZ CApiP CApiQ CApiS MatchG AppP AppQ.
From Coq Require Import ZifyBool ZifyN ZifyNat.
Local Open Scope N_scope.
Local Open Scope m_scope.

(** ** Documents without empty names *)
Definition doc_good (E : env) (d : document) : Prop := doc_fine E d /\ Forall (fun x => fst x <> []) (d_texts d).
Definition dsize (d : document) : N := word_letters (flat_map snd (d_texts d)).
Fixpoint csize (c : corpus) : N := match c with [] => 0 | d :: r => dsize d + csize r end.
Definition quiet (c : m_call) : bool := match c with MErr _ | MWeight _ _ => true | _ => false end.

Lemma csize_app a b : csize (a ++ b) = csize a + csize b.
Proof. induction a as [|d a IH]; cbn [List.app csize]; lia. Qed.
Lemma good_plan E d : lower_ok E -> doc_good E d -> Forall (fun s => said s <> []) (plan_doc d).
Proof.
  intros HE [[Hd Hf] Hn]. rewrite plan_texts by now apply doc_sorted. rewrite Forall_forall in *. intros s Hs. apply in_flat_map in Hs as ([f t] & Hin & Hs).
  unfold text_steps in Hs. cbn [fst snd] in Hs. destruct Hs as [<-|Hs]; [exact (Hn _ Hin)|]. apply in_map_iff in Hs as (w & <- & Hw). cbn [said].
  destruct (Hf _ Hin) as [_ Ht]. cbn [snd] in Ht. rewrite Forall_forall in Ht. exact (proj1 (text_insertable HE (Ht w Hw))).
Qed.
Lemma whole_index E c : lower_ok E -> Forall (doc_good E) c -> whole (MIndex c).
Proof.
  intros HE Hc. cbn [whole]. rewrite Forall_forall in *. intros s Hs. apply in_flat_map in Hs as (d & Hd & Hs). pose proof (good_plan HE (Hc d Hd)) as H. rewrite Forall_forall in H. now apply H.
Qed.
Lemma quiet_none cs : forallb quiet cs = true -> indexed cs = [].
Proof. induction cs as [|c cs IH]; intros H; [reflexivity|]. cbn [forallb] in H. apply andb_prop in H as [H1 H2]. unfold indexed in *. cbn [flat_map]. rewrite IH by exact H2. now destruct c. Qed.
Lemma occ_calls E before c after : lower_ok E -> Forall (doc_good E) c -> forallb quiet before = true -> forallb quiet after = true ->
  occ (before ++ MIndex c :: after) = occs (flat_map plan_doc c).
Proof.
  intros HE Hc Hb Ha. unfold occ. f_equal. unfold indexed. rewrite flat_map_app. fold (indexed before). rewrite quiet_none by exact Hb. cbn [flat_map]. fold (indexed after). rewrite (quiet_none Ha), app_nil_r.
  cbn [List.app]. apply whole_told. exact (whole_index HE Hc).
Qed.
Lemma occ_docs c d f w : Forall doc_ok c -> In (d, f, w) (occs (flat_map plan_doc c)) <-> exists D t, In D c /\ d = d_id D /\ In (f, t) (d_texts D) /\ In w t.
Proof.
  intros Hc. rewrite occs_in, in_flat_map. rewrite Forall_forall in Hc. split.
  - intros (D & HD & Hin). rewrite plan_texts in Hin by (apply doc_sorted; now apply Hc). apply in_flat_map in Hin as ([f' t] & Ht & Hin). unfold text_steps in Hin. cbn [fst snd] in Hin.
    destruct Hin as [Hin|Hin]; [discriminate|]. apply in_map_iff in Hin as (w' & [= <- <- <-] & Hw). now exists D, t.
  - intros (D & t & HD & -> & Ht & Hw). exists D. split; [exact HD|]. rewrite plan_texts by (apply doc_sorted; now apply Hc). apply in_flat_map. exists (f, t). split; [exact Ht|]. right. now apply in_map.
Qed.
Lemma letters_in w l : In w l -> N.of_nat (length w) <= word_letters l.
Proof. induction l as [|x l IH]; [intros []|]. rewrite letters_cons. intros [->|H]; [lia|apply IH in H; lia]. Qed.
Lemma letters_flat A (f g : A -> list word) l : (forall x, In x l -> word_letters (f x) <= word_letters (g x)) -> word_letters (flat_map f l) <= word_letters (flat_map g l).
Proof. induction l as [|x l IH]; intros H; [reflexivity|]. cbn [flat_map]. rewrite !word_letters_app. pose proof (H x (or_introl eq_refl)). specialize (IH (fun y Hy => H y (or_intror Hy))). lia. Qed.
Lemma occ_sizes E c : lower_ok E -> Forall (doc_good E) c -> (forall d f w, In (d, f, w) (occs (flat_map plan_doc c)) -> N.of_nat (length w) <= csize c) /\
  N.of_nat (length (occs (flat_map plan_doc c))) <= csize c.
Proof.
  intros HE Hc. split.
  - intros d f w Hin. apply occ_docs in Hin as (D & t & HD & _ & Ht & Hw); [|eapply Forall_impl; [|exact Hc]; intros D HD; apply HD].
    assert (H1 : N.of_nat (length w) <= dsize D) by (apply letters_in, in_flat_map; exists (f, t); auto).
    clear - H1 HD. induction c as [|x c IH]; [destruct HD|]. cbn [csize]. destruct HD as [->|HD]; [lia|apply IH in HD; lia].
  - induction Hc as [|D c HD Hc IH]; [reflexivity|]. cbn [flat_map csize]. rewrite occs_app, app_length. enough (N.of_nat (length (occs (plan_doc D))) <= dsize D) by lia. clear IH Hc c.
    destruct HD as [[Hd Hf] _]. rewrite plan_texts by now apply doc_sorted. unfold dsize. induction Hf as [|[f t] r [_ Ht] Hr IH]; [reflexivity|].
    cbn [flat_map]. rewrite occs_app, app_length, word_letters_app. cbn [fst snd] in *.
    enough (N.of_nat (length (occs (text_steps (d_id D) (f, t)))) <= word_letters t) by lia. clear - Ht HE. unfold text_steps. cbn [fst snd]. unfold occs. cbn [flat_map List.app].
    induction Ht as [|w t Hw Ht IH]; [reflexivity|]. cbn [map flat_map List.app length]. rewrite letters_cons. pose proof (proj1 (text_insertable HE Hw)). destruct w; [congruence|]. cbn [length]. lia.
Qed.
(** ** Indexing them *)
Lemma index_outcome E calls m c : env_ok E -> lower_ok E -> history E calls m -> Forall (c_like E) calls -> Forall (doc_good E) c ->
  match mt_index E c m with
  | (m', Ok _) => history E (calls ++ [MIndex c]) m'
  | (_, Throw _) => True
  | _ => False
  end.
Proof.
  intros HEo HE HH HL Hc. assert (Hcl : Forall clean calls) by (eapply Forall_impl; [|exact HL]; exact (@like_clean E HE)).
  destruct (MatchQ.history_HI HEo Hcl HH) as [l HL2]. destruct (MatchV.history_li HH) as [li0 Hli].
  assert (Hci : clean (MIndex c)) by (apply (@like_clean E HE (MIndex c)); eapply Forall_impl; [|exact Hc]; intros D HD; apply HD).
  destruct (mt_index E c m) as [m' o] eqn:Hm. pose proof (@call_safe E li0 calls (MIndex c) m l m' o Hli HL2 Hci I I Hm) as Hx.
  destruct (@expected_safe (MIndex c) _ Hx) as [([] & ->)|(x & ->)]; [|exact I]. apply (history_app HH). cbn [m_run m_do]. rewrite Hm. reflexivity.
Qed.
