(** Matcher out of memory: histories. *)
From Verif Require Import Base TrieM TrieA TrieP TrieP2 TrieD WordStoreM Spec_Hist TrieH WordStoreP ErrorValuesM LevIndexM
  Spec_Edit Spec_EV Spec_Lev EVP EditP HitsP LevP WordM MapM DoubleM FloatP ContM MatcherM MapP Spec_Cont ContP Spec_Match MatchP MatchQ MatchR MatchS MatchT MatchW MatchY FailM FailP FailQ FailR FailS Spec_Fail.
From Coq Require Import ZifyBool ZifyN ZifyNat.
Local Open Scope N_scope.
Local Open Scope f_scope.

(** ** Blocks: what a field of a document leaves, possibly cut *)
Definition blk := (N * word * N * list word)%type.
Definition block (b : blk) : list step := let '(d, f, n, ws) := b in SField d f n :: map (SWord d f) ws.
Definition block_ok (b : blk) : Prop := let '(d, f, n, ws) := b in f <> [] /\ Forall (fun w => w <> []) ws /\ N.of_nat (length ws) <= n.
Lemma told_ne l : Forall (fun s => said s <> []) (told l).
Proof. induction l as [|s l IH]; [constructor|]. cbn. destruct (said s) eqn:Hs; [constructor|]. constructor; [congruence|exact IH]. Qed.
Lemma words_cut d f rest : forall ws a b, told (map (SWord d f) ws ++ rest) = a ++ b ->
  (exists w1, a = map (SWord d f) w1 /\ (length w1 <= length ws)%nat /\ Forall (fun w => w <> []) w1) \/
  (exists a2, a = map (SWord d f) ws ++ a2 /\ told rest = a2 ++ b /\ Forall (fun w => w <> []) ws).
Proof.
  induction ws as [|w ws IH]; intros a b H; cbn [map app told said] in H; [right; exists a; now repeat split|].
  destruct w as [|c w]; [symmetry in H; apply app_eq_nil in H as [-> _]; left; exists []; split; [reflexivity|]; split; [cbn; lia|constructor]|].
  destruct a as [|s a]; [left; exists []; split; [reflexivity|]; split; [cbn; lia|constructor]|]. injection H as <- H.
  destruct (IH a b H) as [(w1 & -> & Hl & Hn)|(a2 & -> & Ht & Hn)]; [left; exists ((c :: w) :: w1); split; [reflexivity|]; split; [cbn; lia|now constructor]|].
  right. exists a2. split; [reflexivity|]. split; [exact Ht|now constructor].
Qed.
Definition full (b : blk) : Prop := let '(d, f, n, ws) := b in n = N.of_nat (length ws).
Lemma blocks_cut : forall bs a b, Forall full bs -> told (flat_map block bs) = a ++ b -> exists bs', a = flat_map block bs' /\ Forall block_ok bs'.
Proof.
  induction bs as [|[[[d f] n] ws] bs IH]; intros a b Hf H; cbn [flat_map block app told said] in H; [symmetry in H; apply app_eq_nil in H as [-> _]; now exists []|].
  apply Forall_cons_iff in Hf as [Hn Hf]. cbn in Hn. destruct f as [|c f]; [symmetry in H; apply app_eq_nil in H as [-> _]; now exists []|].
  destruct a as [|s a]; [now exists []|]. injection H as <- H. apply words_cut in H as [(w1 & -> & Hl & Hw)|(a2 & -> & Ht & Hw)].
  - exists [(d, c :: f, n, w1)]. cbn. rewrite app_nil_r. split; [reflexivity|]. constructor; [|constructor]. split; [discriminate|]. split; [exact Hw|]. lia.
  - destruct (IH a2 b Hf Ht) as (bs' & -> & Hb). exists ((d, c :: f, n, ws) :: bs'). split; [reflexivity|]. constructor; [|exact Hb]. split; [discriminate|]. split; [exact Hw|]. lia.
Qed.
Definition doc_blocks (d : document) : list blk :=
  flat_map (fun f => match doc_getText d f with Ok t => [(doc_getID d, f, N.of_nat (length t), t)] | _ => [] end) (fst (doc_getFieldNames d [])).
Lemma plan_blocks d : plan_doc d = flat_map block (doc_blocks d) /\ Forall full (doc_blocks d).
Proof.
  unfold plan_doc, doc_blocks. induction (fst (doc_getFieldNames d [])) as [|f fs [IH1 IH2]]; [split; [reflexivity|constructor]|]. cbn [flat_map].
  rewrite flat_map_app, IH1. destruct (doc_getText d f) as [t|e| | |]; cbn [flat_map app]; (split; [rewrite ?app_nil_r; reflexivity|]); [constructor; [reflexivity|]|..]; exact IH2.
Qed.
Lemma plans_blocks c : flat_map plan_doc c = flat_map block (flat_map doc_blocks c) /\ Forall full (flat_map doc_blocks c).
Proof.
  induction c as [|d c [IH1 IH2]]; [split; [reflexivity|constructor]|]. destruct (plan_blocks d) as [P1 P2]. cbn [flat_map]. rewrite flat_map_app, <- P1, <- IH1. split; [reflexivity|].
  apply Forall_app. now split.
Qed.
Lemma call_blocks c a b : indexed [c] = a ++ b -> exists bs, a = flat_map block bs /\ Forall block_ok bs.
Proof.
  unfold indexed. cbn. rewrite app_nil_r. destruct c as [c| | | |]; try (intros H; symmetry in H; apply app_eq_nil in H as [-> _]; exists []; now split).
  destruct (plans_blocks c) as [-> Hf]. apply blocks_cut, Hf.
Qed.

(** ** Pretending that all went well *)
Definition p_doc (b : blk) : document := let '(d, f, n, ws) := b in add_texts d [(f, ws ++ repeat [] (N.to_nat n - length ws))].
Definition pretend (evs : list ev_call) (wcs : list (word * double)) (bs : list blk) (ns : list word) : list m_call :=
  map MErr evs ++ map (fun x => MWeight (fst x) (snd x)) wcs ++ map (fun b => MIndex [p_doc b]) bs ++ [MMatch [] (mkSP true [map (fun w => (w, w)) ns] [])].
Lemma told_app_ne a : forall b, Forall (fun s => said s <> []) a -> told (a ++ b) = a ++ told b.
Proof. intros b H. apply told_all. unfold stops. intros Hi. apply in_map_iff in Hi as (s & Hs & Hi). rewrite Forall_forall in H. exact (H s Hi Hs). Qed.
Lemma p_text d f t : doc_getText (add_texts d [(f, t)]) f = Ok t.
Proof. unfold doc_getText. cbn. now rewrite (oo_irr wltb_order). Qed.
Lemma p_plan d f t : plan_doc (add_texts d [(f, t)]) = SField d f (N.of_nat (length t)) :: map (SWord d f) t.
Proof. unfold plan_doc. change (fst (doc_getFieldNames (add_texts d [(f, t)]) [])) with [f]. cbn [flat_map]. rewrite p_text, app_nil_r. reflexivity. Qed.
Lemma p_told b : block_ok b -> told (plan_doc (p_doc b)) = block b.
Proof.
  destruct b as [[[d f] n] ws]. intros (Hf & Hw & Hn). unfold p_doc. rewrite p_plan. cbn [told said block]. destruct f as [|c f]; [congruence|].
  rewrite app_length, repeat_length. replace (N.of_nat (length ws + (N.to_nat n - length ws))) with n by lia. f_equal. rewrite map_app, told_app_ne.
  - destruct (N.to_nat n - length ws)%nat; cbn; apply app_nil_r.
  - apply Forall_map. exact Hw.
Qed.
Lemma fm_map {A B C} (g : A -> B) (h : B -> list C) l : flat_map h (map g l) = flat_map (fun a => h (g a)) l.
Proof. induction l as [|a l IH]; [reflexivity|]. cbn. now rewrite IH. Qed.
Lemma fm_nil {A C} (l : list A) : flat_map (fun _ => @nil C) l = [].
Proof. induction l as [|a l IH]; [reflexivity|exact IH]. Qed.
Lemma fm_one {A C} (g : A -> C) (l : list A) : flat_map (fun a => [g a]) l = map g l.
Proof. induction l as [|a l IH]; [reflexivity|]. cbn. now rewrite IH. Qed.
Lemma fm_ext {A C} (g h : A -> list C) l : (forall a, In a l -> g a = h a) -> flat_map g l = flat_map h l.
Proof. induction l as [|a l IH]; intros H; [reflexivity|]. cbn. rewrite (H a), IH; [reflexivity| |now left]. intros b Hb. apply H. now right. Qed.
Section Pretend.
Variables (evs : list ev_call) (wcs : list (word * double)) (bs : list blk) (ns : list word).
Hypothesis Hbs : Forall block_ok bs.
Let calls := pretend evs wcs bs ns.
Lemma p_prices : price_calls calls = evs.
Proof. unfold calls, pretend, price_calls. rewrite !flat_map_app, !fm_map, !fm_nil, fm_one, map_id. cbn. apply app_nil_r. Qed.
Lemma p_weights : weight_calls calls = wcs.
Proof.
  unfold calls, pretend, weight_calls. rewrite !flat_map_app, !fm_map, !fm_nil, fm_one. cbn. rewrite app_nil_r.
  rewrite (map_ext _ (fun x => x)); [apply map_id|]. now intros [].
Qed.
Lemma p_indexed : indexed calls = flat_map block bs.
Proof.
  unfold calls, pretend, indexed. rewrite !flat_map_app, !fm_map, !fm_nil. cbn [app flat_map]. rewrite app_nil_r. apply fm_ext. intros b Hb. rewrite app_nil_r. apply p_told. rewrite Forall_forall in Hbs. now apply Hbs.
Qed.
Lemma p_words : flat_map call_words calls = flat_map (fun w => [w; w]) ns.
Proof.
  unfold calls, pretend. rewrite !flat_map_app, !fm_map. rewrite !(@fm_ext _ _ (fun _ => call_words (_ _)) (fun _ => [])) by reflexivity. rewrite !fm_nil. cbn. unfold filter_words. cbn. rewrite !app_nil_r.
  now rewrite fm_map.
Qed.
End Pretend.
Lemma pretend_HI evs wcs bs mv l : MI mv l -> told_only l = flat_map block bs -> Forall block_ok bs -> mt_ev mv = ev_after evs -> mt_w mv = set_weights wcs ->
  HI (pretend evs wcs bs (map said (filter (fun s => negb (real_step s)) l))) mv l.
Proof.
  intros H Ht Hb He Hw. constructor.
  - exact H.
  - now rewrite p_indexed.
  - rewrite He. change (prices_after ?c) with (ev_after (price_calls c)). now rewrite p_prices.
  - now rewrite p_weights.
  - rewrite p_words. intros w Hi. apply in_flat_map. exists w. split; [exact Hi|now left].
Qed.
Lemma pretend_clean evs wcs bs mv l : MI mv l -> told_only l = flat_map block bs -> Forall block_ok bs ->
  Forall clean (pretend evs wcs bs (map said (filter (fun s => negb (real_step s)) l))).
Proof.
  intros H Ht Hb. pose proof (mi_ins H) as Hi. rewrite Forall_forall in Hi. unfold pretend. rewrite !Forall_app. repeat split.
  - apply Forall_map. rewrite Forall_forall. intros c _. exact I.
  - apply Forall_map. rewrite Forall_forall. intros c _. exact I.
  - apply Forall_map. rewrite Forall_forall. intros b Hin. assert (Hu : forall s, In s (block b) -> insertable (said s)).
    { intros s Hs. assert (Hl : In s (told_only l)) by (rewrite Ht; apply in_flat_map; now exists b). unfold told_only in Hl. apply filter_In in Hl as [Hl _]. apply Hi. now apply in_map. }
    destruct b as [[[d f] n] ws]. cbn [clean]. split; [constructor; [|constructor]; eexists _, _; reflexivity|]. cbn [flat_map]. rewrite app_nil_r. unfold p_doc. rewrite p_plan.
    constructor; [right; apply (Hu (SField d f n)); now left|]. rewrite map_app, Forall_app. split; apply Forall_map; rewrite Forall_forall; intros w Hw.
    + right. apply (Hu (SWord d f w)). right. now apply in_map.
    + left. apply repeat_spec in Hw. exact Hw.
  - constructor; [|constructor]. cbn. constructor; [|constructor]. apply Forall_map. rewrite Forall_forall. intros w Hw. cbn. apply in_map_iff in Hw as (s & <- & Hs). apply filter_In in Hs as [Hs _].
    assert (insertable (said s)) by (apply Hi; now apply in_map). split; now right.
Qed.

(** ** One call *)
Definition notx (x : N) (y : N * word * word) : bool := negb (fst (fst y) =? x).
Record RI (x : N) (calls : list m_call) (outs : list (fres unit)) (s : fst_) (mv : matcher) (l : list step) (bs : list blk) (done : list step) : Prop := {
  ri_v : V x (f_m s) mv;
  ri_mi : MI mv l;
  ri_told : told_only l = flat_map block bs;
  ri_bs : Forall block_ok bs;
  ri_ev : mt_ev mv = prices_after calls;
  ri_w : mt_w mv = set_weights (weight_calls (heeded calls outs));
  ri_rem : remains calls outs done;
  ri_occ : filter (notx x) (occs l) = occs done;
  ri_from : forall d f w, In (d, f, w) (occs l) -> exists d', In (d', f, w) (occ calls);
  ri_len : (length (occs l) <= length (occ calls))%nat;
  ri_lost : (length (occs l) <= length (occs done) + outages outs)%nat;
  ri_size : forall d f acc, d <> x -> last_size l d f acc = last_size done d f acc
}.
Record piece (x : N) (c : m_call) (o : fres unit) (y : list step) (bs : list blk) (done : list step) : Prop := {
  pc_told : told_only y = flat_map block bs;
  pc_bs : Forall block_ok bs;
  pc_rem : remains [c] [o] done;
  pc_occ : filter (notx x) (occs y) = occs done;
  pc_from : forall d f w, In (d, f, w) (occs y) -> exists d', In (d', f, w) (occ [c]);
  pc_len : (length (occs y) <= length (occ [c]))%nat;
  pc_lost : (length (occs y) <= length (occs done) + outages [o])%nat;
  pc_size : forall d f acc, d <> x -> last_size y d f acc = last_size done d f acc
}.
Lemma last_size_app a b d f : forall acc, last_size (a ++ b) d f acc = last_size b d f (last_size a d f acc).
Proof. induction a as [|[] a IH]; intros acc; cbn; [reflexivity|apply IH..]. Qed.
Lemma last_size_names ns d f : forall acc, last_size (map SName ns) d f acc = acc.
Proof. induction ns as [|n ns IH]; intros acc; [reflexivity|apply IH]. Qed.
Lemma remains_app c1 o1 d1 c2 o2 d2 : remains c1 o1 d1 -> remains c2 o2 d2 -> remains (c1 ++ c2) (o1 ++ o2) (d1 ++ d2).
Proof. intros H1 H2. induction H1 as [|c calls outs a b done Hi H IH|c calls o outs done Hn H IH]; [exact H2|..]; cbn [app]; rewrite <- app_assoc; [now apply (rem_out (b := b))|now apply rem_done]. Qed.
Lemma occ_app a b : occ (a ++ b) = occ a ++ occ b.
Proof. unfold occ. now rewrite indexed_app, occs_app. Qed.
Lemma outages_app a b : outages (a ++ b) = (outages a + outages b)%nat.
Proof. unfold outages. now rewrite filter_app, app_length. Qed.
Lemma heeded_app c1 o1 d1 c2 o2 : remains c1 o1 d1 -> heeded (c1 ++ c2) (o1 ++ o2) = heeded c1 o1 ++ heeded c2 o2.
Proof. intros H. induction H as [|c calls outs a b done Hi H IH|c calls o outs done Hn H IH]; [reflexivity|exact IH|]. cbn [app heeded]. destruct o; try congruence; cbn [app]; now rewrite IH. Qed.
Lemma heeded_incl outs : forall calls, incl (heeded calls outs) calls.
Proof. induction outs as [|o outs IH]; intros [|c calls]; try (now intros y []). cbn. destruct o; intros y Hy; try (destruct Hy as [<-|Hy]; [now left|]); right; now apply IH. Qed.
Lemma RI_add x calls outs s mv l bs done c o s' mv' y by_ dy : RI x calls outs s mv l bs done -> piece x c o y by_ dy -> V x (f_m s') mv' -> MI mv' (l ++ y) ->
  mt_ev mv' = prices_after (calls ++ [c]) -> mt_w mv' = set_weights (weight_calls (heeded calls outs ++ heeded [c] [o])) ->
  RI x (calls ++ [c]) (outs ++ [o]) s' mv' (l ++ y) (bs ++ by_) (done ++ dy).
Proof.
  intros [R1 R2 R3 R4 R5 R6 R8 R9 R10 R11 R12 R13] [P1 P2 P3 P4 P5 P6 P7 P8] HV H He Hw. constructor; auto.
  - unfold told_only in *. now rewrite filter_app, flat_map_app, R3, P1.
  - apply Forall_app. now split.
  - now rewrite (heeded_app _ _ R8).
  - now apply remains_app.
  - now rewrite !occs_app, filter_app, R9, P4.
  - intros d f w. rewrite occs_app, occ_app, in_app_iff. intros [Hin|Hin]; [apply R10 in Hin as [d' Hd]|apply P5 in Hin as [d' Hd]]; exists d'; apply in_app_iff; auto.
  - rewrite occs_app, occ_app, !app_length. lia.
  - rewrite !occs_app, !app_length, outages_app. lia.
  - intros d f acc Hd. rewrite !last_size_app, (R13 d f acc Hd). now apply P8.
Qed.
Lemma rem_one c o : o <> Out -> remains [c] [o] (indexed [c]).
Proof. intros Ho. rewrite <- (app_nil_r (indexed [c])). apply rem_done; [exact Ho|constructor]. Qed.
Lemma rem_cut c a b : indexed [c] = a ++ b -> remains [c] [Out] a.
Proof. intros Ho. rewrite <- (app_nil_r a). apply (rem_out (b := b)); [exact Ho|constructor]. Qed.
Lemma piece_names x c o ns : indexed [c] = [] -> piece x c o (map SName ns) [] [].
Proof.
  intros Hi. assert (Hz : occs (map SName ns) = []) by exact (@occs_names [] ns). constructor; cbn [flat_map].
  - apply told_only_names.
  - constructor.
  - assert (Ho : o = Out \/ o <> Out) by (destruct o; auto; right; discriminate). destruct Ho as [->|Ho]; [now apply (@rem_cut c [] [])|]. rewrite <- Hi. now apply rem_one.
  - now rewrite Hz.
  - intros d f w Hin. rewrite Hz in Hin. destruct Hin.
  - rewrite Hz. cbn. lia.
  - rewrite Hz. cbn. lia.
  - intros d f acc _. apply last_size_names.
Qed.
Definition apart (x : N) (c : m_call) : Prop := match c with MIndex c => Forall (fun d => doc_getID d <> x) c | _ => True end.
Lemma occ_apart x c d f w : apart x c -> In (d, f, w) (occ [c]) -> d <> x.
Proof.
  intros Ha Hin. unfold occ, indexed in Hin. cbn in Hin. rewrite app_nil_r in Hin. destruct c as [c| | | |]; try contradiction. apply occs_in in Hin.
  assert (Hin' : In (SWord d f w) (flat_map plan_doc c)).
  { revert Hin. generalize (flat_map plan_doc c). clear. intros l. induction l as [|s l IH]; [intros []|]. cbn. destruct (said s); [intros []|]. intros [<-|Hi]; [now left|right; now apply IH]. }
  apply in_flat_map in Hin' as (dc & Hdc & Hin'). cbn in Ha. rewrite Forall_forall in Ha. apply Ha in Hdc. unfold plan_doc in Hin'. apply in_flat_map in Hin' as (f' & _ & Hin').
  destruct (doc_getText dc f') as [t|e| | |]; try contradiction. destruct Hin' as [Hc|Hin']; [discriminate|]. apply in_map_iff in Hin' as (w' & [= <- _ _] & _). exact Hdc.
Qed.
Lemma notx_all x o : (forall d f w, In (d, f, w) o -> d <> x) -> filter (notx x) o = o.
Proof.
  intros H. induction o as [|[[d f] w] o IH]; [reflexivity|]. cbn. unfold notx at 1. cbn [fst]. destruct (N.eqb_spec d x) as [->|Hd]; [exfalso; apply (H x f w); [now left|reflexivity]|].
  cbn [negb]. rewrite IH; [reflexivity|]. intros d' f' w' Hi. apply (H d' f' w'). now right.
Qed.
Lemma real_blocks bs : told_only (flat_map block bs) = flat_map block bs.
Proof.
  assert (G : Forall (fun s => real_step s = true) (flat_map block bs)).
  { rewrite Forall_forall. intros s Hs. apply in_flat_map in Hs as ([[[d f] n] ws] & _ & [<-|Hs]); [reflexivity|]. apply in_map_iff in Hs as (w & <- & _). reflexivity. }
  unfold told_only. revert G. generalize (flat_map block bs). clear. intros l. induction l as [|s l IH]; intros H; [reflexivity|]. apply Forall_cons_iff in H as [H1 H]. cbn. rewrite H1. f_equal. now apply IH.
Qed.
Lemma piece_index x c o y : apart x (MIndex c) -> part x o (flat_map plan_doc c) y -> exists bs dy, piece x (MIndex c) o y bs dy.
Proof.
  intros Ha P. assert (Hi : indexed [MIndex c] = told (flat_map plan_doc c)) by (unfold indexed; cbn; apply app_nil_r).
  assert (Hocc : occ [MIndex c] = occs (told (flat_map plan_doc c))) by (unfold occ; now rewrite Hi).
  assert (G : forall o, o <> Out -> exists bs dy, piece x (MIndex c) o (told (flat_map plan_doc c)) bs dy).
  { intros o' Ho. destruct (@call_blocks (MIndex c) (told (flat_map plan_doc c)) []) as (bs & Hb & Hok); [now rewrite app_nil_r|]. exists bs, (told (flat_map plan_doc c)). constructor.
    - rewrite Hb. apply real_blocks.
    - exact Hok.
    - rewrite <- Hi. now apply rem_one.
    - apply notx_all. intros d f w Hin. rewrite <- Hocc in Hin. exact (occ_apart Ha Hin).
    - intros d f w Hin. exists d. now rewrite Hocc.
    - now rewrite Hocc.
    - lia.
    - reflexivity. }
  destruct P as [(-> & Hn & ->)|[(-> & Hn & ->)|(-> & a & b & Hab & C)]].
  - destruct (G (Val tt)) as (bs & dy & Hp); [discriminate|]. rewrite (told_id Hn) in Hp. exists bs, dy. exact Hp.
  - apply G. discriminate.
  - rewrite <- Hi in Hab. destruct (@call_blocks (MIndex c) a b Hab) as (bs & -> & Hok). set (a := flat_map block bs) in *.
    assert (Hax : forall d f w, In (d, f, w) (occs a) -> In (d, f, w) (occ [MIndex c])) by (intros d f w Hin; unfold occ; rewrite Hab, occs_app; apply in_app_iff; now left).
    assert (Hna : filter (notx x) (occs a) = occs a) by (apply notx_all; intros d f w Hin; exact (occ_apart Ha (Hax _ _ _ Hin))).
    assert (Hlen : length (occ [MIndex c]) = (length (occs a) + length (occs b))%nat) by (unfold occ; rewrite Hab, occs_app, app_length; reflexivity).
    assert (G2 : forall ns, piece x (MIndex c) Out (a ++ map SName ns) bs a).
    { intros ns. constructor; rewrite ?occs_names.
      - unfold told_only. rewrite filter_app. fold (told_only a). fold (told_only (map SName ns)). rewrite told_only_names, app_nil_r. apply real_blocks.
      - exact Hok.
      - exact (rem_cut Hab).
      - exact Hna.
      - intros d f w Hin. exists d. now apply Hax.
      - lia.
      - cbn. lia.
      - intros d f acc _. rewrite last_size_app. apply last_size_names. }
    destruct C as [->|[(n & ->)|(d & f & w & b' & -> & ->)]].
    + exists bs, a. specialize (G2 []). cbn in G2. now rewrite app_nil_r in G2.
    + exists bs, a. exact (G2 [n]).
    + assert (Hin : In (d, f, w) (occ [MIndex c])) by (unfold occ; rewrite Hab, occs_app; apply in_app_iff; right; now left).
      assert (Hne : f <> [] /\ w <> []).
      { pose proof (told_ne (flat_map plan_doc c)) as Hne. rewrite <- Hi, Hab in Hne. apply Forall_app in Hne as [_ Hne]. apply Forall_inv in Hne. split; [|exact Hne].
        (* the field of a word was said before it *)
        destruct (@call_blocks (MIndex c) (a ++ [SWord d f w]) b') as (bs2 & Hb2 & Hok2); [now rewrite Hab, <- app_assoc|].
        assert (Hi2 : In (SWord d f w) (flat_map block bs2)) by (rewrite <- Hb2; apply in_app_iff; right; now left). apply in_flat_map in Hi2 as ([[[d2 f2] n2] ws2] & Hbin & Hs). rewrite Forall_forall in Hok2. apply Hok2 in Hbin as [Hf2 _].
        destruct Hs as [Hs|Hs]; [discriminate|]. apply in_map_iff in Hs as (w2 & [= _ <- _] & _). exact Hf2. }
      exists (bs ++ [(x, f, 1, [w])]), a. constructor.
      * unfold told_only. rewrite filter_app. fold (told_only a). unfold a. rewrite real_blocks, flat_map_app. reflexivity.
      * apply Forall_app. split; [exact Hok|]. constructor; [|constructor]. split; [tauto|]. split; [constructor; [tauto|constructor]|cbn; lia].
      * exact (rem_cut Hab).
      * rewrite occs_app, filter_app, Hna. cbn. unfold notx. cbn [fst]. rewrite N.eqb_refl. apply app_nil_r.
      * intros d' f' w'. rewrite occs_app, in_app_iff. intros [Hx|[[= <- <- <-]|[]]]; [exists d'; now apply Hax|now exists d].
      * rewrite Hlen, occs_app, app_length. cbn. lia.
      * rewrite occs_app, app_length. cbn. lia.
      * intros d' f' acc Hd'. rewrite last_size_app. cbn. destruct (N.eqb_spec x d') as [He|He]; [now destruct Hd'|reflexivity].
Qed.

Section Step.
Variables (E : env) (li0 : levindex) (x : N).
Hypothesis Hli : li_new E = Ok li0.
Hypothesis HE : env_ok E.
Definition RIs (calls : list m_call) (outs : list (fres unit)) (s : fst_) : Prop := exists mv l bs done, RI x calls outs s mv l bs done.
Lemma conf_names calls outs c o : (match c with MWeight _ _ => False | _ => True end) -> weight_calls (heeded calls outs ++ heeded [c] [o]) = weight_calls (heeded calls outs).
Proof. intros Hc. unfold weight_calls. rewrite flat_map_app. destruct c, o; try contradiction; cbn; apply app_nil_r. Qed.
Lemma RI_calm {A} W (d : F A) calls outs s c s' o : (match c with MMatch _ _ | MOnline _ _ => True | _ => False end) -> RIs calls outs s -> calm x W d -> (d ;;; val tt) s = (s', o) -> o <> Thrown ERuntime ->
  bad s' \/ RIs (calls ++ [c]) (outs ++ [o]) s'.
Proof.
  intros Hc (mv & l & bs & done & R) Hd Hr Ho.
  assert (Hd' : calm x W (d ;;; val tt)) by (apply calm_bind; [intros a; mono|exact Hd|intros a; apply calm_val]).
  destruct (Hd' s mv l (ri_v R) (ri_mi R)) as (s1 & o1 & R1 & C). rewrite Hr in R1. injection R1 as <- <-. destruct C as [B|[->|(mv' & ns & HV & [S1 S2] & HM & _)]]; [now left|congruence|].
  right. exists mv', (l ++ map SName ns), (bs ++ []), (done ++ []). refine (RI_add R (@piece_names x c o ns _) HV HM _ _).
  - destruct c; try contradiction; reflexivity.
  - rewrite S1, (ri_ev R), prices_snoc. destruct c; try contradiction; reflexivity.
  - rewrite S2, (ri_w R), conf_names; [reflexivity|]. destruct c; try contradiction; exact I.
Qed.
Lemma RI_step calls outs s c s' o : RIs calls outs s -> clean c -> apart x c -> f_do E c s = (s', o) -> f_fatal c o = false -> bad s' \/ RIs (calls ++ [c]) (outs ++ [o]) s'.
Proof.
  intros R Hc Ha Hr Hf. destruct c as [c|c|f z|q p|q f]; cbn [f_do] in Hr.
  - destruct R as (mv & l & bs & done & R). destruct Hc as [Hd Hu]. destruct (docs_fdo Hli Ha (ri_v R) (ri_mi R) Hd Hu) as (s1 & o1 & R1 & C). rewrite Hr in R1. injection R1 as <- <-.
    destruct C as [B|[->|(mv' & y & HV & [S1 S2] & HM & P)]]; [now left|discriminate|]. right. destruct (piece_index Ha P) as (by_ & dy & HP).
    exists mv', (l ++ y), (bs ++ by_), (done ++ dy). refine (RI_add R HP HV HM _ _); [now rewrite S1, (ri_ev R), prices_snoc|now rewrite S2, (ri_w R), conf_names].
  - destruct R as (mv & l & bs & done & R). right. unfold on_m, on_ev in Hr. destruct (ev_do c (mt_ev (f_m s))) as [e' r] eqn:He. injection Hr as <- <-.
    exists (mkMt (mt_idx mv) (mt_rev mv) e' (mt_w mv) (mt_stats mv) (mt_store mv) (mt_sizes mv)), (l ++ map SName []), (bs ++ []), (done ++ []).
    refine (RI_add R (@piece_names x (MErr c) _ [] _) _ _ _ _).
    + reflexivity.
    + destruct (ri_v R). now constructor.
    + cbn [map]. rewrite app_nil_r. apply MI_conf. exact (ri_mi R).
    + rewrite prices_snoc, <- (ri_ev R), (v_ev (ri_v R)), He. reflexivity.
    + cbn [mt_w]. rewrite (ri_w R), conf_names; [reflexivity|exact I].
  - destruct R as (mv & l & bs & done & R). right. unfold f_setWeight in Hr.
    destruct (need_if_cases AtWeights (fun m => match mp_find wltb f (mt_w m) with Some _ => false | None => true end) s) as [(s1 & R1 & M1 & _)|(s1 & R1 & M1 & _)].
    + rewrite (fbind_val _ R1) in Hr. unfold on_m, set_w in Hr. injection Hr as <- <-.
      exists (mkMt (mt_idx mv) (mt_rev mv) (mt_ev mv) (iw_setWeight f z (mt_w mv)) (mt_stats mv) (mt_store mv) (mt_sizes mv)), (l ++ map SName []), (bs ++ []), (done ++ []).
      refine (RI_add R (@piece_names x (MWeight f z) _ [] _) _ _ _ _).
      * reflexivity.
      * cbn [f_m]. rewrite M1. destruct (ri_v R). constructor; cbn; auto. now f_equal.
      * cbn [map]. rewrite app_nil_r. apply MI_conf. exact (ri_mi R).
      * rewrite prices_snoc. exact (ri_ev R).
      * cbn [mt_w as_res heeded]. rewrite weights_snoc. now rewrite (ri_w R).
    + rewrite (fbind_out _ R1) in Hr. injection Hr as <- <-.
      exists mv, (l ++ map SName []), (bs ++ []), (done ++ []). refine (RI_add R (@piece_names x (MWeight f z) _ [] _) _ _ _ _).
      * reflexivity.
      * rewrite M1. exact (ri_v R).
      * cbn [map]. rewrite app_nil_r. exact (ri_mi R).
      * rewrite prices_snoc. exact (ri_ev R).
      * cbn [heeded]. rewrite app_nil_r. exact (ri_w R).
  - apply (@RI_calm _ (filter_words p) (f_match E q p) calls outs s (MMatch q p) s' o); auto; [|congruence || (intros ->; discriminate)]. apply calm_match. now apply filter_subs.
  - destruct Hc as [Hq Hff]. apply (@RI_calm _ [] (f_onlineMatch E q f) calls outs s (MOnline q f) s' o); auto; [|intros ->; discriminate]. now apply calm_online.
Qed.
Lemma mono_do c : mono (f_do E c).
Proof. destruct c; cbn [f_do]; mono. Qed.
Lemma mono_run calls : forall s s' outs, f_run E calls s = Some (s', outs) -> bad s -> bad s'.
Proof.
  induction calls as [|c calls IH]; intros s s' outs; cbn [f_run]; [now intros [= <- _]|]. destruct (f_do E c s) as [s1 o] eqn:Hd. destruct (f_fatal c o); [discriminate|].
  destruct (f_run E calls s1) as [[s2 os]|] eqn:Hr; [|discriminate]. intros [= <- _] Hb. exact (IH _ _ _ Hr (bad_mono (@mono_do c) Hd Hb)).
Qed.
Lemma RI_run calls : forall pre pouts s s' outs, RIs pre pouts s -> Forall clean calls -> Forall (apart x) calls -> f_run E calls s = Some (s', outs) -> bad s' \/ RIs (pre ++ calls) (pouts ++ outs) s'.
Proof.
  induction calls as [|c calls IH]; intros pre pouts s s' outs R Hc Ha; cbn [f_run]; [intros [= <- <-]; rewrite !app_nil_r; now right|].
  apply Forall_cons_iff in Hc as [Hc1 Hc]. apply Forall_cons_iff in Ha as [Ha1 Ha]. destruct (f_do E c s) as [s1 o] eqn:Hd. destruct (f_fatal c o) eqn:Hff; [discriminate|].
  destruct (f_run E calls s1) as [[s2 os]|] eqn:Hr; [|discriminate]. intros [= <- <-]. destruct (RI_step R Hc1 Ha1 Hd Hff) as [B|R1].
  - left. exact (mono_run Hr B).
  - rewrite (app_assoc pre [c] calls : pre ++ c :: calls = _), (app_assoc pouts [o] os : pouts ++ o :: os = _). exact (IH _ _ _ _ _ R1 Hc Ha Hr).
Qed.
End Step.
Lemma RI_history E calls plan outs s x : env_ok E -> Forall clean calls -> Forall (apart x) calls -> f_history E calls plan outs s -> spared s -> RIs x calls outs s.
Proof.
  intros HE Hc Ha (m0 & H0 & Hr) [N1 N2]. destruct (hi_new H0) as [H1 [li0 Hli]].
  assert (R0 : RIs x [] [] (mkF m0 plan [])).
  { assert (Hm : mt_rev m0 = [] /\ mt_sizes m0 = []) by (unfold mt_new in H0; destruct (ws_new E) as [t| | | |]; try discriminate; injection H0 as <-; now split). destruct Hm as [M1 M2].
    exists m0, [], [], []. constructor; try (now constructor); try (now intros; contradiction).
    - constructor; cbn [f_m]; rewrite ?M1, ?M2; try reflexivity; [split; [constructor|discriminate]| |constructor]. intros wi fi d. cbn. split; [discriminate|now intros []].
    - exact (hi_mi H1).
    - exact (hi_ev H1).
    - exact (hi_w H1). }
  destruct (RI_run Hli HE R0 Hc Ha Hr) as [[B|B]|R]; [contradiction|contradiction|exact R].
Qed.
