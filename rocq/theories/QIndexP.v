(** queryindex: what its parts do. *)
From Verif Require Import Base TrieM WordM WordStoreM ErrorValuesM LevIndexM DataFileM QIndexM
  Spec_Hist TrieD TrieH WordStoreP Spec_Edit Spec_EV Spec_Lev EVR LevP Spec_Match MatchP Spec_CApi Spec_Word WordP WordQ CApiP Spec_Tool.
From Coq Require Import ZifyBool ZifyN ZifyNat.
Local Open Scope N_scope.
Local Open Scope m_scope.

(** ** atoi *)
Lemma skip_app sp s : Forall space sp -> skip_space (sp ++ s) = skip_space s.
Proof.
  induction 1 as [|b sp Hb _ IH]; [reflexivity|]. cbn [app skip_space]. unfold space in Hb.
  replace ((b =? 32) || ((9 <=? b) && (b <=? 13))) with true by lia. exact IH.
Qed.
Lemma skip_stop b r : ~ space b -> skip_space (b :: r) = b :: r.
Proof.
  intros H. cbn [skip_space]. replace ((b =? 32) || ((9 <=? b) && (b <=? 13))) with false; [reflexivity|].
  symmetry. unfold space in H. lia.
Qed.
Lemma digits_app ds : forall acc rest, Forall digit ds -> (forall b r, rest = b :: r -> ~ digit b) ->
  digits acc (ds ++ rest) = fold_left (fun a d => (10 * a + (Z.of_N d - 48))%Z) ds acc.
Proof.
  induction ds as [|d ds IH]; intros acc rest Hd Hr; cbn [app fold_left].
  - destruct rest as [|b r]; [reflexivity|]. cbn [digits]. specialize (Hr b r eq_refl). unfold digit in Hr.
    replace ((48 <=? b) && (b <=? 57)) with false; [reflexivity|lia].
  - apply Forall_cons_iff in Hd as [Hd1 Hd]. cbn [digits]. unfold digit in Hd1.
    replace ((48 <=? d) && (d <=? 57)) with true by lia. rewrite IH by assumption. f_equal. lia.
Qed.
Lemma atoi_reads s n : reads_as s n -> atoi s = if in_i32 n then Ok n else UB.
Proof.
  intros [sp sg ds rest Hsp Hsg Hds Hrest]. unfold atoi. rewrite skip_app by exact Hsp.
  assert (Hdr : forall b r, rest = b :: r -> ~ digit b) by (intros b r H; now apply (Hrest b r)).
  destruct Hsg as [<-|[<-|[<-|[]]]]; cbn [app].
  - destruct ds as [|d ds].
    + cbn [app]. destruct rest as [|b r]; [reflexivity|]. destruct (Hrest b r eq_refl) as [Hb Hx].
      destruct (Hx eq_refl eq_refl) as (Hs & H1 & H2). rewrite skip_stop by exact Hs.
      replace (b =? 45) with false by lia. replace (b =? 43) with false by lia.
      pose proof (@digits_app [] 0%Z (b :: r) Hds Hdr) as Hd. cbn [app fold_left] in Hd. now rewrite Hd.
    + assert (Hd : digit d) by now apply Forall_inv in Hds. rewrite <- app_comm_cons, skip_stop by (unfold digit, space in *; lia).
      unfold digit in Hd. replace (d =? 45) with false by lia. replace (d =? 43) with false by lia.
      rewrite app_comm_cons. now rewrite (digits_app 0%Z Hds Hdr).
  - rewrite skip_stop by (unfold space; lia). cbn [N.eqb Pos.eqb]. now rewrite (digits_app 0%Z Hds Hdr).
  - rewrite skip_stop by (unfold space; lia). cbn [N.eqb Pos.eqb]. now rewrite (digits_app 0%Z Hds Hdr).
Qed.
Lemma space_dec b : {space b} + {~ space b}.
Proof. unfold space. destruct ((b =? 32) || ((9 <=? b) && (b <=? 13))) eqn:H; [left|right]; lia. Qed.
Lemma digit_dec b : {digit b} + {~ digit b}.
Proof. unfold digit. destruct ((48 <=? b) && (b <=? 57)) eqn:H; [left|right]; lia. Qed.
Lemma take_while (P : N -> Prop) (dec : forall b, {P b} + {~ P b}) s :
  exists a r, s = a ++ r /\ Forall P a /\ forall b r', r = b :: r' -> ~ P b.
Proof.
  induction s as [|b s (a & r & -> & Ha & Hr)]; [exists [], []; repeat split; [constructor|discriminate]|].
  destruct (dec b) as [Hb|Hb].
  - exists (b :: a), r. repeat split; [now constructor|exact Hr].
  - exists [], (b :: a ++ r). repeat split; [constructor|]. intros b' r' [= <- _]. exact Hb.
Qed.
Lemma reads_total s : exists n, reads_as s n.
Proof.
  destruct (take_while space_dec s) as (sp & t & -> & Hsp & Ht).
  assert (Hsign : exists sg u, t = sg ++ u /\ In sg [[]; [43]; [45]] /\ (sg = [] -> forall b r, u = b :: r -> b <> 43 /\ b <> 45)).
  { destruct t as [|b u]; [exists [], []; repeat split; cbn; auto; discriminate|].
    destruct (N.eq_dec b 43) as [->|H1]; [exists [43], u; repeat split; cbn; auto; discriminate|].
    destruct (N.eq_dec b 45) as [->|H2]; [exists [45], u; repeat split; cbn; auto; discriminate|].
    exists [], (b :: u). split; [reflexivity|]. split; [cbn; auto|]. intros _ b' r' [= <- _]. auto. }
  destruct Hsign as (sg & u & -> & Hsg & Hu). destruct (take_while digit_dec u) as (ds & rest & -> & Hds & Hrest).
  eexists. apply reading; [exact Hsp|exact Hsg|exact Hds|]. intros b r ->. split; [now apply (Hrest b r)|].
  intros -> ->. split; [now apply (Ht b r)|]. now apply (Hu eq_refl b r).
Qed.
Lemma reads_unique s n m : reads_as s n -> reads_as s m -> in_i32 n = true -> in_i32 m = true -> n = m.
Proof. intros H1 H2 Hn Hm. apply atoi_reads in H1, H2. rewrite Hn in H1. rewrite Hm in H2. congruence. Qed.

(** ** fgets *)
Lemma fgets_spec room : forall bs l r, room <> 0 -> bs <> [] -> fgets room bs = (l, r) ->
  bs = l ++ r /\ l <> [] /\
  ((exists s, l = s ++ [10] /\ ~ In 10 s /\ N.of_nat (length s) < room) \/
   (~ In 10 l /\ N.of_nat (length l) <= room /\ (r = [] \/ N.of_nat (length l) = room))).
Proof.
  intros bs. revert room. induction bs as [|b bs IH]; intros room l r Hr Hne H; [contradiction|].
  cbn [fgets] in H. replace (room =? 0) with false in H by lia.
  destruct (N.eqb_spec b 10) as [->|Hb].
  - injection H as <- <-. repeat split; [discriminate|]. left. exists []. repeat split; [intros []|cbn; lia].
  - destruct (fgets (room - 1) bs) as [l' r'] eqn:Hf. assert (l = b :: l' /\ r = r') as [-> ->] by (split; congruence).
    destruct bs as [|b2 bs].
    + cbn in Hf. assert (l' = [] /\ r' = []) as [-> ->] by (split; congruence). repeat split; [discriminate|]. right.
      cbn [In length]. repeat split; [intros [Hx|[]]; congruence|lia|now left].
    + destruct (N.eq_dec (room - 1) 0) as [Hz|Hz].
      * cbn [fgets] in Hf. rewrite Hz in Hf. cbn [N.eqb] in Hf. assert (l' = [] /\ r' = b2 :: bs) as [-> ->] by (split; congruence).
        repeat split; [discriminate|]. right. cbn [In length]. repeat split; [intros [Hx|[]]; congruence|lia|right; lia].
      * destruct (IH (room - 1) l' r' Hz ltac:(discriminate) Hf) as (He & Hl & Hc). split; [cbn [app]; now rewrite <- He|]. split; [discriminate|].
        destruct Hc as [(s & -> & Hs & Hlen)|(Hs & Hlen & Hc)].
        -- left. exists (b :: s). repeat split; [intros [Hx|Hx]; congruence|cbn [length]; lia].
        -- right. split; [intros [Hx|Hx]; congruence|]. cbn [length] in *. split; [lia|]. destruct Hc as [Hc|Hc]; [now left|right; lia].
Qed.
Lemma fgets_line s r room : ~ In 10 s -> N.of_nat (length s) < room -> fgets room (s ++ 10 :: r) = (s ++ [10], r).
Proof.
  revert room. induction s as [|b s IH]; intros room Hs Hlen; cbn [app fgets length] in *.
  - now replace (room =? 0) with false by lia.
  - replace (room =? 0) with false by lia. replace (b =? 10) with false by (destruct (N.eqb_spec b 10); [exfalso; apply Hs; now left|reflexivity]).
    rewrite IH; [reflexivity|intros Hx; apply Hs; now right|lia].
Qed.
Lemma until_id l : Forall (fun b => b <> 0) l -> until_nul l = l.
Proof. induction 1 as [|b l Hb _ IH]; [reflexivity|]. cbn [until_nul]. replace (b =? 0) with false by lia. now rewrite IH. Qed.

(** ** Words, stores and indexes *)
Lemma distinct_more a : forall seen b, distinct seen (a ++ b) = distinct (distinct seen a) b.
Proof. induction a as [|w a IH]; intros seen b; [reflexivity|]. cbn [app distinct]. destruct (position w seen); apply IH. Qed.
Lemma lev_more E a : forall b s s1, lev_insert_all E a s = (s1, Ok tt) -> lev_insert_all E (a ++ b) s = lev_insert_all E b s1.
Proof.
  induction a as [|[w id] a IH]; intros b s s1 H; [injection H as <-; reflexivity|]. cbn [app lev_insert_all] in *.
  unfold mbind in *. destruct (li_insertWord E w id s) as [s2 [u| | | |]]; try discriminate. now apply IH.
Qed.
Lemma new_index E : match li_new E with
  | Ok s => grow_ok E 1024 = true /\ exists st, ws_new E = Ok st
  | Throw _ => grow_ok E 1024 = false /\ exists x, ws_new E = Throw x
  | _ => False end.
Proof.
  unfold li_new, ws_new. destruct (grow_ok E 1024) eqn:Hg.
  - destruct (TR_new Hg) as (t & -> & _). cbn [obind]. eauto.
  - unfold trie_new. rewrite Hg. cbn [obind]. eauto.
Qed.

(** [insertWord] in a state reached by [ops]. *)
Lemma lev_granted E s es ids d ops w id : LV s es ids d ops -> insertable w -> id <> INVALID_WORDID -> (forall i, In (w, i) ops -> i = id) ->
  (exists s', li_insertWord E w id s = (s', Ok tt)) \/
  (exists s', li_insertWord E w id s = (s', Throw ERuntime) /\
     exists sz, 1024 < sz /\ sz <= 72 + 64 * Spec_Hist.letters_of (real ops ++ [(w, id)]) /\ grow_ok E (u32 sz) = false).
Proof.
  intros L Hw Hid Hc. destruct (lv_hist L) as [offs H]. unfold li_insertWord.
  destruct (Nat.eqb_spec (length w) 0) as [Hl|Hl]; [left; eexists; reflexivity|].
  unfold mbind, reads, on_li_trie.
  destruct (hist_step E H (w := w) (id := id) Hw Hid)
    as [(t1 & off & es1 & ids1 & d1 & x & He & Hx & H1)|[(t1 & He & _ & Hs)|(t1 & He & _ & i & Hin & Hne)]]; rewrite He.
  - left. eexists. reflexivity.
  - right. eexists. split; [reflexivity|exact Hs].
  - exfalso. apply Hne, Hc. apply filter_In in Hin as [Hin _]. exact Hin.
Qed.

Section load.
Variable E : env.
Variable i0 : levindex.
Variable s0 : wstore.
Hypothesis Hi0 : li_new E = Ok i0.
Hypothesis Hs0 : ws_new E = Ok s0.

(** After the words [ws] have been read. *)
Record loaded (ws : list word) (ops : list (word * N)) (s : qstate) : Prop := {
  ld_out : q_out s = [];
  ld_ins : Forall insertable ws;
  ld_words : map fst ops = ws;
  ld_ids : forall w i, In (w, i) ops -> exists k, position w (distinct [] ws) = Some k /\ i = N.of_nat k;
  ld_ops : lev_ops ops;
  ld_run : lev_insert_all E ops i0 = (q_ind s, Ok tt);
  ld_store : exists es ids, WS (q_store s) es ids (distinct [] ws)
}.
Lemma loaded_new : loaded [] [] (mkQ i0 s0 []).
Proof.
  constructor; try reflexivity; try constructor.
  - intros w i [].
  - destruct (WS_new Hs0) as [ids H]. exists [], ids. exact H.
Qed.

Lemma ops_letters ops : Spec_Hist.letters_of ops = word_letters (map fst ops).
Proof. induction ops as [|[w i] r IH]; [reflexivity|]. cbn [Spec_Hist.letters_of word_letters fold_right map fst]. unfold Spec_Hist.letters_of, word_letters in *. now rewrite IH. Qed.
Lemma real_id ops : Forall insertable (map fst ops) -> real ops = ops.
Proof.
  induction ops as [|[w i] r IH]; intros H; [reflexivity|]. cbn [map fst] in H. apply Forall_cons_iff in H as [(Hne & _) H].
  unfold real in *. cbn [filter fst]. destruct w; [contradiction|]. cbn [nonempty]. now rewrite IH.
Qed.
Lemma distinct_letters a : forall seen, word_letters (distinct seen a) <= word_letters seen + word_letters a.
Proof.
  induction a as [|w a IH]; intros seen; [change (word_letters []) with 0; cbn [distinct]; lia|].
  assert (Hc : word_letters (w :: a) = N.of_nat (length w) + word_letters a) by reflexivity.
  cbn [distinct]. destruct (position w seen).
  - specialize (IH seen). lia.
  - specialize (IH (seen ++ [w])). rewrite word_letters_app in IH.
    assert (word_letters [w] = N.of_nat (length w)) by (cbn [word_letters fold_right]; unfold word_letters; cbn [fold_right]; lia). lia.
Qed.

(** One more word. *)
Lemma load_word ws ops s w : loaded ws ops s -> insertable w ->
  let r := (id <- on_store (ws_getID E w) ;; on_ind (li_insertWord E w id)) s in
  (exists ops', loaded (ws ++ [w]) ops' (fst r) /\ snd r = Ok tt) \/
  (snd r = Throw ERuntime /\ q_out (fst r) = [] /\
   exists sz, 1024 < sz /\ sz <= 72 + 64 * word_letters (ws ++ [w]) /\ grow_ok E (u32 sz) = false).
Proof.
  intros H Hw. destruct (ld_store H) as (es & ids & HW).
  destruct (lev_all Hi0 (ld_ops H) (ld_run H)) as (es1 & ids1 & d1 & HL).
  pose proof (ld_words H) as Hws. pose proof (ld_ins H) as Hall.
  assert (Hstep : forall st' k, (exists es' ids', WS st' es' ids' (distinct [] (ws ++ [w]))) ->
    position w (distinct [] (ws ++ [w])) = Some k -> ws_getID E w (q_store s) = (st', Ok (N.of_nat k)) ->
    let r := (id <- on_store (ws_getID E w) ;; on_ind (li_insertWord E w id)) s in
    (exists ops', loaded (ws ++ [w]) ops' (fst r) /\ snd r = Ok tt) \/
    (snd r = Throw ERuntime /\ q_out (fst r) = [] /\
     exists sz, 1024 < sz /\ sz <= 72 + 64 * word_letters (ws ++ [w]) /\ grow_ok E (u32 sz) = false)).
  { intros st' k (es' & ids' & HW') Hk Hg.
    assert (Hkeep : forall v i, In (v, i) ops -> exists n, position v (distinct [] (ws ++ [w])) = Some n /\ i = N.of_nat n).
    { intros v i Hv. destruct (ld_ids H Hv) as (n & Hn & ->). exists n. split; [|reflexivity]. rewrite distinct_more.
      destruct (distinct_app [w] (distinct [] ws)) as [x ->]. now apply position_app. }
    assert (Hlt : N.of_nat k <> INVALID_WORDID).
    { pose proof (WS_small HW') as Hsm. apply position_some in Hk. assert (k < length (distinct [] (ws ++ [w])))%nat by (apply nth_error_Some; congruence).
      unfold INVALID_WORDID. lia. }
    assert (Hu : forall i, In (w, i) ops -> i = N.of_nat k).
    { intros i Hi. destruct (Hkeep _ _ Hi) as (n & Hn & ->). congruence. }
    unfold mbind, on_store. rewrite Hg. unfold on_ind. cbn [q_ind q_store q_out].
    destruct (lev_granted E HL Hw Hlt Hu) as [(i' & Hr)|(i' & Hr & sz & Hz1 & Hz2 & Hz3)]; rewrite Hr; cbn [fst snd].
    - left. exists (ops ++ [(w, N.of_nat k)]). split; [|reflexivity]. constructor; cbn [q_ind q_store q_out].
      + apply (ld_out H).
      + apply Forall_app. split; [exact Hall|]. now constructor.
      + rewrite map_app, Hws. reflexivity.
      + intros v i Hv. apply in_app_iff in Hv as [Hv|[Hv|[]]]; [now apply Hkeep|].
        assert (v = w /\ i = N.of_nat k) as [-> ->] by (split; congruence). eauto.
      + apply Forall_app. split; [apply (ld_ops H)|]. constructor; [|constructor]. cbn [fst snd]. auto.
      + rewrite (lev_more [(w, N.of_nat k)] (ld_run H)). cbn [lev_insert_all]. unfold mbind. rewrite Hr. reflexivity.
      + eauto.
    - right. split; [reflexivity|]. split; [apply (ld_out H)|]. exists sz. split; [exact Hz1|]. split; [|exact Hz3].
      rewrite real_id in Hz2 by (rewrite Hws; exact Hall). rewrite ops_letters, map_app, Hws in Hz2. exact Hz2. }
  destruct (position w (distinct [] ws)) as [k|] eqn:Hp.
  - apply (Hstep (q_store s) k).
    + exists es, ids. rewrite distinct_more. cbn [distinct]. now rewrite Hp.
    + rewrite distinct_more. cbn [distinct]. now rewrite Hp.
    + eapply WS_getID_old; [exact HW|apply Hw|exact Hp].
  - destruct (WS_getID_new E HW Hw Hp) as [(s' & es' & ids' & x & Hg & _ & HW')|(s' & Hg & _ & sz & Hz1 & Hz2 & Hz3)].
    + apply (Hstep s' (length (distinct [] ws))).
      * exists es', ids'. rewrite distinct_more. cbn [distinct]. now rewrite Hp.
      * rewrite distinct_more. cbn [distinct]. rewrite Hp. apply position_nth; [apply (WS_nodup HW')|].
        rewrite nth_error_app2 by lia. now rewrite Nat.sub_diag.
      * exact Hg.
    + right. unfold mbind, on_store. rewrite Hg. cbn [fst snd q_out]. split; [reflexivity|]. split; [apply (ld_out H)|].
      exists sz. split; [exact Hz1|]. split; [|exact Hz3].
      pose proof (@distinct_letters ws []) as Hd. change (word_letters []) with 0 in Hd. rewrite word_letters_app in *. lia.
Qed.
End load.
