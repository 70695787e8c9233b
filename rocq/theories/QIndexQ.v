(** queryindex: reading the data file and answering. *)
From Verif Require Import Base TrieM TrieP WordM WordStoreM ErrorValuesM LevIndexM DataFileM QIndexM
  Spec_Hist TrieD TrieH WordStoreP Spec_Edit Spec_EV Spec_Lev EVR LevP EditP Spec_Match MatchP Spec_CApi Spec_Word WordP WordQ CApiP Spec_Tool QIndexP.
From Coq Require Import ZifyBool ZifyN ZifyNat.
Local Open Scope N_scope.
Local Open Scope m_scope.

Lemma utf8_cases E s : lower_ok E -> (exists w, word_of_utf8 E s = Ok w) \/ word_of_utf8 E s = Throw ERuntime \/ word_of_utf8 E s = Throw EInvalidArg.
Proof.
  intros HE. destruct (valid_dec s) as [(cs & Hs & ->)|Hn]; [|right; left; now apply word_invalid].
  destruct (blank_dec cs) as [Hb|Hb]; [left; eexists; now apply word_valid|right; right; now apply word_blank].
Qed.
Lemma text_insertable E s w : lower_ok E -> c_text s -> word_of_utf8 E s = Ok w -> w = [] \/ insertable w.
Proof. intros HE Hs Hw. apply (@field_usable E w HE). now exists s. Qed.
Lemma empty_id E s es ids ws : WS s es ids ws -> Forall insertable ws -> ws_getID E [] s = (s, Throw EOutOfRange).
Proof.
  intros H Ha. unfold ws_getID. erewrite mbind_ok.
  2:{ apply reads_ok. pose proof (@WS_hasWord s es ids ws [] H (Forall_nil _)) as Hx. unfold ws_hasWord in Hx. exact Hx. }
  assert (Hp : position [] ws = None).
  { apply position_none. intros Hin. rewrite Forall_forall in Ha. apply Ha in Hin as [Hx _]. now apply Hx. }
  rewrite Hp. unfold mbind, reads, on_trie. destruct s as [t x]. reflexivity.
Qed.

Section load.
Variable E : env.
Hypothesis HE : lower_ok E.
Variable i0 : levindex.
Variable s0 : wstore.
Hypothesis Hi0 : li_new E = Ok i0.
Hypothesis Hs0 : ws_new E = Ok s0.
Notation loaded := (loaded E i0).

(** One line. *)
Lemma line_word ws ops s t w : loaded ws ops s -> c_text t -> word_of_utf8 E t = Ok w -> w <> [] ->
  let r := load_line E (t ++ [10]) s in
  (exists ops', loaded (ws ++ [w]) ops' (fst r) /\ snd r = Ok tt) \/
  (snd r = Throw ERuntime /\ q_out (fst r) = [] /\
   exists sz, 1024 < sz /\ sz <= 72 + 64 * word_letters (ws ++ [w]) /\ grow_ok E (u32 sz) = false).
Proof.
  intros H Ht Hw Hne. unfold load_line. rewrite until_id.
  2:{ apply Forall_app. split; [eapply Forall_impl; [|exact Ht]; cbn; lia|constructor; [lia|constructor]]. }
  rewrite rev_app_distr. cbn [rev app]. rewrite rev_involutive.
  assert (Hi : insertable w) by (destruct (text_insertable HE Ht Hw) as [->|Hi]; [contradiction|exact Hi]).
  replace ((massert E (10 =? 10) ;;; _) s) with ((id <- on_store (ws_getID E w) ;; on_ind (li_insertWord E w id)) s).
  - now apply (@load_word E i0 Hi0 ws ops s w).
  - unfold mbind at 2. unfold massert. cbn [N.eqb Pos.eqb]. unfold mbind at 2. unfold reads at 1. now rewrite Hw.
Qed.
(** Any line. *)
Lemma rest_any ws ops s t : loaded ws ops s -> c_text t ->
  let r := (w <- reads (fun _ => word_of_utf8 E t) ;; id <- on_store (ws_getID E w) ;; on_ind (li_insertWord E w id)) s in
  (exists x, snd r = Throw x /\ q_out (fst r) = []) \/
  (exists w ops', snd r = Ok tt /\ word_of_utf8 E t = Ok w /\ w <> [] /\ loaded (ws ++ [w]) ops' (fst r)).
Proof.
  intros H Ht.
  replace ((w <- reads (fun _ => word_of_utf8 E t) ;; id <- on_store (ws_getID E w) ;; on_ind (li_insertWord E w id)) s) with
    (match word_of_utf8 E t with Ok w => (id <- on_store (ws_getID E w) ;; on_ind (li_insertWord E w id)) s | Throw x => (s, Throw x) | Abort => (s, Abort) | UB => (s, UB) | Fuel => (s, Fuel) end).
  2:{ unfold mbind at 2. unfold reads. destruct (word_of_utf8 E t); reflexivity. }
  destruct (utf8_cases t HE) as [[w Hw]|[Hw|Hw]]; rewrite Hw.
  - destruct (list_eq_dec N.eq_dec w []) as [->|Hne].
    + left. destruct (ld_store H) as (es & ids & HW). exists EOutOfRange. unfold mbind, on_store.
      rewrite (empty_id E HW). 2:{ apply Forall_forall. intros v Hv. apply distinct_in in Hv as [[]|Hv]. pose proof (ld_ins H) as Hx. rewrite Forall_forall in Hx. now apply Hx. }
      split; [reflexivity|]. apply (ld_out H).
    + assert (Hi : insertable w) by (destruct (text_insertable HE Ht Hw) as [->|Hi]; [contradiction|exact Hi]).
      destruct (@load_word E i0 Hi0 ws ops s w H Hi) as [(ops' & Hl & Hr)|(Hr & Ho & _)]; [right; eauto 10|left; eauto].
  - left. exists ERuntime. split; [reflexivity|apply (ld_out H)].
  - left. exists EInvalidArg. split; [reflexivity|apply (ld_out H)].
Qed.
Lemma line_any ws ops s t b : loaded ws ops s -> c_text (t ++ [b]) ->
  let r := load_line E (t ++ [b]) s in
  (b <> 10 /\ e_ndebug E = false /\ snd r = Abort) \/
  ((b = 10 \/ e_ndebug E = true) /\
   ((exists x, snd r = Throw x /\ q_out (fst r) = []) \/
    (exists w ops', snd r = Ok tt /\ word_of_utf8 E t = Ok w /\ w <> [] /\ loaded (ws ++ [w]) ops' (fst r)))).
Proof.
  intros H Ht. unfold load_line. rewrite until_id by (eapply Forall_impl; [|exact Ht]; cbn; lia).
  rewrite rev_app_distr. cbn [rev app]. rewrite rev_involutive. apply Forall_app in Ht as [Ht _]. fold (c_text t) in Ht.
  pose proof (rest_any H Ht) as HR. cbv zeta in HR.
  destruct (N.eqb_spec b 10) as [Hb|Hb].
  - right. split; [now left|]. exact HR.
  - destruct (e_ndebug E) eqn:Hd.
    + right. split; [now right|]. erewrite mbind_ok by (unfold massert; rewrite Hd; reflexivity). exact HR.
    + left. repeat split; [exact Hb|]. unfold mbind, massert. rewrite Hd. reflexivity.
Qed.

(** ** The whole file *)
Lemma loop_any fuel : forall bs ws ops s, loaded ws ops s -> Forall (fun b => 0 < b < 256) bs -> (length bs < fuel)%nat ->
  let r := load_loop E fuel bs s in
  (exists x, snd r = Throw x /\ q_out (fst r) = []) \/
  (snd r = Abort /\ e_ndebug E = false /\ (~ ended bs \/ exists a u b, bs = a ++ u ++ b /\ ~ In 10 u /\ N.of_nat (length u) = 1023)) \/
  (snd r = Ok tt /\ exists ws2 ops', loaded (ws ++ ws2) ops' (fst r) /\
     Forall (fun w => exists a u b, bs = a ++ u ++ b /\ ~ In 10 u /\ N.of_nat (length u) <= 1022 /\ word_of_utf8 E u = Ok w) ws2).
Proof.
  induction fuel as [|f IH]; intros bs ws ops s H Hb Hf; [lia|]. cbn [load_loop]. destruct bs as [|b0 bs0] eqn:Hbs.
  { right. right. split; [reflexivity|]. exists [], ops. rewrite app_nil_r. split; [exact H|constructor]. }
  rewrite <- Hbs in *. destruct (fgets 1023 bs) as [l r] eqn:Hg.
  assert (Hb1 : bs <> []) by (rewrite Hbs; discriminate). assert (Hb2 : 1023 <> 0) by lia.
  destruct (fgets_spec Hb2 Hb1 Hg) as (He & Hl & Hc).
  destruct (rev l) as [|b t'] eqn:Hrl; [destruct Hl; now rewrite <- (rev_involutive l), Hrl|].
  assert (Hlt : l = rev t' ++ [b]) by (now rewrite <- (rev_involutive l), Hrl). set (t := rev t') in *.
  rewrite He in Hb. apply Forall_app in Hb as [Hbl Hbr]. rewrite Hlt in Hbl.
  assert (Hlen : (length r < f)%nat) by (rewrite He, app_length, Hlt, app_length in Hf; cbn [length] in Hf; lia).
  assert (Ht10 : ~ In 10 t).
  { destruct Hc as [(u & Hu & Hn & _)|(Hn & _)].
    - rewrite Hlt in Hu. apply app_inj_tail in Hu as [-> _]. exact Hn.
    - intros Hx. apply Hn. rewrite Hlt. apply in_or_app. now left. }
  assert (Ht22 : N.of_nat (length t) <= 1022).
  { destruct Hc as [(u & Hu & _ & Hn)|(_ & Hn & _)]; [rewrite Hlt in Hu; apply app_inj_tail in Hu as [-> _]; lia|]. rewrite Hlt, app_length in Hn. cbn [length] in Hn. lia. }
  unfold mbind. rewrite Hlt.
  destruct (line_any H Hbl) as [(Hb10 & Hd & Hr)|(Hok & [(x & Hr & Ho)|(w & ops' & Hr & Hw & Hne & H')])]; destruct (load_line E (t ++ [b]) s) as [s1 o]; cbn [fst snd] in *; subst o.
  - right. left. split; [reflexivity|]. split; [exact Hd|].
    destruct Hc as [(u & Hu & _)|(Hn & _ & Hc)].
    { rewrite Hlt in Hu. apply app_inj_tail in Hu as [_ ->]. contradiction. }
    destruct Hc as [->|Hc].
    + left. intros Hen. apply Hb10. apply (Hen t b). rewrite He, app_nil_r. exact Hlt.
    + right. exists [], l, r. auto.
  - left. exists x. auto.
  - destruct (IH r (ws ++ [w]) ops' s1 H' Hbr Hlen) as [(x & Hr & Ho)|[(Hr & Hd & Hx)|(Hr & ws2 & ops2 & H2 & Hall)]].
    + left. eauto.
    + right. left. split; [exact Hr|]. split; [exact Hd|]. destruct Hx as [Hx|(a & u & c & Hx & Hu)].
      * left. intros Hen. apply Hx. intros a c Hac. apply (Hen (l ++ a) c). now rewrite He, Hac, app_assoc.
      * right. exists (l ++ a), u, c. split; [now rewrite He, Hx, app_assoc|exact Hu].
    + right. right. split; [exact Hr|]. exists (w :: ws2), ops2. rewrite <- app_assoc in H2. split; [exact H2|].
      constructor.
      * exists [], t, ([b] ++ r). split; [|now repeat split]. cbn [app]. rewrite He, Hlt, <- app_assoc. reflexivity.
      * eapply Forall_impl; [|exact Hall]. cbn. intros v (a & u & c & Hx & Hu). exists (l ++ a), u, c. split; [now rewrite He, Hx, app_assoc|exact Hu].
Qed.

(** Good lines, then anything. *)
Definition good_line (cs : list N) : Prop :=
  cs <> [] /\ Forall scalar cs /\ (forall c, In c cs -> ~ blank c /\ c <> 0) /\ N.of_nat (length (bytes_of cs)) <= 1022.
Lemma line_bytes cs : Forall scalar cs -> (forall c, In c cs -> ~ blank c /\ c <> 0) -> c_text (bytes_of cs) /\ ~ In 10 (bytes_of cs).
Proof.
  intros Hs Hc. split.
  - apply Forall_forall. intros b Hb. apply in_flat_map in Hb as (c & Hc1 & Hb). rewrite Forall_forall in Hs. specialize (Hs c Hc1). destruct (Hc c Hc1) as [_ H0].
    clear Hc Hc1. unfold scalar in Hs. unfold utf8 in Hb. destruct (c <? 128) eqn:?; [|destruct (c <? 2048) eqn:?; [|destruct (c <? 65536) eqn:?]]; cbn [In] in Hb; intuition (subst; lia).
  - intros Hb. apply in_flat_map in Hb as (c & Hc1 & Hb). destruct (Hc c Hc1) as [H1 _]. unfold blank in H1.
    unfold utf8 in Hb. destruct (c <? 128) eqn:?; [|destruct (c <? 2048) eqn:?; [|destruct (c <? 65536) eqn:?]]; cbn [In] in Hb; intuition (subst; lia).
Qed.
Lemma as_word_ok cs : good_line cs -> word_of_utf8 E (bytes_of cs) = Ok (as_word E cs) /\ as_word E cs <> [] /\
  N.of_nat (length (as_word E cs)) <= N.of_nat (length (bytes_of cs)).
Proof.
  intros (Hne & Hs & Hc & _). split; [apply word_valid; [exact HE|exact Hs|intros c Hx; now apply Hc]|]. unfold as_word. split.
  - destruct cs as [|c cs]; [contradiction|]. cbn [map]. rewrite letters_cons. unfold utf16. destruct (fold E c <? 65536); discriminate.
  - replace (length (letters_of (map (fold E) cs))) with (length (letters_of cs)); [pose proof (sizes cs); lia|].
    clear Hne Hc. induction Hs as [|c cs Hc _ IH]; [reflexivity|]. cbn [map]. rewrite !letters_cons, !app_length, IH. f_equal.
    unfold utf16, fold. destruct (c <? 65536) eqn:Hx; [|now rewrite Hx]. pose proof (lo_range HE (l := c) ltac:(lia)) as Hy. now replace (e_lower E c <? 65536) with true by lia.
Qed.
Lemma file_cons cs lines rest : text_file (cs :: lines) ++ rest = bytes_of cs ++ 10 :: (text_file lines ++ rest).
Proof. unfold text_file. cbn [flat_map]. rewrite <- !app_assoc. reflexivity. Qed.
Lemma loop_good lines : forall rest fuel ws ops s, Forall good_line lines -> loaded ws ops s ->
  (length (text_file lines ++ rest) < fuel)%nat ->
  (forall sz, 1024 <= sz <= 1024 + 64 * (word_letters ws + N.of_nat (length (text_file lines))) -> grow_ok E sz = true) ->
  1024 + 64 * (word_letters ws + N.of_nat (length (text_file lines))) < 4294967296 ->
  exists fuel' s' ops', (length rest < fuel')%nat /\ loaded (ws ++ map (as_word E) lines) ops' s' /\
    load_loop E fuel (text_file lines ++ rest) s = load_loop E fuel' rest s'.
Proof.
  induction lines as [|cs lines IH]; intros rest fuel ws ops s Hg H Hf Hos Hmax.
  - exists fuel, s, ops. cbn [map]. rewrite app_nil_r. split; [exact Hf|]. split; [exact H|reflexivity].
  - apply Forall_cons_iff in Hg as [Hg1 Hg]. destruct fuel as [|f]; [lia|]. destruct (as_word_ok Hg1) as (Hw & Hne & Hlen).
    assert (Htl : N.of_nat (length (text_file (cs :: lines))) = N.of_nat (length (bytes_of cs)) + 1 + N.of_nat (length (text_file lines))).
    { unfold text_file. cbn [flat_map]. rewrite !app_length. cbn [length]. lia. }
    rewrite Htl in *. destruct Hg1 as (_ & Hs & Hc & Hl). destruct (line_bytes Hs Hc) as [Hct H10].
    rewrite file_cons in *. cbn [load_loop].
    assert (Hsplit : forall (A : Type) (x : A) (f : list N -> A), (match bytes_of cs ++ 10 :: text_file lines ++ rest with [] => x | n :: l => f (n :: l) end) = f (bytes_of cs ++ 10 :: text_file lines ++ rest)).
    { intros A x f0. destruct (bytes_of cs); reflexivity. }
    destruct (bytes_of cs ++ 10 :: text_file lines ++ rest) as [|n l] eqn:Hb; [now destruct (bytes_of cs)|]. rewrite <- Hb. clear Hsplit.
    rewrite fgets_line by (assumption || lia). unfold mbind.
    assert (Hwl : word_letters (ws ++ [as_word E cs]) = word_letters ws + N.of_nat (length (as_word E cs))).
    { rewrite word_letters_app. unfold word_letters at 2. cbn [fold_right]. lia. }
    destruct (line_word H Hct Hw Hne) as [(ops' & H' & Hr)|(_ & _ & sz & Hz1 & Hz2 & Hz3)].
    + destruct (load_line E (bytes_of cs ++ [10]) s) as [s1 o]. cbn [fst snd] in *. subst o.
      destruct (IH rest f (ws ++ [as_word E cs]) ops' s1) as (f' & s' & ops2 & Hf' & H2 & He); try assumption.
      * rewrite <- Hb in Hf. rewrite app_length in Hf. cbn [length] in Hf. lia.
      * intros sz Hsz. apply Hos. rewrite Hwl in Hsz. lia.
      * rewrite Hwl. lia.
      * exists f', s', ops2. split; [exact Hf'|]. rewrite <- app_assoc in H2. split; [exact H2|exact He].
    + exfalso. rewrite Hwl in Hz2. unfold u32 in Hz3. rewrite N.mod_small in Hz3 by lia. rewrite Hos in Hz3 by lia. discriminate.
Qed.

(** ** The answer *)
Lemma print_all m : forall pre rows s D, (exists es ids, WS (q_store s) es ids D) ->
  Forall2 (fun p row => exists k c, fst p = N.of_nat k /\ nth_error D k = Some (letters_of c) /\ constructible E (letters_of c) /\
     Forall scalar c /\ Forall (fun x => x <> 0) c /\ N.of_nat (length (bytes_of c)) < 1024 /\ row = PMatch (bytes_of c) (snd p)) m rows ->
  print_loop E (length m) (N.of_nat (length pre)) (pre ++ m) s = (mkQ (q_ind s) (q_store s) (q_out s ++ rows), Ok tt).
Proof.
  induction m as [|[id err] m IH]; intros pre rows s D HD HF.
  - inversion HF; subst. cbn [length print_loop]. rewrite app_nil_r. now destruct s.
  - inversion HF as [|p row m' rows' (k & c & Hk & Hn & Hcon & Hsc & Hnz & Hlen & ->) HF']; subst. cbn [fst snd] in *. subst id.
    cbn [length print_loop]. destruct HD as (es & ids & HD).
    assert (Hnth : nth_error (pre ++ (N.of_nat k, err) :: m) (N.to_nat (N.of_nat (length pre))) = Some (N.of_nat k, err)).
    { rewrite Nat2N.id, nth_error_app2 by lia. now rewrite Nat.sub_diag. }
    erewrite mbind_ok by (apply reads_ok; unfold im_getMatch; rewrite Hnth; reflexivity). cbn [fst].
    erewrite mbind_ok by (apply reads_ok; rewrite (WS_getWord E HD Hn); now apply constructible_back).
    erewrite mbind_ok.
    2:{ apply reads_ok. rewrite toUtf8_letters by exact Hsc. replace (1024 <? _) with false by lia. replace (1024 =? _) with false by lia. reflexivity. }
    erewrite mbind_ok by (apply reads_ok; unfold im_getMatchError; rewrite Hnth; reflexivity). cbn [snd].
    erewrite mbind_ok by (apply reads_ok; apply c_str_app; now apply bytes_nonnul).
    erewrite mbind_ok by reflexivity.
    specialize (IH (pre ++ [(N.of_nat k, err)]) rows' (mkQ (q_ind s) (q_store s) (q_out s ++ [PMatch (bytes_of c) err])) D).
    rewrite app_length in IH. cbn [length] in IH. replace (N.of_nat (length pre + 1)) with (N.of_nat (length pre) + 1) in IH by lia.
    rewrite <- app_assoc in IH. cbn [app] in IH. rewrite IH; [|exists es, ids; exact HD|exact HF'].
    cbn [q_ind q_store q_out]. rewrite <- app_assoc. reflexivity.
Qed.
End load.
