(** queryindex: malformed files, arguments and safety. *)
From Verif Require Import Base TrieM TrieP WordM WordStoreM ErrorValuesM LevIndexM DataFileM QIndexM
  Spec_Hist TrieD TrieH WordStoreP Spec_Edit Spec_EV Spec_Lev EVR LevP EditP Spec_Match MatchP Spec_CApi Spec_Word WordP WordQ CApiP Spec_Tool QIndexP QIndexQ QIndexR.
From Coq Require Import ZifyBool ZifyN ZifyNat.
Local Open Scope N_scope.
Local Open Scope m_scope.

(** Files that are printable: short lines, and ASCII. *)
Lemma short_printable E : lower_ok E -> forall bs, short_lines 342 bs -> printable_file E bs.
Proof.
  intros HE bs [Hb Hs]. split; [exact Hb|]. intros a s b cs He H10 _ Hc ->. specialize (Hs _ _ _ He H10).
  pose proof (sizes (map (fold E) cs)) as [_ H1]. rewrite fold_length in H1 by assumption. pose proof (sizes cs) as [H2 _]. lia.
Qed.
Lemma ascii_printable E bs : (forall c, c < 128 -> fold E c < 128) -> Forall (fun b => 0 < b < 128) bs -> printable_file E bs.
Proof.
  intros HF Hb. split; [eapply Forall_impl; [|exact Hb]; cbn; lia|]. intros a s b cs He _ Hl _ ->.
  assert (Hs : Forall (fun b => 0 < b < 128) (bytes_of cs)) by (rewrite He in Hb; apply Forall_app in Hb as [_ Hb]; now apply Forall_app in Hb as [Hb _]). clear He.
  assert (Hn : forall ds, Forall (fun c => c < 128) ds -> length (bytes_of ds) = length ds).
  { induction 1 as [|d ds Hd _ IH]; [reflexivity|]. unfold bytes_of in *. cbn [flat_map length]. unfold utf8 at 1. replace (d <? 128) with true by lia. cbn [app length]. now rewrite IH. }
  assert (Hcs : Forall (fun c => c < 128) cs).
  { clear Hl. induction cs as [|c cs IH]; [constructor|]. unfold bytes_of in Hs. cbn [flat_map] in Hs. apply Forall_app in Hs as [H1 H2]. constructor; [|now apply IH].
    unfold utf8 in H1. destruct (c <? 128) eqn:Hc; [lia|]. destruct (c <? 2048); [|destruct (c <? 65536)]; apply Forall_cons_iff in H1 as [H1 _]; lia. }
  rewrite Hn, map_length, <- (Hn cs Hcs); [lia|]. apply Forall_map. eapply Forall_impl; [|exact Hcs]. exact HF.
Qed.

Section bad.
Variable E : env.
Hypothesis HE : lower_ok E.
Variable file : list N -> option (list N).
Variables prog name number : list N.
Variable more : list (list N).

(** A line that does not become a word. *)
Lemma bad_rest i0 ws ops s t b rest fuel x : loaded E i0 ws ops s -> c_text t -> ~ In 10 t -> N.of_nat (length t) <= 1022 ->
  (b = 10 \/ e_ndebug E = true /\ rest = []) -> (b <> 0) ->
  (word_of_utf8 E t = Throw x \/ word_of_utf8 E t = Ok [] /\ x = EOutOfRange) ->
  exists s', load_loop E (S fuel) (t ++ b :: rest) s = (s', Throw x) /\ q_out s' = [].
Proof.
  intros H Ht H10 Hlen Hb Hb0 Hw. cbn [load_loop].
  assert (Hg : fgets 1023 (t ++ b :: rest) = (t ++ [b], rest)).
  { destruct (N.eq_dec b 10) as [->|Hne]; [apply fgets_line; [exact H10|lia]|]. destruct Hb as [->|[_ ->]]; [contradiction|].
    destruct (fgets 1023 (t ++ [b])) as [l r] eqn:Hg. assert (H1 : 1023 <> 0) by lia. assert (H2 : t ++ [b] <> []) by (now destruct t).
    destruct (fgets_spec H1 H2 Hg) as (He & _ & [(u & -> & _)|(_ & Hl & [->|Hl2])]).
    - assert (r = []) as ->.
      { destruct (rev r) as [|z r'] eqn:Hr; [now rewrite <- (rev_involutive r), Hr|]. assert (Hrr : r = rev r' ++ [z]) by (now rewrite <- (rev_involutive r), Hr).
        rewrite Hrr, app_assoc in He. apply app_inj_tail in He as [He _]. exfalso. apply H10. rewrite He. apply in_or_app. left. apply in_or_app. right. now left. }
      rewrite app_nil_r in He. now rewrite He.
    - rewrite app_nil_r in He. now rewrite He.
    - assert (Hx : length (t ++ [b]) = (length l + length r)%nat) by now rewrite He, app_length. rewrite app_length in Hx. cbn [length] in Hx.
      destruct r; [|cbn [length] in Hx; lia]. rewrite app_nil_r in He. now rewrite He. }
  destruct (t ++ b :: rest) as [|n l] eqn:Hb2; [now destruct t|]. rewrite <- Hb2. rewrite <- Hb2 in Hg. rewrite Hg.
  assert (Hl : exists s', load_line E (t ++ [b]) s = (s', Throw x) /\ q_out s' = []).
  { unfold load_line. rewrite until_id by (apply Forall_app; split; [eapply Forall_impl; [|exact Ht]; cbn; lia|now constructor]).
    rewrite rev_app_distr. cbn [rev app]. rewrite rev_involutive.
    assert (Hm : massert E (b =? 10) s = (s, Ok tt)).
    { unfold massert. destruct (b =? 10) eqn:Hx; [reflexivity|]. destruct Hb as [->|[-> _]]; [discriminate|reflexivity]. }
    rewrite (mbind_ok _ Hm). destruct Hw as [Hw|[Hw ->]].
    - exists s. split; [|apply (ld_out H)]. unfold mbind, reads. now rewrite Hw.
    - destruct (ld_store H) as (es & ids & HW). exists (mkQ (q_ind s) (q_store s) (q_out s)). split; [|apply (ld_out H)].
      erewrite mbind_ok by (apply reads_ok; exact Hw). unfold mbind, on_store. rewrite (empty_id E HW); [reflexivity|].
      apply Forall_forall. intros v Hv. apply distinct_in in Hv as [[]|Hv]. pose proof (ld_ins H) as Hx. rewrite Forall_forall in Hx. now apply Hx. }
  destruct Hl as (s' & Hl & Ho). exists s'. split; [|exact Ho]. unfold mbind. now rewrite Hl.
Qed.

Lemma bad_file lines t rest q limit : Forall (word_line E) lines -> c_text t -> ~ In 10 t -> N.of_nat (length t) <= 1022 ->
  file name = Some (text_file lines ++ t ++ 10 :: rest) -> room_for E (length (text_file lines)) ->
  query_text q -> reads_as number limit -> in_i32 limit = true ->
  ((exists cs c, t = bytes_of cs /\ Forall scalar cs /\ In c cs /\ blank c) -> queryindex E file (prog :: name :: bytes_of q :: number :: more) = Ok ([PBadFile], 1%Z)) /\
  (~ valid_utf8 t -> queryindex E file (prog :: name :: bytes_of q :: number :: more) = Ok ([PFail], 105%Z)) /\
  (t = [] -> queryindex E file (prog :: name :: bytes_of q :: number :: more) = Ok ([PFail], 105%Z)).
Proof.
  intros Hwl Ht H10 Hlen Hfile Hroom Hq Hn Hi. assert (Hg : Forall good_line lines) by (eapply Forall_impl; [|exact Hwl]; apply word_line_good).
  destruct (@after_lines E HE file prog name number more lines _ q limit Hg Hfile) as (i0 & s & ops & fuel & Hi0 & Hl & Hf & He); try assumption.
  destruct fuel as [|f]; [lia|].
  assert (Hbad := fun x => @bad_rest i0 _ _ _ t 10 rest f x Hl Ht H10 Hlen (or_introl eq_refl) ltac:(lia)). split; [|split].
  - intros (cs & c & -> & Hs & Hc & Hb). destruct (Hbad EInvalidArg) as (s' & Hr & Ho); [left; apply word_blank; eauto|]. rewrite Hr, Ho in He. exact He.
  - intros Hv. destruct (Hbad ERuntime) as (s' & Hr & Ho); [left; now apply word_invalid|]. rewrite Hr, Ho in He. exact He.
  - intros ->. destruct (Hbad EOutOfRange) as (s' & Hr & Ho); [right; split; [exact (@word_valid E [] HE (Forall_nil _) (fun c H => match H with end))|reflexivity]|].
    rewrite Hr, Ho in He. exact He.
Qed.

(** A last line without line feed. *)
Lemma no_line_feed lines t b q limit : Forall (word_line E) lines -> c_text (t ++ [b]) -> ~ In 10 (t ++ [b]) -> N.of_nat (length t) <= 1022 ->
  file name = Some (text_file lines ++ t ++ [b]) -> room_for E (length (text_file lines)) ->
  query_text q -> reads_as number limit -> in_i32 limit = true ->
  (e_ndebug E = false -> queryindex E file (prog :: name :: bytes_of q :: number :: more) = Abort) /\
  (e_ndebug E = true -> queryindex E file (prog :: name :: bytes_of q :: number :: more) =
     queryindex E (fun _ => Some (text_file lines ++ t ++ [10])) (prog :: name :: bytes_of q :: number :: more)).
Proof.
  intros Hwl Ht H10 Hlen Hfile Hroom Hq Hn Hi. assert (Hg : Forall good_line lines) by (eapply Forall_impl; [|exact Hwl]; apply word_line_good).
  destruct (@after_lines E HE file prog name number more lines _ q limit Hg Hfile) as (i0 & s & ops & fuel & Hi0 & Hl & Hf & He); try assumption.
  destruct (@after_lines E HE (fun _ => Some (text_file lines ++ t ++ [10])) prog name number more lines _ q limit Hg eq_refl) as (i1 & s1 & ops1 & fuel1 & Hi1 & Hl1 & Hf1 & He1); try assumption.
  assert (Hb10 : b <> 10) by (intros ->; apply H10; apply in_or_app; right; now left).
  assert (Ht10 : ~ In 10 t) by (intros Hx; apply H10; apply in_or_app; now left).
  assert (Hg0 : fgets 1023 (t ++ [b]) = (t ++ [b], [])).
  { destruct (fgets 1023 (t ++ [b])) as [l r] eqn:Hgg. assert (H1 : 1023 <> 0) by lia. assert (H2 : t ++ [b] <> []) by (now destruct t).
    destruct (fgets_spec H1 H2 Hgg) as (Hee & _ & [(u & -> & _)|(_ & Hl0 & [->|Hl2])]).
    - exfalso. apply H10. rewrite Hee. apply in_or_app. left. apply in_or_app. right. now left.
    - rewrite app_nil_r in Hee. now rewrite Hee.
    - assert (Hx : length (t ++ [b]) = (length l + length r)%nat) by now rewrite Hee, app_length. rewrite app_length in Hx. cbn [length] in Hx.
      destruct r; [|cbn [length] in Hx; lia]. rewrite app_nil_r in Hee. now rewrite Hee. }
  assert (Hstep : forall f st, load_loop E (S f) (t ++ [b]) st = (load_line E (t ++ [b]) ;;; load_loop E f []) st).
  { intros f st. cbn [load_loop]. destruct (t ++ [b]) as [|n l] eqn:Hb2; [now destruct t|]. rewrite <- Hb2. rewrite <- Hb2 in Hg0. now rewrite Hg0. }
  assert (Hstep1 : forall f st, load_loop E (S f) (t ++ [10]) st = (load_line E (t ++ [10]) ;;; load_loop E f []) st).
  { intros f st. cbn [load_loop]. pose proof (@fgets_line t [] 1023 Ht10 ltac:(lia)) as Hg1. destruct (t ++ [10]) as [|n l] eqn:Hb2; [now destruct t|]. rewrite <- Hb2. rewrite <- Hb2 in Hg1. now rewrite Hg1. }
  destruct fuel as [|f]; [lia|]. destruct fuel1 as [|f1]; [lia|]. rewrite Hstep in He. split; intros Hd.
  - rewrite He. unfold mbind. destruct (@line_any E HE i0 Hi0 _ _ _ t b Hl Ht) as [(_ & _ & Hr)|([Hx|Hx] & _)]; [|contradiction|congruence].
    destruct (load_line E (t ++ [b]) s) as [s' o]. cbn [snd] in Hr. now subst o.
  - (* both programs reach the same state before the last line *)
    assert (Hsame : load_line E (t ++ [b]) = load_line E (t ++ [10]) \/ forall st, load_line E (t ++ [b]) st = load_line E (t ++ [10]) st).
    { right. intros st. unfold load_line. rewrite !until_id.
      - rewrite !rev_app_distr. cbn [rev app]. rewrite rev_involutive.
        erewrite mbind_ok by (unfold massert; replace (b =? 10) with false by lia; rewrite Hd; reflexivity). reflexivity.
      - apply Forall_app in Ht as [Ht _]. apply Forall_app; split; [eapply Forall_impl; [|exact Ht]; cbn; lia|constructor; [lia|constructor]].
      - eapply Forall_impl; [|exact Ht]; cbn; lia. }
    unfold queryindex. rewrite Hfile. clear He He1 Hstep Hstep1.
    assert (Hload : forall st, load_data E (text_file lines ++ t ++ [b]) st = load_data E (text_file lines ++ t ++ [10]) st); [|].
    { intros st. unfold load_data. replace (length (text_file lines ++ t ++ [10])) with (length (text_file lines ++ t ++ [b])) by (rewrite !app_length; reflexivity).
      generalize (S (length (text_file lines ++ t ++ [b]))) as fu. clear Hfile Hroom Hwl Hl Hl1 Hf Hf1. intros fu. revert fu st.
      induction lines as [|cs lines IH]; intros fu st.
      - cbn [text_file flat_map app]. destruct fu as [|fu]; [reflexivity|]. cbn [load_loop].
        pose proof (@fgets_line t [] 1023 Ht10 ltac:(lia)) as Hg1.
        destruct (t ++ [b]) as [|n l] eqn:Hb2; [now destruct t|]. rewrite <- Hb2 in *. destruct (t ++ [10]) as [|n1 l1] eqn:Hb3; [now destruct t|]. rewrite <- Hb3 in *.
        rewrite Hg0, Hg1. unfold mbind. destruct Hsame as [Hsame|Hsame]; [now rewrite Hsame|now rewrite Hsame].
      - apply Forall_cons_iff in Hg as [Hg1 Hg]. destruct Hg1 as (_ & Hs & Hc & Hlc). destruct (line_bytes Hs Hc) as [_ Hn10].
        rewrite !file_cons. destruct fu as [|fu]; [reflexivity|]. cbn [load_loop].
        destruct (bytes_of cs ++ 10 :: text_file lines ++ t ++ [b]) as [|n l] eqn:Hb2; [now destruct (bytes_of cs)|]. rewrite <- Hb2.
        destruct (bytes_of cs ++ 10 :: text_file lines ++ t ++ [10]) as [|n1 l1] eqn:Hb3; [now destruct (bytes_of cs)|]. rewrite <- Hb3.
        rewrite !fgets_line by (assumption || lia). unfold mbind. destruct (load_line E (bytes_of cs ++ [10]) st) as [s' [u| | | |]]; try reflexivity. now apply IH. }
    destruct (li_new E); try reflexivity. destruct (ws_new E); try reflexivity. destruct (word_of_utf8 E (bytes_of q)); try reflexivity.
    destruct (atoi number); try reflexivity. cbn [obind]. now rewrite Hload.
Qed.

(** A line that starts with NUL. *)
Lemma nul_line lines rest q limit : Forall (word_line E) lines ->
  file name = Some (text_file lines ++ 0 :: rest) -> room_for E (length (text_file lines)) ->
  query_text q -> reads_as number limit -> in_i32 limit = true ->
  queryindex E file (prog :: name :: bytes_of q :: number :: more) = UB.
Proof.
  intros Hwl Hfile Hroom Hq Hn Hi. assert (Hg : Forall good_line lines) by (eapply Forall_impl; [|exact Hwl]; apply word_line_good).
  destruct (@after_lines E HE file prog name number more lines _ q limit Hg Hfile) as (i0 & s & ops & fuel & Hi0 & Hl & Hf & He); try assumption.
  rewrite He. destruct fuel as [|f]; [lia|]. cbn [load_loop fgets]. replace (1023 =? 0) with false by reflexivity. replace (0 =? 10) with false by reflexivity. cbn iota.
  destruct (fgets (1023 - 1) rest) as [l r]. reflexivity.
Qed.

(** ** Arguments *)
Lemma arguments : 
  (grow_ok E 1024 = false -> forall argv, queryindex E file argv = Ok ([PFail], 105%Z)) /\
  (grow_ok E 1024 = true ->
   (forall args, (length args < 3)%nat -> queryindex E file (prog :: args) = Ok ([PUsage prog], 0%Z)) /\
   (forall q c, Forall scalar q -> In c q -> blank c -> queryindex E file (prog :: name :: bytes_of q :: number :: more) = Ok ([PBadQuery (bytes_of q)], 1%Z)) /\
   (forall t, ~ valid_utf8 t -> queryindex E file (prog :: name :: t :: number :: more) = Ok ([PFail], 105%Z)) /\
   (forall q limit, query_text q -> reads_as number limit -> in_i32 limit = true -> file name = None ->
      queryindex E file (prog :: name :: bytes_of q :: number :: more) = Ok ([PNoFile name], 1%Z))).
Proof.
  split.
  - intros Hg argv. pose proof (new_index E) as Hn. unfold queryindex. destruct (li_new E); try contradiction; [destruct Hn; congruence|]. reflexivity.
  - intros Hg. destruct (started Hg) as (i0 & s0 & Hi & Hs). unfold queryindex. rewrite Hi, Hs. repeat split.
    + intros [|a [|b [|c args]]] Hl; try reflexivity. cbn [length] in Hl. lia.
    + intros q c Hq Hc Hb. rewrite word_blank by eauto. reflexivity.
    + intros t Ht. rewrite word_invalid by exact Ht. reflexivity.
    + intros q limit (Hq & Hq2 & _) Hn Hlim Hf. rewrite word_valid; [|exact HE|exact Hq|intros c Hc; now apply Hq2]. rewrite (atoi_reads Hn), Hlim. cbn [obind]. now rewrite Hf.
Qed.

(** ** Safety *)
Hypothesis HO : env_ok E.
Lemma safe_run q limit : c_text q -> N.of_nat (length q) <= 20000000 -> reads_as number limit -> in_i32 limit = true ->
  (forall bs, file name = Some bs -> printable_file E bs) ->
  (exists out code, queryindex E file (prog :: name :: q :: number :: more) = Ok (out, code) /\ In code [0; 1; 105]%Z) \/
  (queryindex E file (prog :: name :: q :: number :: more) = Abort /\ e_ndebug E = false /\ exists bs, file name = Some bs /\ (~ ended bs \/ long_line bs)).
Proof.
  intros Hq Hql Hn Hi Hshort. unfold queryindex. pose proof (new_index E) as Hnew. destruct (li_new E) as [i0| | | |] eqn:Hi0; try contradiction.
  2:{ left. do 2 eexists. split; [reflexivity|]. cbn [In]. auto. }
  destruct Hnew as (_ & s0 & Hs0). rewrite Hs0.
  destruct (utf8_cases q HE) as [[w Hw]|[Hw|Hw]]; rewrite Hw; [|left; do 2 eexists; split; [reflexivity|cbn [In]; auto]..].
  rewrite (atoi_reads Hn), Hi. cbn [obind]. destruct (file name) as [bs|] eqn:Hfile; [|left; do 2 eexists; split; [reflexivity|cbn [In]; auto]].
  destruct (Hshort bs eq_refl) as [Hb Hsl]. unfold load_data.
  assert (Hlen : (length bs < S (length bs))%nat) by lia.
  destruct (@loop_any E HE i0 Hi0 (S (length bs)) bs [] [] (mkQ i0 s0 []) (loaded_new i0 Hs0) Hb Hlen)
    as [(x & Hr & Ho)|[(Hr & Hd & Hx)|(Hr & ws & ops & Hl & Hall)]]; destruct (load_loop E (S (length bs)) bs (mkQ i0 s0 [])) as [s' o]; cbn [fst snd] in *; subst o.
  - left. destruct x; do 2 eexists; (split; [reflexivity|cbn [In]; auto]).
  - right. split; [reflexivity|]. split; [exact Hd|]. exists bs. split; [reflexivity|]. exact Hx.
  - cbn [app] in Hl.
    assert (Hwords : forall v, In v ws -> exists t, c_text t /\ N.of_nat (length t) <= 1022 /\ (forall cs, Forall scalar cs -> t = bytes_of cs -> N.of_nat (length (bytes_of (map (fold E) cs))) < 1024) /\ word_of_utf8 E t = Ok v).
    { intros v Hv. rewrite Forall_forall in Hall. destruct (Hall v Hv) as (a & u & c & Hx & Hu & Hlu & Hwv). exists u. split; [|split; [exact Hlu|split; [intros cs Hs Hc; exact (Hsl a u c cs Hx Hu Hlu Hs Hc)|exact Hwv]]].
      rewrite Hx in Hb. apply Forall_app in Hb as [_ Hb]. now apply Forall_app in Hb as [Hb _]. }
    assert (Hsize : forall t v, word_of_utf8 E t = Ok v -> (length v <= length t)%nat).
    { intros t v Hv. destruct (word_inv HE Hv) as (cs & Hs & -> & _ & ->). rewrite fold_length by assumption. pose proof (sizes cs). lia. }
    destruct (@ask E HO i0 Hi0 ws ops s' Hl w limit) as (m & rows & Hask & _).
    + exact (word_nonnul HE Hq Hw).
    + assert (Hlong : (longest ops <= N.to_nat 1022)%nat).
      { apply longest_le. rewrite (ld_words Hl). apply Forall_forall. intros v Hv. destruct (Hwords v Hv) as (t & _ & Hlt & _ & Hv2). specialize (Hsize t v Hv2). lia. }
      specialize (Hsize q w Hw). lia.
    + apply Forall_forall. intros v Hv. destruct (Hwords v Hv) as (t & Hct & Hlt & Hfit & Hv2). apply (@text_printable E t); try assumption.
      pose proof (ld_ins Hl) as Hins. rewrite Forall_forall in Hins. now apply (Hins v Hv).
    + rewrite Hask. left. do 2 eexists. split; [reflexivity|]. cbn [In]. auto.
Qed.
End bad.
