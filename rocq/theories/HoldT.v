(** C122: what Matchers hold, over whole programs. *)
From Verif Require Import Base TrieM TrieA TrieP TrieP2 TrieD WordStoreM ErrorValuesM LevIndexM WordM MapM MapP DoubleM ContM MatcherM Spec_Hist TrieH WordStoreP ResM ResP ResQ Spec_Res Spec_EV Spec_Cont ContP Spec_Match MatchP MatchQ HoldM Spec_Hold HoldP HoldQ HoldR HoldS.
From Coq Require Import ZifyBool ZifyN ZifyNat.
Local Open Scope N_scope.
Local Open Scope m_scope.

Lemma step_PI E c s r s' o : PI s r -> p_clean c -> p_do E c s = (s', o) -> came o -> PI s' (r + Nat.b2n (refused_call c (threw o))).
Proof.
  intros P Hcl H Hc. destruct c as [|i c|i]; cbn [p_do] in H.
  - destruct (PI_new P H Hc) as [P' [(-> & _)| ->]]; exact P'.
  - unfold h_on in H. destruct (nth_error (ms_ms s) i) as [[h|]|] eqn:Hi; try (injection H as <- <-; contradiction).
    destruct (pi_live P Hi) as (v & L). destruct (h_do E c (ms_sys s, h)) as [[k h'] o'] eqn:Hd. injection H as <- <-.
    destruct (do_G i Hcl L Hd Hc) as (v' & _ & L' & Gg). exact (PI_call P Hi L' Gg).
  - unfold h_delete in H. destruct (nth_error (ms_ms s) i) as [[h|]|] eqn:Hi; try (injection H as <- <-; contradiction).
    destruct (PI_delete P Hi) as (s2 & Hd & P' & _). unfold h_delete in Hd. rewrite Hi, H in Hd. injection Hd as <- ->. cbn. now rewrite Nat.add_0_r.
Qed.
Lemma PI0 : PI msys0 0.
Proof. constructor; cbn; try lia; try constructor; try apply inv0; intros [|k]; discriminate. Qed.
(** The first call and the rest. *)
Lemma run_cons E c prog s s' xs : p_run E (c :: prog) s = (s', Ok xs) -> exists s1 o xs', p_do E c s = (s1, o) /\ came o /\ p_run E prog s1 = (s', Ok xs') /\ xs = threw o :: xs'.
Proof.
  cbn [p_run]. destruct (p_do E c s) as [s1 o] eqn:Hd. intros H. exists s1, o.
  destruct o as [[]|e| | |]; try discriminate; destruct (p_run E prog s1) as [s2 [xs'|e'| | |]] eqn:Hr; try discriminate; injection H as <- <-; exists xs'; repeat split.
Qed.
Lemma run_PI E prog : forall s r s' xs, PI s r -> Forall p_clean prog -> p_run E prog s = (s', Ok xs) -> PI s' (r + refusals prog xs).
Proof.
  induction prog as [|c prog IH]; intros s r s' xs P Hcl H. { injection H as <- <-. cbn. now rewrite Nat.add_0_r. }
  apply Forall_cons_iff in Hcl as [Hc Hcl]. destruct (run_cons H) as (s1 & o & xs' & Hd & Ho & Hr & ->). pose proof (step_PI P Hc Hd Ho) as P1. pose proof (IH _ _ _ _ P1 Hcl Hr) as P2.
  replace (r + refusals (c :: prog) (threw o :: xs'))%nat with (r + Nat.b2n (refused_call c (threw o)) + refusals prog xs')%nat; [exact P2|].
  unfold refusals. cbn [combine filter fst snd]. destruct (refused_call c (threw o)); cbn [length Nat.b2n]; lia.
Qed.
Lemma reach_PI E prog xs s : p_reaches E prog xs s -> PI s (refusals prog xs).
Proof. intros [Hc H]. exact (run_PI PI0 Hc H). Qed.

(** ** How many indexes a Matcher has *)
Lemma see_idx_len s l : forall r, see_idx s l = Some r -> length r = length l.
Proof.
  induction l as [|[k x] l IH]; intros r H; [now injection H as <-|]. cbn [see_idx] in H. destruct (see_lev s x); [|discriminate]. destruct (see_idx s l) as [r'|]; [|discriminate].
  injection H as <-. cbn. now rewrite (IH _ eq_refl).
Qed.
Lemma NoDup_map_in {A B} (f : A -> B) l : (forall a b, In a l -> In b l -> f a = f b -> a = b) -> NoDup l -> NoDup (map f l).
Proof.
  induction l as [|a l IH]; intros Hf Hn; [constructor|]. apply NoDup_cons_iff in Hn as [Ha Hn]. cbn. constructor.
  - intros Hi. apply in_map_iff in Hi as (b & Hb & Hi). apply Ha. rewrite <- (Hf b a); [exact Hi|now right|now left|exact Hb].
  - apply IH; [|exact Hn]. intros x y Hx Hy. apply Hf; now right.
Qed.
Lemma fw_ne o f : field_words o f <> [] <-> In f (map (fun x => snd (fst x)) o).
Proof.
  split.
  - intros H. destruct (field_words o f) as [|w r] eqn:Hw; [congruence|]. assert (Hi : In w (field_words o f)) by (rewrite Hw; now left). apply fw_in in Hi as (d & Hd).
    apply in_map_iff. exists (d, f, w). now split.
  - intros H. apply in_map_iff in H as ([[d f'] w] & <- & Hi). intros Hn. assert (Hw : In w (field_words o f')) by (apply fw_in; now exists d). cbn in Hn. rewrite Hn in Hw. contradiction.
Qed.
Lemma idx_count E calls m : env_ok E -> Forall clean calls -> history E calls m -> length (mt_idx m) = length (fields calls).
Proof.
  intros HE Hc H. destruct (history_HI HE Hc H) as (l & HH). pose proof (hi_mi HH) as MH. pose proof (hi_occ HH) as Ho.
  assert (Hf : forall f, In f (fields calls) <-> field_words (occs l) f <> []) by (intros f; unfold fields; now rewrite nodup_In, Ho, fw_ne).
  assert (Hn : forall f, In f (fields calls) -> In f (names l)).
  { intros f Hi. apply Hf, fw_ne, in_map_iff in Hi as ([[d f'] w] & <- & Hi). exact (proj1 (occ_names MH Hi)). }
  assert (Hp : Permutation (map fst (mt_idx m)) (map (wid (names l)) (fields calls))).
  { apply NoDup_Permutation.
    - apply (sorted_nodup nltb_order), (mi_isorted MH).
    - apply NoDup_map_in; [|apply NoDup_nodup]. intros a b Ha Hb. apply wid_inj; now apply Hn.
    - intros k. split.
      + intros Hin. apply in_map_iff in Hin as ([k' li] & <- & Hin). apply (find_in nltb_order) in Hin; [|apply (mi_isorted MH)].
        destruct (mi_idx MH Hin) as (f & es & ids & d & Hfn & Hk & Hne & _). apply in_map_iff. exists f. split; [now symmetry|now apply Hf].
      + intros Hin. apply in_map_iff in Hin as (f & <- & Hin). apply Hf in Hin. destruct (mi_has MH Hin) as [li Hli]. apply (find_in nltb_order) in Hli; [|apply (mi_isorted MH)].
        now apply (in_map fst) in Hli. }
  apply Permutation_length in Hp. now rewrite !map_length in Hp.
Qed.
Lemma handle_count E calls s h v : env_ok E -> Forall clean calls -> history E calls v -> see s h = Some v -> length (handles h) = S (length (fields calls)).
Proof.
  intros HE Hc H Hs. unfold handles. cbn [length]. rewrite map_length, <- (see_idx_len (see_idx_of Hs)). now rewrite (idx_count HE Hc H).
Qed.

(** ** Histories of each Matcher *)
Lemma made_snoc p c : made (p ++ [c]) = (made p + match c with PNew => 1 | _ => 0 end)%nat.
Proof. unfold made. rewrite filter_app, app_length. destruct c; reflexivity. Qed.
Lemma calls_snoc k p c : calls_on k (p ++ [c]) = calls_on k p ++ match c with PCall i c => if Nat.eqb i k then [c] else [] | _ => [] end.
Proof. unfold calls_on. rewrite flat_map_app. cbn [flat_map]. now rewrite app_nil_r. Qed.
Lemma destroyed_snoc k p c : destroyed k (p ++ [c]) = destroyed k p || match c with PDelete i => Nat.eqb i k | _ => false end.
Proof. unfold destroyed. rewrite existsb_app. cbn [existsb]. now rewrite orb_false_r. Qed.
Lemma clean_calls k p : Forall p_clean p -> Forall clean (calls_on k p).
Proof.
  intros H. unfold calls_on. rewrite Forall_flat_map. eapply Forall_impl; [|exact H]. intros [|i c|i] Hc; try constructor. destruct (Nat.eqb i k); repeat constructor. exact Hc.
Qed.
Lemma run_snoc E calls : forall c m m1 m2 o, m_run E calls m = (m1, Ok tt) -> m_do E c m1 = (m2, o) -> fatal c o = false -> m_run E (calls ++ [c]) m = (m2, Ok tt).
Proof.
  induction calls as [|d calls IH]; intros c m m1 m2 o H Hd Hf; cbn [m_run app] in *.
  - injection H as <-. rewrite Hd, Hf. reflexivity.
  - destruct (m_do E d m) as [m' o'] eqn:Hx. destruct (fatal d o') eqn:Hf'; [injection H as <- ->; discriminate|]. exact (IH _ _ _ _ _ H Hd Hf).
Qed.
Lemma history_snoc E calls c m m' o : history E calls m -> m_do E c m = (m', o) -> fatal c o = false -> history E (calls ++ [c]) m'.
Proof. intros (m0 & H0 & H) Hd Hf. exists m0. split; [exact H0|]. exact (run_snoc H Hd Hf). Qed.
Lemma sum_at (f g : nat -> nat) i n : (i < n)%nat -> (forall k, k <> i -> g k = f k) -> (list_sum (map g (seq 0 n)) + f i = list_sum (map f (seq 0 n)) + g i)%nat.
Proof.
  intros Hi H. replace n with (i + (1 + (n - i - 1)))%nat by lia. rewrite !seq_app, !map_app, !list_sum_app. cbn [Nat.add seq map list_sum fold_right].
  assert (G : forall l, ~ In i l -> map g l = map f l) by (intros l Hl; apply map_ext_in; intros k Hk; apply H; congruence).
  rewrite (G (seq 0 i)) by (rewrite in_seq; lia). rewrite (G (seq (i + 1) _)) by (rewrite in_seq; lia). lia.
Qed.
Record PH (E : env) (p : list p_call) (s : msys) : Prop := {
  ph_len : length (ms_ms s) = made p;
  ph_live : forall k h, nth_error (ms_ms s) k = Some (Some h) -> destroyed k p = false /\ exists v, see (ms_sys s) h = Some v /\ history E (calls_on k p) v;
  ph_dead : forall k, nth_error (ms_ms s) k = Some None -> destroyed k p = true;
  ph_beyond : forall k, (made p <= k)%nat -> calls_on k p = [] /\ destroyed k p = false;
  ph_sum : length (s_tries (ms_sys s)) = list_sum (map (fun k => needs k p) (seq 0 (made p)))
}.
Lemma PH0 E : PH E [] msys0.
Proof. constructor; cbn; try reflexivity; intros [|k]; try discriminate; intros; split; reflexivity. Qed.
Lemma step_PH E p c s s' o : env_ok E -> Forall p_clean (p ++ [c]) -> PI s 0 -> PH E p s -> p_do E c s = (s', o) -> came o -> refused_call c (threw o) = false -> PH E (p ++ [c]) s'.
Proof.
  intros HE Hcl P Q H Hc Hr. pose proof Q as [Q1 Q2 Q3 Q4 Q5]. pose proof Hcl as Hcl0. apply Forall_app in Hcl as [Hcl Hc1]. apply Forall_inv in Hc1. destruct c as [|i c|i]; cbn [p_do] in H.
  - destruct (PI_new P H Hc) as [P' [(-> & h & v & Hms & L & Hn & Hh & Hlen & Hsee)| ->]]; [|discriminate].
    assert (Hlt : (length (ms_ms s) <= length (ms_ms s))%nat) by lia. destruct (Q4 (made p) (Nat.le_refl _)) as [B1 B2].
    constructor.
    + rewrite Hms, app_length, made_snoc, Q1. reflexivity.
    + intros k hk Hk. rewrite Hms in Hk. rewrite calls_snoc, destroyed_snoc, app_nil_r, orb_false_r. destruct (Nat.ltb_spec k (length (ms_ms s))) as [Hl|Hg].
      * rewrite nth_error_app1 in Hk by exact Hl. destruct (Q2 _ _ Hk) as [D (w & Hw & Hh')]. split; [exact D|]. exists w. split; [exact (Hsee _ _ _ Hk Hw)|exact Hh'].
      * rewrite nth_error_app2 in Hk by exact Hg. destruct (k - length (ms_ms s))%nat as [|[|n]] eqn:Hkn; cbn in Hk; try discriminate. injection Hk as <-.
        assert (k = made p) by lia. subst k. rewrite B1, B2. split; [reflexivity|]. exists v. split; [exact (ls_see L)|]. exists v. now split.
    + intros k Hk. rewrite Hms in Hk. rewrite destroyed_snoc, orb_false_r. destruct (Nat.ltb_spec k (length (ms_ms s))) as [Hl|Hg].
      * rewrite nth_error_app1 in Hk by exact Hl. now apply Q3.
      * rewrite nth_error_app2 in Hk by exact Hg. destruct (k - length (ms_ms s))%nat as [|[|n]] eqn:Hkn; cbn in Hk; discriminate.
    + intros k Hk. rewrite made_snoc in Hk. rewrite calls_snoc, destroyed_snoc, app_nil_r, orb_false_r. apply Q4. lia.
    + rewrite Hlen, made_snoc, Q5, Nat.add_1_r, seq_S, map_app, list_sum_app. cbn [map list_sum fold_right Nat.add].
      assert (Hx : forall k, needs k (p ++ [PNew]) = needs k p) by (intros k; unfold needs; now rewrite calls_snoc, app_nil_r).
      assert (Hone : needs (made p) p = 1%nat) by (unfold needs; now rewrite B1). rewrite (map_ext _ _ Hx), Hx, Hone. lia.
  - unfold h_on in H. destruct (nth_error (ms_ms s) i) as [[h|]|] eqn:Hi; try (injection H as <- <-; contradiction).
    destruct (h_do E c (ms_sys s, h)) as [[k0 h'] o'] eqn:Hd. injection H as <- <-. destruct (pi_live P Hi) as (v & L). destruct (Q2 _ _ Hi) as [D (v1 & Hv1 & Hh)].
    rewrite (ls_see L) in Hv1. injection Hv1 as <-. destruct (do_G i Hc1 L Hd Hc) as (v' & Hv' & L' & Gg). rewrite Hr in Gg. pose proof (PI_call P Hi L' Gg) as P'. 
    assert (Hfat : fatal c o' = false) by (destruct o' as [[]|[]| | |]; try contradiction; destruct c; try reflexivity; discriminate Hr).
    pose proof (history_snoc Hh Hv' Hfat) as Hh'.
    assert (Hlt : (i < made p)%nat) by (rewrite <- Q1; apply nth_error_Some; congruence).
    constructor; cbn [ms_sys ms_ms].
    + rewrite ResP.upd_length, made_snoc. lia.
    + intros k hk Hk. rewrite calls_snoc, destroyed_snoc, orb_false_r. destruct (Nat.eqb_spec i k) as [<-|Hne].
      * rewrite ResP.upd_nth in Hk by (apply nth_error_Some; congruence). injection Hk as <-. split; [exact D|]. exists v'. split; [exact (ls_see L')|exact Hh'].
      * rewrite ResP.upd_other in Hk by exact Hne. destruct (Q2 _ _ Hk) as [Dk (w & Hw & Hhk)]. split; [exact Dk|]. exists w. rewrite app_nil_r. split; [|exact Hhk].
        assert (Hk' : nth_error (upd i (Some h') (ms_ms s)) k = Some (Some hk)) by now rewrite ResP.upd_other.
        destruct (upd_split Hi) as (a & b & Hms & Hla & Hup). rewrite <- Hw. apply see_same. intros j Hj. unfold see_trie.
        destruct (see_handles Hw Hj) as (rt & Hrt). rewrite (g_other Gg); [reflexivity| |exact (at_lt Hrt)].
        intros Hjh. pose proof (pi_nodup P) as C. rewrite Hms, flat_map_app in C. cbn [flat_map hands] in C. apply NoDup_app_parts in C as (_ & C2 & C3). apply NoDup_app_parts in C2 as (_ & _ & C4).
        rewrite Hms in Hk. destruct (Nat.ltb_spec k (length a)) as [Hl|Hg].
        -- rewrite nth_error_app1 in Hk by exact Hl. apply (C3 j); [apply in_flat_map; exists (Some hk); split; [now apply nth_error_In in Hk|exact Hj]|]. apply in_app_iff. now left.
        -- rewrite nth_error_app2 in Hk by exact Hg. destruct (k - length a)%nat as [|n] eqn:Hn; [lia|]. cbn in Hk. apply (C4 j Hjh).
           apply in_flat_map. exists (Some hk). split; [now apply nth_error_In in Hk|exact Hj].
    + intros k Hk. rewrite destroyed_snoc, orb_false_r. destruct (Nat.eq_dec i k) as [<-|Hne].
      * rewrite ResP.upd_nth in Hk by (apply nth_error_Some; congruence). discriminate.
      * rewrite ResP.upd_other in Hk by exact Hne. now apply Q3.
    + intros k Hk. rewrite made_snoc in Hk. rewrite calls_snoc, destroyed_snoc, orb_false_r. destruct (Nat.eqb_spec i k); [lia|]. rewrite app_nil_r. apply Q4. lia.
    + rewrite made_snoc, Nat.add_0_r. pose proof (handle_count HE (clean_calls i Hcl) Hh (ls_see L)) as N1.
      assert (N2 : length (handles h') = needs i (p ++ [PCall i c])).
      { unfold needs. rewrite calls_snoc, Nat.eqb_refl. apply (@handle_count E _ k0 h' v' HE); [|exact Hh'|exact (ls_see L')]. pose proof (clean_calls i Hcl0) as Hx. now rewrite calls_snoc, Nat.eqb_refl in Hx. }
      pose proof (Permutation_length (g_handles Gg)) as N3. rewrite app_length, seq_length in N3. pose proof (g_len Gg) as N4.
      assert (N5 : forall k, k <> i -> needs k (p ++ [PCall i c]) = needs k p).
      { intros k Hk. unfold needs. rewrite calls_snoc. destruct (Nat.eqb_spec i k); [congruence|]. now rewrite app_nil_r. }
      pose proof (@sum_at (fun k => needs k p) (fun k => needs k (p ++ [PCall i c])) i (made p) Hlt N5) as N6. cbv beta in N6. change (needs i p) with (S (length (fields (calls_on i p)))) in N6. lia.
  - unfold h_delete in H. destruct (nth_error (ms_ms s) i) as [[h|]|] eqn:Hi; try (injection H as <- <-; contradiction).
    destruct (PI_delete P Hi) as (s2 & Hd & P' & Hms & Hlen & Hsee). unfold h_delete in Hd. rewrite Hi, H in Hd. injection Hd as <- ->.
    assert (Hlt : (i < made p)%nat) by (rewrite <- Q1; apply nth_error_Some; congruence).
    constructor.
    + rewrite Hms, ResP.upd_length, made_snoc. lia.
    + intros k hk Hk. rewrite Hms in Hk. rewrite calls_snoc, destroyed_snoc, app_nil_r. destruct (Nat.eqb_spec i k) as [<-|Hne].
      * rewrite ResP.upd_nth in Hk by (apply nth_error_Some; congruence). discriminate.
      * rewrite ResP.upd_other in Hk by exact Hne. destruct (Q2 _ _ Hk) as [D (w & Hw & Hh)]. rewrite orb_false_r. split; [exact D|]. exists w. split; [|exact Hh]. apply (Hsee k hk w); [congruence|exact Hk|exact Hw].
    + intros k Hk. rewrite Hms in Hk. rewrite destroyed_snoc. destruct (Nat.eqb_spec i k) as [<-|Hne]; [now rewrite orb_true_r|]. rewrite ResP.upd_other in Hk by exact Hne. now rewrite (Q3 _ Hk).
    + intros k Hk. rewrite made_snoc in Hk. rewrite calls_snoc, destroyed_snoc, app_nil_r. destruct (Nat.eqb_spec i k); [lia|]. rewrite orb_false_r. apply Q4. lia.
    + rewrite Hlen, made_snoc, Nat.add_0_r, Q5. f_equal. apply map_ext. intros k. unfold needs. now rewrite calls_snoc, app_nil_r.
Qed.
Lemma run_PH E prog : env_ok E -> forall p s s' xs, Forall p_clean (p ++ prog) -> PI s 0 -> PH E p s -> p_run E prog s = (s', Ok xs) -> refusals prog xs = 0%nat -> PH E (p ++ prog) s'.
Proof.
  intros HE. induction prog as [|c prog IH]; intros p s s' xs Hcl P Q H Hz. { injection H as <- _. now rewrite app_nil_r. }
  destruct (run_cons H) as (s1 & o & xs' & Hd & Ho & Hr & ->). unfold refusals in Hz. cbn [combine filter fst snd] in Hz. destruct (refused_call c (threw o)) eqn:Hc; [discriminate|].
  change (c :: prog) with ([c] ++ prog) in *. rewrite app_assoc in *. assert (Hcl1 : Forall p_clean (p ++ [c])) by (apply Forall_app in Hcl; tauto).
  assert (Hcc : p_clean c) by (apply Forall_app in Hcl1 as [_ Hx]; now apply Forall_inv in Hx).
  pose proof (step_PI P Hcc Hd Ho) as P1. rewrite Hc in P1. cbn in P1.
  apply (IH _ s1 _ xs'); [exact Hcl|exact P1|exact (step_PH HE Hcl1 P Q Hd Ho Hc)|exact Hr|exact Hz].
Qed.
Lemma reach_PH E prog xs s : env_ok E -> p_reaches E prog xs s -> refusals prog xs = 0%nat -> PH E prog s.
Proof. intros HE [Hc H] Hz. exact (@run_PH E prog HE [] msys0 s xs Hc PI0 (PH0 E) H Hz). Qed.

(** ** The theorems *)
Lemma sum_hands p l : forall a, (forall k o, nth_error l k = Some o -> length (hands o) = if destroyed (a + k) p then 0%nat else needs (a + k) p) ->
  length (flat_map hands l) = list_sum (map (fun k => if destroyed k p then 0%nat else needs k p) (seq a (length l))).
Proof.
  induction l as [|o l IH]; intros a H; [reflexivity|]. cbn [flat_map length seq map list_sum fold_right]. rewrite app_length, (H 0%nat o eq_refl), Nat.add_0_r. f_equal.
  apply (IH (S a)). intros k o' Hk. specialize (H (S k) o' Hk). now rewrite Nat.add_succ_r in H.
Qed.
Lemma files_now E prog xs s : env_ok E -> p_reaches E prog xs s -> refusals prog xs = 0%nat ->
  open_files (ms_sys s) = list_sum (map (fun k => if destroyed k prog then 0%nat else needs k prog) (seq 0 (made prog))).
Proof.
  intros HE H Hz. pose proof (reach_PI H) as P. rewrite Hz in P. pose proof (reach_PH HE H Hz) as Q. pose proof (pi_files P) as F. pose proof (pi_alive P) as A.
  rewrite <- (ph_len Q). rewrite <- (@sum_hands prog (ms_ms s) 0); [lia|]. intros k [h|] Hk; cbn [Nat.add].
  - destruct (ph_live Q Hk) as [-> (v & Hv & Hh)]. exact (handle_count HE (clean_calls k (proj1 H)) Hh Hv).
  - now rewrite (ph_dead Q Hk).
Qed.
Lemma maps_now E prog xs s : env_ok E -> p_reaches E prog xs s -> refusals prog xs = 0%nat ->
  live_maps (ms_sys s) = list_sum (map (fun k => needs k prog) (seq 0 (made prog))).
Proof.
  intros HE H Hz. pose proof (reach_PI H) as P. rewrite Hz in P. pose proof (reach_PH HE H Hz) as Q. rewrite (pi_exact P eq_refl). exact (ph_sum Q).
Qed.
Lemma closed_now E prog xs s : p_reaches E prog xs s -> (forall k h, ~ matcher_at s k h) -> (open_files (ms_sys s) <= refusals prog xs)%nat.
Proof.
  intros H Hn. pose proof (reach_PI H) as P. pose proof (pi_files P) as F. pose proof (pi_alive P) as A.
  assert (Hz : flat_map hands (ms_ms s) = []).
  { destruct (flat_map hands (ms_ms s)) as [|x r] eqn:Hx; [reflexivity|]. exfalso. assert (Hi : In x (flat_map hands (ms_ms s))) by (rewrite Hx; now left).
    apply in_flat_map in Hi as ([h|] & Ho & Hi); [|contradiction]. apply In_nth_error in Ho as (k & Hk). exact (Hn k h Hk). }
  rewrite Hz in A. cbn in A. lia.
Qed.
Lemma delete_now E prog xs s k h : p_reaches E prog xs s -> matcher_at s k h -> exists s', p_do E (PDelete k) s = (s', Ok tt) /\ forall h', ~ matcher_at s' k h'.
Proof.
  intros H Hk. destruct (PI_delete (reach_PI H) Hk) as (s' & Hd & _ & Hms & _). exists s'. split; [exact Hd|]. intros h' Hh. unfold matcher_at in *. rewrite Hms, ResP.upd_nth in Hh; [discriminate|]. apply nth_error_Some. congruence.
Qed.
Lemma history_now E prog xs s k h : env_ok E -> p_reaches E prog xs s -> refusals prog xs = 0%nat -> matcher_at s k h -> exists m, see (ms_sys s) h = Some m /\ history E (calls_on k prog) m.
Proof. intros HE H Hz Hk. destruct (ph_live (reach_PH HE H Hz) Hk) as [_ X]. exact X. Qed.
