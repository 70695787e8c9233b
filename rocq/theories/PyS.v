(** What holds in every state of a Python program. *)
From Verif Require Import Base TrieM WordStoreM ErrorValuesM LevIndexM WordM MapM DoubleM ContM MatcherM DataFileM CApiM PyM
  Spec_Hist Spec_EV Spec_Word Spec_Cont Spec_Match Spec_File Spec_CApi Spec_Py MapP DataP PyP PyQ PyR.
From Coq Require Import ZifyBool ZifyN ZifyNat.
Local Open Scope N_scope.
Local Open Scope m_scope.

(** ** Lists of objects *)
Lemma upd_length A k (a : A) l : length (upd k a l) = length l.
Proof. revert k. induction l as [|x l IH]; intros [|k]; cbn; auto. Qed.
Lemma upd_nth_same A k (a : A) l : (k < length l)%nat -> nth_error (upd k a l) k = Some a.
Proof. revert k. induction l as [|x l IH]; intros [|k] H; cbn in *; try lia; [reflexivity|apply IH; lia]. Qed.
Lemma upd_nth_other A k j (a : A) l : j <> k -> nth_error (upd k a l) j = nth_error l j.
Proof. revert k j. induction l as [|x l IH]; intros [|k] [|j] H; cbn; try congruence; apply IH; congruence. Qed.
Lemma upd_nth_inv A k j (a x : A) l : nth_error (upd k a l) j = Some x -> (j = k /\ x = a /\ (k < length l)%nat) \/ (j <> k /\ nth_error l j = Some x).
Proof.
  intros H. destruct (Nat.eq_dec j k) as [-> |Hj]; [left|right; split; [exact Hj|now rewrite upd_nth_other in H]].
  assert (Hk : (k < length l)%nat) by (rewrite <- (upd_length k a l); apply nth_error_Some; congruence). rewrite upd_nth_same in H by exact Hk. injection H as <-. auto.
Qed.
Lemma nth_snoc A (l : list A) x k y : nth_error (l ++ [x]) k = Some y <-> ((k < length l)%nat /\ nth_error l k = Some y) \/ (k = length l /\ y = x).
Proof.
  destruct (Nat.lt_ge_cases k (length l)) as [H|H].
  - rewrite nth_error_app1 by exact H. split; [now left|]. intros [[_ H1]|[H1 _]]; [exact H1|lia].
  - rewrite nth_error_app2 by exact H. destruct (Nat.eq_dec k (length l)) as [-> |Hk].
    + rewrite Nat.sub_diag. cbn. split; [intros [= <-]; now right|]. intros [[H1 _]|[_ ->]]; [lia|reflexivity].
    + replace (k - length l)%nat with (S (k - length l - 1)) by lia. cbn. destruct (k - length l - 1)%nat; cbn; (split; [discriminate|]); intros [[H1 _]|[H1 _]]; lia.
Qed.
Definition at_ (s : py_state) (k : nat) (x : py_obj) : Prop := nth_error (py_objs s) k = Some (Some x).
Lemma at_plus s x k y : at_ (plus s x) k y <-> at_ s k y \/ (k = fresh s /\ y = x).
Proof.
  unfold at_, plus, fresh. cbn. rewrite nth_snoc. split; [intros [[_ H]|[-> [= ->]]]; auto|]. intros [H|[-> ->]]; [|now right]. left. split; [exact (lt_len H)|exact H].
Qed.
Lemma bound_plus s x k : length (py_objs s) = length (py_bound s) -> (bound (plus s x) k <-> bound s k \/ k = fresh s).
Proof.
  intros Hl. unfold bound, plus, fresh. cbn. rewrite nth_snoc, Hl. split; [intros [[_ H]|[-> _]]; auto|]. intros [H| ->]; [|now right]. left. split; [|exact H]. apply nth_error_Some. congruence.
Qed.
Lemma at_now s n o o' k y : holds s n o -> (at_ (now_holds n o' s) k y <-> (k <> n /\ at_ s k y) \/ (k = n /\ y = Holds o')).
Proof.
  intros Hn. unfold at_, now_holds. cbn. split.
  - intros H. apply upd_nth_inv in H as [(-> & [= ->] & _)|H]; auto.
  - intros [[Hk H]|[-> ->]]; [now rewrite upd_nth_other|]. apply upd_nth_same. exact (lt_len Hn).
Qed.

(** ** The invariant *)
Record good_but (s : py_state) (z : option nat) : Prop := {
  g_len : length (py_objs s) = length (py_bound s);
  g_bound : forall k, bound s k -> exists x, at_ s k x;
  g_ref : forall k p w, refers s k p w -> (w < k)%nat /\ points_well s p w;
  g_alive : forall k x, z <> Some k -> at_ s k x -> bound s k \/ exists j p, refers s j p k;
  g_fine : all_fine s
}.
Definition good (s : py_state) : Prop := good_but s None.

Definition alike (o o' : obj) : Prop :=
  class_of (Holds o) = class_of (Holds o') /\
  match o, o' with
  | OWord w, OWord w' => w = w'
  | ODoc d, ODoc d' => forall f t, doc_getText d f = Ok t -> exists t', doc_getText d' f = Ok t'
  | _, _ => True
  end.
Lemma alike_refl o : alike o o.
Proof. split; [reflexivity|]. destruct o; try exact I; [reflexivity|]. eauto. Qed.
(** A pointer depends on the object it keeps alive only. *)
Lemma well_move s s' p w : points_well s p w -> (forall o, holds s w o -> exists o', holds s' w o' /\ alike o o') -> (forall q v, refers s w q v -> refers s' w q v) -> points_well s' p w.
Proof.
  intros Hp Hh Hr. destruct p as [l i v|n f|n|n]; cbn [points_well] in *.
  - destruct Hp as [ws H|n f u H].
    + destruct (Hh _ H) as (o' & Ho & Ha). destruct o'; try (destruct Ha as [Ha _]; discriminate Ha). econstructor; exact Ho.
    + econstructor. exact (Hr _ _ H).
  - destruct Hp as (-> & d & t & Hd & Ht). split; [reflexivity|]. destruct (Hh _ Hd) as (o' & Ho & Ha). destruct o'; try (destruct Ha as [Ha _]; discriminate Ha). destruct Ha as [_ Ha]. destruct (Ha _ _ Ht) as [t' Ht']. eauto.
  - destruct Hp as (-> & m & Hm). split; [reflexivity|]. destruct (Hh _ Hm) as (o' & Ho & Ha). destruct o'; try (destruct Ha as [Ha _]; discriminate Ha). eauto.
  - destruct Hp as (-> & m & Hm). split; [reflexivity|]. destruct (Hh _ Hm) as (o' & Ho & Ha). destruct o'; try (destruct Ha as [Ha _]; discriminate Ha). eauto.
Qed.
Lemma good_plus s x : good s -> match x with Holds o => obj_fine o | Points p w => (w < fresh s)%nat /\ points_well s p w end -> good (plus s x).
Proof.
  intros [Hl Hb Hr Ha Hf] Hx. constructor.
  - cbn. rewrite !app_length. cbn. lia.
  - intros k Hk. apply (bound_plus _ _ Hl) in Hk as [Hk| ->]; [destruct (Hb _ Hk) as [y Hy]; exists y|exists x]; apply at_plus; auto.
  - intros k p w H. apply at_plus in H as [H|[-> H]].
    + destruct (Hr _ _ _ H) as [Hw Hp]. split; [exact Hw|]. apply (well_move Hp).
      * intros o Ho. exists o. split; [apply at_plus; now left|apply alike_refl].
      * intros q v Hq. apply at_plus. now left.
    + subst x. destruct Hx as [Hw Hp]. split; [exact Hw|]. apply (well_move Hp).
      * intros o Ho. exists o. split; [apply at_plus; now left|apply alike_refl].
      * intros q v Hq. apply at_plus. now left.
  - intros k y _ Hy. apply at_plus in Hy as [Hy|[-> ->]].
    + destruct (Ha _ _ ltac:(discriminate) Hy) as [Hk|(j & p & Hj)]; [left; apply (bound_plus _ _ Hl); auto|right; exists j, p; apply at_plus; now left].
    + left. apply (bound_plus _ _ Hl). now right.
  - intros n o Hn. apply at_plus in Hn as [Hn|[_ H]]; [exact (Hf _ _ Hn)|]. now subst x.
Qed.
Lemma good_now s n o o' : good s -> holds s n o -> alike o o' -> obj_fine o' -> good (now_holds n o' s).
Proof.
  intros [Hl Hb Hr Ha Hf] Hn Hx Ho'. constructor.
  - cbn. now rewrite upd_length.
  - intros k Hk. destruct (Hb _ Hk) as [y Hy]. destruct (Nat.eq_dec k n) as [-> |Hkn]; [exists (Holds o')|exists y]; apply (at_now _ _ _ Hn); auto.
  - intros k p w H. apply (at_now _ _ _ Hn) in H as [[Hk H]|[_ H]]; [|discriminate H]. destruct (Hr _ _ _ H) as [Hw Hp]. split; [exact Hw|]. apply (well_move Hp).
    + intros u Hu. destruct (Nat.eq_dec w n) as [-> |Hwn]; [|exists u; split; [apply (at_now _ _ _ Hn); auto|apply alike_refl]].
      exists o'. split; [apply (at_now _ _ _ Hn); auto|]. now rewrite (holds_eq Hu Hn).
    + intros q v Hq. apply (at_now _ _ _ Hn). destruct (Nat.eq_dec w n) as [-> |Hwn]; [destruct (holds_refers Hn Hq)|auto].
  - intros k y _ Hy. apply (at_now _ _ _ Hn) in Hy as [[Hk Hy]|[-> ->]].
    + destruct (Ha _ _ ltac:(discriminate) Hy) as [Hkb|(j & p & Hj)]; [now left|right; exists j, p; apply (at_now _ _ _ Hn)]. left. split; [|exact Hj]. intros ->. exact (holds_refers Hn Hj).
    + destruct (Ha _ _ ltac:(discriminate) Hn) as [Hkb|(j & p & Hj)]; [now left|right; exists j, p; apply (at_now _ _ _ Hn)]. left. split; [|exact Hj]. intros ->. exact (holds_refers Hn Hj).
  - intros k u Hu. apply (at_now _ _ _ Hn) in Hu as [[_ Hu]|[_ [= ->]]]; [exact (Hf _ _ Hu)|exact Ho'].
Qed.
Lemma good_moved s b l : good s -> good (moved_if b l s).
Proof.
  intros [Hl Hb Hr Ha Hf]. constructor; [exact Hl|exact Hb| |exact Ha|exact Hf]. intros k p w H. destruct (Hr _ _ _ H) as [Hw Hp]. split; [exact Hw|]. apply (well_move Hp).
  - intros o Ho. exists o. split; [exact Ho|apply alike_refl].
  - intros q v Hq. exact Hq.
Qed.

(** ** Freeing *)
Lemma custodian_iff s k : has_custodian k (py_objs s) = true <-> exists j p, refers s j p k.
Proof.
  unfold has_custodian. rewrite existsb_exists. split.
  - intros (x & Hin & Hx). destruct x as [[o|p w]|]; try discriminate Hx. apply Nat.eqb_eq in Hx as ->. apply In_nth_error in Hin as [j Hj]. now exists j, p.
  - intros (j & p & Hj). exists (Some (Points p k)). split; [exact (nth_error_In _ _ Hj)|apply Nat.eqb_refl].
Qed.
Lemma release_good f : forall k s, (k < f)%nat -> good_but s (Some k) -> let s' := release f k s in
  good s' /\ py_bound s' = py_bound s /\ py_moves s' = py_moves s /\ (forall j x, at_ s' j x -> at_ s j x) /\ length (py_objs s') = length (py_objs s).
Proof.
  induction f as [|f IH]; intros k s Hf HG; [lia|]. cbn [release]. cbv zeta.
  destruct (nth k (py_bound s) false || has_custodian k (py_objs s)) eqn:Hu.
  - split; [|auto]. destruct HG as [Hl Hb Hr Ha Hfi]. constructor; try assumption. intros j x _ Hx. destruct (Nat.eq_dec j k) as [-> |Hj]; [|apply (Ha j x); [congruence|exact Hx]].
    apply orb_true_iff in Hu as [Hu|Hu]; [left; now apply bound_nth|right; now apply custodian_iff].
  - apply orb_false_iff in Hu as [Hu1 Hu2].
    assert (Hnb : ~ bound s k) by (intros H; apply bound_nth in H; congruence). assert (Hnc : forall j p, ~ refers s j p k) by (intros j p H; assert (G : has_custodian k (py_objs s) = true) by (apply custodian_iff; eauto); congruence).
    set (s1 := mkPy (upd k None (py_objs s)) (py_bound s) (py_moves s)).
    assert (Hat : forall j x, at_ s1 j x <-> j <> k /\ at_ s j x).
    { intros j x. unfold at_, s1. cbn. split; [intros H; apply upd_nth_inv in H as [(_ & [=] & _)|H]; exact H|]. intros [Hj H]. now rewrite upd_nth_other. }
    assert (HG1 : forall z, (match py_get s k with Some (Points _ w) => z = Some w | _ => True end) -> good_but s1 z).
    { intros z Hz. destruct HG as [Hl Hb Hr Ha Hfi]. constructor.
      - unfold s1. cbn. now rewrite upd_length.
      - intros j Hj. destruct (Hb j Hj) as [x Hx]. exists x. apply Hat. split; [|exact Hx]. intros ->. contradiction.
      - intros j p w H. apply Hat in H as [Hj H]. destruct (Hr _ _ _ H) as [Hw Hp]. split; [exact Hw|]. assert (Hwk : w <> k) by (intros ->; exact (Hnc _ _ H)). apply (well_move Hp).
        + intros o Ho. exists o. split; [apply Hat; auto|apply alike_refl].
        + intros q v Hq. apply Hat. auto.
      - intros j x Hzj Hx. apply Hat in Hx as [Hj Hx]. destruct (Ha j x ltac:(congruence) Hx) as [H|(i & p & Hi)]; [now left|]. right. exists i, p. apply Hat. split; [|exact Hi].
        intros ->. apply get_some in Hi. rewrite Hi in Hz. congruence.
      - intros n o Hn. apply Hat in Hn as [_ Hn]. exact (Hfi _ _ Hn). }
    assert (Hback : forall j x, at_ s1 j x -> at_ s j x) by (intros j x H; now apply Hat in H).
    assert (Hlen : length (py_objs s1) = length (py_objs s)) by apply upd_length.
    destruct (py_get s k) as [[o|p w]|] eqn:Hg; try (split; [apply HG1; exact I|auto]; fail).
    apply get_some in Hg. pose proof (g_ref HG Hg) as [Hw _].
    destruct (IH w s1 ltac:(lia) (HG1 (Some w) eq_refl)) as (I1 & I2 & I3 & I4 & I5). split; [exact I1|]. split; [exact I2|]. split; [exact I3|]. split; [auto|congruence].
Qed.
Definition unbound (k : nat) (s : py_state) : py_state := mkPy (py_objs s) (upd k false (py_bound s)) (py_moves s).
Lemma bound_unbound s k j : bound (unbound k s) j <-> j <> k /\ bound s j.
Proof.
  unfold bound, unbound. cbn. split; [intros H; apply upd_nth_inv in H as [(_ & [=] & _)|H]; exact H|]. intros [Hj H]. now rewrite upd_nth_other.
Qed.
Lemma del_good s k : good s -> let s' := release (S k) k (unbound k s) in
  good s' /\ (forall j, bound s' j <-> j <> k /\ bound s j) /\ py_moves s' = py_moves s /\ (forall j x, at_ s' j x -> at_ s j x) /\ length (py_objs s') = length (py_objs s).
Proof.
  intros [Hl Hb Hr Ha Hf]. assert (HG : good_but (unbound k s) (Some k)).
  { constructor.
    - cbn. now rewrite upd_length.
    - intros j Hj. apply bound_unbound in Hj as [_ Hj]. exact (Hb j Hj).
    - intros j p w H. destruct (Hr _ _ _ H) as [Hw Hp]. split; [exact Hw|]. apply (well_move Hp); [intros o Ho; exists o; split; [exact Ho|apply alike_refl]|intros q v Hq; exact Hq].
    - intros j x Hj Hx. destruct (Ha j x ltac:(discriminate) Hx) as [H|H]; [|now right]. left. apply bound_unbound. split; [congruence|exact H].
    - exact Hf. }
  destruct (release_good (Nat.lt_succ_diag_r k) HG) as (I1 & I2 & I3 & I4 & I5). cbv zeta. split; [exact I1|]. split; [|now split].
  intros j. rewrite <- bound_unbound. unfold bound. now rewrite I2.
Qed.

(** ** Every statement keeps it *)
Lemma good_eff E c s s' : good s -> eff E c s s' -> good s'.
Proof.
  intros HG [Hq|x Hq Hx|n o o' Hq Hn Hp Hf|l n o o' b Hq Hc Hn He Hf|n m mc Hn Hc _|n m mc r Hn Hc _|k -> Hb].
  - exact HG.
  - apply (good_plus HG). destruct x as [o|p w]; [|exact Hx]. destruct o; try exact I; exact Hx.
  - apply (good_now HG Hn); [|exact Hf]. destruct o, o'; try contradiction; try (injection Hp as ->; apply alike_refl); try discriminate Hp; now split.
  - apply good_moved. apply (good_now HG Hn); [|exact Hf]. destruct He as [ws ws'|d d' f ws Ho Hs]; (split; [reflexivity|]); [exact I|]. intros g t Hg.
    destruct (list_eq_dec N.eq_dec g f) as [-> |Hne]; [eauto|]. exists t. now rewrite Ho.
  - apply (good_now HG Hn); [now split|exact I].
  - apply good_plus; [|exact I]. apply (good_now HG Hn); [now split|exact I].
  - exact (proj1 (del_good k HG)).
Qed.
Lemma good_start : good py_start.
Proof. constructor; try reflexivity; intros k *; unfold at_, refers, holds, bound, py_start; cbn; destruct k; discriminate. Qed.
Lemma do_inv E W b c s s' r : py_do E W b c s = (s', Ok r) -> exists v, py_do' E W b c s = (s', Ok v) /\ r = match v with inl v => Returns v | inr x => Raises x end.
Proof. unfold py_do, mbind, ret. destruct (py_do' E W b c s) as [s1 [v|x| | |]]; try discriminate. intros [= <- <-]. now exists v. Qed.
Lemma run_inv E W c b prog s s' rs : py_run E W ((c, b) :: prog) s = (s', Ok rs) -> exists s1 r rs', py_do E W b c s = (s1, Ok r) /\ py_run E W prog s1 = (s', Ok rs') /\ rs = r :: rs'.
Proof.
  cbn [py_run fst snd]. unfold mbind, ret. destruct (py_do E W b c s) as [s1 [r|x| | |]]; try discriminate. destruct (py_run E W prog s1) as [s2 [rs'|x| | |]] eqn:H; try discriminate.
  intros [= <- <-]. now exists s1, r, rs'.
Qed.
Section Programs.
Variables (E : env) (W : world).
Hypothesis HF : folds_shipped E.
Hypothesis HW : shipped W.
Lemma do_eff b c s s' r : good s -> py_do E W b c s = (s', Ok r) -> eff E c s s'.
Proof. intros HG H. apply do_inv in H as (v & H & _). exact (call_eff HF HW (g_fine HG) H). Qed.
Lemma run_good prog : forall s s' rs, good s -> py_run E W prog s = (s', Ok rs) -> good s'.
Proof.
  induction prog as [|[c b] prog IH]; intros s s' rs HG H; [injection H as <- <-; exact HG|]. apply run_inv in H as (s1 & r & rs' & H1 & H2 & _).
  exact (IH _ _ _ (good_eff HG (do_eff HG H1)) H2).
Qed.
Lemma reached_good prog s : py_reached E W prog s -> good s.
Proof. intros [rs H]. exact (run_good good_start H). Qed.

(** ** Matchers *)
Definition hist (lg : nat -> list m_call) (s : py_state) : Prop :=
  (forall n m, holds s n (OMatcher m) -> exists m0, mt_new E = Ok m0 /\ m = m_all E (lg n) m0) /\ forall n, (fresh s <= n)%nat -> lg n = [].
Lemma step_hist lg b c s s' r : good s -> hist lg s -> py_do E W b c s = (s', Ok r) ->
  exists lg', hist lg' s' /\ forall n, (exists mc, py_calls E c s n mc /\ lg' n = lg n ++ [mc]) \/ ((forall mc, ~ py_calls E c s n mc) /\ lg' n = lg n).
Proof.
  intros HG [H1 H2] H. pose proof (do_eff HG H) as He. clear H. destruct He as [Hq|x Hq Hx|n o o' Hq Hn Hp Hf|l n o o' b0 Hq Hc Hn He Hf|n m mc Hn Hc Hu|n m mc r0 Hn Hc Hu|k -> Hb].
  - exists lg. split; [now split|]. intros n. right. split; [apply Hq|reflexivity].
  - exists lg. split; [|intros n; right; split; [apply Hq|reflexivity]]. split.
    + intros n m Hn. apply at_plus in Hn as [Hn|[-> Hx']]; [exact (H1 _ _ Hn)|]. subst x. cbn in Hx. exists m. split; [exact Hx|]. now rewrite H2.
    + intros n Hn. apply H2. unfold fresh, plus in *. cbn in Hn. rewrite app_length in Hn. lia.
  - exists lg. split; [|intros k; right; split; [apply Hq|reflexivity]]. split.
    + intros k m Hk. apply (at_now _ _ _ Hn) in Hk as [[_ Hk]|[-> [= <-]]]; [exact (H1 _ _ Hk)|]. destruct o; try discriminate Hp. injection Hp as <-. exact (H1 _ _ Hn).
    + intros k Hk. apply H2. unfold fresh, now_holds in *. cbn in Hk. now rewrite upd_length in Hk.
  - exists lg. split; [|intros k; right; split; [apply Hq|reflexivity]]. split.
    + intros k m Hk. change (at_ (now_holds n o' s) k (Holds (OMatcher m))) in Hk. apply (at_now _ _ _ Hn) in Hk as [[_ Hk]|[-> [= <-]]]; [exact (H1 _ _ Hk)|]. inversion He.
    + intros k Hk. apply H2. unfold fresh, now_holds in *. cbn in Hk. now rewrite upd_length in Hk.
  - exists (fun k => if Nat.eqb k n then lg k ++ [mc] else lg k). split.
    + split.
      * intros k m' Hk. apply (at_now _ _ _ Hn) in Hk as [[Hkn Hk]|[-> [= ->]]]; [rewrite (proj2 (Nat.eqb_neq k n) Hkn); exact (H1 _ _ Hk)|]. rewrite Nat.eqb_refl.
        destruct (H1 _ _ Hn) as (m0 & Hm0 & ->). exists m0. split; [exact Hm0|]. unfold m_all. now rewrite fold_left_app.
      * intros k Hk. unfold fresh, now_holds in Hk. cbn in Hk. rewrite upd_length in Hk. destruct (Nat.eqb_spec k n) as [-> |_]; [pose proof (lt_len Hn); lia|now apply H2].
    + intros k. destruct (Nat.eqb_spec k n) as [-> |Hk]; [left; exists mc; auto|]. right. split; [|reflexivity]. intros mc' Hmc. exact (Hk (Hu _ _ Hmc)).
  - exists (fun k => if Nat.eqb k n then lg k ++ [mc] else lg k). split.
    + split.
      * intros k m' Hk. apply at_plus in Hk as [Hk|[_ [=]]]. apply (at_now _ _ _ Hn) in Hk as [[Hkn Hk]|[-> [= ->]]]; [rewrite (proj2 (Nat.eqb_neq k n) Hkn); exact (H1 _ _ Hk)|]. rewrite Nat.eqb_refl.
        destruct (H1 _ _ Hn) as (m0 & Hm0 & ->). exists m0. split; [exact Hm0|]. unfold m_all. now rewrite fold_left_app.
      * intros k Hk. unfold fresh, plus, now_holds in Hk. cbn in Hk. rewrite app_length, upd_length in Hk. pose proof (lt_len Hn). destruct (Nat.eqb_spec k n) as [-> |_]; [lia|]. apply H2. unfold fresh. lia.
    + intros k. destruct (Nat.eqb_spec k n) as [-> |Hk]; [left; exists mc; auto|]. right. split; [|reflexivity]. intros mc' Hmc. exact (Hk (Hu _ _ Hmc)).
  - exists lg. split; [|intros n; right; split; [intros mc []|reflexivity]]. destruct (del_good k HG) as (_ & _ & _ & Hat & Hlen). split.
    + intros n m Hn. exact (H1 _ _ (Hat _ _ Hn)).
    + intros n Hn. apply H2. unfold fresh in *. unfold unbound in Hlen. lia.
Qed.
Lemma run_hist prog : forall lg s s' rs, good s -> hist lg s -> py_run E W prog s = (s', Ok rs) ->
  exists lg', hist lg' s' /\ forall n, exists cs, py_history E W n prog s cs /\ lg' n = lg n ++ cs.
Proof.
  induction prog as [|[c b] prog IH]; intros lg s s' rs HG HH H.
  - injection H as <- <-. exists lg. split; [exact HH|]. intros n. exists []. split; [constructor|now rewrite app_nil_r].
  - apply run_inv in H as (s1 & r & rs' & H1 & H2 & _). destruct (step_hist HG HH H1) as (lg1 & HH1 & Hs). destruct (IH _ _ _ _ (good_eff HG (do_eff HG H1)) HH1 H2) as (lg2 & HH2 & Hr).
    exists lg2. split; [exact HH2|]. intros n. destruct (Hr n) as (cs & Hcs & E2). assert (Hf : fst (py_do E W b c s) = s1) by now rewrite H1.
    destruct (Hs n) as [(mc & Hmc & E1)|[Hno E1]].
    + exists (mc :: cs). split; [apply h_call; [exact Hmc|now rewrite Hf]|]. now rewrite E2, E1, <- app_assoc.
    + exists cs. split; [apply h_skip; [exact Hno|now rewrite Hf]|]. now rewrite E2, E1.
Qed.
Lemma history_eq n prog : forall s a b, py_history E W n prog s a -> py_history E W n prog s b -> a = b.
Proof.
  clear. induction prog as [|[c bb] prog IH]; intros s a b Ha Hb; inversion Ha; subst; inversion Hb; subst; try reflexivity.
  - match goal with H1 : py_calls _ _ _ _ ?x, H2 : py_calls _ _ _ _ ?y |- _ => pose proof (calls_eq H1 H2) as <- end. f_equal. eapply IH; eassumption.
  - match goal with H1 : py_calls _ _ _ _ ?x, H2 : forall mc, ~ _ |- _ => destruct (H2 _ H1) end.
  - match goal with H1 : py_calls _ _ _ _ ?x, H2 : forall mc, ~ _ |- _ => destruct (H2 _ H1) end.
  - eapply IH; eassumption.
Qed.
Lemma py_as_cpp prog s n m : py_reached E W prog s -> holds s n (OMatcher m) ->
  (exists cs, py_history E W n prog py_start cs) /\ forall cs, py_history E W n prog py_start cs -> exists m0, mt_new E = Ok m0 /\ m = m_all E cs m0.
Proof.
  intros [rs H] Hm. assert (H0 : hist (fun _ => []) py_start) by (split; [intros [|k] mm; discriminate|reflexivity]).
  destruct (run_hist good_start H0 H) as (lg & [HH _] & Hc). destruct (Hc n) as (cs & Hcs & El). cbn in El. split; [now exists cs|]. intros cs' Hcs'. rewrite <- (history_eq Hcs Hcs'), <- El. exact (HH _ _ Hm).
Qed.
End Programs.
