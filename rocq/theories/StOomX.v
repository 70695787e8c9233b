(** WordStores that run out of memory: concrete runs. *)
From Verif Require Import Base TrieM WordStoreM Spec_Hist FailM StOomM Spec_StOom Demo StoreX StOomP.
Local Open Scope N_scope.

Definition so_words : list word := [w_abc; w_a; w_abd; w_abc; w_a].
Definition so_plan0 : list bool := [true; false].
Definition so_st : sstate := fst (s_all demo so_words (mkSO (store0 demo) so_plan0)).
Definition so_os : list (fres N) := snd (s_all demo so_words (mkSO (store0 demo) so_plan0)).
Lemma so_run_eq : s_all demo so_words (mkSO (store0 demo) so_plan0) = (so_st, so_os).
Proof. apply surjective_pairing. Qed.
Lemma so_os_eq : so_os = [Val 0; Out; Val 1; Val 0; Val 1].
Proof. vm_compute. reflexivity. Qed.
Lemma so_words_ok : Forall insertable so_words.
Proof. repeat (constructor; [ins1|]). constructor. Qed.
Lemma so_went : went_on so_os.
Proof. rewrite so_os_eq. repeat (constructor; [first [right; reflexivity|left; eexists; reflexivity]|]). constructor. Qed.
Lemma so_first : asked so_words so_os 0 w_abc (Val 0).
Proof. rewrite so_os_eq. now split. Qed.
Lemma so_lucky : lucky so_words so_os w_abc.
Proof. intros i [H1 H2]. rewrite so_os_eq in H2. do 5 (destruct i as [|i]; [cbn in H1, H2; try discriminate H2; discriminate H1|]). destruct i; discriminate H1. Qed.
Lemma so_clash : exists E s0 w v plan st, ws_new E = Ok s0 /\ insertable w /\ insertable v /\ w <> v /\
  s_all E [w; v; w] (mkSO s0 plan) = (st, [Out; Val 0; Val 0]) /\ ws_getWord E (so_store st) 0 = Ok v.
Proof.
  exists demo, (store0 demo), w_a, w_abd, [false], (fst (s_all demo [w_a; w_abd; w_a] (mkSO (store0 demo) [false]))). split; [exact store0_demo|]. split; [ins1|]. split; [ins1|]. split; [discriminate|]. split; [|vm_compute; reflexivity].
  assert (H : snd (s_all demo [w_a; w_abd; w_a] (mkSO (store0 demo) [false])) = [Out; Val 0; Val 0]) by (vm_compute; reflexivity). rewrite <- H. apply surjective_pairing.
Qed.
Lemma so_unknown : exists E s0 w plan st, ws_new E = Ok s0 /\ insertable w /\ s_all E [w; w] (mkSO s0 plan) = (st, [Out; Val 0]) /\
  ws_hasWord (so_store st) w = Ok true /\ ws_hasID (so_store st) 0 = false /\ ws_getWord E (so_store st) 0 = Throw EOutOfRange.
Proof.
  exists demo, (store0 demo), w_a, [false], (fst (s_all demo [w_a; w_a] (mkSO (store0 demo) [false]))). split; [exact store0_demo|]. split; [ins1|]. split.
  - assert (H : snd (s_all demo [w_a; w_a] (mkSO (store0 demo) [false])) = [Out; Val 0]) by (vm_compute; reflexivity). rewrite <- H. apply surjective_pairing.
  - split; [vm_compute; reflexivity|]. split; vm_compute; reflexivity.
Qed.
