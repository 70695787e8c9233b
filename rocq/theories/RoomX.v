(** Concrete runs for C106. *)
From Verif Require Import Base TrieM Spec_Hist Spec_Edit ContM MatcherM Spec_Match Spec_Word Spec_Room MatchG Demo StoreX MatchX.
Local Open Scope N_scope.
Definition long_doc : corpus := docs [(1, [(w_title, [repeat 97 20; repeat 98 20])])].
Lemma demo_small_ok : env_ok demo_small.
Proof. constructor; apply demo_ok. Qed.
Lemma room_example : Forall clean calls_m /\ history demo calls_m m_ex /\ clean (MIndex docs_ex) /\ no_empty (MIndex docs_ex) /\
  sound_history demo calls_h /\ Forall nameable calls_h /\ letters_given calls_h = 47 /\ enough demo (calls_m ++ [MIndex docs_ex]) /\
  env_ok demo_small /\ history demo_small [] (after demo_small []) /\ clean (MIndex long_doc) /\ letters_given [MIndex long_doc] = 42 /\
  snd (mt_index demo_small long_doc (after demo_small [])) = Throw ERuntime /\
  history demo_small [MIndex docs_ex] (after demo_small [MIndex docs_ex]) /\ sound_setup demo_small [MIndex docs_ex] /\ sound_query [MIndex docs_ex] q_ex /\
  snd (mt_match demo_small q_ex (mkSP true [[(repeat 97 20, repeat 98 20)]] []) (after demo_small [MIndex docs_ex])) = Throw ERuntime.
Proof.
  assert (Hc : Forall clean calls_m) by cleans. assert (Hd : Forall clean [MIndex docs_ex]) by cleans. assert (Hl : Forall clean [MIndex long_doc]) by cleans.
  split; [exact Hc|]. split; [exact m_ex_history|]. split; [exact (Forall_inv Hd)|].
  split; [unfold no_empty; vm_compute; repeat (constructor; [discriminate|]); constructor|].
  split; [exact calls_h_sound|]. split; [exact calls_h_nameable|]. split; [vm_compute; reflexivity|].
  split. { split; [|vm_compute; reflexivity]. intros s Hs. assert (letters_given (calls_m ++ [MIndex docs_ex]) < 1000) by (vm_compute; reflexivity). unfold grow_ok. cbn [e_os demo]. lia. }
  split; [exact demo_small_ok|]. split; [happens|]. split; [exact (Forall_inv Hl)|]. split; [vm_compute; reflexivity|]. split; [vm_compute; reflexivity|].
  split; [happens|]. split; [apply easy_setup; [exact demo_small_ok|exact Hd|defaults|vm_compute; reflexivity..]|]. split; [query|]. vm_compute. reflexivity.
Qed.
