(** Concrete runs of queryindex. *)
From Verif Require Import Base Demo TrieM WordM QIndexM Spec_Hist Spec_Word Spec_Tool WordP WordX QIndexP.
From Coq Require Import ZifyBool ZifyN ZifyNat.
Local Open Scope N_scope.

(** The file "Abc", "abd", "zzz", "abc", and the command "queryindex f ABC 150". *)
Definition x_lines : list (list N) := [[65; 98; 99]; [97; 98; 100]; [122; 122; 122]; [97; 98; 99]].
Definition x_name : list N := [102].
Definition x_query : list N := [65; 66; 67].
Definition x_number : list N := [49; 53; 48].
Definition x_argv : list (list N) := [[113]; x_name; bytes_of x_query; x_number].
Definition x_file (bs : list N) : list N -> option (list N) := fun n => if weqb n x_name then Some bs else None.

Lemma x_lines_ok : Forall (word_line demo) x_lines.
Proof.
  repeat (constructor; [split; [discriminate|]; split; [repeat (constructor; [unfold scalar; lia|]); constructor|];
    split; [intros c Hc; unfold blank; cbn [In] in Hc; lia|]; split; [vm_compute; discriminate|vm_compute; reflexivity]|]). constructor.
Qed.
Lemma x_query_ok : query_text x_query.
Proof. split; [repeat (constructor; [unfold scalar; lia|]); constructor|]. split; [intros c Hc; unfold blank, x_query in *; cbn [In] in Hc; lia|vm_compute; discriminate]. Qed.
Lemma x_number_ok : reads_as x_number 150.
Proof.
  apply (@reading [] [] x_number []); [constructor|now left|repeat (constructor; [unfold digit; lia|]); constructor|discriminate].
Qed.
Lemma x_room E : e_os E = (fun s => (s <=? 1073741824)%N) -> room_for E (length (text_file x_lines)).
Proof.
  intros H. split; [|vm_compute; reflexivity]. intros s Hs. change (N.of_nat (length (text_file x_lines))) with 16 in Hs. unfold grow_ok. rewrite H. lia.
Qed.
Lemma x_run : queryindex demo (x_file (text_file x_lines)) x_argv = Ok ([PMatch [97; 98; 99] 0; PMatch [97; 98; 100] 100], 0%Z).
Proof. vm_compute. reflexivity. Qed.
Lemma x_run_none : queryindex demo (x_file (text_file x_lines)) [[113]; x_name; [113; 113; 113; 113; 113]; x_number] = Ok ([PNone], 0%Z).
Proof. vm_compute. reflexivity. Qed.

(** A lower casing that makes a text longer, as Unicode's does: A with stroke, U+023A (two
    bytes), becomes U+2C65 (three bytes). *)
Definition stroke_lower (l : N) : N := if l =? 570 then 11365 else ascii_lower l.
Definition demo_stroke : env := mkEnv false (fun s => (s <=? 1073741824)%N) isort (fun _ l => l) stroke_lower false.
Lemma stroke_lower_ok : lower_ok demo_stroke.
Proof.
  constructor; intros l; unfold demo_stroke; cbn [e_lower]; unfold stroke_lower, ascii_lower, scalar, blank.
  - intros Hl. destruct (l =? 570); [lia|]. destruct (_ && _) eqn:Hc; lia.
  - intros Hl. destruct (l =? 570) eqn:H1; [reflexivity|]. destruct ((65 <=? l) && (l <=? 90)) eqn:Hc.
    + replace (l + 32 =? 570) with false by lia. replace ((65 <=? l + 32) && (l + 32 <=? 90)) with false by lia. reflexivity.
    + rewrite H1, Hc. reflexivity.
  - intros Hl. replace (l =? 570) with false by lia. replace (_ && _) with false by lia. reflexivity.
  - intros Hl Hs. destruct (l =? 570); [lia|]. destruct (_ && _) eqn:Hc; lia.
  - intros Hl. destruct (l =? 570); [lia|]. destruct (_ && _) eqn:Hc; lia.
  - intros Hl. replace (l =? 570) with false by lia. replace (_ && _) with false by lia. reflexivity.
  - intros Hl. destruct (l =? 570); [lia|]. destruct (_ && _) eqn:Hc; lia.
Qed.
Lemma stroke_ok : env_ok demo_stroke.
Proof. constructor; cbn; [apply isort_perm|apply isort_sorted|reflexivity]. Qed.

(** 341 such letters and an "a": 683 bytes in the file, 1024 in lower case. *)
Definition x_long : list N := repeat 570 (N.to_nat 341) ++ [97].
Lemma x_long_ok : Forall scalar x_long /\ (forall c, In c x_long -> ~ blank c /\ c <> 0) /\ N.of_nat (length (bytes_of x_long)) = 683.
Proof.
  split; [|split; [|vm_compute; reflexivity]].
  - apply Forall_app. split; [apply Forall_forall; intros c Hc; apply repeat_spec in Hc; subst; unfold scalar; lia|]. constructor; [unfold scalar; lia|constructor].
  - intros c Hc. apply in_app_iff in Hc as [Hc|[<-|[]]]; [apply repeat_spec in Hc; subst|]; unfold blank; lia.
Qed.
Lemma x_long_run : queryindex demo_stroke (x_file (text_file [x_long])) [[113]; x_name; [97]; [57; 57; 57; 57; 57]] = UB.
Proof. vm_compute. reflexivity. Qed.
Lemma x_longer_run : queryindex demo_stroke (x_file (text_file [570 :: x_long; [97]])) [[113]; x_name; [97]; [57; 57; 57; 57; 57]] = Ok ([PMatch [97] 0; PQueryFailed], 99%Z).
Proof. vm_compute. reflexivity. Qed.

(** Plain short texts. *)
Lemma run_short n bs : Forall (fun b => 0 < b < 256) bs -> N.of_nat (length bs) < n -> short_lines n bs.
Proof. intros H1 H2. split; [exact H1|]. intros a s b -> _. rewrite !app_length in H2. lia. Qed.

(** A crash in a debug build: "abc" without line feed. *)
Lemma x_abort : queryindex demo (x_file [97; 98; 99]) x_argv = Abort /\ short_lines 342 [97; 98; 99].
Proof. split; [vm_compute; reflexivity|]. apply run_short; [repeat (constructor; [lia|]); constructor|vm_compute; reflexivity]. Qed.

Lemma reported_refuted : exists E bs, lower_ok E /\ env_ok E /\ ~ valid_utf8 bs /\
  queryindex E (x_file (bs ++ [10])) x_argv = Ok ([PFail], 105%Z).
Proof.
  exists demo, [195; 40]. split; [apply demo_lower_ok|]. split; [apply demo_ok|]. split; [|vm_compute; reflexivity].
  intros (cs & Hs & Hb). pose proof (utf8_encode_decode Hs) as Hd. rewrite <- Hb in Hd. vm_compute in Hd. discriminate.
Qed.
Lemma safe_refuted : exists E cs, lower_ok E /\ env_ok E /\ Forall scalar cs /\ (forall c, In c cs -> ~ blank c /\ c <> 0) /\
  N.of_nat (length (bytes_of cs)) = 683 /\
  queryindex E (x_file (text_file [cs])) [[113]; x_name; [97]; [57; 57; 57; 57; 57]] = UB /\
  queryindex E (x_file (text_file [570 :: cs; [97]])) [[113]; x_name; [97]; [57; 57; 57; 57; 57]] = Ok ([PMatch [97] 0; PQueryFailed], 99%Z).
Proof.
  exists demo_stroke, x_long. split; [apply stroke_lower_ok|]. split; [apply stroke_ok|]. destruct x_long_ok as (H1 & H2 & H3).
  split; [exact H1|]. split; [exact H2|]. split; [exact H3|]. split; [apply x_long_run|apply x_longer_run].
Qed.
