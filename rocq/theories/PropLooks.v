(** Property C79: equal payloads never look equal on the air. *)
From Coq Require Import List Arith NArith ZArith Bool String Lia ZifyBool ZifyNat ZifyN Sorting.Sorted.
From Verif Require Import ByteCrate Types HeaderModel BeaconModel CommandModel CcmModel FrameModel
  Spec SecSpec HistorySpec RestartSpec NodeSpec ProofLib HeaderProofs HeaderReadProofs BeaconProofs CommandProofs FrameProofs CcmProofs
  SecureProofs RepoTests Aes128 AesProofs AesPerm PropHeader PropContent PropFrame PropSecure PropReceive PropHistory PropRestart PropNetwork
  PropAttacker PropNode PropKeys PropCorrupt.
Import ListNotations.
Open Scope N_scope.
Open Scope list_scope.
Ltac Zify.zify_post_hook ::= Z.div_mod_to_equations.

(** Block [i] of a string. *)
Definition block_at (u : list N) (i : nat) : list N := firstn 16 (skipn (16 * i) u).
(** The payload of a frame as it is on the air: what follows header and content, without the tag. *)
Definition payload_on_air (o : endian) (e : sent) : list N :=
  firstn (List.length (payload (s_frame e))) (skipn (List.length (wire_front o (s_before e) (s_frame e))) (s_bytes e)).

Section Looks.
Context {K D : Type} (c : N -> cfg) (E : block_cipher K) (dl : N -> DeviceLookup D).
Hypothesis HE : cipher_ok E.
Hypothesis HP : permuting E.
Variables (st : N -> node_state K D) (member : N -> Prop).
Hypothesis Htyped : forall x, u32_ok (sc_frame_counter (n_ctx (st x))) /\ u64_ok (sc_euid (n_ctx (st x))).
Hypothesis Hdistinct : forall x y, member x -> member y -> sc_euid (n_ctx (st x)) = sc_euid (n_ctx (st y)) -> x = y.

(** Node [x] encrypted the payload of event [e] with [key]. *)
Definition encrypted_with (x : N) (e : sent) (key : K) : Prop :=
  secured e = true /\ encrypting (level_of e) = true /\
  exists a eui, auxiliary_security_header (header (s_frame e)) = Some a /\
    sc_key_provider (n_ctx (st x)) DstAddrMode (key_identifier a) (destination (header (s_frame e))) = Some (eui, key).

Lemma nth_error_two {A} (l : list A) i j x y : nth_error l i = Some x -> nth_error l j = Some y -> (i < j)%nat ->
  exists l1 l2 l3, l = l1 ++ x :: l2 ++ y :: l3.
Proof.
  intros Hi Hj Hlt. apply nth_error_split in Hi. destruct Hi as (l1 & l2 & -> & <-).
  rewrite nth_error_app2 in Hj by lia. replace (j - List.length l1)%nat with (S (j - S (List.length l1))) in Hj by lia.
  cbn [nth_error] in Hj. apply nth_error_split in Hj. destruct Hj as (l3 & l4 & -> & _). eauto.
Qed.

Lemma octet_block_at u i k : (k < 16)%nat -> octet (block_at u i) k = octet u (16 * i + k).
Proof. intros Hk. unfold block_at. rewrite octet_firstn by exact Hk. apply octet_skipn. Qed.

(** Two blocks of payload that the nodes of a system encrypt with one key - in two frames of one
    node or of two, or at two places of one frame - look different on the air if they are equal. *)
Theorem C79_equal_blocks_look_different : forall acts log st',
  Forall (fun p => action_ok (snd p) /\ member (fst p)) acts ->
  run_system c E dl st acts = (log, st') ->
  forall n1 x1 e1 n2 x2 e2 key i j,
  nth_error log n1 = Some (x1, Wrote e1) -> nth_error log n2 = Some (x2, Wrote e2) ->
  encrypted_with x1 e1 key -> encrypted_with x2 e2 key ->
  (16 * i + 16 <= List.length (payload (s_frame e1)))%nat ->
  (16 * j + 16 <= List.length (payload (s_frame e2)))%nat ->
  (n1, i) <> (n2, j) ->
  block_at (payload (s_frame e1)) i = block_at (payload (s_frame e2)) j ->
  block_at (payload_on_air (native (c x1)) e1) i <> block_at (payload_on_air (native (c x2)) e2) j.
Proof using HE HP Htyped Hdistinct.
  intros acts log st' Ho R n1 x1 e1 n2 x2 e2 key i j H1 H2 K1 K2 Hi Hj Hne Hp Hair.
  assert (W : forall n x e k i, nth_error log n = Some (x, Wrote e) -> encrypted_with x e k ->
     (16 * i + 16 <= List.length (payload (s_frame e)))%nat ->
     used e = true /\ (List.length (payload (s_frame e)) <= 127)%nat /\
     forall u, (u < 16)%nat -> octet (block_at (payload_on_air (native (c x)) e) i) u
       = N.lxor (octet (block_at (payload (s_frame e)) i) u)
                (octet (encrypt_block E k (stream_input (mac_nonce (sc_euid (n_ctx (st x))) (s_before e) (level_of e)) (1 + i))) u)).
  { clear - HE Htyped Ho R. intros n x e k i H (Hs & He & a & eui & Ha & Hk) Hi.
    destruct (system_writes c E dl HE st member Htyped acts log st' x Ho R) as (Hc & S).
    apply nth_error_In in H.
    assert (Hin : In e (NodeSpec.wrote (of_node x log))).
    { unfold NodeSpec.wrote. apply in_flat_map. exists (Wrote e). split; [now apply of_node_in|now left]. }
    assert (U : used e = true).
    { destruct (C29_secured_frame_uses_its_counter (c x) E HE _ _ _ _ e Hc (proj1 (Htyped x)) S Hin Hs) as (B & _).
      unfold used. apply N.ltb_lt. lia. }
    destruct (send_all_inv (c x) E HE _ _ _ _ Hc (proj1 (Htyped x)) S) as (I1 & _).
    rewrite Forall_forall in I1. pose proof (used_short (c x) E HE _ e (I1 e Hin) U) as Sh.
    split; [exact U|]. split; [exact Sh|]. intros u Hu.
    destruct (C71_stream_is_what_encrypts (c x) E HE _ _ _ _ e Hc (proj1 (Htyped x)) S Hin Hs He)
      as (a' & eui' & key' & Ha' & Hk' & Lb & Oc & _).
    assert (key' = k) by congruence. subst key'.
    set (np := List.length (payload (s_frame e))) in *.
    rewrite !octet_block_at by exact Hu. unfold payload_on_air. fold np. rewrite octet_firstn by lia.
    rewrite Oc by lia. replace ((16 * i + u) mod 16)%nat with u by lia. replace ((16 * i + u) / 16)%nat with i by lia.
    do 3 f_equal. unfold stream_inputs. fold np.
    rewrite nth_indep with (d' := stream_input (mac_nonce (sc_euid (n_ctx (st x))) (s_before e) (level_of e)) 0%nat)
      by (rewrite map_length, seq_length; lia).
    rewrite map_nth, seq_nth by lia. reflexivity. }
  destruct (W n1 x1 e1 key i H1 K1 Hi) as (U1 & S1 & O1). destruct (W n2 x2 e2 key j H2 K2 Hj) as (U2 & S2 & O2). clear W.
  set (A := stream_input (mac_nonce (sc_euid (n_ctx (st x1))) (s_before e1) (level_of e1)) (1 + i)) in *.
  set (B := stream_input (mac_nonce (sc_euid (n_ctx (st x2))) (s_before e2) (level_of e2)) (1 + j)) in *.
  assert (Sh : forall eui fc l k, List.length (stream_input (mac_nonce eui fc l) k) = 16%nat /\ octets (stream_input (mac_nonce eui fc l) k)).
  { intros eui fc l k. unfold stream_input. split.
    - rewrite !app_length, mac_nonce_length. unfold be. rewrite rev_length, le_length. reflexivity.
    - apply octets_app. split; [apply octets_cons; split; [reflexivity|exact octets_nil]|].
      apply octets_app. split; [apply octets_mac_nonce|]. unfold be, octets. apply Forall_rev, octets_le. }
  assert (EE : encrypt_block E key A = encrypt_block E key B).
  { destruct (proj1 HE key A) as [LA _]; [apply Sh..|]. destruct (proj1 HE key B) as [LB _]; [apply Sh..|].
    apply list_octets_ext; [congruence|]. intros u Hu. rewrite LA in Hu. specialize (O1 u Hu). specialize (O2 u Hu).
    rewrite Hair, O2, Hp in O1. apply (f_equal (N.lxor (octet (block_at (payload (s_frame e2)) j) u))) in O1.
    rewrite <- !N.lxor_assoc, !N.lxor_nilpotent, !N.lxor_0_l in O1. now symmetry. }
  apply HP in EE; [|apply Sh..]. unfold A, B in EE.
  apply stream_input_injective in EE; [|now rewrite !mac_nonce_length|lia|lia]. destruct EE as [En Ei].
  pose proof (C74_system_nonces c E dl HE st member Htyped Hdistinct acts log st' Ho R) as Nn.
  destruct (Nat.lt_trichotomy n1 n2) as [L|[Eq|L]].
  - destruct (nth_error_two _ _ _ _ _ H1 H2 L) as (l1 & l2 & l3 & El). exact (Nn _ _ _ _ _ _ _ El U1 U2 En).
  - apply Hne. f_equal; lia.
  - destruct (nth_error_two _ _ _ _ _ H2 H1 L) as (l1 & l2 & l3 & El). exact (Nn _ _ _ _ _ _ _ El U2 U1 (eq_sym En)).
Qed.

(** So a payload of 16 octets or more that is sent again looks different every time, whichever
    nodes send it. *)
Theorem C79_repeated_payload_looks_different : forall acts log st',
  Forall (fun p => action_ok (snd p) /\ member (fst p)) acts ->
  run_system c E dl st acts = (log, st') ->
  forall n1 x1 e1 n2 x2 e2 key, n1 <> n2 ->
  nth_error log n1 = Some (x1, Wrote e1) -> nth_error log n2 = Some (x2, Wrote e2) ->
  encrypted_with x1 e1 key -> encrypted_with x2 e2 key ->
  payload (s_frame e1) = payload (s_frame e2) -> (16 <= List.length (payload (s_frame e1)))%nat ->
  payload_on_air (native (c x1)) e1 <> payload_on_air (native (c x2)) e2.
Proof using HE HP Htyped Hdistinct.
  intros acts log st' Ho R n1 x1 e1 n2 x2 e2 key Hn H1 H2 K1 K2 Hp Hl X.
  apply (C79_equal_blocks_look_different acts log st' Ho R n1 x1 e1 n2 x2 e2 key 0%nat 0%nat H1 H2 K1 K2).
  - lia.
  - rewrite <- Hp. lia.
  - congruence.
  - now rewrite Hp.
  - now rewrite X.
Qed.
End Looks.

(** ** Cases *)

Definition sixteen : list N := map N.of_nat (List.seq 200 16).
(** The hypotheses are met: one node sends the same 32 octets (twice the same 16) twice. *)
Definition again_acts : list (N * action) :=
  [(1, from_node 1 SL_ENCMIC32 (sixteen ++ sixteen)); (1, from_node 1 SL_MIC64 [1]); (5, from_node 5 SL_None [7]);
   (1, from_node 1 SL_ENCMIC32 (sixteen ++ sixteen))].
Definition again_log : list (N * event) :=
  fst (run_system (fun _ => host) aes_cipher (fun _ => known_lookup [5; 1]) pair_state again_acts).
Example C79_case :
  Forall (fun p => action_ok (snd p) /\ in_pair (fst p)) again_acts /\
  exists e1 e2, nth_error again_log 0 = Some (1, Wrote e1) /\ nth_error again_log 3 = Some (1, Wrote e2) /\
    encrypted_with pair_state 1 e1 (repeat 0 16) /\ encrypted_with pair_state 1 e2 (repeat 0 16) /\
    payload (s_frame e1) = sixteen ++ sixteen /\ payload (s_frame e2) = sixteen ++ sixteen /\
    s_before e1 = 41 /\ s_before e2 = 43.
Proof.
  split.
  - assert (O : forall l, forallb (fun b => b <? 256) l = true -> octets l).
    { intros l H. rewrite forallb_forall in H. apply Forall_forall. intros b Hb. now apply N.ltb_lt, H. }
    unfold again_acts, from_node, in_pair. cbn [N.eqb Pos.eqb].
    repeat (constructor; [split; [|cbn [fst]; tauto]; cbn [snd action_ok c_frame];
      repeat split; try reflexivity; cbn [payload level_frame from_five]; apply O; vm_compute; reflexivity|]). constructor.
  - do 2 eexists. split; [vm_compute; reflexivity|]. split; [vm_compute; reflexivity|].
    split; [split; [reflexivity|]; split; [reflexivity|]; do 2 eexists; split; reflexivity|].
    split; [split; [reflexivity|]; split; [reflexivity|]; do 2 eexists; split; reflexivity|].
    repeat split.
Qed.

(** With AES-128, for any such system. *)
Theorem C79_with_aes : forall D (c : N -> cfg) (dl : N -> DeviceLookup D) (st : N -> node_state (list N) D) (member : N -> Prop),
  (forall x, u32_ok (sc_frame_counter (n_ctx (st x))) /\ u64_ok (sc_euid (n_ctx (st x)))) ->
  (forall x y, member x -> member y -> sc_euid (n_ctx (st x)) = sc_euid (n_ctx (st y)) -> x = y) ->
  forall acts log st',
  Forall (fun p => action_ok (snd p) /\ member (fst p)) acts ->
  run_system c aes_cipher dl st acts = (log, st') ->
  forall n1 x1 e1 n2 x2 e2 key, n1 <> n2 ->
  nth_error log n1 = Some (x1, Wrote e1) -> nth_error log n2 = Some (x2, Wrote e2) ->
  encrypted_with st x1 e1 key -> encrypted_with st x2 e2 key ->
  payload (s_frame e1) = payload (s_frame e2) -> (16 <= List.length (payload (s_frame e1)))%nat ->
  payload_on_air (native (c x1)) e1 <> payload_on_air (native (c x2)) e2.
Proof.
  intros D c dl st member Ht Hd. exact (C79_repeated_payload_looks_different c aes_cipher dl aes_cipher_ok C78_aes_is_permuting st member Ht Hd).
Qed.

(** Shorter payloads may look the same: of nine frames with the same one-octet payload, the last two do. *)
Definition short_log : list (N * event) :=
  fst (run_system (fun _ => host) aes_cipher (fun _ => known_lookup [5; 1]) pair_state
         (repeat (1, from_node 1 SL_ENCMIC32 [9]) 9)).
Theorem C79_short_payload_looks_different_refuted :
  exists e1 e2, nth_error short_log 7 = Some (1, Wrote e1) /\ nth_error short_log 8 = Some (1, Wrote e2) /\
    encrypted_with pair_state 1 e1 (repeat 0 16) /\ encrypted_with pair_state 1 e2 (repeat 0 16) /\
    payload (s_frame e1) = [9] /\ payload (s_frame e2) = [9] /\
    payload_on_air LE e1 = [116] /\ payload_on_air LE e2 = [116].
Proof.
  do 2 eexists. split; [vm_compute; reflexivity|]. split; [vm_compute; reflexivity|].
  split; [split; [reflexivity|]; split; [reflexivity|]; do 2 eexists; split; reflexivity|].
  split; [split; [reflexivity|]; split; [reflexivity|]; do 2 eexists; split; reflexivity|].
  repeat split.
Qed.

Print Assumptions C79_equal_blocks_look_different.
Print Assumptions C79_repeated_payload_looks_different.
Print Assumptions C79_with_aes.
Print Assumptions C79_short_payload_looks_different_refuted.
