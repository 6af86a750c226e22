(** Property C77: what the crate's frame protection is, in terms of the one IEEE 802.15.4 specifies.

    The standard's CCM*: the nonce is extended source address, frame counter and security level,
    the two numbers most significant octet first; the additional authenticated data begins with
    the whole header, up to and including the auxiliary security header, of the frame. *)
From Coq Require Import List Arith NArith ZArith Bool String Lia ZifyBool ZifyNat ZifyN.
From Verif Require Import ByteCrate Types HeaderModel BeaconModel CommandModel CcmModel FrameModel
  Spec SecSpec ProofLib HeaderProofs HeaderReadProofs BeaconProofs CommandProofs FrameProofs CcmProofs
  SecureProofs RepoTests Aes128 AesProofs PropHeader PropContent PropFrame PropSecure PropReceive.
Import ListNotations.
Open Scope N_scope.
Open Scope list_scope.

(** ** The standard (IEEE 802.15.4-2006, 7.6.3 and annex B) *)
Definition std_nonce (eui fc : N) (l : SecurityLevel) : list N :=
  be 8 eui ++ be 4 fc ++ [level_code l].

Section Standard.
Context {K : Type} (E : block_cipher K) (key : K).

(** [hd]: the octets in front of the payload, [p]: the payload. *)
Definition std_payload (l : SecurityLevel) (eui fc : N) (p : list N) : list N :=
  match l with
  | SL_None | SL_MIC32 | SL_MIC64 | SL_MIC128 => p
  | SL_ENC | SL_ENCMIC32 | SL_ENCMIC64 | SL_ENCMIC128 => ccm_cipher E key (std_nonce eui fc l) p
  end.
Definition std_tag (l : SecurityLevel) (eui fc : N) (hd p : list N) : list N :=
  match l with
  | SL_None | SL_ENC => []
  | SL_MIC32 | SL_MIC64 | SL_MIC128 => ccm_tag E key (tag_len l) (std_nonce eui fc l) (hd ++ p) []
  | SL_ENCMIC32 | SL_ENCMIC64 | SL_ENCMIC128 => ccm_tag E key (tag_len l) (std_nonce eui fc l) hd p
  end.
Definition std_frame (l : SecurityLevel) (eui fc : N) (hd p : list N) : list N :=
  hd ++ std_payload l eui fc p ++ std_tag l eui fc hd p.
End Standard.

(** The three test vectors of the standard's annex C: a beacon at MIC-64, a data frame at ENC, a
    command frame at ENC-MIC-64. *)
Definition annex_key : list N :=
  [0xC0;0xC1;0xC2;0xC3;0xC4;0xC5;0xC6;0xC7;0xC8;0xC9;0xCA;0xCB;0xCC;0xCD;0xCE;0xCF].
Example annex_c_beacon :
  std_frame aes_cipher annex_key SL_MIC64 0xacde480000000001 5
    [0x08;0xD0;0x84;0x21;0x43;0x01;0x00;0x00;0x00;0x00;0x48;0xDE;0xAC;0x02;0x05;0x00;0x00;0x00]
    [0x55;0xCF;0x00;0x00;0x51;0x52;0x53;0x54]
  = [0x08;0xD0;0x84;0x21;0x43;0x01;0x00;0x00;0x00;0x00;0x48;0xDE;0xAC;0x02;0x05;0x00;0x00;0x00;
     0x55;0xCF;0x00;0x00;0x51;0x52;0x53;0x54; 0x22;0x3B;0xC1;0xEC;0x84;0x1A;0xB5;0x53].
Proof. vm_compute. reflexivity. Qed.
Example annex_c_data :
  std_frame aes_cipher annex_key SL_ENC 0xacde480000000001 5
    [0x69;0xDC;0x84;0x21;0x43;0x02;0x00;0x00;0x00;0x00;0x48;0xDE;0xAC;0x01;0x00;0x00;0x00;0x00;0x48;0xDE;0xAC;
     0x04;0x05;0x00;0x00;0x00]
    [0x61;0x62;0x63;0x64]
  = [0x69;0xDC;0x84;0x21;0x43;0x02;0x00;0x00;0x00;0x00;0x48;0xDE;0xAC;0x01;0x00;0x00;0x00;0x00;0x48;0xDE;0xAC;
     0x04;0x05;0x00;0x00;0x00; 0xD4;0x3E;0x02;0x2B].
Proof. vm_compute. reflexivity. Qed.
Example annex_c_command :
  std_frame aes_cipher annex_key SL_ENCMIC64 0xacde480000000001 5
    [0x2B;0xDC;0x84;0x21;0x43;0x02;0x00;0x00;0x00;0x00;0x48;0xDE;0xAC;0xFF;0xFF;0x01;0x00;0x00;0x00;0x00;0x48;0xDE;0xAC;
     0x06;0x05;0x00;0x00;0x00;0x01]
    [0xCE]
  = [0x2B;0xDC;0x84;0x21;0x43;0x02;0x00;0x00;0x00;0x00;0x48;0xDE;0xAC;0xFF;0xFF;0x01;0x00;0x00;0x00;0x00;0x48;0xDE;0xAC;
     0x06;0x05;0x00;0x00;0x00;0x01; 0xD8; 0x4F;0xDE;0x52;0x90;0x61;0xF9;0xC6;0xF1].
Proof. vm_compute. reflexivity. Qed.

(** ** The nonce *)

(** The number whose octets are those of [v] in the opposite order. *)
Definition reversed (n : nat) (v : N) : N := le_val (be n v).

Lemma le_reversed n v : le n (reversed n v) = be n v.
Proof.
  unfold reversed, be. rewrite <- (le_length n v) at 1. rewrite <- rev_length. apply le_le_val.
  unfold octets. apply Forall_rev. apply octets_le.
Qed.
Lemma be_reversed n v : be n (reversed n v) = le n v.
Proof. unfold be at 1. rewrite le_reversed. unfold be. apply rev_involutive. Qed.
Lemma reversed_bound n v : reversed n v < 256 ^ N.of_nat n.
Proof.
  assert (H : forall bs, octets bs -> le_val bs < 256 ^ N.of_nat (List.length bs)).
  { induction bs as [|b bs IH]; intros H; [reflexivity|]. inversion H; subst. specialize (IH H3).
    cbn [le_val List.length]. rewrite Nat2N.inj_succ, N.pow_succ_r'. lia. }
  unfold reversed. specialize (H (be n v)). unfold be in *. rewrite rev_length, le_length in H. apply H.
  apply Forall_rev. apply octets_le.
Qed.

Lemma app_same_length {A} : forall a b x y : list A, List.length a = List.length b -> a ++ x = b ++ y -> a = b /\ x = y.
Proof.
  induction a as [|u a IH]; intros [|v b] x y L H; try discriminate; [now split|].
  cbn in L, H. injection H as Hu Ht. destruct (IH b x y ltac:(lia) Ht) as [Ha Hx]. split; [now f_equal|exact Hx].
Qed.

(** It is the standard's nonce exactly if the octets of address and counter read the same in
    both directions. *)
Theorem C77_nonce_is_the_standards_iff : forall eui fc l,
  mac_nonce eui fc l = std_nonce eui fc l <-> le 8 eui = be 8 eui /\ le 4 fc = be 4 fc.
Proof.
  intros eui fc l. unfold mac_nonce, std_nonce. split.
  - intros H. apply app_same_length in H; [|unfold be; now rewrite rev_length, !le_length]. destruct H as [-> H].
    split; [reflexivity|]. apply app_inv_tail in H. exact H.
  - intros [-> ->]. reflexivity.
Qed.

(** In every case it is the standard's nonce for the address and the counter with their octets
    in reverse order. *)
Theorem C77_nonce_is_the_standards_of_reversed : forall eui fc l,
  mac_nonce eui fc l = std_nonce (reversed 8 eui) (reversed 4 fc) l /\
  u64_ok (reversed 8 eui) /\ u32_ok (reversed 4 fc) /\
  reversed 8 (reversed 8 eui) = eui mod 2 ^ 64 /\ reversed 4 (reversed 4 fc) = fc mod 2 ^ 32.
Proof.
  intros eui fc l. split; [unfold mac_nonce, std_nonce; now rewrite !be_reversed|].
  split; [exact (reversed_bound 8 eui)|]. split; [exact (reversed_bound 4 fc)|].
  unfold reversed at 1 3. rewrite !be_reversed, !le_val_le. split; reflexivity.
Qed.

(** ** The frame *)
Section Frame.
Context {K : Type} (c : cfg) (E : block_cipher K).
Hypothesis HE : cipher_ok E.
Implicit Types sc : SecurityContext K.

(** What a secured frame is: the standard's protection of an empty header and that payload,
    for the address and counter reversed, with the header put in front afterwards. *)
Theorem C77_written_frame_in_the_standards_terms : forall f m sc a buf n ctx' buf', frame_ok f -> u32_ok (sc_frame_counter sc) ->
  auxiliary_security_header (header f) = Some a ->
  authenticated (security_level (control a)) = true ->
  try_write_frame c E f (ser_ctx m sc) buf = (Ok n, (ctx', buf')) ->
  exists eui key,
    sc_key_provider sc DstAddrMode (key_identifier a) (destination (header f)) = Some (eui, key) /\
    firstn n buf' = wire_front (native c) (sc_frame_counter sc) f
      ++ std_frame E key (security_level (control a)) (reversed 8 (sc_euid sc)) (reversed 4 (sc_frame_counter sc)) []
           (payload f).
Proof using HE.
  intros f m sc a buf n ctx' buf' Hok Hfc Ha Hl W.
  destruct (C27_secured_frame_layout c E HE f m sc a buf n ctx' buf' Hok Hfc Ha Hl W) as (eui & key & Hk & Eb & _).
  exists eui, key. split; [exact Hk|]. rewrite Eb. unfold wire_front. rewrite <- app_assoc. do 2 f_equal.
  unfold std_frame, std_payload, std_tag, secured_payload, secured_tag. cbn [app].
  rewrite <- (proj1 (C77_nonce_is_the_standards_of_reversed _ _ _)).
  destruct (security_level (control a)); try discriminate; reflexivity.
Qed.

(** Hence, for addresses and counters whose octets read the same in both directions, everything
    but the tag is as the standard has it. *)
Theorem C77_all_but_the_tag_is_standard : forall f m sc a buf n ctx' buf', frame_ok f -> u32_ok (sc_frame_counter sc) ->
  auxiliary_security_header (header f) = Some a ->
  authenticated (security_level (control a)) = true ->
  le 8 (sc_euid sc) = be 8 (sc_euid sc) -> le 4 (sc_frame_counter sc) = be 4 (sc_frame_counter sc) ->
  try_write_frame c E f (ser_ctx m sc) buf = (Ok n, (ctx', buf')) ->
  exists eui key tag,
    sc_key_provider sc DstAddrMode (key_identifier a) (destination (header f)) = Some (eui, key) /\
    let std := std_frame E key (security_level (control a)) (sc_euid sc) (sc_frame_counter sc)
                 (wire_front (native c) (sc_frame_counter sc) f) (payload f) in
    List.length std = n /\ List.length tag = tag_len (security_level (control a)) /\
    firstn n buf' = firstn (n - tag_len (security_level (control a))) std ++ tag.
Proof using HE.
  intros f m sc a buf n ctx' buf' Hok Hfc Ha Hl He Hc W.
  destruct (C27_secured_frame_layout c E HE f m sc a buf n ctx' buf' Hok Hfc Ha Hl W) as (eui & key & Hk & Eb & En & _).
  set (l := security_level (control a)) in *.
  assert (Nn : mac_nonce (sc_euid sc) (sc_frame_counter sc) l = std_nonce (sc_euid sc) (sc_frame_counter sc) l)
    by (apply C77_nonce_is_the_standards_iff; now split).
  exists eui, key, (secured_tag E key l (sc_euid sc) (sc_frame_counter sc) (payload f)). split; [exact Hk|].
  cbv zeta.
  assert (X : forall f g k, List.length (xor_at f g k) = k) by (intros; unfold xor_at; now rewrite map_length, seq_length).
  assert (Lt : List.length (secured_tag E key l (sc_euid sc) (sc_frame_counter sc) (payload f)) = tag_len l).
  { unfold secured_tag, ccm_tag. destruct l; try discriminate; apply X. }
  assert (Ls : forall hd, List.length (std_tag E key l (sc_euid sc) (sc_frame_counter sc) hd (payload f)) = tag_len l).
  { intros hd. unfold std_tag, ccm_tag. destruct l; try discriminate; apply X. }
  assert (Ep : secured_payload E key l (sc_euid sc) (sc_frame_counter sc) (payload f)
               = std_payload E key l (sc_euid sc) (sc_frame_counter sc) (payload f)).
  { unfold secured_payload, std_payload. rewrite Nn. destruct l; try discriminate; reflexivity. }
  rewrite Eb in En. rewrite !app_length, Lt, Ep in En.
  assert (Ef : wire_front (native c) (sc_frame_counter sc) f
    = wire_header (native c) (native c) false 0 (header_sent (sc_frame_counter sc) (header f)) ++ wire_content br_zero mr_zero (content f))
    by reflexivity.
  split; [unfold std_frame; rewrite !app_length, Ls, Ef, app_length; lia|]. split; [exact Lt|].
  rewrite Eb, Ep. unfold std_frame. rewrite Ef, !app_assoc. f_equal.
  rewrite <- app_assoc, firstn_app.
  rewrite firstn_all2 by (rewrite !app_length; lia).
  replace (n - tag_len l - _)%nat with 0%nat by (rewrite !app_length; lia). cbn [firstn]. now rewrite app_nil_r, app_assoc.
Qed.
End Frame.

(** ** Cases *)

(** A frame from an address whose octets read the same in both directions, at level [l]. *)
Definition palindrome : N := 0x0123456767452301.
Definition interop_frame (l : SecurityLevel) (eui : N) : Frame :=
  {| header := mk_header Data_t false true false Ieee802154_2006
        (Some (Extended 0x111 0x02)) (Some (Extended 0x111 eui)) 9
        (Some (AuxiliarySecurityHeader_new (SecurityControl_new l)
           (Some {| key_source := None; key_index := 3 |})));
     content := FC_Data; payload := [1; 2; 3; 4; 5; 6; 7]; footer := (0, 0) |}.
Definition interop_key : list N :=
  match static_key_lookup DstAddrMode (Some {| key_source := None; key_index := 3 |}) None with
  | Some (_, k) => k | None => [] end.
Definition crate_frame (l : SecurityLevel) (eui fc : N) : list N :=
  written_bytes (try_write_frame host aes_cipher (interop_frame l eui) (aes_ctx eui fc) (repeat 0 128)).
Definition conforming_frame (l : SecurityLevel) (eui fc : N) : list N :=
  std_frame aes_cipher interop_key l eui fc (wire_front LE fc (interop_frame l eui)) (payload (interop_frame l eui)).

(** Even then the tag is not the standard's: at no level with a tag is the frame the standard's,
    and the receiver takes the crate's frame and refuses the standard's. *)
Theorem C77_frames_conform_to_the_standard_refuted : forall l, authenticated l = true ->
  frame_ok (interop_frame l palindrome) /\
  le 8 palindrome = be 8 palindrome /\ le 4 0 = be 4 0 /\
  List.length (crate_frame l palindrome 0) = List.length (conforming_frame l palindrome 0) /\
  (List.length (crate_frame l palindrome 0) > 36)%nat /\
  crate_frame l palindrome 0 <> conforming_frame l palindrome 0 /\
  (exists f n r, try_read_and_unsecure host aes_cipher (crate_frame l palindrome 0) (aes_ctx 2 0) basic_dev_lookup (dev 0)
     = (Ok (f, n), r) /\ payload f = payload (interop_frame l palindrome)) /\
  fst (try_read_and_unsecure host aes_cipher (conforming_frame l palindrome 0) (aes_ctx 2 0) basic_dev_lookup (dev 0))
  = Err TransformationError.
Proof.
  intros l Hl.
  split; [repeat split; try reflexivity; repeat constructor|].
  split; [vm_compute; reflexivity|]. split; [vm_compute; reflexivity|].
  destruct l; try discriminate Hl;
  (split; [vm_compute; reflexivity|]; split; [vm_compute; lia|]; split; [vm_compute; discriminate|];
   split; [do 3 eexists; split; [vm_compute; reflexivity|reflexivity]|vm_compute; reflexivity]).
Qed.

(** With address 1 and counter 0 the nonce differs too, and so does the encrypted payload. *)
Theorem C77_payload_conforms_to_the_standard_refuted : forall l, encrypting l = true ->
  (let n := List.length (wire_front LE 0 (interop_frame l 1)) in
   firstn n (crate_frame l 1 0) = firstn n (conforming_frame l 1 0) /\
   firstn 7 (skipn n (crate_frame l 1 0)) <> firstn 7 (skipn n (conforming_frame l 1 0)) /\
   firstn 7 (skipn n (crate_frame l palindrome 0)) = firstn 7 (skipn n (conforming_frame l palindrome 0))).
Proof.
  intros l Hl. destruct l; try discriminate Hl;
  (split; [vm_compute; reflexivity|]; split; [vm_compute; discriminate|vm_compute; reflexivity]).
Qed.

(** The hypotheses of the theorems on written frames are met by these frames. *)
Example C77_case : forall l, authenticated l = true ->
  exists a n r, auxiliary_security_header (header (interop_frame l palindrome)) = Some a /\
    security_level (control a) = l /\
    try_write_frame host aes_cipher (interop_frame l palindrome) (aes_ctx palindrome 0) (repeat 0 128) = (Ok n, r).
Proof.
  intros l Hl. destruct l; try discriminate Hl; (do 3 eexists; split; [reflexivity|]; split; [reflexivity|vm_compute; reflexivity]).
Qed.

Print Assumptions C77_nonce_is_the_standards_iff.
Print Assumptions C77_nonce_is_the_standards_of_reversed.
Print Assumptions C77_written_frame_in_the_standards_terms.
Print Assumptions C77_all_but_the_tag_is_standard.
Print Assumptions C77_frames_conform_to_the_standard_refuted.
Print Assumptions C77_payload_conforms_to_the_standard_refuted.
