(** Property C57: the CCM the model uses is RFC 3610 (with 13-octet nonces), for every block
    cipher, and decryption inverts encryption. *)
From Coq Require Import List Arith NArith ZArith Bool String Lia ZifyBool ZifyNat ZifyN.
From Verif Require Import ByteCrate Types CcmModel Spec ProofLib CcmProofs Aes128 AesProofs.
Import ListNotations.
Open Scope N_scope.
Open Scope list_scope.
Ltac Zify.zify_post_hook ::= Z.div_mod_to_equations.

Section Ccm.
Context {K : Type} (E : block_cipher K) (key : K).
Hypothesis HE : cipher_ok E.

(** ** C57 CCM *)
Theorem C57_encrypt_is_rfc3610 : forall t nonce a m, List.length nonce = 13%nat -> octets nonce -> octets a ->
  octets m -> (2 <= t <= 16)%nat ->
  ccm_encrypt E key t nonce a m =
  if N.of_nat (List.length m) <? 2 ^ 16
  then Some (ccm_cipher E key nonce m, ccm_tag E key t nonce a m)
  else None.
Proof.
  intros t nonce a m Ln On Oa Om Ht. destruct (N.ltb_spec (N.of_nat (List.length m)) (2 ^ 16)) as [L|L].
  - now apply ccm_encrypt_eq.
  - unfold ccm_encrypt. rewrite calc_mac_long by assumption. reflexivity.
Qed.

(** A ciphertext is accepted exactly with the tag of its plaintext. *)
Theorem C57_decrypt_accepts_iff : forall t nonce a m tag, List.length nonce = 13%nat -> octets nonce -> octets a ->
  octets m -> (2 <= t <= 16)%nat ->
  (fst (ccm_decrypt E key t nonce a m tag) = true <->
   N.of_nat (List.length m) < 2 ^ 16 /\ tag = ccm_tag E key t nonce a (ccm_cipher E key nonce m)) /\
  (fst (ccm_decrypt E key t nonce a m tag) = true ->
   snd (ccm_decrypt E key t nonce a m tag) = ccm_cipher E key nonce m) /\
  List.length (snd (ccm_decrypt E key t nonce a m tag)) = List.length m.
Proof.
  intros t nonce a m tag Ln On Oa Om Ht. destruct HE as [_ HL].
  destruct (N.ltb_spec (N.of_nat (List.length m)) (2 ^ 16)) as [L|L].
  - rewrite ccm_decrypt_eq by assumption.
    destruct (bytes_eqb _ tag) eqn:B; cbn [fst snd].
    + apply bytes_eqb_eq in B. rewrite ccm_cipher_length. repeat split; auto.
    + split; [|split; [discriminate|apply HL]]. split; [discriminate|]. intros [_ X]. exfalso.
      enough (bytes_eqb (ccm_tag E key t nonce a (ccm_cipher E key nonce m)) tag = true) by congruence.
      now apply bytes_eqb_eq.
  - rewrite ccm_decrypt_long by assumption. cbn [fst snd]. split; [|split; [discriminate|apply HL]].
    split; [discriminate|]. intros [X _]. change (2 ^ 16) with 65536 in *. lia.
Qed.

Theorem C57_decrypt_inverts_encrypt : forall t nonce a m c tag, List.length nonce = 13%nat -> octets nonce ->
  octets a -> octets m -> (2 <= t <= 16)%nat ->
  ccm_encrypt E key t nonce a m = Some (c, tag) ->
  ccm_decrypt E key t nonce a c tag = (true, m) /\ List.length c = List.length m /\ List.length tag = t.
Proof.
  intros t nonce a m c tag Ln On Oa Om Ht X. rewrite C57_encrypt_is_rfc3610 in X by assumption.
  destruct (N.ltb_spec (N.of_nat (List.length m)) (2 ^ 16)) as [L|L]; [|discriminate].
  injection X as <- <-. split; [|split; [apply ccm_cipher_length|apply xor_at_length]].
  rewrite ccm_decrypt_eq;
    [|assumption..|now apply octets_ccm_cipher|assumption|now rewrite ccm_cipher_length].
  rewrite ccm_cipher_involutive by assumption.
  replace (bytes_eqb _ _) with true; [reflexivity|]. symmetry. now apply bytes_eqb_eq.
Qed.

(** Altering the tag in any way makes the ciphertext unacceptable. *)
Theorem C57_other_tag_rejected : forall t nonce a m c tag tag', List.length nonce = 13%nat -> octets nonce ->
  octets a -> octets m -> (2 <= t <= 16)%nat ->
  ccm_encrypt E key t nonce a m = Some (c, tag) -> tag' <> tag ->
  fst (ccm_decrypt E key t nonce a c tag') = false.
Proof.
  intros t nonce a m c tag tag' Ln On Oa Om Ht X Hne.
  pose proof X as Y. rewrite C57_encrypt_is_rfc3610 in Y by assumption.
  destruct (N.of_nat (List.length m) <? 2 ^ 16); [|discriminate]. injection Y as Ec Et.
  destruct (C57_decrypt_accepts_iff t nonce a c tag' Ln On Oa) as [[H _] _]; [|exact Ht|].
  { rewrite <- Ec. now apply octets_ccm_cipher. }
  destruct (fst (ccm_decrypt E key t nonce a c tag')); [|reflexivity].
  destruct (H eq_refl) as [_ Z]. exfalso. apply Hne. rewrite Z, <- Ec, ccm_cipher_involutive by assumption. exact Et.
Qed.

End Ccm.

(** ** Concrete cases: RFC 3610, packet vectors #1 and #2 (AES-128, 8-octet tag) *)
Definition rfc_key : list N := [0xC0; 0xC1; 0xC2; 0xC3; 0xC4; 0xC5; 0xC6; 0xC7; 0xC8; 0xC9; 0xCA; 0xCB; 0xCC; 0xCD; 0xCE; 0xCF].
Definition rfc_nonce (i : N) : list N := [0; 0; 0; i; i - 1; i - 2; i - 3; 0xA0; 0xA1; 0xA2; 0xA3; 0xA4; 0xA5].
Example rfc3610_vectors :
  ccm_encrypt aes_cipher rfc_key 8 (rfc_nonce 3) (map N.of_nat (List.seq 0 8)) (map N.of_nat (List.seq 8 23))
  = Some ([0x58; 0x8C; 0x97; 0x9A; 0x61; 0xC6; 0x63; 0xD2; 0xF0; 0x66; 0xD0; 0xC2; 0xC0; 0xF9; 0x89; 0x80;
           0x6D; 0x5F; 0x6B; 0x61; 0xDA; 0xC3; 0x84],
          [0x17; 0xE8; 0xD1; 0x2C; 0xFD; 0xF9; 0x26; 0xE0]) /\
  ccm_encrypt aes_cipher rfc_key 8 (rfc_nonce 4) (map N.of_nat (List.seq 0 8)) (map N.of_nat (List.seq 8 24))
  = Some ([0x72; 0xC9; 0x1A; 0x36; 0xE1; 0x35; 0xF8; 0xCF; 0x29; 0x1C; 0xA8; 0x94; 0x08; 0x5C; 0x87; 0xE3;
           0xCC; 0x15; 0xC4; 0x39; 0xC9; 0xE4; 0x3A; 0x3B],
          [0xA0; 0x91; 0xD5; 0x6E; 0x10; 0x40; 0x09; 0x16]) /\
  List.length (rfc_nonce 3) = 13%nat.
Proof. vm_compute. auto. Qed.

Print Assumptions C57_encrypt_is_rfc3610.
Print Assumptions C57_decrypt_accepts_iff.
Print Assumptions C57_decrypt_inverts_encrypt.
Print Assumptions C57_other_tag_rejected.
