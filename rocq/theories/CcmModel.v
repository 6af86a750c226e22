(** Model of the external crate [ccm] 0.4 (Cargo.toml:27-29) as it is instantiated in
    /repo/src/mac/frame/security/mod.rs:427-441 and 612-628:
    [Ccm<C, M, U13>] over an arbitrary block cipher C with 16-octet blocks and a tag
    of M = 4, 8 or 16 octets. The crate is not in the sandbox: this follows its published
    algorithm (calc_mac, extend_nonce, encrypt/decrypt_in_place_detached). *)
From Coq Require Import List Arith NArith Bool.
From Verif Require Import ByteCrate.
Import ListNotations.
Open Scope N_scope.

(** What security/mod.rs:253-256 asks of AEADBLKCIPH: [NewBlockCipher] (keys of type K)
    and [BlockEncrypt] with BlockSize = U16. [on_auth_failure] is what the crate leaves in
    the in-place buffer (key, nonce, buffer before) when decryption fails; nothing is assumed about it except (in
    [cipher_ok], Spec.v) that it is a buffer of the same length. *)
Record block_cipher (K : Type) := {
  encrypt_block : K -> list N -> list N;
  on_auth_failure : K -> list N -> list N -> list N
}.
Arguments encrypt_block {K} _ _ _.
Arguments on_auth_failure {K} _ _ _ _.

(** The block cipher [Unimplemented], security/default.rs:33-53: 16-octet keys and blocks,
    encryption does nothing. [leave] is what the ccm crate leaves on failure (see above). *)
Definition unimplemented_cipher (leave : list N -> list N -> list N -> list N)
  : block_cipher (list N) :=
  {| encrypt_block := fun _ b => b; on_auth_failure := leave |}.

(** Octet-wise xor, as long as the shorter argument. *)
Fixpoint xor_bytes (a b : list N) : list N :=
  match a, b with
  | x :: a', y :: b' => N.lxor x y :: xor_bytes a' b'
  | _, _ => []
  end.

(** Zero padding to a full block. *)
Definition pad_block (bs : list N) : list N := firstn 16 (bs ++ repeat 0 16).

Section Ccm.
Context {K : Type} (E : block_cipher K) (k : K).

(** CbcMac::update: absorb the data block by block, the last one zero padded. The first
    argument bounds the number of blocks ([length data] always suffices). *)
Fixpoint mac_update (fuel : nat) (st data : list N) : list N :=
  match fuel with
  | O => st
  | S fuel' =>
      match data with
      | [] => st
      | _ => mac_update fuel'
               (encrypt_block E k (xor_bytes st (pad_block (firstn 16 data))))
               (skipn 16 data)
      end
  end.

(** The crate's fill_aad_header: how the length of the associated data is encoded. *)
Definition fill_aad_header (alen : N) : list N :=
  if alen <? 0xFF00 then num_bytes BE 2 alen
  else if alen <? 2 ^ 32 then [0xFF; 0xFE] ++ num_bytes BE 4 alen
  else [0xFF; 0xFF] ++ num_bytes BE 8 alen.

(** Ccm::calc_mac. [None] is the crate's Err (message longer than 2^16 - 1). *)
Definition calc_mac (m_size : nat) (nonce adata buffer : list N) : option (list N) :=
  let is_ad := match adata with [] => false | _ => true end in
  let m_tick := (N.of_nat m_size - 2) / 2 in
  let flags := 64 * bool_n is_ad + 8 * m_tick + 1 in
  if 0xFFFF <? N.of_nat (List.length buffer) then None
  else
    let b0 := flags :: nonce ++ num_bytes BE 2 (N.of_nat (List.length buffer)) in
    let st := mac_update 1 (repeat 0 16) b0 in
    let st :=
      match adata with
      | [] => st
      | _ =>
          let hdr := fill_aad_header (N.of_nat (List.length adata)) in
          let room := (16 - List.length hdr)%nat in
          if (List.length adata <=? room)%nat
          then mac_update 1 st (hdr ++ adata)
          else mac_update (List.length adata)
                 (mac_update 1 st (hdr ++ firstn room adata)) (skipn room adata)
      end in
    Some (mac_update (List.length buffer) st buffer).

(** Counter block number i of Ctr32BE started on extend_nonce(nonce): the last four
    octets are a big-endian counter. *)
Definition ctr_block (nonce : list N) (i : N) : list N :=
  let ext := 1 :: nonce ++ [0; 0] in
  firstn 12 ext ++ num_bytes BE 4 ((num_val BE (skipn 12 ext) + i) mod 2 ^ 32).

(** apply_keystream from counter block i on ([fuel] as above). *)
Fixpoint apply_keystream (fuel : nat) (nonce : list N) (i : N) (data : list N) : list N :=
  match fuel with
  | O => []
  | S fuel' =>
      match data with
      | [] => []
      | _ => xor_bytes (firstn 16 data) (encrypt_block E k (ctr_block nonce i))
             ++ apply_keystream fuel' nonce (i + 1) (skipn 16 data)
      end
  end.

(** AeadInPlace::encrypt_in_place_detached: (buffer after, tag). *)
Definition ccm_encrypt (m_size : nat) (nonce adata buffer : list N)
  : option (list N * list N) :=
  match calc_mac m_size nonce adata buffer with
  | None => None
  | Some mac =>
      let full_tag := apply_keystream (List.length mac) nonce 0 mac in
      let buffer' := apply_keystream (List.length buffer) nonce 1 buffer in
      Some (buffer', firstn m_size full_tag)
  end.

(** Octet-wise comparison ([ct_eq]). *)
Fixpoint bytes_eqb (a b : list N) : bool :=
  match a, b with
  | [], [] => true
  | x :: a', y :: b' => (x =? y) && bytes_eqb a' b'
  | _, _ => false
  end.

(** AeadInPlace::decrypt_in_place_detached: (accepted, buffer after). *)
Definition ccm_decrypt (m_size : nat) (nonce adata buffer tag : list N)
  : bool * list N :=
  let plain := apply_keystream (List.length buffer) nonce 1 buffer in
  match calc_mac m_size nonce adata plain with
  | None => (false, on_auth_failure E k nonce buffer)
  | Some mac =>
      let full_tag := apply_keystream (List.length mac) nonce 0 mac in
      if bytes_eqb (firstn m_size full_tag) tag then (true, plain)
      else (false, on_auth_failure E k nonce buffer)
  end.

End Ccm.
