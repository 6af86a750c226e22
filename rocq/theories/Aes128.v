(** AES-128 block encryption (FIPS 197), only used to replay the repository's own
    CCM-protected byte vectors (RepoTests.v) and for concrete witnesses: the theorems
    quantify over every block cipher. *)
From Coq Require Import List Arith NArith Bool.
From Verif Require Import ByteCrate CcmModel.
Import ListNotations.
Open Scope N_scope.

Definition xtime (a : N) : N :=
  let d := 2 * a in if d <? 256 then d else N.lxor (d - 256) 0x1b.

Fixpoint gmul_aux (fuel : nat) (a b : N) : N :=
  match fuel with
  | O => 0
  | S f => N.lxor (if N.odd b then a else 0) (gmul_aux f (xtime a) (b / 2))
  end.
Definition gmul (a b : N) : N := gmul_aux 8 a b.

(** a^254 in GF(2^8): multiplicative inverse (0 for 0). *)
Definition ginv (a : N) : N :=
  let a2 := gmul a a in let a4 := gmul a2 a2 in let a8 := gmul a4 a4 in
  let a16 := gmul a8 a8 in let a32 := gmul a16 a16 in let a64 := gmul a32 a32 in
  let a128 := gmul a64 a64 in
  gmul a2 (gmul a4 (gmul a8 (gmul a16 (gmul a32 (gmul a64 a128))))).

Definition rotl8 (a k : N) : N := (a * 2 ^ k) mod 256 + a / 2 ^ (8 - k).

Definition sbox (a : N) : N :=
  let i := ginv a in
  N.lxor i (N.lxor (rotl8 i 1) (N.lxor (rotl8 i 2) (N.lxor (rotl8 i 3)
    (N.lxor (rotl8 i 4) 0x63)))).

Definition sbox_table : list N := Eval vm_compute in map (fun i => sbox (N.of_nat i)) (List.seq 0 256).
Definition sub (a : N) : N := nth (N.to_nat a) sbox_table 0.

Definition rot_word (w : list N) : list N :=
  match w with a :: r => r ++ [a] | [] => [] end.

(** Next round key from the previous one. *)
Definition next_key (rc : N) (key : list N) : list N :=
  let w i := firstn 4 (skipn (4 * i) key) in
  let t := xor_bytes (map sub (rot_word (w 3%nat))) [rc; 0; 0; 0] in
  let w0 := xor_bytes (w 0%nat) t in
  let w1 := xor_bytes (w 1%nat) w0 in
  let w2 := xor_bytes (w 2%nat) w1 in
  let w3 := xor_bytes (w 3%nat) w2 in
  w0 ++ w1 ++ w2 ++ w3.

Definition shift_rows (s : list N) : list N :=
  map (fun i => nth i s 0) [0;5;10;15;4;9;14;3;8;13;2;7;12;1;6;11]%nat.

Definition mix_column (col : list N) : list N :=
  match col with
  | [a; b; c; d] =>
      [N.lxor (xtime a) (N.lxor (N.lxor (xtime b) b) (N.lxor c d));
       N.lxor a (N.lxor (xtime b) (N.lxor (N.lxor (xtime c) c) d));
       N.lxor a (N.lxor b (N.lxor (xtime c) (N.lxor (xtime d) d)));
       N.lxor (N.lxor (xtime a) a) (N.lxor b (N.lxor c (xtime d)))]
  | _ => col
  end.

Definition mix_columns (s : list N) : list N :=
  mix_column (firstn 4 s) ++ mix_column (firstn 4 (skipn 4 s)) ++
  mix_column (firstn 4 (skipn 8 s)) ++ mix_column (firstn 4 (skipn 12 s)).

Fixpoint rounds (n : nat) (rc : N) (key s : list N) : list N :=
  let key := next_key rc key in
  match n with
  | O => xor_bytes (shift_rows (map sub s)) key
  | S n' => rounds n' (xtime rc) key (xor_bytes (mix_columns (shift_rows (map sub s))) key)
  end.

Definition aes128 (key block : list N) : list N :=
  rounds 9 1 key (xor_bytes block key).

(** FIPS 197, appendix B *)
Example aes128_fips197 :
  aes128 [0x2b;0x7e;0x15;0x16;0x28;0xae;0xd2;0xa6;0xab;0xf7;0x15;0x88;0x09;0xcf;0x4f;0x3c]
         [0x32;0x43;0xf6;0xa8;0x88;0x5a;0x30;0x8d;0x31;0x31;0x98;0xa2;0xe0;0x37;0x07;0x34]
  = [0x39;0x25;0x84;0x1d;0x02;0xdc;0x09;0xfb;0xdc;0x11;0x85;0x97;0x19;0x6a;0x0b;0x32].
Proof. vm_compute. reflexivity. Qed.

(** A Rust key is an array of 16 octets: [key16] is the identity on those, and makes 16 octets of
    any other list (which is no key). *)
Definition key16 (k : list N) : list N := firstn 16 (map (fun b => b mod 256) k ++ repeat 0 16).

(** A failed decryption zeroes the buffer (an arbitrary choice, see CcmModel.v). *)
Definition aes_cipher : block_cipher (list N) :=
  {| encrypt_block := fun k => aes128 (key16 k); on_auth_failure := fun _ _ => map (fun _ => 0) |}.
