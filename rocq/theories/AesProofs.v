(** AES-128 meets the premise [cipher_ok] of the security theorems. *)
From Coq Require Import List Arith NArith ZArith Bool Lia ZifyBool ZifyNat ZifyN.
From Verif Require Import ByteCrate Types CcmModel Aes128 Spec ProofLib CcmProofs.
Import ListNotations.
Open Scope N_scope.
Open Scope list_scope.

Definition block (b : list N) : Prop := List.length b = 16%nat /\ octets b.

Lemma xor_bytes_length a : forall b, List.length (xor_bytes a b) = Nat.min (List.length a) (List.length b).
Proof. induction a as [|x a IH]; intros [|y b]; cbn [xor_bytes List.length Nat.min]; auto. Qed.
Lemma octets_xor_bytes a : forall b, octets a -> octets b -> octets (xor_bytes a b).
Proof.
  induction a as [|x a IH]; intros [|y b] Ha Hb; cbn [xor_bytes]; try exact octets_nil.
  apply octets_cons in Ha, Hb. apply octets_cons. split; [now apply lxor_octet|]. now apply IH.
Qed.
Lemma xor_block a b : block a -> block b -> block (xor_bytes a b).
Proof.
  intros [La Oa] [Lb Ob]. split; [now rewrite xor_bytes_length, La, Lb|]. now apply octets_xor_bytes.
Qed.

Lemma octets_sbox : octets sbox_table.
Proof.
  assert (H : forallb (fun x => x <? 256) sbox_table = true) by (vm_compute; reflexivity).
  rewrite forallb_forall in H. apply Forall_forall. intros x Hx. apply N.ltb_lt, H, Hx.
Qed.
Lemma sub_octet a : sub a < 256.
Proof.
  unfold sub. destruct (nth_in_or_default (N.to_nat a) sbox_table 0) as [H| ->]; [|reflexivity].
  pose proof octets_sbox as O. unfold octets in O. rewrite Forall_forall in O. exact (O _ H).
Qed.
Lemma octets_map_sub s : octets (map sub s).
Proof. apply Forall_forall. intros x Hx. apply in_map_iff in Hx. destruct Hx as (y & <- & _). apply sub_octet. Qed.

Lemma xtime_octet a : a < 256 -> xtime a < 256.
Proof.
  intros H. unfold xtime. destruct (N.ltb_spec (2 * a) 256) as [L|L]; [exact L|].
  apply lxor_octet; lia.
Qed.

Lemma next_key_block rc key : rc < 256 -> block key -> block (next_key rc key).
Proof.
  intros Hr [L O]. unfold next_key.
  assert (W : forall i, (i < 4)%nat -> List.length (firstn 4 (skipn (4 * i) key)) = 4%nat
              /\ octets (firstn 4 (skipn (4 * i) key))).
  { intros i Hi. split; [rewrite firstn_length, skipn_length; lia|]. now apply octets_firstn, octets_skipn. }
  destruct (W 0%nat ltac:(lia)) as [L0 O0]. destruct (W 1%nat ltac:(lia)) as [L1 O1].
  destruct (W 2%nat ltac:(lia)) as [L2 O2]. destruct (W 3%nat ltac:(lia)) as [L3 O3].
  set (w0 := firstn 4 (skipn (4 * 0) key)) in *. set (w1 := firstn 4 (skipn (4 * 1) key)) in *.
  set (w2 := firstn 4 (skipn (4 * 2) key)) in *. set (w3 := firstn 4 (skipn (4 * 3) key)) in *.
  set (t := xor_bytes (map sub (rot_word w3)) [rc; 0; 0; 0]).
  assert (Lt : List.length t = 4%nat).
  { unfold t. rewrite xor_bytes_length, map_length. unfold rot_word.
    destruct w3 as [|x r]; [discriminate|]. rewrite app_length. cbn [List.length] in *. lia. }
  assert (Ot : octets t).
  { apply octets_xor_bytes; [apply octets_map_sub|]. repeat (apply octets_cons; split; [lia|]). exact octets_nil. }
  clearbody t w0 w1 w2 w3. clear W.
  assert (X : forall a b, List.length a = 4%nat -> octets a -> List.length b = 4%nat -> octets b ->
    List.length (xor_bytes a b) = 4%nat /\ octets (xor_bytes a b)).
  { intros a b La Oa Lb Ob. split; [now rewrite xor_bytes_length, La, Lb|now apply octets_xor_bytes]. }
  destruct (X w0 t) as [A0 B0]; try assumption. destruct (X w1 (xor_bytes w0 t)) as [A1 B1]; try assumption.
  destruct (X w2 (xor_bytes w1 (xor_bytes w0 t))) as [A2 B2]; try assumption.
  destruct (X w3 (xor_bytes w2 (xor_bytes w1 (xor_bytes w0 t)))) as [A3 B3]; try assumption.
  split; [rewrite !app_length, A0, A1, A2, A3; reflexivity|].
  apply octets_app; split; [assumption|]. apply octets_app; split; [assumption|].
  apply octets_app; split; assumption.
Qed.

Lemma shift_rows_block s : block s -> block (shift_rows s).
Proof.
  intros [L O]. split; [reflexivity|]. apply Forall_forall. intros x Hx. apply in_map_iff in Hx.
  destruct Hx as (i & <- & _). destruct (nth_in_or_default i s 0) as [H| ->]; [|reflexivity].
  unfold octets in O. rewrite Forall_forall in O. exact (O _ H).
Qed.

Lemma mix_column_ok col : List.length col = 4%nat -> octets col ->
  List.length (mix_column col) = 4%nat /\ octets (mix_column col).
Proof.
  destruct col as [|a [|b [|x [|y [|z r]]]]]; cbn [List.length]; intros L; try discriminate.
  intros O. apply octets_cons in O. destruct O as [Ha O]. apply octets_cons in O. destruct O as [Hb O].
  apply octets_cons in O. destruct O as [Hx O]. apply octets_cons in O. destruct O as [Hy _].
  split; [reflexivity|]. cbn [mix_column].
  repeat (apply octets_cons; split; [repeat apply lxor_octet; try apply xtime_octet; assumption|]).
  exact octets_nil.
Qed.

Lemma mix_columns_block s : block s -> block (mix_columns s).
Proof.
  intros [L O]. unfold mix_columns.
  assert (W : forall i, (i + 4 <= 16)%nat -> List.length (mix_column (firstn 4 (skipn i s))) = 4%nat
              /\ octets (mix_column (firstn 4 (skipn i s)))).
  { intros i Hi. apply mix_column_ok; [rewrite firstn_length, skipn_length; lia|]. now apply octets_firstn, octets_skipn. }
  destruct (W 0%nat ltac:(lia)) as [A0 B0]. destruct (W 4%nat ltac:(lia)) as [A1 B1].
  destruct (W 8%nat ltac:(lia)) as [A2 B2]. destruct (W 12%nat ltac:(lia)) as [A3 B3].
  cbn [skipn] in A0, B0. split; [rewrite !app_length, A0, A1, A2, A3; reflexivity|].
  apply octets_app; split; [assumption|]. apply octets_app; split; [assumption|].
  apply octets_app; split; assumption.
Qed.

Lemma rounds_block n : forall rc key s, rc < 256 -> block key -> block s -> block (rounds n rc key s).
Proof.
  induction n as [|n IH]; intros rc key s Hr Hk Hs; cbn [rounds].
  - apply xor_block; [|now apply next_key_block]. apply shift_rows_block.
    split; [rewrite map_length; apply Hs|apply octets_map_sub].
  - apply IH; [now apply xtime_octet|now apply next_key_block|].
    apply xor_block; [|now apply next_key_block]. apply mix_columns_block, shift_rows_block.
    split; [rewrite map_length; apply Hs|apply octets_map_sub].
Qed.

Lemma key16_block k : block (key16 k).
Proof.
  unfold key16. split.
  - rewrite firstn_length, app_length, repeat_length. lia.
  - apply octets_firstn, octets_app. split; [|apply octets_repeat0].
    apply Forall_forall. intros x Hx. apply in_map_iff in Hx. destruct Hx as (y & <- & _). now apply N.mod_lt.
Qed.

Lemma key16_id k : block k -> key16 k = k.
Proof.
  intros [L O]. unfold key16.
  replace (map (fun b => b mod 256) k) with k.
  - now apply firstn_app_exact'.
  - clear L. induction k as [|x k IH]; [reflexivity|]. apply octets_cons in O. destruct O as [Hx O]. cbn [map].
    rewrite <- IH by assumption. f_equal. symmetry. now apply N.mod_small.
Qed.

Theorem aes_cipher_ok : cipher_ok aes_cipher.
Proof.
  split.
  - intros k b L O. cbn [encrypt_block aes_cipher]. unfold aes128.
    apply (rounds_block 9 1); [reflexivity|apply key16_block|]. apply xor_block; [split; assumption|apply key16_block].
  - intros k nonce b. cbn. apply map_length.
Qed.
