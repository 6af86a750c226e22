(** AES-128 of Aes128.v encrypts no two blocks alike under one key. *)
From Coq Require Import List Arith NArith ZArith Bool Btauto Lia ZifyBool ZifyNat ZifyN.
From Verif Require Import ByteCrate Types CcmModel Aes128 Spec ProofLib CcmProofs AesProofs.
Import ListNotations.
Open Scope N_scope.
Open Scope list_scope.

Definition all_octets : list N := map N.of_nat (List.seq 0 256).
Lemma in_all_octets a : a < 256 -> In a all_octets.
Proof. intros H. apply in_map_iff. exists (N.to_nat a). split; [lia|]. apply in_seq. lia. Qed.

(** S-box *)
Definition unsub_table : list N := Eval vm_compute in
  map (fun v => match find (fun i => sub i =? v) all_octets with Some i => i | None => 0 end) all_octets.
Definition unsub (a : N) : N := nth (N.to_nat a) unsub_table 0.
Lemma unsub_sub a : a < 256 -> unsub (sub a) = a.
Proof.
  intros H. assert (F : forallb (fun i => unsub (sub i) =? i) all_octets = true) by (vm_compute; reflexivity).
  rewrite forallb_forall in F. apply N.eqb_eq, F, in_all_octets, H.
Qed.
Lemma map_sub_injective s : forall t, octets s -> octets t -> map sub s = map sub t -> s = t.
Proof.
  induction s as [|a s IH]; intros [|b t] Hs Ht H; try discriminate; [reflexivity|].
  apply octets_cons in Hs, Ht. cbn [map] in H.
  assert (Ha : sub a = sub b) by congruence. assert (Hr : map sub s = map sub t) by congruence.
  f_equal; [|now apply IH]. rewrite <- (unsub_sub a), <- (unsub_sub b), Ha by tauto. reflexivity.
Qed.

(** Key addition *)
Lemma xor_key_injective k : forall s t, List.length s = List.length k -> List.length t = List.length k ->
  xor_bytes s k = xor_bytes t k -> s = t.
Proof.
  induction k as [|x k IH]; intros [|a s] [|b t] Ls Lt H; try discriminate; [reflexivity|].
  cbn [xor_bytes] in H.
  assert (Ha : N.lxor a x = N.lxor b x) by congruence. assert (Hr : xor_bytes s k = xor_bytes t k) by congruence.
  f_equal.
  - apply (f_equal (fun w => N.lxor w x)) in Ha. now rewrite !N.lxor_assoc, !N.lxor_nilpotent, !N.lxor_0_r in Ha.
  - apply IH; cbn in *; try lia. exact Hr.
Qed.

(** Rows *)
Lemma shift_rows_injective s t : List.length s = 16%nat -> List.length t = 16%nat ->
  shift_rows s = shift_rows t -> s = t.
Proof.
  intros Ls Lt H. apply list_octets_ext; [congruence|]. intros i Hi. rewrite Ls in Hi. unfold octet.
  unfold shift_rows in H. cbn [map] in H.
  injection H as H0 H1 H2 H3 H4 H5 H6 H7 H8 H9 H10 H11 H12 H13 H14 H15.
  do 16 (destruct i as [|i]; [assumption|]). lia.
Qed.

(** Columns *)
Lemma xtime_linear a b : a < 256 -> b < 256 -> xtime (N.lxor a b) = N.lxor (xtime a) (xtime b).
Proof.
  intros Ha Hb.
  assert (F : forallb (fun i => forallb (fun j => xtime (N.lxor i j) =? N.lxor (xtime i) (xtime j)) all_octets) all_octets = true)
    by (vm_compute; reflexivity).
  rewrite forallb_forall in F. specialize (F a (in_all_octets a Ha)). rewrite forallb_forall in F.
  apply N.eqb_eq, F, in_all_octets, Hb.
Qed.

Definition unmix (w x y z : N) : N :=
  let X := xtime in
  N.lxor (N.lxor (X (X (X w))) (N.lxor (X (X w)) (X w)))
  (N.lxor (N.lxor (X (X (X x))) (N.lxor (X x) x))
  (N.lxor (N.lxor (X (X (X y))) (N.lxor (X (X y)) y))
          (N.lxor (X (X (X z))) z))).

Ltac octs := repeat first [assumption | apply xtime_octet | apply lxor_octet].
Ltac spread := repeat (rewrite xtime_linear by octs).

Lemma mix_column_injective s t : List.length s = 4%nat -> List.length t = 4%nat -> octets s -> octets t ->
  mix_column s = mix_column t -> s = t.
Proof.
  assert (Cons : forall (a b : N) l m, a = b -> l = m -> a :: l = b :: m) by (intros a b l m -> ->; reflexivity).
  assert (U : forall s, List.length s = 4%nat -> octets s ->
    match mix_column s with [w; x; y; z] => [unmix w x y z; unmix x y z w; unmix y z w x; unmix z w x y] | _ => [] end = s).
  { intros u L O. destruct u as [|a [|b [|c [|d [|e u]]]]]; try discriminate.
    apply octets_cons in O. destruct O as [Ha O]. apply octets_cons in O. destruct O as [Hb O].
    apply octets_cons in O. destruct O as [Hc O]. apply octets_cons in O. destruct O as [Hd _].
    cbn [mix_column]. unfold unmix. do 4 (apply Cons; [spread; apply N.bits_inj; intros i; rewrite !N.lxor_spec; btauto|]).
    reflexivity. }
  intros Ls Lt Os Ot H. rewrite <- (U s Ls Os), <- (U t Lt Ot), H. reflexivity.
Qed.

Lemma mix_columns_injective s t : block s -> block t -> mix_columns s = mix_columns t -> s = t.
Proof.
  intros [Ls Os] [Lt Ot] H.
  assert (W : forall u i, List.length u = 16%nat -> octets u -> (i + 4 <= 16)%nat ->
     List.length (firstn 4 (skipn i u)) = 4%nat /\ octets (firstn 4 (skipn i u))).
  { intros u i L O Hi. split; [rewrite firstn_length, skipn_length; lia|]. now apply octets_firstn, octets_skipn. }
  assert (S : forall u : list N, List.length u = 16%nat ->
     u = firstn 4 (skipn 0 u) ++ firstn 4 (skipn 4 u) ++ firstn 4 (skipn 8 u) ++ firstn 4 (skipn 12 u)).
  { intros u L. do 17 (destruct u as [|? u]; try discriminate L). reflexivity. }
  assert (P : forall a b x y : list N, List.length a = List.length b -> a ++ x = b ++ y -> a = b /\ x = y).
  { induction a as [|p a IH]; intros [|q b] x y L E; try discriminate; [now split|].
    cbn in L, E. destruct (IH b x y) as [-> ->]; [lia|congruence|]. split; congruence. }
  assert (I : forall i, (i + 4 <= 16)%nat -> mix_column (firstn 4 (skipn i s)) = mix_column (firstn 4 (skipn i t)) ->
     firstn 4 (skipn i s) = firstn 4 (skipn i t)).
  { intros i Hi. apply mix_column_injective; now apply W. }
  assert (L : forall u i, List.length u = 16%nat -> octets u -> (i + 4 <= 16)%nat -> List.length (mix_column (firstn 4 (skipn i u))) = 4%nat).
  { intros u i Lu Ou Hi. now apply mix_column_ok; apply W. }
  unfold mix_columns in H. change (firstn 4 s) with (firstn 4 (skipn 0 s)) in H. change (firstn 4 t) with (firstn 4 (skipn 0 t)) in H.
  apply P in H; [|rewrite !L by (assumption || lia); reflexivity]. destruct H as [H0 H].
  apply P in H; [|rewrite !L by (assumption || lia); reflexivity]. destruct H as [H4 H].
  apply P in H; [|rewrite !L by (assumption || lia); reflexivity]. destruct H as [H8 H12].
  rewrite (S s Ls), (S t Lt), (I 0%nat), (I 4%nat), (I 8%nat), (I 12%nat) by (assumption || lia). reflexivity.
Qed.

Lemma rounds_injective n : forall rc key s t, rc < 256 -> block key -> block s -> block t ->
  rounds n rc key s = rounds n rc key t -> s = t.
Proof.
  assert (M : forall s, block s -> block (map sub s)).
  { intros s [L O]. split; [now rewrite map_length|apply octets_map_sub]. }
  assert (A : forall key s t, block key -> block s -> block t -> xor_bytes s key = xor_bytes t key -> s = t).
  { intros key s t [Lk _] [Ls _] [Lt _]. apply xor_key_injective; congruence. }
  assert (B : forall s t, block s -> block t -> shift_rows (map sub s) = shift_rows (map sub t) -> s = t).
  { intros s t Hs Ht H. apply shift_rows_injective in H; [|apply (M s Hs)|apply (M t Ht)].
    apply map_sub_injective in H; [exact H|apply Hs|apply Ht]. }
  induction n as [|n IH]; intros rc key s t Hr Hk Hs Ht H; cbn [rounds] in H.
  - apply A in H; [|now apply next_key_block|apply shift_rows_block; auto|apply shift_rows_block; auto]. now apply B.
  - assert (Bs : forall u, block u -> block (mix_columns (shift_rows (map sub u)))) by (intros u Hu; apply mix_columns_block, shift_rows_block; auto).
    apply IH in H; [|now apply xtime_octet|now apply next_key_block|apply xor_block; [auto|now apply next_key_block]..].
    apply A in H; [|now apply next_key_block|auto|auto].
    apply mix_columns_injective in H; [|apply shift_rows_block; auto|apply shift_rows_block; auto]. now apply B.
Qed.

Lemma aes128_rounds key b : aes128 key b = rounds 9 1 key (xor_bytes b key).
Proof. reflexivity. Qed.
Theorem aes128_injective key s t : block key -> block s -> block t -> aes128 key s = aes128 key t -> s = t.
Proof.
  intros Hk Hs Ht H.
  pose proof (eq_trans (eq_sym (aes128_rounds key s)) (eq_trans H (aes128_rounds key t))) as H'. clear H.
  revert H'. generalize 9%nat. intros n H.
  apply rounds_injective in H; [|reflexivity|exact Hk|now apply xor_block|now apply xor_block].
  apply xor_key_injective in H; [exact H|..]; destruct Hk, Hs, Ht; congruence.
Qed.
