(** The CCM model (CcmModel.v) computes the CCM of Spec.v. *)
From Coq Require Import List Arith NArith ZArith Bool Lia ZifyBool ZifyNat ZifyN.
From Verif Require Import ByteCrate Types CcmModel Spec ProofLib.
Import ListNotations.
Open Scope N_scope.
Open Scope list_scope.
Ltac Zify.zify_post_hook ::= Z.div_mod_to_equations.

(** * Xor of octets *)

Lemma lxor_octet a b : a < 256 -> b < 256 -> N.lxor a b < 256.
Proof.
  intros Ha Hb. change 256 with (2 ^ 8) in *.
  destruct (N.eq_dec (N.lxor a b) 0) as [->|Hz]; [reflexivity|].
  apply N.log2_lt_pow2; [lia|].
  assert (L : forall x, x < 2 ^ 8 -> N.log2 x < 8).
  { intros x Hx. destruct (N.eq_dec x 0) as [->|]; [reflexivity|]. apply N.log2_lt_pow2; lia. }
  pose proof (N.log2_lxor a b). pose proof (L a Ha). pose proof (L b Hb). lia.
Qed.

Lemma octets_octet0 bs i : octets bs -> octet bs i < 256.
Proof.
  intros H. unfold octet. destruct (Nat.lt_ge_cases i (List.length bs)) as [Hi|Hi].
  - unfold octets in H. rewrite Forall_forall in H. apply H. now apply nth_In.
  - now rewrite nth_overflow.
Qed.

Lemma octets_xor_at a b n : (forall i, a i < 256) -> (forall i, b i < 256) -> octets (xor_at a b n).
Proof.
  intros Ha Hb. apply Forall_forall. intros x Hx. apply in_map_iff in Hx. destruct Hx as (i & <- & _).
  now apply lxor_octet.
Qed.
Lemma xor_at_length a b n : List.length (xor_at a b n) = n.
Proof. unfold xor_at. now rewrite map_length, seq_length. Qed.

Lemma xor_at_ext a b a' b' n : (forall i, (i < n)%nat -> a i = a' i /\ b i = b' i) ->
  xor_at a b n = xor_at a' b' n.
Proof.
  intros H. apply map_ext_in. intros i Hi. apply in_seq in Hi. destruct (H i ltac:(lia)) as [-> ->]. reflexivity.
Qed.

Lemma xor_at_app a b n k : xor_at a b (n + k) = xor_at a b n ++ xor_at (fun i => a (n + i)%nat) (fun i => b (n + i)%nat) k.
Proof.
  unfold xor_at. rewrite seq_app, map_app. f_equal. cbn [Nat.add].
  rewrite <- (Nat.add_0_r n) at 1. generalize 0%nat as z. revert n.
  induction k as [|k IH]; intros n z; [reflexivity|]. cbn [List.seq map]. f_equal.
  replace (S (n + z)) with (n + S z)%nat by lia. apply IH.
Qed.

Lemma octet_nth_map f n i : (i < n)%nat -> octet (map f (List.seq 0 n)) i = f i.
Proof.
  intros H. unfold octet. rewrite nth_indep with (d' := f 0%nat) by now rewrite map_length, seq_length.
  rewrite map_nth, seq_nth by assumption. reflexivity.
Qed.
Lemma octet_xor_at a b n i : (i < n)%nat -> octet (xor_at a b n) i = N.lxor (a i) (b i).
Proof. intros H. unfold xor_at. now rewrite octet_nth_map. Qed.

Lemma xor_bytes_at a : forall b, xor_bytes a b = xor_at (octet a) (octet b) (Nat.min (List.length a) (List.length b)).
Proof.
  induction a as [|x a IH]; intros b; [reflexivity|]. destruct b as [|y b]; [reflexivity|].
  cbn [xor_bytes List.length Nat.min]. rewrite IH. unfold xor_at. cbn [List.seq map]. f_equal.
  rewrite <- seq_shift, map_map. reflexivity.
Qed.

Lemma octet_app_l a b i : (i < List.length a)%nat -> octet (a ++ b) i = octet a i.
Proof. intros. unfold octet. now apply app_nth1. Qed.
Lemma octet_app_r a b i : (List.length a <= i)%nat -> octet (a ++ b) i = octet b (i - List.length a).
Proof. intros. unfold octet. now apply app_nth2. Qed.
Lemma octet_firstn n bs i : (i < n)%nat -> octet (firstn n bs) i = octet bs i.
Proof.
  unfold octet. revert bs i. induction n as [|n IH]; intros bs i H; [lia|].
  destruct bs as [|x bs]; [now rewrite firstn_nil|]. destruct i as [|i]; [reflexivity|].
  cbn [firstn nth]. apply IH. lia.
Qed.
Lemma octet_skipn a bs i : octet (skipn a bs) i = octet bs (a + i).
Proof.
  unfold octet. revert bs. induction a as [|a IH]; intros bs; [reflexivity|].
  destruct bs as [|x bs]; [destruct i; reflexivity|]. cbn [skipn Nat.add nth]. apply IH.
Qed.

Lemma list_octets_ext a b : List.length a = List.length b ->
  (forall i, (i < List.length a)%nat -> octet a i = octet b i) -> a = b.
Proof. intros L H. apply nth_ext with (d := 0) (d' := 0); assumption. Qed.

(** * Padding *)

Lemma pad16_nil : pad16 [] = [].
Proof. reflexivity. Qed.

Lemma pad16_length bs : List.length (pad16 bs) = (16 * ((List.length bs + 15) / 16))%nat.
Proof. unfold pad16. rewrite app_length, repeat_length. lia. Qed.

Lemma firstn_repeat0 k : forall n, (k <= n)%nat -> firstn k (repeat 0 n) = repeat 0 k.
Proof.
  induction k as [|k IH]; intros [|n] H; try lia; try reflexivity. cbn [repeat firstn].
  now rewrite IH by lia.
Qed.

Lemma pad16_step bs : bs <> [] -> pad16 bs = pad_block (firstn 16 bs) ++ pad16 (skipn 16 bs).
Proof.
  intros Hn. unfold pad16, pad_block. destruct (Nat.lt_ge_cases (List.length bs) 16) as [L|L].
  - rewrite (skipn_all2 bs) by lia. rewrite (firstn_all2 bs) by lia.
    assert (0 < List.length bs)%nat by (destruct bs; [congruence|cbn; lia]).
    replace ((16 - List.length bs mod 16) mod 16)%nat with (16 - List.length bs)%nat by lia.
    rewrite firstn_app, firstn_all2 by lia. rewrite firstn_repeat0 by lia. cbn [app List.length].
    change (repeat 0 ((16 - 0 mod 16) mod 16)) with (@nil N). now rewrite app_nil_r.
  - rewrite firstn_app_exact' by (rewrite firstn_length; lia).
    rewrite app_assoc, firstn_skipn. f_equal. f_equal. rewrite skipn_length. lia.
Qed.

Lemma pad_block_length bs : List.length (pad_block bs) = 16%nat.
Proof. unfold pad_block. rewrite firstn_length, app_length, repeat_length. lia. Qed.
Lemma octets_pad_block bs : octets bs -> octets (pad_block bs).
Proof. intros H. unfold pad_block. apply octets_firstn, octets_app. split; [assumption|apply octets_repeat0]. Qed.

(** * CBC-MAC *)

Section Mac.
Context {K : Type} (E : block_cipher K) (key : K) (HE : cipher_ok E).

(** [cbc_mac] from any chaining value. *)
Fixpoint cbc_from (st B : list N) (n : nat) : list N :=
  match n with
  | O => st
  | S j => encrypt_block E key (xor_at (octet (cbc_from st B j)) (octet (skipn (16 * j) B)) 16)
  end.

Lemma cbc_from_zero B n : cbc_from (repeat 0 16) B n = cbc_mac E key B n.
Proof. induction n as [|n IH]; [reflexivity|]. cbn [cbc_from cbc_mac]. now rewrite IH. Qed.

Lemma enc_block b : List.length b = 16%nat -> octets b ->
  List.length (encrypt_block E key b) = 16%nat /\ octets (encrypt_block E key b).
Proof. intros L O. now apply HE. Qed.

Lemma cbc_from_block st B n : List.length st = 16%nat -> octets st -> octets B ->
  List.length (cbc_from st B n) = 16%nat /\ octets (cbc_from st B n).
Proof.
  intros L O HB. destruct n as [|n]; [now split|]. induction n as [|n IH].
  - cbn [cbc_from]. apply enc_block; [apply xor_at_length|]. apply octets_xor_at; intros i; apply octets_octet0; [assumption|].
    now apply octets_skipn.
  - cbn [cbc_from] in *. apply enc_block; [apply xor_at_length|]. apply octets_xor_at; intros i; apply octets_octet0; [apply IH|].
    now apply octets_skipn.
Qed.

Lemma cbc_from_prefix st A B n : (16 * n <= List.length A)%nat -> cbc_from st (A ++ B) n = cbc_from st A n.
Proof.
  intros H. induction n as [|n IH]; [reflexivity|]. cbn [cbc_from]. rewrite IH by lia. f_equal.
  apply xor_at_ext. intros i Hi. split; [reflexivity|]. rewrite !octet_skipn. apply octet_app_l. lia.
Qed.

Lemma cbc_from_app st A B a b : List.length A = (16 * a)%nat ->
  cbc_from st (A ++ B) (a + b) = cbc_from (cbc_from st A a) B b.
Proof.
  intros H. induction b as [|b IH].
  - rewrite Nat.add_0_r. cbn [cbc_from]. apply cbc_from_prefix. lia.
  - rewrite Nat.add_succ_r. cbn [cbc_from]. rewrite IH. f_equal. apply xor_at_ext. intros i Hi.
    split; [reflexivity|]. rewrite !octet_skipn, octet_app_r by lia. f_equal. lia.
Qed.

Lemma mac_update_nil fuel st : mac_update E key fuel st [] = st.
Proof. destruct fuel; reflexivity. Qed.

(** Absorbing data block by block is CBC-MAC over the padded data. *)
Lemma mac_update_eq : forall fuel st data, List.length st = 16%nat -> octets st -> octets data ->
  (List.length data <= 16 * fuel)%nat ->
  mac_update E key fuel st data = cbc_from st (pad16 data) (List.length (pad16 data) / 16).
Proof.
  induction fuel as [|fuel IH]; intros st data L O HD Hf.
  - destruct data; [reflexivity|cbn [List.length] in Hf; lia].
  - destruct data as [|x r] eqn:Ed; [reflexivity|].
    assert (Hn : data <> []) by (rewrite Ed; discriminate).
    cbn [mac_update]. rewrite <- Ed in *. clear Ed x r.
    assert (Ob : octets (pad_block (firstn 16 data))) by (apply octets_pad_block; now apply octets_firstn).
    assert (Lb := pad_block_length (firstn 16 data)).
    assert (St : encrypt_block E key (xor_bytes st (pad_block (firstn 16 data)))
                 = cbc_from st (pad_block (firstn 16 data)) 1).
    { cbn [cbc_from]. rewrite xor_bytes_at, L, Lb. reflexivity. }
    rewrite St. destruct (cbc_from_block st (pad_block (firstn 16 data)) 1 L O Ob) as [L1 O1].
    rewrite IH; try assumption; [|now apply octets_skipn|rewrite skipn_length; lia].
    rewrite (pad16_step data Hn), app_length, Lb.
    replace ((16 + List.length (pad16 (skipn 16 data))) / 16)%nat
      with (1 + List.length (pad16 (skipn 16 data)) / 16)%nat by lia.
    rewrite cbc_from_app by now rewrite Lb. reflexivity.
Qed.

Lemma octets_pad16 bs : octets bs -> octets (pad16 bs).
Proof. intros H. unfold pad16. apply octets_app. split; [assumption|apply octets_repeat0]. Qed.

(** Two consecutive updates, the first of whole blocks. *)
Lemma mac_update_app f1 f2 f st d1 d2 : List.length st = 16%nat -> octets st -> octets d1 -> octets d2 ->
  (List.length d1 mod 16 = 0)%nat -> (List.length d1 <= 16 * f1)%nat -> (List.length d2 <= 16 * f2)%nat ->
  (List.length d1 + List.length d2 <= 16 * f)%nat ->
  mac_update E key f2 (mac_update E key f1 st d1) d2 = mac_update E key f st (d1 ++ d2).
Proof.
  intros L O O1 O2 Hm H1 H2 H. rewrite (mac_update_eq f1 st d1) by assumption.
  destruct (cbc_from_block st (pad16 d1) (List.length (pad16 d1) / 16) L O (octets_pad16 _ O1)) as [L1 Ob1].
  rewrite mac_update_eq by assumption.
  rewrite mac_update_eq; try assumption; [|now apply octets_app|now rewrite app_length].
  assert (P1 : pad16 d1 = d1).
  { unfold pad16. rewrite Hm. change (repeat 0 ((16 - 0) mod 16)) with (@nil N). apply app_nil_r. }
  assert (P2 : pad16 (d1 ++ d2) = d1 ++ pad16 d2).
  { unfold pad16. rewrite app_length, <- app_assoc. do 2 f_equal. f_equal.
    rewrite Nat.add_mod by discriminate. rewrite Hm. cbn [Nat.add]. now rewrite Nat.mod_mod. }
  rewrite P1, P2, app_length.
  replace ((List.length d1 + List.length (pad16 d2)) / 16)%nat
    with (List.length d1 / 16 + List.length (pad16 d2) / 16)%nat by lia.
  rewrite cbc_from_app by lia. reflexivity.
Qed.

(** * calc_mac *)

Lemma fill_aad_header_eq l : fill_aad_header l = aad_length l.
Proof.
  unfold fill_aad_header, aad_length. change (2 ^ 16 - 2 ^ 8) with 0xFF00.
  rewrite !num_bytes_spec. reflexivity.
Qed.

Lemma aad_length_facts l : (2 <= List.length (aad_length l) <= 10)%nat /\ octets (aad_length l).
Proof.
  unfold aad_length. pose proof (octets_in_order BE) as B. cbn [in_order] in B.
  destruct (_ <? _); [|destruct (_ <? _)]; (split; [rewrite ?app_length, ?be_length; cbn [List.length]; rewrite ?be_length; lia|]);
    repeat (apply octets_cons; split; [reflexivity|]); apply B.
Qed.

Lemma calc_mac_eq m_size nonce a m : List.length nonce = 13%nat -> octets nonce -> octets a -> octets m ->
  (2 <= m_size <= 16)%nat -> N.of_nat (List.length m) < 2 ^ 16 ->
  calc_mac E key m_size nonce a m
  = Some (cbc_mac E key (ccm_blocks m_size nonce a m) (List.length (ccm_blocks m_size nonce a m) / 16)).
Proof.
  intros Ln On Oa Om Hm Hl. unfold calc_mac.
  change (2 ^ 16) with 65536 in *. replace (0xFFFF <? N.of_nat (List.length m)) with false by lia. f_equal.
  set (b0 := _ :: nonce ++ _).
  assert (Lb : List.length b0 = 16%nat).
  { unfold b0. cbn [List.length]. rewrite app_length, num_bytes_spec, in_order_length, Ln. reflexivity. }
  assert (Ob : octets b0).
  { unfold b0. apply octets_cons. split.
    - assert ((N.of_nat m_size - 2) / 2 <= 7) by (clear -Hm; lia). destruct a; cbn [bool_n]; lia.
    - apply octets_app. split; [assumption|]. rewrite num_bytes_spec. apply octets_in_order. }
  assert (Bl : ccm_blocks m_size nonce a m
    = b0 ++ match a with [] => [] | _ => pad16 (aad_length (N.of_nat (List.length a)) ++ a) end ++ pad16 m).
  { unfold ccm_blocks, b0. rewrite num_bytes_spec. cbn [in_order app]. rewrite <- app_assoc.
    f_equal. f_equal. f_equal. destruct a; reflexivity. }
  assert (Lz : List.length (repeat 0 16) = 16%nat) by reflexivity.
  assert (Oz := octets_repeat0 16).
  rewrite (mac_update_eq 1 (repeat 0 16) b0) by (assumption || lia).
  assert (Pb : pad16 b0 = b0).
  { unfold pad16. rewrite Lb. apply app_nil_r. }
  rewrite Pb, Lb. change (16 / 16)%nat with 1%nat.
  destruct (cbc_from_block (repeat 0 16) b0 1 Lz Oz Ob) as [L1 O1].
  set (st1 := cbc_from (repeat 0 16) b0 1) in *.
  rewrite <- cbc_from_zero, Bl.
  set (A := match a with [] => [] | _ => pad16 (aad_length (N.of_nat (List.length a)) ++ a) end).
  assert (LA : (List.length A mod 16 = 0)%nat).
  { unfold A. destruct a; [reflexivity|]. rewrite pad16_length. lia. }
  assert (OA : octets A).
  { unfold A. destruct a; [constructor|]. apply octets_pad16, octets_app. split; [apply aad_length_facts|assumption]. }
  assert (LP := pad16_length m).
  rewrite !app_length, Lb.
  replace ((16 + (List.length A + List.length (pad16 m))) / 16)%nat
    with (1 + (List.length A / 16 + List.length (pad16 m) / 16))%nat by lia.
  rewrite cbc_from_app by now rewrite Lb. fold st1.
  rewrite cbc_from_app by lia.
  destruct (cbc_from_block st1 A (List.length A / 16) L1 O1 OA) as [L2 O2].
  rewrite <- mac_update_eq with (fuel := List.length m) by (assumption || lia).
  f_equal. unfold A. clear A LA OA L2 O2 Bl. clearbody b0.
  destruct a as [|x r] eqn:Ea; [reflexivity|]. rewrite <- Ea in *. clear x r Ea.
  rewrite fill_aad_header_eq. destruct (aad_length_facts (N.of_nat (List.length a))) as [Lh Oh].
  set (hdr := aad_length (N.of_nat (List.length a))) in *.
  rewrite <- mac_update_eq with (fuel := S (List.length a)); try assumption.
  2: { apply octets_app. now split. }
  2: { rewrite app_length. lia. }
  destruct (Nat.leb_spec (List.length a) (16 - List.length hdr)) as [Hr|Hr].
  - rewrite !mac_update_eq; try assumption; try (apply octets_app; now split); try reflexivity; rewrite app_length; lia.
  - rewrite mac_update_app with (f := S (List.length a)); try assumption.
    + now rewrite <- app_assoc, firstn_skipn.
    + apply octets_app. split; [assumption|now apply octets_firstn].
    + now apply octets_skipn.
    + rewrite app_length, firstn_length. replace (Nat.min _ _) with (16 - List.length hdr)%nat by lia.
      replace (List.length hdr + (16 - List.length hdr))%nat with 16%nat by lia. reflexivity.
    + rewrite app_length, firstn_length. lia.
    + rewrite skipn_length. lia.
    + rewrite app_length, firstn_length, skipn_length. lia.
Qed.

Lemma calc_mac_long m_size nonce a m : 2 ^ 16 <= N.of_nat (List.length m) -> calc_mac E key m_size nonce a m = None.
Proof. intros H. unfold calc_mac. change (2 ^ 16) with 65536 in *. now replace (0xFFFF <? N.of_nat (List.length m)) with true by lia. Qed.

(** * Counter mode *)

Lemma be_2 v : be 2 v = [v / 256 mod 256; v mod 256].
Proof. unfold be. rewrite !le_S, le_0. reflexivity. Qed.

Lemma ctr_block_eq nonce i : List.length nonce = 13%nat -> octets nonce -> i < 65536 ->
  ctr_block nonce i = [1] ++ nonce ++ be 2 i.
Proof.
  intros L O Hi. unfold ctr_block.
  destruct nonce as [|n0 [|n1 [|n2 [|n3 [|n4 [|n5 [|n6 [|n7 [|n8 [|n9 [|n10 [|n11 [|n12 [|]]]]]]]]]]]]]];
    try discriminate.
  cbn [app firstn skipn]. rewrite num_bytes_spec. cbn [in_order num_val rev app le_val].
  rewrite be_2. unfold be. rewrite !le_S, le_0. cbn [rev app].
  repeat (apply octets_cons in O; destruct O as [? O]). clear O L.
  assert (P : n11 < 256) by assumption. assert (Q : n12 < 256) by assumption.
  repeat match goal with H : _ < 256 |- _ => lazymatch H with P => fail | Q => fail | _ => clear H end end.
  set (v := (_ + i) mod 2 ^ 32).
  assert (Ev : v = 16777216 * n11 + 65536 * n12 + i) by (unfold v; change (2 ^ 32) with 4294967296; lia).
  clearbody v.
  replace (v / 256 / 256 / 256 mod 256) with n11 by lia. replace (v / 256 / 256 mod 256) with n12 by lia.
  replace (v / 256 mod 256) with (i / 256 mod 256) by lia. replace (v mod 256) with (i mod 256) by lia.
  reflexivity.
Qed.

Lemma apply_keystream_eq nonce : List.length nonce = 13%nat -> octets nonce ->
  forall fuel i data, octets data -> (List.length data <= fuel)%nat ->
  N.of_nat i + (N.of_nat (List.length data) + 15) / 16 <= 2 ^ 16 ->
  apply_keystream E key fuel nonce (N.of_nat i) data
  = xor_at (octet data) (fun j => octet (key_stream E key nonce (i + j / 16)) (j mod 16)) (List.length data).
Proof.
  intros Ln On. induction fuel as [|fuel IH]; intros i data O Hf Hi.
  - destruct data; [reflexivity|cbn [List.length] in Hf; lia].
  - destruct data as [|x r] eqn:Ed; [reflexivity|]. cbn [apply_keystream]. rewrite <- Ed in *.
    assert (Hn : (0 < List.length data)%nat) by (rewrite Ed; cbn [List.length]; lia). clear Ed x r.
    change (2 ^ 16) with 65536 in *.
    assert (Es : encrypt_block E key (ctr_block nonce (N.of_nat i)) = key_stream E key nonce i).
    { unfold key_stream. rewrite ctr_block_eq by (assumption || lia). reflexivity. }
    assert (Ls : List.length (key_stream E key nonce i) = 16%nat).
    { apply enc_block.
      - cbn [app List.length]. rewrite app_length, be_length, Ln. reflexivity.
      - cbn [app]. apply octets_cons. split; [reflexivity|]. apply octets_app. split; [assumption|].
        pose proof (octets_in_order BE 2 (N.of_nat i)) as B. exact B. }
    rewrite Es. replace (N.of_nat i + 1) with (N.of_nat (S i)) by lia.
    rewrite IH; [|now apply octets_skipn|rewrite skipn_length; lia|rewrite skipn_length; lia].
    rewrite xor_bytes_at, firstn_length, Ls, skipn_length.
    destruct (Nat.le_gt_cases (List.length data) 16) as [Hs|Hs].
    + replace (Nat.min (Nat.min 16 (List.length data)) 16) with (List.length data) by lia.
      replace (List.length data - 16)%nat with 0%nat by lia. rewrite app_nil_r.
      apply xor_at_ext. intros j Hj. rewrite octet_firstn by lia. split; [reflexivity|].
      destruct (Nat.eq_dec j 16) as [->|]; [lia|].
      replace (j / 16)%nat with 0%nat by lia. replace (j mod 16)%nat with j by lia. now rewrite Nat.add_0_r.
    + replace (Nat.min (Nat.min 16 (List.length data)) 16) with 16%nat by lia.
      replace (List.length data) with (16 + (List.length data - 16))%nat at 2 by lia.
      rewrite xor_at_app. f_equal.
      * apply xor_at_ext. intros j Hj. rewrite octet_firstn by lia. split; [reflexivity|].
        replace (j / 16)%nat with 0%nat by lia. replace (j mod 16)%nat with j by lia. now rewrite Nat.add_0_r.
      * apply xor_at_ext. intros j Hj. rewrite octet_skipn. split; [reflexivity|].
        replace ((16 + j) / 16)%nat with (1 + j / 16)%nat by lia.
        replace ((16 + j) mod 16)%nat with (j mod 16)%nat by lia. f_equal. f_equal. lia.
Qed.

Lemma apply_keystream_length fuel nonce : forall i data, (List.length data <= fuel)%nat ->
  (forall j, List.length (encrypt_block E key (ctr_block nonce j)) = 16%nat) ->
  List.length (apply_keystream E key fuel nonce i data) = List.length data.
Proof.
  induction fuel as [|fuel IH]; intros i data Hf H.
  - destruct data; [reflexivity|cbn [List.length] in Hf; lia].
  - destruct data as [|x r] eqn:Ed; [reflexivity|]. cbn [apply_keystream]. rewrite <- Ed in *.
    assert (Hn : (0 < List.length data)%nat) by (rewrite Ed; cbn [List.length]; lia). clear Ed x r.
    rewrite app_length, IH; [|rewrite skipn_length; lia|assumption].
    rewrite xor_bytes_at, xor_at_length, firstn_length, H, skipn_length. lia.
Qed.

Lemma ctr_block_shape nonce i : List.length nonce = 13%nat -> octets nonce ->
  List.length (ctr_block nonce i) = 16%nat /\ octets (ctr_block nonce i).
Proof.
  intros L O. unfold ctr_block. cbv zeta. rewrite num_bytes_spec. split.
  - rewrite app_length, in_order_length, firstn_length. cbn [List.length]. rewrite app_length, L. reflexivity.
  - apply octets_app. split; [|apply octets_in_order]. apply octets_firstn, octets_cons. split; [reflexivity|].
    apply octets_app. split; [assumption|repeat constructor].
Qed.

Lemma ccm_cipher_length nonce m : List.length (ccm_cipher E key nonce m) = List.length m.
Proof. apply xor_at_length. Qed.

Lemma key_stream_block nonce i : List.length nonce = 13%nat -> octets nonce ->
  List.length (key_stream E key nonce i) = 16%nat /\ octets (key_stream E key nonce i).
Proof.
  intros L O. apply enc_block.
  - cbn [app List.length]. rewrite app_length, be_length, L. reflexivity.
  - cbn [app]. apply octets_cons. split; [reflexivity|]. apply octets_app. split; [assumption|].
    pose proof (octets_in_order BE 2 (N.of_nat i)) as B. exact B.
Qed.

Lemma octets_ccm_cipher nonce m : List.length nonce = 13%nat -> octets nonce -> octets m ->
  octets (ccm_cipher E key nonce m).
Proof.
  intros L O Om. apply octets_xor_at; intros i; apply octets_octet0; [assumption|]. now apply key_stream_block.
Qed.

(** Counter mode is an involution. *)
Lemma ccm_cipher_involutive nonce m : ccm_cipher E key nonce (ccm_cipher E key nonce m) = m.
Proof.
  apply list_octets_ext; unfold ccm_cipher; rewrite !xor_at_length; [reflexivity|].
  intros i Hi. rewrite octet_xor_at by assumption. rewrite octet_xor_at by assumption.
  rewrite N.lxor_assoc, N.lxor_nilpotent. apply N.lxor_0_r.
Qed.

(** * The AEAD interface *)

Lemma cbc_mac_block B n : octets B -> List.length (cbc_mac E key B n) = 16%nat /\ octets (cbc_mac E key B n).
Proof. intros H. rewrite <- cbc_from_zero. apply cbc_from_block; [reflexivity|apply octets_repeat0|assumption]. Qed.

Lemma octets_ccm_blocks t nonce a m : (2 <= t <= 16)%nat -> octets nonce -> octets a -> octets m -> octets (ccm_blocks t nonce a m).
Proof.
  intros Ht On Oa Om. unfold ccm_blocks. cbn [app].
  apply octets_cons. split.
  - assert ((N.of_nat t - 2) / 2 <= 7) by (clear -Ht; lia). destruct (_ =? _)%nat; cbn [negb flag]; lia.
  - apply octets_app. split; [assumption|]. apply octets_app. split; [apply (octets_in_order BE)|].
    apply octets_app. split; [|now apply octets_pad16].
    destruct a; [constructor|]. apply octets_pad16, octets_app. split; [apply aad_length_facts|assumption].
Qed.

Lemma full_tag_eq t nonce a m : List.length nonce = 13%nat -> octets nonce -> octets a -> octets m ->
  (2 <= t <= 16)%nat ->
  let mac := cbc_mac E key (ccm_blocks t nonce a m) (List.length (ccm_blocks t nonce a m) / 16) in
  firstn t (apply_keystream E key (List.length mac) nonce 0 mac) = ccm_tag E key t nonce a m.
Proof.
  intros Ln On Oa Om Ht mac.
  destruct (cbc_mac_block (ccm_blocks t nonce a m) (List.length (ccm_blocks t nonce a m) / 16)) as [L O].
  { now apply octets_ccm_blocks. }
  fold mac in L, O. change 0 with (N.of_nat 0).
  rewrite apply_keystream_eq by (assumption || lia || (rewrite L; reflexivity)).
  unfold ccm_tag. fold mac. rewrite L.
  match goal with |- firstn t (xor_at ?a ?b 16) = _ =>
    replace (xor_at a b 16) with (xor_at a b (t + (16 - t))) by (f_equal; lia) end. rewrite xor_at_app.
  rewrite firstn_app_exact' by now rewrite xor_at_length.
  apply xor_at_ext. intros i Hi. split; [reflexivity|].
  replace (0 + i / 16)%nat with 0%nat by lia. now replace (i mod 16)%nat with i by lia.
Qed.

Lemma ccm_encrypt_eq t nonce a m : List.length nonce = 13%nat -> octets nonce -> octets a -> octets m ->
  (2 <= t <= 16)%nat -> N.of_nat (List.length m) < 2 ^ 16 ->
  ccm_encrypt E key t nonce a m = Some (ccm_cipher E key nonce m, ccm_tag E key t nonce a m).
Proof.
  intros Ln On Oa Om Ht Hl. unfold ccm_encrypt. change (2 ^ 16) with 65536 in *.
  rewrite calc_mac_eq by (assumption || (change (2 ^ 16) with 65536; lia)).
  rewrite full_tag_eq by assumption. do 2 f_equal.
  change 1 with (N.of_nat 1). rewrite apply_keystream_eq by (assumption || lia || (change (2 ^ 16) with 65536; lia)).
  unfold ccm_cipher. apply xor_at_ext. intros i Hi. split; reflexivity.
Qed.

Lemma bytes_eqb_eq a : forall b, bytes_eqb a b = true <-> a = b.
Proof.
  induction a as [|x a IH]; intros [|y b]; cbn [bytes_eqb]; split; intros H; try discriminate; try reflexivity.
  - apply andb_prop in H. destruct H as [H1 H2]. apply N.eqb_eq in H1. apply IH in H2. congruence.
  - injection H as -> ->. rewrite N.eqb_refl. cbn [andb]. now apply IH.
Qed.

Lemma ccm_decrypt_eq t nonce a m tag : List.length nonce = 13%nat -> octets nonce -> octets a -> octets m ->
  (2 <= t <= 16)%nat -> N.of_nat (List.length m) < 2 ^ 16 ->
  ccm_decrypt E key t nonce a m tag
  = if bytes_eqb (ccm_tag E key t nonce a (ccm_cipher E key nonce m)) tag
    then (true, ccm_cipher E key nonce m) else (false, on_auth_failure E key nonce m).
Proof.
  intros Ln On Oa Om Ht Hl. unfold ccm_decrypt. change (2 ^ 16) with 65536 in *.
  assert (Ep : apply_keystream E key (List.length m) nonce 1 m = ccm_cipher E key nonce m).
  { change 1 with (N.of_nat 1). rewrite apply_keystream_eq by (assumption || lia || (change (2 ^ 16) with 65536; lia)).
    unfold ccm_cipher. apply xor_at_ext. intros i Hi. split; reflexivity. }
  rewrite Ep.
  rewrite calc_mac_eq; try assumption; [|now apply octets_ccm_cipher|rewrite ccm_cipher_length; change (2 ^ 16) with 65536; lia].
  rewrite full_tag_eq by (assumption || now apply octets_ccm_cipher). reflexivity.
Qed.

Lemma ccm_decrypt_long t nonce a m tag : List.length nonce = 13%nat -> octets nonce ->
  2 ^ 16 <= N.of_nat (List.length m) -> ccm_decrypt E key t nonce a m tag = (false, on_auth_failure E key nonce m).
Proof.
  intros Ln On Hl. unfold ccm_decrypt. rewrite calc_mac_long; [reflexivity|].
  rewrite apply_keystream_length; [assumption|lia|]. intros j.
  destruct (ctr_block_shape nonce j Ln On) as [L O]. now apply enc_block.
Qed.

End Mac.
