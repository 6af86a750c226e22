(** Property C84: what is done with a key. Sending or receiving a frame evaluates the block cipher
    under one key only, the one the key provider returned, at a list of blocks that is fixed by the
    frame, and not at all unless the frame has passed every other check. Stated without reference to
    how the code computes: two ciphers that agree on those blocks under that key are
    indistinguishable, however much they differ elsewhere. *)
From Coq Require Import List Arith NArith ZArith Bool String Lia ZifyBool ZifyNat ZifyN.
From Verif Require Import ByteCrate Types HeaderModel BeaconModel CommandModel CcmModel FrameModel
  Spec SecSpec ProofLib HeaderProofs HeaderReadProofs BeaconProofs CommandProofs FrameProofs CcmProofs
  SecureProofs RepoTests Aes128 AesProofs HistorySpec PropHeader PropContent PropFrame PropSecure PropReceive PropHistory
  PropNetwork PropKeys.
Import ListNotations.
Open Scope N_scope.
Open Scope list_scope.
Ltac Zify.zify_post_hook ::= Z.div_mod_to_equations.

(** * Specification *)

(** The blocks enciphered while the CBC-MAC of [B] is computed. *)
Definition mac_inputs {K} (E : block_cipher K) (key : K) (B : list N) : list (list N) :=
  map (fun j => xor_at (octet (cbc_mac E key B j)) (octet (skipn (16 * j) B)) 16)
      (List.seq 0 (List.length B / 16)).

(** The blocks enciphered to secure (or to check) a payload [p]: those of the MAC, the one that
    covers the tag and, if the level encrypts, one for every 16 octets begun. *)
Definition cipher_inputs {K} (E : block_cipher K) (key : K) (l : SecurityLevel) (eui fc : N) (p : list N)
  : list (list N) :=
  let nonce := mac_nonce eui fc l in
  if encrypting l
  then mac_inputs E key (ccm_blocks (tag_len l) nonce [] p)
       ++ map (stream_input nonce) (List.seq 0 (1 + (List.length p + 15) / 16))
  else mac_inputs E key (ccm_blocks (tag_len l) nonce p []) ++ [stream_input nonce 0].

(** Two ciphers agree on some blocks under one key. *)
Definition agree {K} (E1 E2 : block_cipher K) (key : K) (blocks : list (list N)) : Prop :=
  forall b, In b blocks -> encrypt_block E1 key b = encrypt_block E2 key b.

(** A frame to be sent gets as far as the cipher: every check passed, [key] found. *)
Definition gets_ciphered {K} (sc : SecurityContext K) (f : Frame) (a : AuxiliarySecurityHeader) (key : K) : Prop :=
  compression_allowed (header f) /\ auxiliary_security_header (header f) = Some a /\
  frame_type (header f) = Data_t /\ (length_estimate f a <= 127)%nat /\
  authenticated (security_level (control a)) = true /\ sc_frame_counter sc <> last_counter /\
  exists eui, sc_key_provider sc DstAddrMode (key_identifier a) (destination (header f)) = Some (eui, key).

(** The number of blocks, by level and payload length. *)
Definition cipher_calls (l : SecurityLevel) (n : nat) : nat :=
  if encrypting l then 2 + 2 * ((n + 15) / 16)
  else if (n =? 0)%nat then 2 else 2 + (n + 2 + 15) / 16.

(** * Proofs *)

Lemma in_mac_inputs {K} (E : block_cipher K) key B j : (j < List.length B / 16)%nat ->
  In (xor_at (octet (cbc_mac E key B j)) (octet (skipn (16 * j) B)) 16) (mac_inputs E key B).
Proof.
  intros H. unfold mac_inputs. apply in_map_iff. exists j. split; [reflexivity|]. apply in_seq. lia.
Qed.

Lemma mac_agrees {K} (E1 E2 : block_cipher K) key B : agree E1 E2 key (mac_inputs E1 key B) ->
  forall n, (n <= List.length B / 16)%nat -> cbc_mac E1 key B n = cbc_mac E2 key B n.
Proof.
  intros A n. induction n as [|n IH]; [reflexivity|]. intros L. cbn [cbc_mac].
  rewrite <- IH by lia. apply A, in_mac_inputs. lia.
Qed.

Lemma tag_agrees {K} (E1 E2 : block_cipher K) key t nonce a m :
  agree E1 E2 key (mac_inputs E1 key (ccm_blocks t nonce a m)) ->
  encrypt_block E1 key (stream_input nonce 0) = encrypt_block E2 key (stream_input nonce 0) ->
  ccm_tag E1 key t nonce a m = ccm_tag E2 key t nonce a m.
Proof.
  intros A B. unfold ccm_tag. rewrite (mac_agrees E1 E2 key _ A) by lia.
  unfold key_stream. unfold stream_input in B. now rewrite B.
Qed.

Lemma ccm_cipher_agrees {K} (E1 E2 : block_cipher K) key nonce p :
  (forall i, (i <= (List.length p + 15) / 16)%nat ->
     encrypt_block E1 key (stream_input nonce i) = encrypt_block E2 key (stream_input nonce i)) ->
  ccm_cipher E1 key nonce p = ccm_cipher E2 key nonce p.
Proof.
  intros A. unfold ccm_cipher, xor_at. apply map_ext_in. intros i Hi. apply in_seq in Hi.
  unfold key_stream. specialize (A (1 + i / 16)%nat). unfold stream_input in A. rewrite A; [reflexivity|].
  pose proof (Nat.div_le_mono (i + 16) (List.length p + 15) 16 ltac:(lia) ltac:(lia)) as X.
  replace (i + 16)%nat with (i + 1 * 16)%nat in X by lia. rewrite Nat.div_add in X by lia. lia.
Qed.

Lemma agree_app {K} (E1 E2 : block_cipher K) key x y :
  agree E1 E2 key (x ++ y) <-> agree E1 E2 key x /\ agree E1 E2 key y.
Proof.
  unfold agree. split.
  - intros H. split; intros b Hb; apply H, in_or_app; tauto.
  - intros [H1 H2] b Hb. apply in_app_or in Hb. destruct Hb; auto.
Qed.

Lemma stream_agree {K} (E1 E2 : block_cipher K) key nonce n :
  agree E1 E2 key (map (stream_input nonce) (List.seq 0 n)) -> forall i, (i < n)%nat ->
  encrypt_block E1 key (stream_input nonce i) = encrypt_block E2 key (stream_input nonce i).
Proof. intros A i H. apply A, in_map, in_seq. lia. Qed.

Lemma secured_agrees {K} (E1 E2 : block_cipher K) key l eui fc p : agree E1 E2 key (cipher_inputs E1 key l eui fc p) ->
  secured_payload E1 key l eui fc p = secured_payload E2 key l eui fc p /\
  secured_tag E1 key l eui fc p = secured_tag E2 key l eui fc p.
Proof.
  unfold cipher_inputs. intros A. destruct (encrypting l) eqn:El; apply agree_app in A; destruct A as [A1 A2].
  - pose proof (stream_agree _ _ _ _ _ A2) as S.
    assert (P : ccm_cipher E1 key (mac_nonce eui fc l) p = ccm_cipher E2 key (mac_nonce eui fc l) p)
      by (apply ccm_cipher_agrees; intros i Hi; apply S; lia).
    assert (T : ccm_tag E1 key (tag_len l) (mac_nonce eui fc l) [] p = ccm_tag E2 key (tag_len l) (mac_nonce eui fc l) [] p)
      by (apply tag_agrees; [exact A1|apply S; lia]).
    destruct l; try discriminate El; split; assumption.
  - assert (T : ccm_tag E1 key (tag_len l) (mac_nonce eui fc l) p [] = ccm_tag E2 key (tag_len l) (mac_nonce eui fc l) p [])
      by (apply tag_agrees; [exact A1|apply A2; left; reflexivity]).
    destruct l; try discriminate El; split; try reflexivity; exact T.
Qed.

(** The same with the payload as received: decrypting needs the blocks of the key stream only. *)
Lemma received_agrees {K} (E1 E2 : block_cipher K) key l eui fc q :
  agree E1 E2 key (cipher_inputs E1 key l eui fc (secured_payload E1 key l eui fc q)) ->
  secured_payload E1 key l eui fc q = secured_payload E2 key l eui fc q /\
  secured_tag E1 key l eui fc (secured_payload E1 key l eui fc q)
  = secured_tag E2 key l eui fc (secured_payload E2 key l eui fc q).
Proof.
  intros A. assert (P : secured_payload E1 key l eui fc q = secured_payload E2 key l eui fc q).
  { destruct (encrypting l) eqn:El; [|destruct l; try discriminate El; reflexivity].
    unfold cipher_inputs in A. rewrite El, secured_payload_length in A. apply agree_app in A. destruct A as [_ A].
    pose proof (stream_agree _ _ _ _ _ A) as S.
    destruct l; try discriminate El; cbn [secured_payload]; apply ccm_cipher_agrees; intros i Hi; apply S; lia. }
  split; [exact P|]. rewrite <- P. now apply secured_agrees.
Qed.

Lemma pad16_blocks x : (List.length (pad16 x) / 16 = (List.length x + 15) / 16)%nat.
Proof.
  assert (L : List.length (pad16 x) = (16 * ((List.length x + 15) / 16))%nat).
  { unfold pad16. rewrite app_length, repeat_length. lia. }
  rewrite L, Nat.mul_comm, Nat.div_mul by lia. reflexivity.
Qed.
Lemma pad16_whole x : exists k, List.length (pad16 x) = (k * 16)%nat.
Proof. exists ((List.length x + 15) / 16)%nat. unfold pad16. rewrite app_length, repeat_length. lia. Qed.

Section Cipher.
Context {K : Type} (c : cfg) (E1 E2 : block_cipher K).
Hypothesis HE1 : cipher_ok E1.
Hypothesis HE2 : cipher_ok E2.

(** ** Sending *)

(** What a write does depends on the cipher through these blocks under the key found, and only if
    the frame gets that far. *)
Theorem C84_sending : forall f ctx buf, frame_ok f ->
  (forall sc a key, security_ctx ctx = Some sc -> footer_mode ctx = Footer_None -> u32_ok (sc_frame_counter sc) ->
     gets_ciphered sc f a key ->
     (List.length (wire_front (native c) (sc_frame_counter sc) f) + List.length (payload f) <= List.length buf)%nat ->
     agree E1 E2 key (cipher_inputs E1 key (security_level (control a)) (sc_euid sc) (sc_frame_counter sc) (payload f))) ->
  (forall sc, security_ctx ctx = Some sc -> u32_ok (sc_frame_counter sc)) ->
  try_write_frame c E1 f ctx buf = try_write_frame c E2 f ctx buf.
Proof using HE1 HE2.
  intros f [m [sc|]] buf Hok HA Hfc; [|reflexivity].
  cbn [security_ctx footer_mode] in *. specialize (Hfc sc eq_refl). fold (ser_ctx m sc).
  assert (Hh := Hok). destruct Hh as (Hh & Hct & Hp & _).
  pose proof (runs_front c f sc Hh Hct buf 0%nat ltac:(lia)) as [R1 R2]. cbn [firstn app] in R1, R2.
  unfold try_write_frame. cbn [ser_ctx security_ctx footer_mode].
  destruct (compression_ok (header f)) eqn:Ec.
  2:{ destruct (Nat.leb_spec (List.length (le 2 (control_word false (header_sent (sc_frame_counter sc) (header f))) ++ [seq (header f)]))
                (List.length buf)) as [L|L].
      - destruct (R1 L) as (o & _ & ->). reflexivity.
      - destruct (R2 L) as (k & o & _ & ->). reflexivity. }
  set (front := wire_front (native c) (sc_frame_counter sc) f) in *.
  destruct (Nat.leb_spec (List.length front) (List.length buf)) as [L|L].
  2:{ destruct (R2 L) as (k & o & _ & ->). reflexivity. }
  destruct (R1 L) as (o & Ho & ->). rewrite (Ho eq_refl).
  destruct (_ <=? _)%nat; [|reflexivity].
  set (tl := skipn (0 + List.length front) (front ++ skipn (0 + List.length front) buf)).
  assert (Ltl : List.length tl = (List.length buf - List.length front)%nat).
  { unfold tl. cbn [Nat.add]. now rewrite skipn_app_exact, skipn_length. }
  assert (S : secure_frame c E1 f sc m tl = secure_frame c E2 f sc m tl); [|rewrite S; reflexivity].
  clearbody tl. clear R1 R2 Ho o.
  destruct m; [|reflexivity].
  destruct (auxiliary_security_header (header f)) as [a|] eqn:Ea.
  2:{ unfold secure_frame, has_security. rewrite Ea. reflexivity. }
  pose proof (secure_frame_eq c E1 HE1 f sc a tl Hp Hfc Ea Ec) as S1.
  pose proof (secure_frame_eq c E2 HE2 f sc a tl Hp Hfc Ea Ec) as S2.
  assert (Same : forall X, tail_plan E1 sc f a = X -> tail_plan E2 sc f a = X ->
    secure_frame c E1 f sc Footer_None tl = secure_frame c E2 f sc Footer_None tl).
  { intros [[tb st] used] T1 T2. rewrite T1 in S1. rewrite T2 in S2.
    destruct (_ <=? _)%nat; [congruence|].
    destruct S1 as (k1 & _ & -> & ->). destruct S2 as (k2 & _ & -> & ->). reflexivity. }
  destruct (negb (is_data (header f))) eqn:Ed.
  { eapply Same; unfold tail_plan; rewrite Ed; reflexivity. }
  destruct (127 <? length_estimate f a)%nat eqn:El.
  { eapply Same; unfold tail_plan; rewrite Ed, El; reflexivity. }
  destruct (level_is_none (security_level (control a))) eqn:En.
  { eapply Same; unfold tail_plan; rewrite Ed, El, En; reflexivity. }
  destruct (sc_frame_counter sc =? last_counter) eqn:Ef.
  { eapply Same; unfold tail_plan; rewrite Ed, El, En, Ef; reflexivity. }
  destruct (sc_key_provider sc DstAddrMode (key_identifier a) (destination (header f))) as [[x key]|] eqn:Ek.
  2:{ eapply Same; unfold tail_plan; rewrite Ed, El, En, Ef, Ek; reflexivity. }
  destruct (level_is_enc (security_level (control a))) eqn:Ee.
  { eapply Same; unfold tail_plan; rewrite Ed, El, En, Ef, Ek, Ee; reflexivity. }
  destruct (Nat.leb_spec (List.length (payload f)) (List.length tl)) as [Lp|Lp].
  - assert (A : agree E1 E2 key (cipher_inputs E1 key (security_level (control a)) (sc_euid sc) (sc_frame_counter sc) (payload f))).
    { apply (HA sc a key eq_refl eq_refl Hfc); [|fold front; lia].
      split; [now apply compression_ok_iff|]. split; [exact Ea|].
      split; [unfold is_data in Ed; destruct (frame_type (header f)); first [reflexivity|discriminate]|].
      split; [apply Nat.ltb_ge in El; exact El|].
      split; [destruct (security_level (control a)); first [reflexivity|discriminate]|].
      split; [now apply N.eqb_neq|]. exists x. exact Ek. }
    destruct (secured_agrees _ _ _ _ _ _ _ A) as [P T].
    eapply Same; unfold tail_plan; rewrite Ed, El, En, Ef, Ek, Ee; [reflexivity|]. now rewrite P, T.
  - unfold tail_plan in S1, S2. rewrite Ed, El, En, Ef, Ek, Ee in S1, S2.
    rewrite app_length, secured_payload_length in S1, S2.
    replace (List.length (payload f) + List.length (secured_tag E1 key (security_level (control a)) (sc_euid sc) (sc_frame_counter sc) (payload f)) <=? List.length tl)%nat
      with false in S1 by (symmetry; apply Nat.leb_gt; lia).
    replace (List.length (payload f) + List.length (secured_tag E2 key (security_level (control a)) (sc_euid sc) (sc_frame_counter sc) (payload f)) <=? List.length tl)%nat
      with false in S2 by (symmetry; apply Nat.leb_gt; lia).
    replace (List.length (payload f) <=? List.length tl)%nat with false in S1, S2 by (symmetry; apply Nat.leb_gt; lia).
    destruct S1 as (k1 & _ & -> & ->). destruct S2 as (k2 & _ & -> & ->). reflexivity.
Qed.

(** A frame that does not get as far as that is treated alike whatever the cipher: no key is used. *)
Theorem C84_no_key_used_sending : forall f m sc buf, frame_ok f -> u32_ok (sc_frame_counter sc) ->
  (m = Footer_None -> ~ exists a key, gets_ciphered sc f a key) ->
  try_write_frame c E1 f (ser_ctx m sc) buf = try_write_frame c E2 f (ser_ctx m sc) buf.
Proof using HE1 HE2.
  intros f m sc buf Hok Hfc Hn. apply C84_sending; [exact Hok| |].
  - intros sc' a key X Y _ G _. cbn [security_ctx footer_mode ser_ctx] in X, Y. injection X as <-.
    exfalso. apply (Hn Y). eauto.
  - intros sc' X. cbn [security_ctx ser_ctx] in X. injection X as <-. exact Hfc.
Qed.

(** ** Receiving *)

Theorem C84_receiving : forall {D} bs ctx (dl : DeviceLookup D) ds, octets bs -> cfg_ok c ->
  (forall k nonce b, on_auth_failure E1 k nonce b = on_auth_failure E2 k nonce b) ->
  (forall sc h n a eui key d put q tag,
     security_ctx ctx = Some sc -> footer_mode ctx = Footer_None ->
     try_read_header c bs = Ok (h, n) -> admitted sc dl ds h a eui key d put ->
     let l := security_level (control a) in
     skipn n bs = q ++ tag -> List.length tag = tag_len l ->
     (encrypting l = true -> N.of_nat (List.length q) < 2 ^ 16) ->
     agree E1 E2 key (cipher_inputs E1 key l eui (frame_counter a)
                        (secured_payload E1 key l eui (frame_counter a) q))) ->
  try_read_and_unsecure c E1 bs ctx dl ds = try_read_and_unsecure c E2 bs ctx dl ds.
Proof using HE1 HE2.
  intros D bs ctx dl ds Hb Hc Hf HA. rewrite !C64_receive_exact by assumption.
  destruct (try_read_header c bs) as [[h n]|e|] eqn:Eh; [|reflexivity|reflexivity].
  destruct (try_read_content h (skipn n bs)) as [[ct k]|e|] eqn:Et; [|reflexivity|reflexivity].
  destruct (auxiliary_security_header h) as [a|] eqn:Ea; [|reflexivity].
  destruct (security_ctx ctx) as [sc|] eqn:Esc; [|reflexivity].
  destruct (footer_mode ctx) eqn:Em; [|reflexivity].
  assert (R : receive E1 (overflow_checks c) sc dl ds h a (skipn (n + k) bs)
            = receive E2 (overflow_checks c) sc dl ds h a (skipn (n + k) bs)); [|rewrite R; reflexivity].
  destruct (admitted_dec E1 (overflow_checks c) sc dl ds h a (skipn (n + k) bs) Ea) as [(eui & key & d & put & Ad)|N1].
  - rewrite (admitted_receive E1 _ _ _ _ _ _ _ _ _ _ _ Ad), (admitted_receive E2 _ _ _ _ _ _ _ _ _ _ _ Ad). cbv zeta.
    assert (k = 0)%nat.
    { destruct Ad as (_ & Hd & _). unfold try_read_content in Et. rewrite Hd in Et. congruence. }
    subst k. rewrite Nat.add_0_r. set (rest := skipn n bs) in *. set (l := security_level (control a)) in *.
    destruct (Nat.ltb_spec (List.length rest) (tag_len l)) as [|L]; [reflexivity|].
    set (q := firstn (List.length rest - tag_len l) rest). set (t := skipn (List.length rest - tag_len l) rest).
    assert (Lq : List.length q = (List.length rest - tag_len l)%nat) by (unfold q; rewrite firstn_length; lia).
    destruct (encrypting l && (2 ^ 16 <=? N.of_nat (List.length rest - tag_len l))) eqn:Big.
    { cbn [negb]. rewrite !andb_false_r. now rewrite Hf. }
    assert (A : agree E1 E2 key (cipher_inputs E1 key l eui (frame_counter a) (secured_payload E1 key l eui (frame_counter a) q))).
    { apply (HA sc h n a eui key d put q t eq_refl eq_refl eq_refl Ad).
      - symmetry. apply firstn_skipn.
      - unfold t. rewrite skipn_length. fold l. lia.
      - intros Hl. fold l in Hl. rewrite Hl in Big. cbn [andb] in Big. apply N.leb_gt in Big. rewrite Lq. exact Big. }
    destruct (received_agrees _ _ _ _ _ _ _ A) as [P T]. rewrite T, P, Hf. reflexivity.
  - (* one of the checks fails: the same answer before any cipher is involved *)
    destruct N1 as (e1 & d1 & R1 & I1 & _). revert R1. unfold receive.
    destruct (negb (is_data h)); [reflexivity|].
    destruct (match version h with Ieee802154_2003 => true | _ => false end); [reflexivity|].
    destruct (level_is_none (security_level (control a))); [reflexivity|].
    destruct (sc_key_provider sc SrcAddrMode (key_identifier a) (source h)) as [[eui key]|]; [|reflexivity].
    destruct (source h) as [s|]; [|reflexivity].
    destruct (dl SrcAddrMode s ds) as [ds'|d put]; [reflexivity|].
    destruct (_ || _); [reflexivity|].
    destruct (level_is_enc _); [reflexivity|].
    destruct (_ <? _)%nat; [reflexivity|].
    cbv zeta. destruct (_ && _).
    + destruct (_ =? _); [destruct (overflow_checks c)|]; discriminate.
    + intros X. assert (e1 = TransformationError) by congruence. subst e1.
      cbn [In] in I1. repeat (destruct I1 as [I1|I1]; [discriminate|]). destruct I1.
Qed.

Theorem C84_no_key_used_receiving : forall {D} bs ctx (dl : DeviceLookup D) ds, octets bs -> cfg_ok c ->
  (forall k nonce b, on_auth_failure E1 k nonce b = on_auth_failure E2 k nonce b) ->
  (forall sc h n, security_ctx ctx = Some sc -> try_read_header c bs = Ok (h, n) ->
     ~ exists a eui key d put, admitted sc dl ds h a eui key d put) ->
  try_read_and_unsecure c E1 bs ctx dl ds = try_read_and_unsecure c E2 bs ctx dl ds.
Proof using HE1 HE2.
  intros D bs ctx dl ds Hb Hc Hf Hn. apply C84_receiving; [exact Hb|exact Hc|exact Hf|].
  intros sc h n a eui key d put q tag X _ Y Ad. exfalso. apply (Hn sc h n X Y). exists a, eui, key, d, put. exact Ad.
Qed.

End Cipher.

(** ** The amount of work *)

Lemma length_ccm_enc t nonce p : List.length nonce = 13%nat ->
  (List.length (ccm_blocks t nonce [] p) / 16 = 1 + (List.length p + 15) / 16)%nat.
Proof.
  intros Ln. unfold ccm_blocks. rewrite !app_length, Ln, be_length. cbn [List.length].
  destruct (pad16_whole p) as [k Hk]. pose proof (pad16_blocks p) as B. rewrite Hk in B |- *.
  rewrite Nat.div_mul in B by lia. lia.
Qed.

Lemma length_ccm_mic t nonce p : List.length nonce = 13%nat -> N.of_nat (List.length p) < 2 ^ 16 - 2 ^ 8 ->
  (List.length (ccm_blocks t nonce p []) / 16
   = 1 + if List.length p =? 0 then 0 else (List.length p + 2 + 15) / 16)%nat.
Proof.
  intros Ln Hp. destruct p as [|x p].
  - unfold ccm_blocks. rewrite !app_length, Ln, be_length. reflexivity.
  - unfold ccm_blocks. set (y := x :: p) in *. change (List.length y =? 0)%nat with false. cbv match.
    rewrite !app_length, Ln, be_length. cbn [List.length].
    unfold aad_length. apply N.ltb_lt in Hp. rewrite Hp.
    assert (L : List.length (be 2 (N.of_nat (List.length y)) ++ y) = (List.length y + 2)%nat)
      by (rewrite app_length, be_length; lia).
    set (z := be 2 (N.of_nat (List.length y)) ++ y) in *. clearbody z.
    replace (List.length (pad16 [])) with 0%nat by reflexivity.
    destruct (pad16_whole z) as [k Hk]. pose proof (pad16_blocks z) as B. rewrite Hk, L in B. rewrite Hk.
    rewrite Nat.div_mul in B by lia. lia.
Qed.

(** So many blocks. *)
Theorem C84_amount_of_work : forall {K} (E : block_cipher K) key l eui fc p,
  N.of_nat (List.length p) < 2 ^ 16 - 2 ^ 8 ->
  List.length (cipher_inputs E key l eui fc p) = cipher_calls l (List.length p).
Proof.
  intros K E key l eui fc p Hp. unfold cipher_inputs, cipher_calls. destruct (encrypting l).
  - rewrite app_length. unfold mac_inputs. rewrite !map_length, !seq_length, length_ccm_enc by apply mac_nonce_length. lia.
  - rewrite app_length. unfold mac_inputs. rewrite !map_length, !seq_length, length_ccm_mic by first [apply mac_nonce_length|exact Hp].
    cbn [List.length]. destruct (_ =? _)%nat; lia.
Qed.

(** A frame that is sent never costs more than 18 evaluations of the cipher. *)
Theorem C84_at_most_18_blocks : forall {K} (E : block_cipher K) sc f a key,
  gets_ciphered sc f a key ->
  (List.length (cipher_inputs E key (security_level (control a)) (sc_euid sc) (sc_frame_counter sc) (payload f)) <= 18)%nat.
Proof.
  intros K E sc f a key (_ & _ & _ & L & Au & _).
  assert (M : (3 <= mhr_len (header f))%nat) by (unfold mhr_len; lia).
  assert (X : (5 <= aux_len a)%nat) by (unfold aux_len; lia).
  unfold length_estimate in L.
  assert (Tg : (4 <= tag_len (security_level (control a)))%nat)
    by (destruct (security_level (control a)); first [discriminate Au|cbn; lia]).
  rewrite C84_amount_of_work by (change (2 ^ 16 - 2 ^ 8) with 65280; lia).
  unfold cipher_calls. destruct (encrypting _); [|destruct (_ =? _)%nat; [lia|]]; lia.
Qed.

(** * Concrete case: AES that works on the 4 blocks (2 for the MAC, 2 of key stream) of one frame
    under one key and returns zeros everywhere else sends and receives that frame as AES does; left
    without any one of them it does not. *)
Definition only_on (key : list N) (blocks : list (list N)) : block_cipher (list N) :=
  {| encrypt_block := fun k b =>
       if same_octets k key && existsb (same_octets b) blocks then encrypt_block aes_cipher k b else repeat 0 16;
     on_auth_failure := on_auth_failure aes_cipher |}.
Definition zero_key : list N := repeat 0 16.
Definition plain_text : list N := [0xAA; 0xBB; 0xCC].
Definition secret : Frame := level_frame SL_ENCMIC64 false plain_text.
Definition needed : list (list N) := cipher_inputs aes_cipher zero_key SL_ENCMIC64 1 41 plain_text.
Definition out (E : block_cipher (list N)) : list N :=
  written_bytes (try_write_frame host E secret (aes_ctx 1 41) (repeat 0 64)).
Definition without (i : nat) : list (list N) := firstn i needed ++ skipn (S i) needed.

Lemma only_on_ok key blocks : cipher_ok (only_on key blocks).
Proof.
  destruct aes_cipher_ok as [A B]. split; [|exact B]. intros k b L O. cbn [only_on encrypt_block].
  destruct (_ && _); [now apply A|]. split; [reflexivity|]. apply Forall_forall. intros x Hx.
  apply repeat_spec in Hx. now subst x.
Qed.

Example only_four_blocks :
  cipher_ok aes_cipher /\ cipher_ok (only_on zero_key needed) /\ frame_ok secret /\
  (exists sc a key, security_ctx (aes_ctx 1 41) = Some sc /\ gets_ciphered sc secret a key /\ key = zero_key /\
     agree aes_cipher (only_on zero_key needed) key
       (cipher_inputs aes_cipher key (security_level (control a)) (sc_euid sc) (sc_frame_counter sc) (payload secret))) /\
  List.length needed = 4%nat /\ cipher_calls SL_ENCMIC64 3 = 4%nat /\
  out (only_on zero_key needed) = out aes_cipher /\
  forallb (fun i => negb (same_octets (out (only_on zero_key (without i))) (out aes_cipher))) (List.seq 0 4) = true /\
  (* receiving *)
  (let hear E := match fst (try_read_and_unsecure host E (out aes_cipher) (aes_ctx 2 0) basic_dev_lookup (dev 0)) with
                 | Ok (f, n) => Ok (payload f, n) | Err e => Err e | Panic => Panic end in
   hear aes_cipher = Ok (plain_text, 32%nat) /\ hear (only_on zero_key needed) = Ok (plain_text, 32%nat) /\
   map (fun i => hear (only_on zero_key (without i))) (List.seq 0 4) = repeat (Err TransformationError) 4) /\
  (* an unknown device: the same refusal from a cipher that never works *)
  (forall E, cipher_ok E -> (forall k nonce b, on_auth_failure aes_cipher k nonce b = on_auth_failure E k nonce b) ->
     try_read_and_unsecure host aes_cipher (out aes_cipher) (aes_ctx 2 0) basic_dev_lookup (dev 42)
     = try_read_and_unsecure host E (out aes_cipher) (aes_ctx 2 0) basic_dev_lookup (dev 42)).
Proof.
  split; [exact aes_cipher_ok|]. split; [apply only_on_ok|].
  split; [apply level_frame_ok; repeat constructor|].
  split.
  { eexists. eexists. exists zero_key. split; [reflexivity|]. split; [|split; [reflexivity|]].
    - split; [unfold compression_allowed; intros X; discriminate X|]. split; [reflexivity|]. split; [reflexivity|].
      split; [vm_compute; lia|]. split; [reflexivity|]. split; [vm_compute; discriminate|]. exists 2. reflexivity.
    - intros b Hb. cbn [only_on encrypt_block]. unfold same_octets at 1.
      destruct (list_eq_dec N.eq_dec zero_key zero_key) as [_|X]; [|congruence]. cbn [andb].
      assert (X : existsb (same_octets b) needed = true); [|now rewrite X].
      apply existsb_exists. exists b. split; [exact Hb|]. now apply same_octets_eq. }
  split; [vm_compute; reflexivity|]. split; [reflexivity|].
  split; [vm_compute; reflexivity|]. split; [vm_compute; reflexivity|].
  split; [vm_compute; auto|].
  intros E HE Hf. apply C84_no_key_used_receiving; [exact aes_cipher_ok|exact HE| | |exact Hf|].
  - assert (O : forallb (fun x => x <? 256) (out aes_cipher) = true) by (vm_compute; reflexivity).
    apply Forall_forall. intros x Hx. apply N.ltb_lt. rewrite forallb_forall in O. exact (O x Hx).
  - unfold cfg_ok. cbn. lia.
  - intros sc h n X R (a & eui & key & d & put & Ad). cbn [aes_ctx security_ctx] in X. injection X as <-.
    destruct Ad as (Ha & _ & _ & _ & _ & (s & Hs & Hd) & _ & L).
    assert (Y : match try_read_header host (out aes_cipher) with
      | Ok (h, _) => option_map frame_counter (auxiliary_security_header h) | _ => None end = Some 41) by (vm_compute; reflexivity).
    rewrite R, Ha in Y. cbn [option_map] in Y. injection Y as Y. rewrite Y in L.
    unfold basic_dev_lookup in Hd. injection Hd as <- _. cbn in L. lia.
Qed.

Print Assumptions C84_sending.
Print Assumptions C84_no_key_used_sending.
Print Assumptions C84_receiving.
Print Assumptions C84_no_key_used_receiving.
Print Assumptions C84_amount_of_work.
Print Assumptions C84_at_most_18_blocks.
Print Assumptions only_four_blocks.
