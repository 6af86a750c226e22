(** Property C78: damage to the payload or the tag of a secured frame that is always noticed. *)
From Coq Require Import List Arith NArith ZArith Bool String Lia ZifyBool ZifyNat ZifyN.
From Verif Require Import ByteCrate Types HeaderModel BeaconModel CommandModel CcmModel FrameModel
  Spec SecSpec ProofLib HeaderProofs HeaderReadProofs BeaconProofs CommandProofs FrameProofs CcmProofs
  SecureProofs RepoTests Aes128 AesProofs AesPerm PropHeader PropContent PropFrame PropSecure PropReceive.
Import ListNotations.
Open Scope N_scope.
Open Scope list_scope.
Ltac Zify.zify_post_hook ::= Z.div_mod_to_equations.

(** A block cipher proper: under one key no two blocks are encrypted alike. *)
Definition permuting {K} (E : block_cipher K) : Prop := forall k b1 b2,
  List.length b1 = 16%nat -> octets b1 -> List.length b2 = 16%nat -> octets b2 ->
  encrypt_block E k b1 = encrypt_block E k b2 -> b1 = b2.

(** Octets in front of the payload in the block where it begins: none if it is encrypted, the
    length field (2 octets, except for payloads of 65280 octets or more) if it is only
    authenticated. *)
Definition lead (l : SecurityLevel) (p : list N) : nat :=
  if encrypting l then 0%nat else List.length (aad_length (N.of_nat (List.length p))).

Section Corrupt.
Context {K : Type} (E : block_cipher K).
Hypothesis HE : cipher_ok E.
Hypothesis HP : permuting E.
Variable key : K.

Lemma xor_at_left a b x n : xor_at a x n = xor_at b x n -> forall i, (i < n)%nat -> a i = b i.
Proof.
  intros H i Hi. assert (X : octet (xor_at a x n) i = octet (xor_at b x n) i) by now rewrite H.
  rewrite !octet_xor_at in X by exact Hi.
  apply (f_equal (fun y => N.lxor y (x i))) in X. now rewrite !N.lxor_assoc, !N.lxor_nilpotent, !N.lxor_0_r in X.
Qed.
Lemma xor_at_right a b x n : xor_at x a n = xor_at x b n -> forall i, (i < n)%nat -> a i = b i.
Proof.
  intros H i Hi. assert (X : octet (xor_at x a n) i = octet (xor_at x b n) i) by now rewrite H.
  rewrite !octet_xor_at in X by exact Hi.
  apply (f_equal (N.lxor (x i))) in X. now rewrite <- !N.lxor_assoc, !N.lxor_nilpotent, !N.lxor_0_l in X.
Qed.

(** If two strings of blocks differ in one block only, their authentication values differ. *)
Lemma cbc_differs B B' j i : octets B -> octets B' -> (i / 16 = j)%nat -> octet B i <> octet B' i ->
  (forall k, octet B k <> octet B' k -> (k / 16)%nat = j) ->
  forall n, if (n <=? j)%nat then cbc_mac E key B n = cbc_mac E key B' n
            else cbc_mac E key B n <> cbc_mac E key B' n.
Proof using HE HP.
  intros O O' Hj Hd Hs n. induction n as [|n IH]; [reflexivity|]. cbn [cbc_mac].
  destruct (cbc_mac_block E key HE B n O) as [L1 O1]. destruct (cbc_mac_block E key HE B' n O') as [L2 O2].
  assert (Ob : forall X Y, octets X -> octets Y ->
    List.length (xor_at (octet X) (octet (skipn (16 * n) Y)) 16) = 16%nat /\
    octets (xor_at (octet X) (octet (skipn (16 * n) Y)) 16)).
  { intros X Y HX HY. split; [apply xor_at_length|]. apply octets_xor_at; intros k; apply octets_octet0; [exact HX|now apply octets_skipn]. }
  destruct (Ob _ _ O1 O) as [La Oa]. destruct (Ob _ _ O2 O') as [Lb Ob'].
  assert (Same : n <> j -> forall k, (k < 16)%nat -> octet (skipn (16 * n) B) k = octet (skipn (16 * n) B') k).
  { intros Hn k Hk. rewrite !octet_skipn. destruct (N.eq_dec (octet B (16 * n + k)) (octet B' (16 * n + k))) as [|Hne]; [assumption|].
    specialize (Hs _ Hne). lia. }
  destruct (Nat.leb_spec (S n) j) as [Hle|Hgt].
  - replace (n <=? j)%nat with true in IH by (symmetry; apply Nat.leb_le; lia). rewrite IH. f_equal.
    apply xor_at_ext. intros k Hk. split; [reflexivity|]. apply Same; lia.
  - intros X. apply HP in X; try assumption.
    destruct (Nat.leb_spec n j) as [Hle|Hn].
    + assert (n = j) by lia. subst n. rewrite IH in X.
      pose proof (xor_at_right _ _ _ _ X (i mod 16)%nat ltac:(lia)) as Y. rewrite !octet_skipn in Y.
      replace (16 * j + i mod 16)%nat with i in Y by lia. contradiction.
    + apply IH. apply list_octets_ext; [congruence|]. intros k Hk. rewrite L1 in Hk.
      assert (Z : xor_at (octet (cbc_mac E key B' n)) (octet (skipn (16 * n) B')) 16
                  = xor_at (octet (cbc_mac E key B' n)) (octet (skipn (16 * n) B)) 16).
      { apply xor_at_ext. intros u Hu. split; [reflexivity|]. symmetry. apply Same; lia. }
      rewrite Z in X. exact (xor_at_left _ _ _ _ X k Hk).
Qed.

(** Two payloads of the same length that differ within one block have different 16-octet tags. *)
Lemma tag_differs l eui fc p q i : tag_len l = 16%nat -> octets p -> octets q ->
  List.length p = List.length q -> octet p i <> octet q i ->
  (forall k, octet p k <> octet q k -> (k + lead l p) / 16 = (i + lead l p) / 16)%nat ->
  secured_tag E key l eui fc p <> secured_tag E key l eui fc q.
Proof using HE HP.
  intros Hl Op Oq Hlen Hd Hs T.
  assert (Hi : (i < List.length p)%nat).
  { destruct (Nat.lt_ge_cases i (List.length p)) as [|G]; [assumption|]. exfalso. apply Hd. unfold octet.
    rewrite !nth_overflow by lia. reflexivity. }
  (* the strings that are authenticated: [hd] and the payload at [off] *)
  assert (G : forall hd t, octets hd ->
     (forall k, octet p k <> octet q k -> (k + List.length hd) / 16 = (i + List.length hd) / 16)%nat ->
     octets t ->
     forall m, (16 * m = List.length (hd ++ p ++ t))%nat ->
     cbc_mac E key (hd ++ p ++ t) m <> cbc_mac E key (hd ++ q ++ t) m).
  { intros hd t Oh Hb Ot m Hm.
    pose proof (cbc_differs (hd ++ p ++ t) (hd ++ q ++ t) ((i + List.length hd) / 16)%nat (i + List.length hd)%nat) as X.
    specialize (X ltac:(apply octets_app; split; [exact Oh|]; apply octets_app; now split)
                  ltac:(apply octets_app; split; [exact Oh|]; apply octets_app; now split) eq_refl).
    assert (At : forall u k, (k < List.length u)%nat -> octet (hd ++ u ++ t) (k + List.length hd) = octet u k).
    { intros u k Hk. rewrite octet_app_r by lia. rewrite octet_app_l by lia. f_equal. lia. }
    rewrite !At in X by lia. specialize (X Hd).
    assert (Y : forall k, octet (hd ++ p ++ t) k <> octet (hd ++ q ++ t) k -> (k / 16 = (i + List.length hd) / 16)%nat).
    { intros k Hk. destruct (Nat.lt_ge_cases k (List.length hd)) as [Lk|Gk].
      - rewrite !octet_app_l in Hk by lia. contradiction.
      - destruct (Nat.lt_ge_cases k (List.length hd + List.length p)) as [L2|G2].
        + specialize (Hb (k - List.length hd)%nat).
          rewrite <- !(At _ (k - List.length hd)%nat) in Hb by lia.
          replace (k - List.length hd + List.length hd)%nat with k in Hb by lia. now apply Hb.
        + exfalso. apply Hk. rewrite !octet_app_r by lia. f_equal. lia. }
    specialize (X Y m). rewrite !app_length in Hm.
    replace (m <=? (i + List.length hd) / 16)%nat with false in X by (symmetry; apply Nat.leb_gt; lia). exact X. }
  assert (Nl : List.length (mac_nonce eui fc l) = 13%nat) by (unfold mac_nonce; rewrite !app_length, !le_length; reflexivity).
  assert (No : octets (mac_nonce eui fc l)).
  { unfold mac_nonce. apply octets_app; split; [apply octets_le|]. apply octets_app; split; [apply octets_le|].
    apply octets_cons. split; [destruct l; reflexivity|exact octets_nil]. }
  assert (TT : forall B B', xor_at (octet (cbc_mac E key B (List.length B / 16))) (octet (key_stream E key (mac_nonce eui fc l) 0)) 16
     = xor_at (octet (cbc_mac E key B' (List.length B' / 16))) (octet (key_stream E key (mac_nonce eui fc l) 0)) 16 ->
     octets B -> octets B' -> cbc_mac E key B (List.length B / 16) = cbc_mac E key B' (List.length B' / 16)).
  { intros B B' X OB OB'. destruct (cbc_mac_block E key HE B (List.length B / 16) OB) as [LB _].
    destruct (cbc_mac_block E key HE B' (List.length B' / 16) OB') as [LB' _].
    apply list_octets_ext; [congruence|]. intros k Hk. rewrite LB in Hk. exact (xor_at_left _ _ _ _ X k Hk). }
  assert (Ob2 : forall n, octets (be 2 n)) by (intros n; unfold be, octets; apply Forall_rev, octets_le).
  assert (Oz : forall n, octets (repeat 0 n)) by (intros n; apply Forall_forall; intros x Hx; apply repeat_spec in Hx; subst; reflexivity).
  assert (L2 : forall n, List.length (be 2 n) = 2%nat) by (intros n; unfold be; now rewrite rev_length, le_length).
  destruct l; try discriminate Hl; unfold secured_tag, ccm_tag in T; cbn [tag_len] in T.
  - (* MIC-128 *)
    destruct p as [|p0 p']; [cbn in Hi; lia|]. destruct q as [|q0 q']; [discriminate|].
    set (p := p0 :: p') in *. set (q := q0 :: q') in *.
    assert (EB : forall u, u <> [] -> List.length u = List.length p -> ccm_blocks 16 (mac_nonce eui fc SL_MIC128) u []
      = ([64 * flag true + 8 * ((N.of_nat 16 - 2) / 2) + 1] ++ mac_nonce eui fc SL_MIC128 ++ be 2 0
         ++ aad_length (N.of_nat (List.length p))) ++ u
        ++ repeat 0 ((16 - (List.length (aad_length (N.of_nat (List.length p))) + List.length p) mod 16) mod 16)).
    { intros u Hu Lu. unfold ccm_blocks. destruct u as [|u0 u']; [congruence|]. set (u := u0 :: u') in *.
      replace (List.length u =? 0)%nat with false by reflexivity. cbn [negb].
      rewrite pad16_nil, app_nil_r. unfold pad16. rewrite app_length, Lu, <- !app_assoc. reflexivity. }
    rewrite !EB in T by (discriminate || (cbn [List.length]; lia) || congruence).
    destruct (aad_length_facts (N.of_nat (List.length p))) as [Fl Fo].
    set (al := aad_length (N.of_nat (List.length p))) in *.
    set (hd := [_] ++ _) in T. set (t := repeat 0 _) in T.
    assert (Oh : octets hd).
    { unfold hd. apply octets_app. split; [apply octets_cons; split; [reflexivity|exact octets_nil]|].
      apply octets_app. split; [exact No|]. apply octets_app. split; [apply Ob2|exact Fo]. }
    assert (Lh : List.length hd = (16 + List.length al)%nat).
    { unfold hd. rewrite !app_length, Nl, L2. cbn [List.length]. lia. }
    assert (Lt : (16 * ((16 + List.length al + List.length p + 15) / 16) = List.length (hd ++ p ++ t))%nat).
    { rewrite !app_length, Lh. unfold t. rewrite repeat_length. lia. }
    assert (Lt2 : List.length (hd ++ q ++ t) = List.length (hd ++ p ++ t)) by (rewrite !app_length; lia).
    apply TT in T.
    2,3: apply octets_app; split; [exact Oh|]; apply octets_app; split; [assumption|apply Oz].
    rewrite Lt2 in T.
    refine (G hd t Oh _ (Oz _) _ _ T).
    + intros k Hk. rewrite Lh. specialize (Hs k Hk). unfold lead in Hs. cbn [encrypting] in Hs. fold al in Hs. lia.
    + clear - Lt. lia.
  - (* ENC-MIC-128 *)
    assert (EB : forall u, List.length u = List.length p -> ccm_blocks 16 (mac_nonce eui fc SL_ENCMIC128) [] u
      = ([64 * flag false + 8 * ((N.of_nat 16 - 2) / 2) + 1] ++ mac_nonce eui fc SL_ENCMIC128 ++ be 2 (N.of_nat (List.length p)))
        ++ u ++ repeat 0 ((16 - List.length p mod 16) mod 16)).
    { intros u Lu. unfold ccm_blocks. cbn [List.length Nat.eqb negb app].
      unfold pad16. rewrite Lu, <- !app_assoc. reflexivity. }
    rewrite !EB in T by congruence.
    set (hd := [_] ++ _) in T. set (t := repeat 0 _) in T.
    assert (Oh : octets hd).
    { unfold hd. apply octets_app. split; [apply octets_cons; split; [reflexivity|exact octets_nil]|].
      apply octets_app. split; [exact No|]. apply Ob2. }
    assert (Lh : List.length hd = 16%nat).
    { unfold hd. rewrite !app_length, Nl, L2. reflexivity. }
    assert (Lt : (16 * ((16 + List.length p + 15) / 16) = List.length (hd ++ p ++ t))%nat).
    { rewrite !app_length, Lh. unfold t. rewrite repeat_length. lia. }
    assert (Lt2 : List.length (hd ++ q ++ t) = List.length (hd ++ p ++ t)) by (rewrite !app_length; lia).
    apply TT in T.
    2,3: apply octets_app; split; [exact Oh|]; apply octets_app; split; [assumption|apply Oz].
    rewrite Lt2 in T.
    refine (G hd t Oh _ (Oz _) _ _ T).
    + intros k Hk. rewrite Lh. specialize (Hs k Hk). unfold lead in Hs. cbn [encrypting] in Hs. lia.
    + clear - Lt. lia.
Qed.
End Corrupt.

Section Reader.
Context {K D : Type} (c : cfg) (E : block_cipher K).
Hypothesis HE : cipher_ok E.
Implicit Types (dl : DeviceLookup D) (ds : D).

(** The reader refuses [bs2] because its tag does not verify: it reports TransformationError, and
    neither context nor device store change. *)
Definition refused_as_damaged bs2 (ctx : FrameSerDesContext K) dl ds : Prop :=
  exists bs2' ds2, try_read_and_unsecure c E bs2 ctx dl ds = (Err TransformationError, (bs2', ctx, ds2)) /\
    (lawful_lookup dl -> ds2 = ds).

(** The octets of an accepted frame with other octets after the header are refused unless these
    carry the tag of their own payload. *)
Lemma refused bs ctx dl ds f n r a rest : octets bs -> octets rest ->
  try_read_and_unsecure c E bs ctx dl ds = (Ok (f, n), r) ->
  auxiliary_security_header (header f) = Some a ->
  let l := security_level (control a) in
  let hl := header_len (header f) in
  (tag_len l <= List.length rest)%nat ->
  exists eui key,
    skipn hl bs = secured_payload E key l eui (frame_counter a) (payload f) ++ secured_tag E key l eui (frame_counter a) (payload f) /\
    n = (hl + List.length (payload f))%nat /\ (hl <= List.length bs)%nat /\ authenticated l = true /\
    (let k := (List.length rest - tag_len l)%nat in
     secured_tag E key l eui (frame_counter a) (secured_payload E key l eui (frame_counter a) (firstn k rest)) <> skipn k rest ->
     refused_as_damaged (firstn hl bs ++ rest) ctx dl ds).
Proof using HE.
  intros Hb Hr R Ha l hl Hlen. destruct r as [[bs' ctx'] ds'].
  apply (C32_accepted_iff c E HE bs ctx dl ds f n bs' ctx' ds' a Hb Ha) in R.
  destruct R as (sc & eui & key & d & put & r7 & rs & -> & -> & Hd & Ec & Ef & A & Hrs & Eb & Hl & Hoc & -> & _ & ->).
  fold l in Eb. exists eui, key.
  assert (Lw : List.length (wire_header LE (native c) r7 rs (header f)) = hl) by (unfold hl; now rewrite wire_header_length).
  split; [rewrite Eb; now apply skipn_app_exact'|]. split; [reflexivity|].
  split; [rewrite Eb, app_length; lia|].
  pose proof A as (_ & Ht & Hv & Hau & Hk & (s & Hs & Hdl) & Hm & Hc). fold l in Hau. split; [exact Hau|].
  cbv zeta. intros Hne.
  assert (Ew : firstn hl bs = wire_header LE (native c) r7 rs (header f)) by (rewrite Eb; now apply firstn_app_exact').
  rewrite Ew.
  assert (Ob : octets (wire_header LE (native c) r7 rs (header f) ++ rest)).
  { rewrite <- Ew. apply octets_app. split; [now apply octets_firstn|exact Hr]. }
  assert (EH : try_read_header c (wire_header LE (native c) r7 rs (header f) ++ rest) = Ok (header f, hl)).
  { apply (C03_header_decode_exact c); [exact Ob|]. split; [exact Hd|]. split; [rewrite app_length; lia|].
    exists r7, rs. split; [exact Hrs|]. now apply firstn_app_exact'. }
  assert (EC : try_read_content (header f) (skipn hl (wire_header LE (native c) r7 rs (header f) ++ rest)) = Ok (FC_Data, 0%nat)).
  { rewrite skipn_app_exact' by (symmetry; exact Lw). now rewrite try_read_content_eq, Ht. }
  unfold refused_as_damaged.
  rewrite (read_and_unsecure_eq c E HE _ _ _ _ _ _ _ _ _ Ob EH EC Ha).
  rewrite Nat.add_0_r, skipn_app_exact' by (symmetry; exact Lw).
  rewrite (admitted_receive E _ _ _ _ _ _ _ _ _ _ rest A). cbv zeta. fold l.
  replace (List.length rest <? tag_len l)%nat with false by (symmetry; apply Nat.ltb_ge; lia).
  replace (same_octets _ _) with false.
  2:{ symmetry. apply not_true_is_false. intros X. apply same_octets_eq in X. contradiction. }
  cbn [andb]. do 2 eexists. split; [reflexivity|]. intros L. specialize (L s ds). now rewrite Hdl in L.
Qed.

(** At every level, an accepted frame with another tag is refused. *)
Theorem C78_tag_damage_refused : forall bs ctx dl ds f n r a tag, octets bs -> octets tag ->
  try_read_and_unsecure c E bs ctx dl ds = (Ok (f, n), r) ->
  auxiliary_security_header (header f) = Some a ->
  List.length tag = List.length (skipn n bs) -> tag <> skipn n bs ->
  refused_as_damaged (firstn n bs ++ tag) ctx dl ds.
Proof using HE.
  intros bs ctx dl ds f n r a tag Hb Ht R Ha Hl Hne.
  set (l := security_level (control a)). set (hl := header_len (header f)).
  destruct (refused bs ctx dl ds f n r a (skipn hl (firstn n bs) ++ tag) Hb) with (2 := R) (3 := Ha) as (eui & key & Sk & En & Lb & Hau & X).
  - apply octets_app. split; [now apply octets_skipn, octets_firstn|exact Ht].
  - rewrite app_length. assert (L : List.length (skipn n bs) = tag_len l); [|rewrite Hl, L; unfold l; lia].
    destruct r as [[bs' ctx'] ds'].
    apply (C32_accepted_iff c E HE bs ctx dl ds f n bs' ctx' ds' a Hb Ha) in R.
    destruct R as (sc & eui & key & d & put & r7 & rs & _ & _ & Hd & _ & _ & _ & _ & Eb & _ & _ & -> & _).
    rewrite Eb, app_assoc. rewrite skipn_app_exact' by (rewrite app_length, wire_header_length, secured_payload_length; reflexivity).
    apply secured_tag_length.
  - fold l hl in Sk, En, Lb, Hau, X.
    assert (Lt : List.length (secured_tag E key l eui (frame_counter a) (payload f)) = tag_len l) by apply secured_tag_length.
    assert (Lp : List.length (secured_payload E key l eui (frame_counter a) (payload f)) = List.length (payload f)) by apply secured_payload_length.
    assert (Sn : skipn n bs = secured_tag E key l eui (frame_counter a) (payload f)).
    { rewrite En, <- skipn_skipn', Sk. now apply skipn_app_exact'. }
    assert (Fn : skipn hl (firstn n bs) = secured_payload E key l eui (frame_counter a) (payload f)).
    { rewrite skipn_firstn_comm, Sk, En. replace (hl + List.length (payload f) - hl)%nat with (List.length (payload f)) by lia.
      now apply firstn_app_exact'. }
    rewrite Sn in *. rewrite Fn in *.
    cbv zeta in X. rewrite app_length, Hl, Lt, Lp in X.
    replace (List.length (payload f) + tag_len l - tag_len l)%nat with (List.length (payload f)) in X by lia.
    rewrite firstn_app_exact', skipn_app_exact', secured_payload_involutive in X by congruence.
    assert (Eq : firstn n bs ++ tag = firstn hl bs ++ secured_payload E key l eui (frame_counter a) (payload f) ++ tag).
    { rewrite <- Fn, app_assoc. f_equal. rewrite <- (firstn_skipn hl (firstn n bs)) at 1. f_equal.
      rewrite firstn_firstn. f_equal. lia. }
    rewrite Eq. apply X. congruence.
Qed.

Hypothesis HP : permuting E.

(** At the levels with a 16-octet tag: an accepted frame damaged anywhere in its payload, but
    within one block only, is refused. *)
Theorem C78_payload_damage_refused : forall bs ctx dl ds f n r a bs2 i, octets bs -> octets bs2 ->
  try_read_and_unsecure c E bs ctx dl ds = (Ok (f, n), r) ->
  auxiliary_security_header (header f) = Some a ->
  let l := security_level (control a) in
  tag_len l = 16%nat ->
  List.length bs2 = List.length bs -> octet bs2 i <> octet bs i ->
  (let at_block k := ((k - header_len (header f) + lead l (payload f)) / 16)%nat in
   forall k, octet bs2 k <> octet bs k -> (header_len (header f) <= k < n)%nat /\ at_block k = at_block i) ->
  refused_as_damaged bs2 ctx dl ds.
Proof using HE HP.
  intros bs ctx dl ds f n r a bs2 i Hb Hb2 R Ha l H16 Hlen Hd Hs. cbv zeta in Hs.
  set (hl := header_len (header f)) in *.
  assert (Oc : forall k, ~ (hl <= k < n)%nat -> octet bs2 k = octet bs k).
  { intros k Hk. destruct (N.eq_dec (octet bs2 k) (octet bs k)) as [|X]; [assumption|]. apply Hs in X. lia. }
  destruct (Hs i Hd) as [Hi _].
  destruct (refused bs ctx dl ds f n r a (skipn hl bs2) Hb) with (2 := R) (3 := Ha) as (eui & key & Sk & En & Lb & Hau & X).
  { now apply octets_skipn. }
  { rewrite skipn_length, Hlen. destruct r as [[bs' ctx'] ds'].
    apply (C32_accepted_iff c E HE bs ctx dl ds f n bs' ctx' ds' a Hb Ha) in R.
    destruct R as (sc & eui & key & d & put & r7 & rs & _ & _ & _ & _ & _ & _ & _ & Eb & _).
    rewrite Eb, !app_length, wire_header_length, secured_payload_length, secured_tag_length. fold l hl. lia. }
  fold l hl in Sk, En, Lb, Hau, X.
  assert (Lt : List.length (secured_tag E key l eui (frame_counter a) (payload f)) = tag_len l) by apply secured_tag_length.
  assert (Lp : List.length (secured_payload E key l eui (frame_counter a) (payload f)) = List.length (payload f)) by apply secured_payload_length.
  assert (Lr : (List.length bs - hl = List.length (payload f) + tag_len l)%nat).
  { rewrite <- skipn_length, Sk, app_length. lia. }
  assert (E1 : firstn hl bs ++ skipn hl bs2 = bs2).
  { rewrite <- (firstn_skipn hl bs2) at 2. f_equal. apply list_octets_ext; [rewrite !firstn_length; lia|].
    intros k Hk. rewrite firstn_length in Hk. rewrite !octet_firstn by lia. symmetry. apply Oc. lia. }
  rewrite E1 in X. apply X. clear X E1. rewrite skipn_length, Hlen, Lr.
  replace (List.length (payload f) + tag_len l - tag_len l)%nat with (List.length (payload f)) by lia.
  set (np := List.length (payload f)) in *.
  assert (E2 : skipn np (skipn hl bs2) = secured_tag E key l eui (frame_counter a) (payload f)).
  { assert (Y : skipn np (skipn hl bs) = secured_tag E key l eui (frame_counter a) (payload f)) by (rewrite Sk; now apply skipn_app_exact').
    rewrite <- Y. apply list_octets_ext; [rewrite !skipn_length; lia|]. intros k Hk. rewrite !octet_skipn. apply Oc. lia. }
  rewrite E2. intros T.
  assert (Of : octets (payload f)).
  { rewrite <- (secured_payload_involutive E key l eui (frame_counter a) (payload f)).
    apply (octets_secured_payload E HE).
    assert (Y : octets (skipn hl bs)) by now apply octets_skipn. rewrite Sk in Y. apply octets_app in Y. apply Y. }
  (* plaintexts differ where the octets received differ *)
  assert (Pq : forall u v k, List.length u = np -> List.length v = np -> (k < np)%nat ->
     (octet (secured_payload E key l eui (frame_counter a) u) k = octet (secured_payload E key l eui (frame_counter a) v) k
      <-> octet u k = octet v k)).
  { intros u v k Lu Lv Hk.
    assert (Z : forall x y z, N.lxor x z = N.lxor y z <-> x = y).
    { intros x y z. split; [|now intros ->]. intros W. apply (f_equal (fun w => N.lxor w z)) in W.
      now rewrite !N.lxor_assoc, !N.lxor_nilpotent, !N.lxor_0_r in W. }
    destruct l; unfold secured_payload; try reflexivity;
      (unfold ccm_cipher; rewrite !octet_xor_at by lia; apply Z). }
  set (q := secured_payload E key l eui (frame_counter a) (firstn np (skipn hl bs2))) in *.
  assert (Lf : List.length (firstn np (skipn hl bs2)) = np) by (rewrite firstn_length, skipn_length; lia).
  assert (Lq : List.length q = np) by (unfold q; now rewrite secured_payload_length).
  assert (Oq : octets q) by (unfold q; apply (octets_secured_payload E HE); now apply octets_firstn, octets_skipn).
  assert (Dk : forall k, (k < np)%nat -> (octet q k = octet (payload f) k <-> octet bs2 (hl + k) = octet bs (hl + k))).
  { intros k Hk. unfold q.
    rewrite <- (secured_payload_involutive E key l eui (frame_counter a) (payload f)).
    rewrite Pq by (rewrite ?secured_payload_length; auto).
    rewrite octet_firstn, octet_skipn by lia.
    assert (Y : octet (secured_payload E key l eui (frame_counter a) (payload f)) k = octet bs (hl + k)).
    { rewrite <- octet_skipn, Sk, octet_app_l by lia. reflexivity. }
    rewrite Y. reflexivity. }
  apply (tag_differs E HE HP key l eui (frame_counter a) (payload f) q (i - hl)%nat H16 Of Oq (eq_sym Lq)); [..|now symmetry].
  - intros Y. symmetry in Y. apply Dk in Y; [|lia]. replace (hl + (i - hl))%nat with i in Y by lia. contradiction.
  - intros k Hk. destruct (Nat.lt_ge_cases k np) as [Lk|Gk].
    + assert (Y : octet bs2 (hl + k) <> octet bs (hl + k)) by (intros W; apply Dk in W; [congruence|lia]).
      apply Hs in Y. destruct Y as [_ Y]. replace (hl + k - hl)%nat with k in Y by lia. exact Y.
    + exfalso. apply Hk. unfold octet. rewrite !nth_overflow by lia. reflexivity.
Qed.
End Reader.

(** ** One octet *)

(** [bs] with octet [i] replaced by [v]. *)
Definition with_octet (bs : list N) (i : nat) (v : N) : list N := firstn i bs ++ v :: skipn (S i) bs.

Lemma with_octet_at bs i v k : (i < List.length bs)%nat ->
  octet (with_octet bs i v) k = if (k =? i)%nat then v else octet bs k.
Proof.
  intros Hi. unfold with_octet. assert (L : List.length (firstn i bs) = i) by (rewrite firstn_length; lia).
  destruct (Nat.eqb_spec k i) as [->|Hk].
  - rewrite octet_app_r by lia. rewrite L, Nat.sub_diag. reflexivity.
  - destruct (Nat.lt_ge_cases k i) as [Lk|Gk].
    + rewrite octet_app_l by lia. now apply octet_firstn.
    + rewrite octet_app_r by lia. rewrite L. replace (k - i)%nat with (S (k - S i)) by lia.
      change (octet (v :: skipn (S i) bs) (S (k - S i))) with (octet (skipn (S i) bs) (k - S i)).
      rewrite octet_skipn. f_equal. lia.
Qed.
Lemma with_octet_length bs i v : (i < List.length bs)%nat -> List.length (with_octet bs i v) = List.length bs.
Proof. intros Hi. unfold with_octet. rewrite app_length, firstn_length. cbn [List.length]. rewrite skipn_length. lia. Qed.
Lemma octets_with_octet bs i v : octets bs -> v < 256 -> octets (with_octet bs i v).
Proof.
  intros Hb Hv. unfold with_octet. apply octets_app. split; [now apply octets_firstn|]. apply octets_cons. split; [exact Hv|now apply octets_skipn].
Qed.

Section OneOctet.
Context {K D : Type} (c : cfg) (E : block_cipher K).
Hypothesis HE : cipher_ok E.
Implicit Types (dl : DeviceLookup D) (ds : D).

Lemma accepted_layout bs ctx dl ds f n r a : octets bs ->
  try_read_and_unsecure c E bs ctx dl ds = (Ok (f, n), r) -> auxiliary_security_header (header f) = Some a ->
  n = (header_len (header f) + List.length (payload f))%nat /\
  List.length bs = (n + tag_len (security_level (control a)))%nat.
Proof using HE.
  intros Hb R Ha. destruct r as [[bs' ctx'] ds'].
  apply (C32_accepted_iff c E HE bs ctx dl ds f n bs' ctx' ds' a Hb Ha) in R.
  destruct R as (sc & eui & key & d & put & r7 & rs & _ & _ & _ & _ & _ & _ & _ & Eb & _ & _ & -> & _).
  split; [reflexivity|]. rewrite Eb, !app_length, wire_header_length, secured_payload_length, secured_tag_length. lia.
Qed.

(** One octet of the tag: at every level and for every cipher. *)
Theorem C78_one_tag_octet : forall bs ctx dl ds f n r a i v, octets bs ->
  try_read_and_unsecure c E bs ctx dl ds = (Ok (f, n), r) ->
  auxiliary_security_header (header f) = Some a ->
  (n <= i < List.length bs)%nat -> v < 256 -> v <> octet bs i ->
  refused_as_damaged c E (with_octet bs i v) ctx dl ds.
Proof using HE.
  intros bs ctx dl ds f n r a i v Hb R Ha Hi Hv Hne.
  assert (Eq : with_octet bs i v = firstn n bs ++ skipn n (with_octet bs i v)).
  { rewrite <- (firstn_skipn n (with_octet bs i v)) at 1. f_equal.
    apply list_octets_ext; [rewrite !firstn_length, with_octet_length; lia|].
    intros k Hk. rewrite firstn_length in Hk. rewrite !octet_firstn by lia. rewrite with_octet_at by lia.
    destruct (Nat.eqb_spec k i); [lia|reflexivity]. }
  rewrite Eq. apply (C78_tag_damage_refused c E HE bs ctx dl ds f n r a); try assumption.
  - apply octets_skipn. now apply octets_with_octet.
  - rewrite !skipn_length, with_octet_length by lia. reflexivity.
  - intros X. assert (Y : octet (skipn n (with_octet bs i v)) (i - n) = octet (skipn n bs) (i - n)) by now rewrite X.
    rewrite !octet_skipn in Y. replace (n + (i - n))%nat with i in Y by lia. rewrite with_octet_at, Nat.eqb_refl in Y by lia.
    contradiction.
Qed.

Hypothesis HP : permuting E.

(** One octet of the payload or of the tag, at the levels with a 16-octet tag. *)
Theorem C78_one_octet : forall bs ctx dl ds f n r a i v, octets bs ->
  try_read_and_unsecure c E bs ctx dl ds = (Ok (f, n), r) ->
  auxiliary_security_header (header f) = Some a ->
  tag_len (security_level (control a)) = 16%nat ->
  (header_len (header f) <= i < List.length bs)%nat -> v < 256 -> v <> octet bs i ->
  refused_as_damaged c E (with_octet bs i v) ctx dl ds.
Proof using HE HP.
  intros bs ctx dl ds f n r a i v Hb R Ha H16 Hi Hv Hne.
  destruct (Nat.lt_ge_cases i n) as [Ln|Gn].
  - apply (C78_payload_damage_refused c E HE HP bs ctx dl ds f n r a (with_octet bs i v) i); try assumption.
    + now apply octets_with_octet.
    + apply with_octet_length. lia.
    + rewrite with_octet_at, Nat.eqb_refl by lia. exact Hne.
    + cbv zeta. intros k Hk. rewrite with_octet_at in Hk by lia. destruct (Nat.eqb_spec k i) as [Ek|]; [|contradiction].
      rewrite Ek. split; [lia|reflexivity].
  - now apply (C78_one_tag_octet bs ctx dl ds f n r a).
Qed.

(** A damaged copy does not spoil the undamaged one: the frame is accepted when it arrives
    after any number of copies with one octet of payload or tag replaced. *)
Theorem C78_damaged_copies_then_the_frame : forall bs ctx dl ds f n r a, octets bs -> lawful_lookup dl ->
  try_read_and_unsecure c E bs ctx dl ds = (Ok (f, n), r) ->
  auxiliary_security_header (header f) = Some a ->
  tag_len (security_level (control a)) = 16%nat ->
  forall damage, Forall (fun iv => (header_len (header f) <= fst iv < List.length bs)%nat /\ snd iv < 256 /\
                                   snd iv <> octet bs (fst iv)) damage ->
  let arrivals := map (fun iv => with_octet bs (fst iv) (snd iv)) damage in
  let store := fold_left (fun s x => snd (snd (try_read_and_unsecure c E x ctx dl s))) arrivals ds in
  Forall (fun x => fst (try_read_and_unsecure c E x ctx dl ds) = Err TransformationError) arrivals /\
  store = ds /\ try_read_and_unsecure c E bs ctx dl store = (Ok (f, n), r).
Proof using HE HP.
  intros bs ctx dl ds f n r a Hb HL R Ha H16 damage HD. cbv zeta.
  assert (X : Forall (fun x => exists b', try_read_and_unsecure c E x ctx dl ds = (Err TransformationError, (b', ctx, ds)))
                (map (fun iv => with_octet bs (fst iv) (snd iv)) damage)).
  { apply Forall_forall. intros x Hx. apply in_map_iff in Hx. destruct Hx as ([i v] & <- & Hin).
    rewrite Forall_forall in HD. destruct (HD _ Hin) as (Hi & Hv & Hne). cbn [fst snd] in *.
    destruct (C78_one_octet bs ctx dl ds f n r a i v Hb R Ha H16 Hi Hv Hne) as (b' & ds2 & Y & L).
    exists b'. rewrite Y, (L HL). reflexivity. }
  assert (S : fold_left (fun s x => snd (snd (try_read_and_unsecure c E x ctx dl s)))
                (map (fun iv => with_octet bs (fst iv) (snd iv)) damage) ds = ds).
  { revert X. generalize (map (fun iv => with_octet bs (fst iv) (snd iv)) damage). induction l as [|x l IH]; intros X; [reflexivity|].
    inversion X as [|? ? (b' & Y) Z]; subst. cbn [fold_left]. rewrite Y. cbn [snd]. now apply IH. }
  split; [|split; [exact S|now rewrite S]].
  eapply Forall_impl; [|exact X]. intros x (b' & Y). now rewrite Y.
Qed.
End OneOctet.

(** ** AES-128 *)
Lemma aes_encrypts k b : encrypt_block aes_cipher k b = aes128 (key16 k) b.
Proof. reflexivity. Qed.
Theorem C78_aes_is_permuting : permuting aes_cipher.
Proof.
  intros k b1 b2 L1 O1 L2 O2 H.
  apply (aes128_injective (key16 k)); [apply key16_block|now split|now split|].
  exact (eq_trans (eq_sym (aes_encrypts k b1)) (eq_trans H (aes_encrypts k b2))).
Qed.

Theorem C78_one_octet_with_aes : forall D c bs ctx (dl : DeviceLookup D) ds f n r a i v, octets bs ->
  try_read_and_unsecure c aes_cipher bs ctx dl ds = (Ok (f, n), r) ->
  auxiliary_security_header (header f) = Some a ->
  tag_len (security_level (control a)) = 16%nat ->
  (header_len (header f) <= i < List.length bs)%nat -> v < 256 -> v <> octet bs i ->
  fst (try_read_and_unsecure c aes_cipher (with_octet bs i v) ctx dl ds) = Err TransformationError.
Proof.
  intros D c bs ctx dl ds f n r a i v Hb R Ha H16 Hi Hv Hne.
  destruct (C78_one_octet c aes_cipher aes_cipher_ok C78_aes_is_permuting bs ctx dl ds f n r a i v Hb R Ha H16 Hi Hv Hne)
    as (b & s & X & _). now rewrite X.
Qed.

(** ** Cases *)

(** Frames of every level with a tag are accepted: the theorems above apply to them. *)
Definition air (l : SecurityLevel) (p : list N) : list N :=
  written_bytes (try_write_frame host aes_cipher (level_frame l false p) (aes_ctx 1 0) (repeat 0 128)).
Definition arrives (bs : list N) :=
  match fst (try_read_and_unsecure host aes_cipher bs (aes_ctx 2 0) basic_dev_lookup (dev 0)) with
  | Ok (f, n) => Ok (payload f, n, header_len (header f),
                     option_map (fun a => security_level (control a)) (auxiliary_security_header (header f)))
  | Err e => Err e | Panic => Panic end.
Definition twenty : list N := map N.of_nat (List.seq 100 20).
Example C78_case :
  forallb (fun l => authenticated l) [SL_MIC32; SL_MIC64; SL_MIC128; SL_ENCMIC32; SL_ENCMIC64; SL_ENCMIC128] = true /\
  map (fun l => arrives (air l twenty)) [SL_MIC32; SL_MIC64; SL_MIC128; SL_ENCMIC32; SL_ENCMIC64; SL_ENCMIC128]
  = map (fun l => Ok (twenty, 49%nat, 29%nat, Some l)) [SL_MIC32; SL_MIC64; SL_MIC128; SL_ENCMIC32; SL_ENCMIC64; SL_ENCMIC128] /\
  map (fun l => arrives (with_octet (air l twenty) 40 7)) [SL_MIC128; SL_ENCMIC128] = [Err TransformationError; Err TransformationError].
Proof. split; [reflexivity|]. split; vm_compute; reflexivity. Qed.

(** With a shorter tag this is not so: some damage within one block goes unnoticed, with a
    4-octet tag even damage to a single octet. *)
Theorem C78_short_tags_notice_one_octet_refuted :
  Forall (fun x : SecurityLevel * list N * N * N =>
    let '(l, p, v, w) := x in
    tag_len l = 4%nat /\ v <> w /\
    air l (p ++ [w]) = with_octet (air l (p ++ [v])) 35 (octet (air l (p ++ [w])) 35) /\
    air l (p ++ [w]) <> air l (p ++ [v]) /\
    arrives (air l (p ++ [v])) = Ok (p ++ [v], 36%nat, 29%nat, Some l) /\
    arrives (air l (p ++ [w])) = Ok (p ++ [w], 36%nat, 29%nat, Some l))
  [(SL_MIC32, [157; 70; 1; 0; 0; 0], 122, 24); (SL_ENCMIC32, [149; 22; 2; 0; 0; 0], 187, 138)].
Proof.
  repeat (constructor; [split; [reflexivity|]; split; [discriminate|]; split; [vm_compute; reflexivity|];
    split; [vm_compute; discriminate|]; split; vm_compute; reflexivity|]). constructor.
Qed.

Theorem C78_short_tags_notice_one_block_refuted :
  Forall (fun x : SecurityLevel * list N * list N =>
    let '(l, p, q) := x in
    tag_len l = 8%nat /\ p <> q /\ List.length p = 8%nat /\ List.length q = 8%nat /\
    firstn 29 (air l p) = firstn 29 (air l q) /\ skipn 37 (air l p) = skipn 37 (air l q) /\
    arrives (air l p) = Ok (p, 37%nat, 29%nat, Some l) /\ arrives (air l q) = Ok (q, 37%nat, 29%nat, Some l))
  [(SL_MIC64, [48;1;101;146;169;62;12;7], [161;101;152;86;2;155;250;18]);
   (SL_ENCMIC64, [34;117;160;108;121;38;62;150], [20;190;182;194;61;217;157;166])].
Proof.
  repeat (constructor; [split; [reflexivity|]; split; [discriminate|]; split; [reflexivity|]; split; [reflexivity|];
    split; [vm_compute; reflexivity|]; split; [vm_compute; reflexivity|]; split; vm_compute; reflexivity|]). constructor.
Qed.

Print Assumptions C78_tag_damage_refused.
Print Assumptions C78_payload_damage_refused.
Print Assumptions C78_one_tag_octet.
Print Assumptions C78_one_octet.
Print Assumptions C78_damaged_copies_then_the_frame.
Print Assumptions C78_aes_is_permuting.
Print Assumptions C78_one_octet_with_aes.
Print Assumptions C78_short_tags_notice_one_octet_refuted.
Print Assumptions C78_short_tags_notice_one_block_refuted.
