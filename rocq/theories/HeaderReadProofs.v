(** Header decoding: soundness, completeness and the fate of every input. *)
From Coq Require Import List Arith NArith ZArith Bool String Lia ZifyBool ZifyNat ZifyN.
From Verif Require Import ByteCrate Types HeaderModel CcmModel Spec ProofLib HeaderProofs.
Import ListNotations.
Open Scope N_scope.
Ltac Zify.zify_post_hook ::= Z.div_mod_to_equations.

Lemma num_val_2 bs : octets bs -> (2 <= List.length bs)%nat ->
  num_val LE (slice bs 0 2) < 65536 /\ slice bs 0 2 = le 2 (num_val LE (slice bs 0 2)).
Proof.
  intros Hb Hl.
  assert (L : List.length (slice bs 0 2) = 2%nat) by (rewrite slice_length; lia).
  assert (O : octets (slice bs 0 2)) by now apply octets_slice.
  split.
  - apply (num_val_bound LE _ 2); assumption.
  - symmetry. apply (in_order_num_val LE); assumption.
Qed.

Lemma try_read_header_sound c bs h n : octets bs -> try_read_header c bs = Ok (h, n) ->
  (n <= List.length bs)%nat /\ header_decoded h /\
  exists r7 rs, rs < 8 /\ firstn n bs = wire_header LE (native c) r7 rs h.
Proof.
  intros Hb H. rewrite try_read_header_eq in H.
  destruct (Nat.ltb_spec (List.length bs) 3) as [|Hl]; [discriminate|].
  destruct (num_val_2 bs Hb ltac:(lia)) as [Hw S0].
  set (w := num_val LE (slice bs 0 2)) in *. clearbody w.
  unfold header_body in H.
  remember (0 <? w / 2 ^ 6 mod 2 ^ 1) as comp eqn:Ecomp.
  inv_bind H. rename a into v. inv_bind H. rename a into t.
  inv_bind H. rename a into dm. inv_bind H. rename a into sm.
  inv_bind H. destruct a as [sq o1]. inv_bind H. destruct a as [d o2].
  inv_bind H. rename a into u. inv_bind H. destruct a as [s o3].
  inv_bind H. destruct a as [aux o4].
  destruct (frame_version_from_bits _) as [v'|] eqn:Ev; [|discriminate]. injection E as ->.
  destruct (frame_type_from_bits _) as [t'|] eqn:Et; [|discriminate]. injection E0 as ->.
  apply version_from_inv in Ev. apply type_from_inv in Et.
  apply mode_from_inv in E1. apply mode_from_inv in E2.
  apply read_num_inv in E3; [|assumption]. destruct E3 as (-> & L1 & S1 & B1). cbn in B1.
  cbn [Nat.add] in *.
  apply read_destination_sound in E4; [|assumption|lia]. destruct E4 as (L2 & M2 & K2 & S2).
  apply read_source_sound in E6; [|assumption|lia|assumption].
  destruct E6 as (L3 & M3 & K3 & P3 & S3).
  cbn [in_order] in S1. rewrite le_S, le_0, N.mod_small in S1 by exact B1.
  assert (HA : (o3 <= o4 <= List.length bs)%nat /\ opt_ok aux_ok aux /\
    (forall a, aux = Some a -> key_id_mode (control a) = mode_of_key (key_identifier a)) /\
    flag (is_some aux) = w / 2 ^ 3 mod 2 ^ 1 /\
    exists rs, rs < 8 /\
      slice bs o3 o4 = match aux with None => [] | Some a => wire_aux LE (native c) rs a end).
  { assert (B : w / 2 ^ 3 mod 2 ^ 1 < 2) by (apply N.mod_lt; discriminate).
    destruct (0 <? w / 2 ^ 3 mod 2 ^ 1) eqn:Esec.
    - inv_bind E7. destruct a as [a o]. injection E7 as <- <-.
      apply read_with_inv in E. destruct E as (Ho & k & -> & Er).
      apply try_read_aux_sound in Er; [|now apply octets_skipn].
      destruct Er as (L4 & K4 & M4 & rs & Hrs & F4). rewrite skipn_length in L4.
      split; [lia|]. split; [exact K4|]. split; [intros ? [= <-]; exact M4|].
      split; [cbn [is_some flag]; lia|]. exists rs. split; [assumption|].
      rewrite <- F4. unfold slice. f_equal. lia.
    - injection E7 as <- <-. split; [lia|]. split; [exact I|]. split; [discriminate|].
      split; [cbn [is_some flag]; lia|]. exists 0. split; [lia|apply slice_nil]. }
  destruct HA as (L4 & K4 & M4 & F4 & rs & Hrs & S4).
  injection H as <- <-. split; [lia|]. split.
  - split; [|split].
    + repeat split; cbn [Spec.header_ok]; assumption.
    + cbn [pan_id_compress destination source]. intros Hc. rewrite Hc in E5, P3.
      destruct d as [d|]; [|discriminate]. exists d. split; [reflexivity|].
      intros a Ha. destruct (P3 eq_refl a Ha) as (d' & [= <-] & Hp). exact Hp.
    + exact M4.
  - exists (0 <? w / 2 ^ 7 mod 2 ^ 1), rs. split; [assumption|].
    unfold wire_header.
    cbn [seq destination source pan_id_compress auxiliary_security_header].
    match goal with |- context [le 2 ?x] => replace x with w end.
    2:{ unfold control_word.
        cbn [frame_type frame_pending ack_request pan_id_compress seq_no_suppress ie_present
             destination source version auxiliary_security_header].
        subst comp. rewrite F4. rewrite !bit_flag by (apply N.mod_lt; discriminate).
        rewrite <- !mode_bits_of, M2, M3, <- E1, <- E2, <- Et, <- Ev. now apply word_sum. }
    rewrite <- S0, <- S1, <- S2, <- S3, <- S4, !slice_app by lia. symmetry. apply slice_0.
Qed.

(** Completeness. *)
Lemma read_destination_complete bs off d tail : (off <= List.length bs)%nat ->
  opt_ok address_ok d ->
  skipn off bs = match d with None => [] | Some a => wire_address a end ++ tail ->
  exists off', read_destination (address_mode_of d) bs off = Ok (d, off') /\
    off' = (off + List.length (match d with None => [] | Some a => wire_address a end))%nat /\
    (off' <= List.length bs)%nat /\ skipn off' bs = tail.
Proof.
  intros Ho Hd Hs. destruct d as [[p a|p a]|]; cbn [address_mode_of address_mode_of_address read_destination].
  - unfold wire_address in Hs. cbn [pan_id wire_addr_only] in Hs. rewrite <- app_assoc in Hs.
    destruct Hd as [Hp Ha].
    destruct (read_step (read_num 2 LE) bs off (le 2 p) _ p Ho Hs) as (R1 & L1 & S1);
      [apply (read_num_complete 2 LE); exact Hp|].
    destruct (read_step (read_num 2 LE) bs _ (le 2 a) _ a L1 S1) as (R2 & L2 & S2);
      [apply (read_num_complete 2 LE); exact Ha|].
    rewrite read_pan_at, R1. cbn [obind]. rewrite read_short_at, R2. cbn [obind].
    rewrite wire_address_length. cbn [addr_len]. rewrite !le_length in *.
    eexists. split; [reflexivity|]. split; [lia|]. split; [lia|exact S2].
  - unfold wire_address in Hs. cbn [pan_id wire_addr_only] in Hs. rewrite <- app_assoc in Hs.
    destruct Hd as [Hp Ha].
    destruct (read_step (read_num 2 LE) bs off (le 2 p) _ p Ho Hs) as (R1 & L1 & S1);
      [apply (read_num_complete 2 LE); exact Hp|].
    destruct (read_step (read_num 8 LE) bs _ (le 8 a) _ a L1 S1) as (R2 & L2 & S2);
      [apply (read_num_complete 8 LE); exact Ha|].
    rewrite read_pan_at, R1. cbn [obind]. rewrite read_extended_at, R2. cbn [obind].
    rewrite wire_address_length. cbn [addr_len]. rewrite !le_length in *.
    eexists. split; [reflexivity|]. split; [lia|]. split; [lia|exact S2].
  - exists off. cbn in *. repeat split; auto.
Qed.

Lemma read_source_complete (comp : bool) d bs off s tail : (off <= List.length bs)%nat ->
  opt_ok address_ok s ->
  (comp = true -> exists d', d = Some d' /\ forall a, s = Some a -> pan_id a = pan_id d') ->
  skipn off bs = match s with None => []
                 | Some a => if comp then wire_addr_only a else wire_address a end ++ tail ->
  exists off', read_source (address_mode_of s) comp d bs off = Ok (s, off') /\
    off' = (off + List.length (match s with None => []
                 | Some a => if comp then wire_addr_only a else wire_address a end))%nat /\
    (off' <= List.length bs)%nat /\ skipn off' bs = tail.
Proof.
  intros Ho Hd Hc Hs. destruct s as [[p a|p a]|];
    cbn [address_mode_of address_mode_of_address read_source]; destruct comp.
  - destruct (Hc eq_refl) as (d' & -> & Hp). specialize (Hp _ eq_refl). cbn [pan_id] in Hp.
    cbn [wire_addr_only] in *. destruct Hd as [_ Ha].
    destruct (read_step (read_num 2 LE) bs off (le 2 a) _ a Ho Hs) as (R1 & L1 & S1);
      [apply (read_num_complete 2 LE); exact Ha|].
    cbn [unwrap obind]. rewrite read_short_at, R1. cbn [obind]. rewrite <- Hp.
    eexists. split; [reflexivity|]. split; [reflexivity|]. split; [exact L1|exact S1].
  - unfold wire_address in Hs. cbn [pan_id wire_addr_only] in Hs. rewrite <- app_assoc in Hs.
    destruct Hd as [Hp Ha].
    destruct (read_step (read_num 2 LE) bs off (le 2 p) _ p Ho Hs) as (R1 & L1 & S1);
      [apply (read_num_complete 2 LE); exact Hp|].
    destruct (read_step (read_num 2 LE) bs _ (le 2 a) _ a L1 S1) as (R2 & L2 & S2);
      [apply (read_num_complete 2 LE); exact Ha|].
    rewrite read_pan_at, R1. cbn [obind]. rewrite read_short_at, R2. cbn [obind].
    rewrite wire_address_length. cbn [addr_len]. rewrite !le_length in *.
    eexists. split; [reflexivity|]. split; [lia|]. split; [lia|exact S2].
  - destruct (Hc eq_refl) as (d' & -> & Hp). specialize (Hp _ eq_refl). cbn [pan_id] in Hp.
    cbn [wire_addr_only] in *. destruct Hd as [_ Ha].
    destruct (read_step (read_num 8 LE) bs off (le 8 a) _ a Ho Hs) as (R1 & L1 & S1);
      [apply (read_num_complete 8 LE); exact Ha|].
    cbn [unwrap obind]. rewrite read_extended_at, R1. cbn [obind]. rewrite <- Hp.
    eexists. split; [reflexivity|]. split; [reflexivity|]. split; [exact L1|exact S1].
  - unfold wire_address in Hs. cbn [pan_id wire_addr_only] in Hs. rewrite <- app_assoc in Hs.
    destruct Hd as [Hp Ha].
    destruct (read_step (read_num 2 LE) bs off (le 2 p) _ p Ho Hs) as (R1 & L1 & S1);
      [apply (read_num_complete 2 LE); exact Hp|].
    destruct (read_step (read_num 8 LE) bs _ (le 8 a) _ a L1 S1) as (R2 & L2 & S2);
      [apply (read_num_complete 8 LE); exact Ha|].
    rewrite read_pan_at, R1. cbn [obind]. rewrite read_extended_at, R2. cbn [obind].
    rewrite wire_address_length. cbn [addr_len]. rewrite !le_length in *.
    eexists. split; [reflexivity|]. split; [lia|]. split; [lia|exact S2].
  - exists off. cbn in *. repeat split; auto.
  - exists off. cbn in *. repeat split; auto.
Qed.

Lemma read_u8_complete v tail : v < 256 -> read_num 1 LE ([v] ++ tail) = Ok (v, List.length [v]).
Proof.
  intros Hv. replace [v] with (in_order LE 1 v); [now apply (read_num_complete 1 LE)|].
  cbn [in_order]. rewrite le_S, le_0. f_equal. now apply N.mod_small.
Qed.

Lemma try_read_aux_complete c rs a tail : rs < 8 -> aux_ok a ->
  key_id_mode (control a) = mode_of_key (key_identifier a) ->
  try_read_aux c (wire_aux LE (native c) rs a ++ tail)
  = Ok (a, List.length (wire_aux LE (native c) rs a)).
Proof.
  intros Hrs [Hfc Hk] Hm.
  set (bs := wire_aux LE (native c) rs a ++ tail). unfold try_read_aux.
  destruct a as [[l m] fc ki]. cbn [control frame_counter key_identifier key_id_mode] in *.
  assert (S0 : skipn 0 bs =
    [level_code l + 2 ^ 3 * key_mode_code (mode_of_key ki) + 2 ^ 5 * rs]
    ++ (le 4 fc ++ match ki with None => [] | Some k => wire_key_identifier (native c) k end ++ tail)).
  { unfold bs, wire_aux. cbn [skipn control security_level frame_counter key_identifier in_order].
    rewrite <- !app_assoc. reflexivity. }
  destruct (read_step try_read_security_control bs 0 _ _
              {| security_level := l; key_id_mode := mode_of_key ki |} ltac:(lia) S0)
    as (R1 & L1 & S1).
  { cbn [app]. rewrite try_read_control_eq, control_from_code by assumption. reflexivity. }
  cbn [List.length Nat.add] in R1, L1, S1. rewrite R1. cbn [obind].
  destruct (read_step (read_num 4 LE) bs _ (le 4 fc) _ fc L1 S1) as (R2 & L2 & S2);
    [apply (read_num_complete 4 LE); exact Hfc|].
  rewrite le_length in R2, L2, S2. cbn [Nat.add] in R2, L2, S2.
  rewrite R2. cbn [obind key_id_mode]. subst m.
  rewrite wire_aux_length. unfold aux_len, key_len. cbn [key_identifier].
  destruct ki as [[[[v|v]|] i]|]; cbn [mode_of_key]; cbn [wire_key_identifier key_source key_index app] in S2.
  - destruct Hk as [Hi Hv]. cbn [key_source key_index] in *. unfold wire_key_identifier in S2. cbn [key_source key_index] in S2. rewrite <- app_assoc in S2.
    destruct (read_step (read_num 4 (native c)) bs _ _ _ v L2 S2) as (R3 & L3 & S3);
      [apply read_num_complete; exact Hv|].
    rewrite R3. cbn [obind].
    destruct (read_step (read_num 1 LE) bs _ [i] _ i L3 S3) as (R4 & L4 & S4);
      [now apply read_u8_complete|].
    rewrite R4. cbn [obind]. rewrite in_order_length. cbn [List.length]. do 2 f_equal; lia.
  - destruct Hk as [Hi Hv]. cbn [key_source key_index] in *. unfold wire_key_identifier in S2. cbn [key_source key_index] in S2. rewrite <- app_assoc in S2.
    destruct (read_step (read_num 8 (native c)) bs _ _ _ v L2 S2) as (R3 & L3 & S3);
      [apply read_num_complete; exact Hv|].
    rewrite R3. cbn [obind].
    destruct (read_step (read_num 1 LE) bs _ [i] _ i L3 S3) as (R4 & L4 & S4);
      [now apply read_u8_complete|].
    rewrite R4. cbn [obind]. rewrite in_order_length. cbn [List.length]. do 2 f_equal; lia.
  - destruct Hk as [Hi Hv]. cbn [key_source key_index] in *.
    cbn [obind].
    destruct (read_step (read_num 1 LE) bs _ [i] _ i L2 S2) as (R4 & L4 & S4);
      [now apply read_u8_complete|].
    rewrite R4. cbn [obind]. cbn [List.length]. do 2 f_equal; lia.
  - reflexivity.
Qed.

Lemma control_word_fields r7 h : let w := control_word r7 h in
  w < 65536 /\
  w / 2 ^ 0 mod 2 ^ 3 = type_code (frame_type h) /\
  w / 2 ^ 3 mod 2 ^ 1 = flag (is_some (auxiliary_security_header h)) /\
  w / 2 ^ 4 mod 2 ^ 1 = flag (frame_pending h) /\
  w / 2 ^ 5 mod 2 ^ 1 = flag (ack_request h) /\
  w / 2 ^ 6 mod 2 ^ 1 = flag (pan_id_compress h) /\
  w / 2 ^ 8 mod 2 ^ 1 = flag (seq_no_suppress h) /\
  w / 2 ^ 9 mod 2 ^ 1 = flag (ie_present h) /\
  w / 2 ^ 10 mod 2 ^ 2 = addr_mode_code (destination h) /\
  w / 2 ^ 12 mod 2 ^ 2 = version_code (version h) /\
  w / 2 ^ 14 mod 2 ^ 2 = addr_mode_code (source h).
Proof.
  intros w.
  apply (word_fields w (type_code (frame_type h)) (flag (is_some (auxiliary_security_header h)))
    (flag (frame_pending h)) (flag (ack_request h)) (flag (pan_id_compress h)) (flag r7)
    (flag (seq_no_suppress h)) (flag (ie_present h)) (addr_mode_code (destination h))
    (version_code (version h)) (addr_mode_code (source h)));
    auto using type_code_lt, flag_lt, mode_code_lt, version_code_lt.
Qed.

Lemma try_read_header_complete c r7 rs h tail : rs < 8 -> header_decoded h ->
  try_read_header c (wire_header LE (native c) r7 rs h ++ tail) = Ok (h, header_len h).
Proof.
  intros Hrs (Hok & Hc & Hm).
  set (bs := wire_header LE (native c) r7 rs h ++ tail).
  assert (Lw := wire_header_length LE (native c) r7 rs h).
  assert (Lb : List.length bs = (header_len h + List.length tail)%nat).
  { unfold bs. now rewrite app_length, Lw. }
  rewrite try_read_header_eq.
  assert (H3 : (3 <= header_len h)%nat) by (unfold header_len, mhr_len; lia).
  replace (List.length bs <? 3)%nat with false by lia.
  assert (S0 : slice bs 0 2 = le 2 (control_word r7 h)).
  { unfold bs, wire_header. rewrite slice_0, <- !app_assoc. apply firstn_app_exact'. now rewrite le_length. }
  destruct (control_word_fields r7 h) as (W & W0 & W3 & W4 & W5 & W6 & W8 & W9 & W10 & W12 & W14).
  rewrite S0. cbn [num_val]. rewrite le_val_small by exact W.
  unfold header_body. rewrite W0, W3, W4, W5, W6, W8, W9, W10, W12, W14.
  rewrite version_from_code, type_from_code, !mode_from_code. cbn [ok_or obind].
  rewrite !flag_bit. clear W W0 W3 W4 W5 W6 W8 W9 W10 W12 W14 S0.
  destruct Hok as (Hseq & Hd & Hs & Ha).
  assert (S2 : skipn 2 bs = [seq h]
     ++ (match destination h with None => [] | Some a => wire_address a end
     ++ (match source h with None => []
        | Some a => if pan_id_compress h then wire_addr_only a else wire_address a end
     ++ (match auxiliary_security_header h with None => [] | Some a => wire_aux LE (native c) rs a end
     ++ tail)))).
  { unfold bs, wire_header. rewrite <- !app_assoc. apply skipn_app_exact'. now rewrite le_length. }
  destruct (read_step (read_num 1 LE) bs 2 [seq h] _ (seq h) ltac:(lia) S2) as (R1 & L1 & S1);
    [now apply read_u8_complete|].
  rewrite R1. cbn [obind].
  destruct (read_destination_complete bs _ (destination h) _ L1 Hd S1) as (o2 & R2 & E2 & L2 & S2').
  rewrite R2. cbn [obind].
  match goal with |- obind ?x _ = _ => assert (Hcc : x = Ok tt) end.
  { destruct (pan_id_compress h); [|reflexivity].
    destruct (Hc eq_refl) as (d & -> & _). reflexivity. }
  rewrite Hcc. cbn [obind].
  destruct (read_source_complete (pan_id_compress h) (destination h) bs _ (source h) _ L2 Hs Hc S2')
    as (o3 & R3 & E3 & L3 & S3).
  rewrite R3. cbn [obind].
  destruct (auxiliary_security_header h) as [a|] eqn:Ea; cbn [is_some].
  - destruct (read_step (try_read_aux c) bs _ _ _ a L3 S3) as (R4 & L4 & S4);
      [apply try_read_aux_complete; auto; exact Ha|].
    rewrite R4. cbn [obind]. f_equal. f_equal; [destruct h; cbn in *; subst; reflexivity|].
    apply (f_equal (@List.length N)) in S4. rewrite skipn_length in S4.
    assert (o3 + List.length (wire_aux LE (native c) rs a) <= List.length bs)%nat by lia. lia.
  - cbn [obind]. f_equal. f_equal; [destruct h; cbn in *; subst; reflexivity|].
    cbn [app] in S3. apply (f_equal (@List.length N)) in S3. rewrite skipn_length in S3. lia.
Qed.

(** Fate of any input. *)
Definition dest_size (m : AddressMode) : nat :=
  match m with Mode_None => 0 | Mode_Short => 4 | Mode_Extended => 10 end.
Definition source_size (m : AddressMode) (comp : bool) : nat :=
  match m with Mode_None => 0 | Mode_Short => if comp then 2 else 4
             | Mode_Extended => if comp then 8 else 10 end.

Ltac num_step :=
  first [rewrite read_pan_at | rewrite read_short_at | rewrite read_extended_at | idtac];
  rewrite read_num_at by lia;
  match goal with |- context [(?x <=? ?y)%nat] =>
    destruct (Nat.leb_spec x y); cbn [obind]; try lia end.

Lemma read_destination_fate m bs off : (off <= List.length bs)%nat ->
  ((off + dest_size m <= List.length bs)%nat /\
   exists d, read_destination m bs off = Ok (d, (off + dest_size m)%nat) /\ address_mode_of d = m) \/
  ((List.length bs < off + dest_size m)%nat /\ read_destination m bs off = Err Incomplete).
Proof.
  intros Ho. destruct m; cbn [read_destination dest_size].
  - left. split; [lia|]. exists None. split; [do 2 f_equal; lia|reflexivity].
  - num_step; [num_step|]; [left|right..]; (split; [lia|]); try reflexivity.
    eexists. split; [do 2 f_equal; lia|reflexivity].
  - num_step; [num_step|]; [left|right..]; (split; [lia|]); try reflexivity.
    eexists. split; [do 2 f_equal; lia|reflexivity].
Qed.

Lemma read_source_fate m (comp : bool) d bs off : (off <= List.length bs)%nat ->
  (comp = true -> d <> None) ->
  ((off + source_size m comp <= List.length bs)%nat /\
   exists s, read_source m comp d bs off = Ok (s, (off + source_size m comp)%nat)) \/
  ((List.length bs < off + source_size m comp)%nat /\ read_source m comp d bs off = Err Incomplete).
Proof.
  intros Ho Hd. destruct m; cbn [read_source source_size].
  - left. split; [lia|]. exists None. do 2 f_equal; lia.
  - destruct comp.
    + destruct d as [d|]; [|now specialize (Hd eq_refl)]. cbn [unwrap obind].
      num_step; [left|right]; (split; [lia|]); [eexists|]; reflexivity.
    + num_step; [num_step|]; [left|right..]; (split; [lia|]); try reflexivity.
      eexists. do 2 f_equal; lia.
  - destruct comp.
    + destruct d as [d|]; [|now specialize (Hd eq_refl)]. cbn [unwrap obind].
      num_step; [left|right]; (split; [lia|]); [eexists|]; reflexivity.
    + num_step; [num_step|]; [left|right..]; (split; [lia|]); try reflexivity.
      eexists. do 2 f_equal; lia.
Qed.

Lemma aux_fate c bs :
  match bs with
  | [] => try_read_aux c bs = Err Incomplete
  | b :: _ =>
      ((aux_need b <= List.length bs)%nat /\ exists a, try_read_aux c bs = Ok (a, aux_need b)) \/
      ((List.length bs < aux_need b)%nat /\ try_read_aux c bs = Err Incomplete)
  end.
Proof.
  unfold try_read_aux. rewrite read_with_eq by lia. cbn [skipn]. rewrite try_read_control_eq.
  destruct bs as [|b r]; [reflexivity|].
  destruct (control_from_some b) as [s Es]. rewrite Es. cbn [obind Nat.add].
  set (bs := b :: r). assert (Hl : (1 <= List.length bs)%nat) by (cbn; lia).
  assert (En : aux_need b = match key_id_mode s with KIM_None => 5 | KIM_KeyIndex => 6
                            | KIM_KeySource4 => 10 | KIM_KeySource8 => 14 end%nat).
  { unfold control_from in Es. unfold aux_need, field.
    destruct (security_level_from_bits _); [|discriminate].
    destruct (key_id_mode_from_bits _) as [m|] eqn:Em; [|discriminate]. injection Es as <-.
    apply key_mode_from_inv in Em. rewrite Em. destruct m; reflexivity. }
  rewrite En. clearbody bs. num_step.
  2:{ right. split; [|reflexivity]. destruct (key_id_mode s); lia. }
  destruct (key_id_mode s); cbn [obind].
  - left. split; [lia|]. eexists. reflexivity.
  - num_step; [left|right]; (split; [lia|]); [eexists|]; reflexivity.
  - num_step; [num_step|]; [left|right..]; (split; [lia|]); try reflexivity. eexists. reflexivity.
  - num_step; [num_step|]; [left|right..]; (split; [lia|]); try reflexivity. eexists. reflexivity.
Qed.

Lemma code_mode_size x m : lift_decode (address_mode_from_bits x) = Ok m ->
  dest_size m = (if (x =? 0)%N then 0 else 2 + mode_len x)%nat /\
  forall comp : bool, source_size m comp
    = (if (x =? 0)%N then 0 else (if comp then 0 else 2) + mode_len x)%nat.
Proof.
  intros H. apply mode_from_inv in H. subst x.
  destruct m; split; try reflexivity; intros []; reflexivity.
Qed.
Lemma mode_from_cases x : x < 4 -> x <> 1 -> exists m, lift_decode (address_mode_from_bits x) = Ok m.
Proof. intros. unfold address_mode_from_bits. destruct x as [|[[]|[]|]]; try (exfalso; lia); eexists; reflexivity. Qed.
Lemma version_from_cases x : x < 4 -> x <> 3 -> exists m, frame_version_from_bits x = Some m.
Proof. intros. unfold frame_version_from_bits. destruct x as [|[[]|[]|]]; try (exfalso; lia); eexists; reflexivity. Qed.
Lemma type_from_cases x : x < 8 -> x <> 4 -> exists m, frame_type_from_bits x = Some m.
Proof. intros. unfold frame_type_from_bits. destruct x as [|[[[]|[]|]|[[]|[]|]|]]; try (exfalso; lia); eexists; reflexivity. Qed.

Lemma input_word_eq bs : (2 <= List.length bs)%nat -> num_val LE (slice bs 0 2) = input_word bs.
Proof.
  destruct bs as [|a [|b r]]; cbn [List.length]; try lia. intros _.
  unfold slice, input_word, octet. cbn [Nat.sub skipn firstn num_val le_val nth]. lia.
Qed.

Lemma nth_error_skipn {A} (l : list A) n : nth_error l n = nth_error (skipn n l) 0.
Proof.
  revert l; induction n as [|n IH]; intros l; [now destruct l|].
  destruct l as [|x l]; [reflexivity|]. cbn. apply IH.
Qed.

Lemma field_lt w a b : field w a b < 2 ^ b.
Proof. apply N.mod_lt, N.pow_nonzero. discriminate. Qed.

Lemma try_read_header_fate c bs :
  match header_verdict bs with
  | Some e => try_read_header c bs = Err e
  | None => exists h, try_read_header c bs = Ok (h, header_need bs)
  end.
Proof.
  rewrite try_read_header_eq. unfold header_verdict.
  destruct (Nat.ltb_spec (List.length bs) 3) as [|Hl]; [reflexivity|].
  rewrite input_word_eq by lia. unfold header_need. set (w := input_word bs). clearbody w.
  unfold header_body.
  change (w / 2 ^ 0 mod 2 ^ 3) with (field w 0 3). change (w / 2 ^ 12 mod 2 ^ 2) with (field w 12 2).
  change (w / 2 ^ 10 mod 2 ^ 2) with (field w 10 2). change (w / 2 ^ 14 mod 2 ^ 2) with (field w 14 2).
  change (w / 2 ^ 6 mod 2 ^ 1) with (field w 6 1). change (w / 2 ^ 3 mod 2 ^ 1) with (field w 3 1).
  unfold mhr_need.
  generalize (w / 2 ^ 4 mod 2 ^ 1), (w / 2 ^ 5 mod 2 ^ 1), (w / 2 ^ 8 mod 2 ^ 1), (w / 2 ^ 9 mod 2 ^ 1).
  pose proof (field_lt w 0 3) as B0. pose proof (field_lt w 12 2) as B12.
  pose proof (field_lt w 10 2) as B10. pose proof (field_lt w 14 2) as B14.
  pose proof (field_lt w 6 1) as B6. pose proof (field_lt w 3 1) as B3.
  generalize dependent (field w 0 3). intros ft B0. generalize dependent (field w 12 2). intros fv B12.
  generalize dependent (field w 10 2). intros fd B10. generalize dependent (field w 14 2). intros fs B14.
  generalize dependent (field w 6 1). intros fcp B6. generalize dependent (field w 3 1). intros fsec B3.
  clear w. intros b4 b5 b8 b9.
  change (2 ^ 1) with 2 in *. change (2 ^ 2) with 4 in *. change (2 ^ 3) with 8 in *.
  destruct (N.eqb_spec fv 3) as [->|Nv]; [reflexivity|].
  destruct (version_from_cases fv B12 Nv) as [v ->]. cbn [ok_or obind].
  destruct (N.eqb_spec ft 4) as [->|Nt]; [reflexivity|].
  destruct (type_from_cases ft B0 Nt) as [t ->]. cbn [ok_or obind].
  destruct (N.eqb_spec fd 1) as [->|Nd]; [reflexivity|].
  destruct (mode_from_cases fd B10 Nd) as [dm Edm]. rewrite Edm. cbn [obind].
  destruct (N.eqb_spec fs 1) as [->|Ns]; [reflexivity|].
  destruct (mode_from_cases fs B14 Ns) as [sm Esm]. rewrite Esm. cbn [obind orb].
  destruct (code_mode_size _ _ Edm) as [Ed _]. destruct (code_mode_size _ _ Esm) as [_ Es].
  rewrite <- Ed. specialize (Es (fcp =? 1)). rewrite <- Es.
  replace (0 <? fcp) with (fcp =? 1) by lia. replace (0 <? fsec) with (fsec =? 1) by lia.
  assert (Ed0 : (fd =? 0) = match dm with Mode_None => true | _ => false end).
  { apply mode_from_inv in Edm. subst fd. destruct dm; reflexivity. }
  rewrite Ed0. clear Ed Es Ed0 Edm Esm.
  generalize (fcp =? 1), (fsec =? 1). clear fcp fsec B3 B6. intros comp sec.
  rewrite read_num_at by lia. replace (2 + 1 <=? List.length bs)%nat with true by lia. cbn [obind].
  change (2 + 1)%nat with 3%nat.
  destruct (read_destination_fate dm bs 3 ltac:(lia)) as [(L2 & d & R2 & M2)|(L2 & R2)].
  2:{ rewrite R2. cbn [obind].
      replace (List.length bs <? _)%nat with true
        by (symmetry; apply Nat.ltb_lt; lia).
      destruct comp, dm; cbn [andb]; try reflexivity. cbn [dest_size] in L2. lia. }
  rewrite R2. cbn [obind].
  destruct (comp && match dm with Mode_None => true | _ => false end) eqn:Ecd.
  { apply andb_prop in Ecd. destruct Ecd as [-> Edm]. destruct dm; try discriminate.
    destruct d; [destruct a; discriminate|]. reflexivity. }
  match goal with |- context [obind ?x _] => assert (Hcc : x = Ok tt) end.
  { destruct comp; [|reflexivity]. destruct dm; try discriminate; destruct d; try discriminate; reflexivity. }
  rewrite Hcc. cbn [obind].
  assert (Hd : comp = true -> d <> None).
  { intros -> ->. cbn in M2. subst dm. discriminate. }
  destruct (read_source_fate sm comp d bs (3 + dest_size dm) L2 Hd) as [(L3 & s & R3)|(L3 & R3)].
  2:{ rewrite R3. cbn [obind].
      replace (List.length bs <? _)%nat with true
        by (symmetry; apply Nat.ltb_lt; lia). reflexivity. }
  rewrite R3. cbn [obind].
  set (n := (3 + dest_size dm + source_size sm comp)%nat) in *. clearbody n.
  destruct sec.
  - rewrite read_with_eq by lia. pose proof (aux_fate c (skipn n bs)) as Fa.
    rewrite nth_error_skipn. assert (Ls := skipn_length n bs).
    destruct (skipn n bs) as [|b r].
    + rewrite Fa. cbn [obind nth_error]. cbn [List.length] in Ls.
      replace (List.length bs <? _)%nat with true by (symmetry; apply Nat.ltb_lt; lia). reflexivity.
    + cbn [nth_error]. destruct Fa as [(La & a & Ra)|(La & Ra)]; rewrite Ra; cbn [obind].
      * replace (List.length bs <? _)%nat with false by (symmetry; apply Nat.ltb_ge; lia).
        eexists. reflexivity.
      * replace (List.length bs <? _)%nat with true by (symmetry; apply Nat.ltb_lt; lia). reflexivity.
  - cbn [obind]. rewrite Nat.add_0_r.
    replace (List.length bs <? _)%nat with false by (symmetry; apply Nat.ltb_ge; lia).
    eexists. reflexivity.
Qed.
