(** Proofs about the header codec (HeaderModel.v against Spec.v). *)
From Coq Require Import List Arith NArith ZArith Bool String Lia ZifyBool ZifyNat ZifyN.
From Verif Require Import ByteCrate Types HeaderModel CcmModel Spec ProofLib.
Import ListNotations.
Open Scope N_scope.
Ltac Zify.zify_post_hook ::= Z.div_mod_to_equations.

(** * Writers *)

Lemma emits_pan p : emits (try_write_pan_id p) (le 2 p) (Ok tt).
Proof. apply emits_body, runs_write, (emits_num 2 LE). Qed.
Lemma emits_short p : emits (try_write_short p) (le 2 p) (Ok tt).
Proof. apply emits_body, runs_write, (emits_num 2 LE). Qed.
Lemma emits_extended p : emits (try_write_extended p) (le 8 p) (Ok tt).
Proof. apply emits_body, runs_write, (emits_num 8 LE). Qed.

Lemma emits_address a : emits (try_write_address a Enc_Normal) (wire_address a) (Ok tt).
Proof.
  unfold try_write_address, wire_address. apply emits_body.
  destruct a as [p s|p x]; cbn [pan_id wire_addr_only]; apply runs_seq; apply runs_write;
    auto using emits_pan, emits_short, emits_extended.
Qed.
Lemma emits_address_c a : emits (try_write_address a Enc_Compressed) (wire_addr_only a) (Ok tt).
Proof.
  unfold try_write_address. apply emits_body.
  destruct a as [p s|p x]; cbn [pan_id wire_addr_only]; apply runs_write;
    auto using emits_short, emits_extended.
Qed.

Lemma emits_security_control l m :
  emits (try_write_security_control {| security_level := l; key_id_mode := m |})
        [level_code l + 2 ^ 3 * key_mode_code m] (Ok tt).
Proof.
  unfold try_write_security_control. apply emits_body, runs_write.
  eapply emits_eq; [apply emits_u8; destruct l, m; vm_compute; reflexivity|].
  destruct l, m; reflexivity.
Qed.

Lemma emits_key_identifier c k : u8_ok (key_index k) ->
  emits (try_write_key_identifier c k) (wire_key_identifier (native c) k) (Ok tt).
Proof.
  intros Hk. unfold try_write_key_identifier, wire_key_identifier. apply emits_body, runs_seq.
  - destruct (key_source k) as [[v|v]|]; try apply runs_ret; apply runs_write, emits_num.
  - apply runs_write, emits_u8, Hk.
Qed.

Definition aux_sent (fc : N) (a : AuxiliarySecurityHeader) : AuxiliarySecurityHeader :=
  {| control := {| security_level := security_level (control a);
                   key_id_mode := mode_of_key (key_identifier a) |};
     frame_counter := fc;
     key_identifier := key_identifier a |}.

Lemma derived_mode k : derived_key_id_mode k = mode_of_key k.
Proof. destruct k as [[[[]|] ?]|]; reflexivity. Qed.

Lemma emits_aux c a fc : opt_ok key_identifier_ok (key_identifier a) ->
  emits (try_write_aux c a fc) (wire_aux (native c) (native c) 0 (aux_sent fc a)) (Ok tt).
Proof.
  intros Hk. unfold try_write_aux. apply emits_body. unfold wire_aux.
  apply runs_seq; [|apply runs_seq].
  - apply runs_write. eapply emits_eq; [apply emits_security_control|].
    cbn [aux_sent control security_level key_identifier]. rewrite derived_mode.
    now rewrite N.mul_0_r, N.add_0_r.
  - apply runs_write, emits_num.
  - cbn [aux_sent key_identifier]. destruct (key_identifier a) as [k|]; [|apply runs_ret].
    apply runs_write, emits_key_identifier. apply Hk.
Qed.

Lemma frame_control_word h fc : frame_control_raw h = control_word false (header_sent fc h).
Proof.
  destruct h as [t pend ack comp sns ie v sq d s aux].
  unfold frame_control_raw, control_word, header_sent, has_security.
  cbn [frame_type frame_pending ack_request pan_id_compress seq_no_suppress ie_present version
       destination source auxiliary_security_header].
  destruct aux as [a|]; destruct d as [[p1 a1|p1 a1]|]; destruct s as [[p2 a2|p2 a2]|];
    destruct t, pend, ack, comp, v; vm_compute; reflexivity.
Qed.

(** The part of a sent header up to the auxiliary security header. *)
Definition wire_mhr (h : Header) : list N :=
  le 2 (control_word false (header_sent 0 h)) ++ [seq h]
  ++ match destination h with None => [] | Some a => wire_address a end
  ++ match source h with
     | None => []
     | Some a => if pan_id_compress h then wire_addr_only a else wire_address a
     end.

Definition compression_ok (h : Header) : bool :=
  negb (pan_id_compress h) || (is_some (destination h) && is_some (source h)).

Lemma compression_ok_iff h : compression_ok h = true <-> compression_allowed h.
Proof.
  unfold compression_ok, compression_allowed.
  destruct (pan_id_compress h), (destination h), (source h); cbn; split; intros H; auto;
    try discriminate; try (intros _; split; discriminate); destruct (H eq_refl); congruence.
Qed.

Lemma control_word_sent_fc r h fc fc' :
  control_word r (header_sent fc h) = control_word r (header_sent fc' h).
Proof.
  unfold control_word, header_sent. cbn. now destruct (auxiliary_security_header h).
Qed.

Lemma wire_sent_mhr co ko fc h : compression_ok h = true ->
  wire_header co ko false 0 (header_sent fc h)
  = wire_mhr h ++ match auxiliary_security_header h with
                  | None => [] | Some a => wire_aux co ko 0 (aux_sent fc a) end.
Proof.
  intros Hc. unfold wire_header, wire_mhr. rewrite (control_word_sent_fc false h fc 0).
  rewrite <- !app_assoc. cbn [header_sent seq destination source pan_id_compress auxiliary_security_header].
  do 3 f_equal. unfold compression_ok in Hc.
  destruct (source h) as [s|], (destination h) as [d|], (pan_id_compress h);
    cbn in Hc; try discriminate; destruct (auxiliary_security_header h);
    try destruct s; reflexivity.
Qed.

(** What the header writer emits and how it ends. *)
Definition header_program {K} (c : cfg) (h : Header) (sc : option (SecurityContext K))
  : list N * bres unit :=
  if compression_ok h then
    match auxiliary_security_header h with
    | None => (wire_mhr h, Ok tt)
    | Some a =>
        match sc with
        | None => (wire_mhr h, Err (BadInput "MissingSecurityCtx"))
        | Some sc => (wire_mhr h ++ wire_aux (native c) (native c) 0
                                      (aux_sent (sc_frame_counter sc) a), Ok tt)
        end
    end
  else (le 2 (control_word false (header_sent 0 h)) ++ [seq h],
        Err (BadInput "DisallowedPanIdCompress")).

Lemma emits_header {K} c h (sc : option (SecurityContext K)) : header_ok h ->
  emits (try_write_header c h sc) (fst (header_program c h sc)) (snd (header_program c h sc)).
Proof.
  intros (Hseq & Hd & Hs & Ha). unfold try_write_header, header_program. apply emits_body.
  pose proof (runs_write _ _ _ (emits_num 2 LE (frame_control_raw h))) as R1.
  rewrite (frame_control_word h 0) in *. cbn [in_order] in R1.
  pose proof (runs_write _ _ _ (emits_u8 (seq h) Hseq)) as R2.
  replace ((match destination h with None => true | Some _ => false end
            || match source h with None => true | Some _ => false end) && pan_id_compress h)
    with (negb (compression_ok h))
    by (unfold compression_ok; destruct (destination h), (source h), (pan_id_compress h); reflexivity).
  destruct (compression_ok h) eqn:Hc; cbn [negb].
  - assert (RA : runs
      (match destination h with
       | Some d => write_with (try_write_address d Enc_Normal)
       | None => wret tt end)
      (match destination h with None => [] | Some a => wire_address a end) (Ok tt)).
    { destruct (destination h); [apply runs_write, emits_address|apply runs_ret]. }
    assert (RB : runs
      (match source h, pan_id_compress h with
       | Some s, true => write_with (try_write_address s Enc_Compressed)
       | Some s, false => write_with (try_write_address s Enc_Normal)
       | None, true => wpanic
       | None, false => wret tt
       end)
      (match source h with
       | None => []
       | Some a => if pan_id_compress h then wire_addr_only a else wire_address a
       end) (Ok tt)).
    { unfold compression_ok in Hc.
      destruct (source h), (pan_id_compress h), (destination h); cbn in Hc; try discriminate;
        try apply runs_ret; apply runs_write; auto using emits_address, emits_address_c. }
    assert (Hpre : forall k bs st, runs k bs st ->
      runs (write_with (write_num 2 LE (control_word false (header_sent 0 h))) >>
            write_with (write_u8 (seq h)) >> wret tt >>
            match destination h with
            | Some d => write_with (try_write_address d Enc_Normal)
            | None => wret tt end >>
            match source h, pan_id_compress h with
            | Some s, true => write_with (try_write_address s Enc_Compressed)
            | Some s, false => write_with (try_write_address s Enc_Normal)
            | None, true => wpanic
            | None, false => wret tt
            end >> k) (wire_mhr h ++ bs) st).
    { intros k bs st Hk. unfold wire_mhr. rewrite <- !app_assoc.
      apply runs_seq; [exact R1|]. apply runs_seq; [exact R2|].
      apply runs_seq_nil; [apply runs_ret|]. apply runs_seq; [exact RA|].
      apply runs_seq; [exact RB|exact Hk]. }
    unfold has_security. destruct (auxiliary_security_header h) as [a|] eqn:Ea.
    + destruct sc as [sc|]; cbn [andb fst snd].
      * apply Hpre. apply runs_write, emits_aux. rewrite ?Ea in Ha. apply Ha.
      * eapply runs_eq; [apply Hpre, runs_err|apply app_nil_r].
    + cbn [andb fst snd]. eapply runs_eq; [apply Hpre, runs_ret|apply app_nil_r].
  - cbn [fst snd]. apply runs_seq; [exact R1|].
    eapply runs_eq; [apply runs_seq; [exact R2|apply runs_seq_fail; [discriminate|apply runs_err]]|].
    apply app_nil_r.
Qed.

(** Sizes. *)
Lemma wire_addr_only_length a : List.length (wire_addr_only a) = addr_len a.
Proof. destruct a; apply le_length. Qed.
Lemma wire_address_length a : List.length (wire_address a) = (2 + addr_len a)%nat.
Proof. unfold wire_address. now rewrite app_length, le_length, wire_addr_only_length. Qed.
Lemma wire_aux_length co ko rs a : List.length (wire_aux co ko rs a) = aux_len a.
Proof.
  unfold wire_aux, aux_len, key_len. rewrite !app_length, in_order_length.
  destruct (key_identifier a) as [[[[v|v]|] i]|]; cbn [mode_of_key List.length]; try lia;
    unfold wire_key_identifier; cbn [key_source key_index]; rewrite app_length, ?in_order_length;
    cbn [List.length]; lia.
Qed.
Lemma wire_header_length co ko r7 rs h : List.length (wire_header co ko r7 rs h) = header_len h.
Proof.
  unfold wire_header, header_len, mhr_len, dest_len, source_len.
  rewrite !app_length, le_length. cbn [List.length].
  destruct (destination h) as [d|]; destruct (source h) as [s|]; destruct (pan_id_compress h);
    destruct (auxiliary_security_header h) as [a|];
    rewrite ?wire_address_length, ?wire_addr_only_length, ?wire_aux_length; cbn [List.length]; lia.
Qed.
Lemma wire_mhr_length h : List.length (wire_mhr h) = mhr_len h.
Proof.
  unfold wire_mhr, mhr_len, dest_len, source_len.
  rewrite !app_length, le_length. cbn [List.length].
  destruct (destination h) as [d|]; destruct (source h) as [s|]; destruct (pan_id_compress h);
    rewrite ?wire_address_length, ?wire_addr_only_length; cbn [List.length]; lia.
Qed.

(** * Readers *)

Lemma fcf_field_eq w mask off k : N.shiftr mask off = N.ones k -> k <= 8 ->
  fcf_field w mask off = w / 2 ^ off mod 2 ^ k.
Proof.
  intros Hm Hk. unfold fcf_field, as_u8. rewrite (shiftr_land_field _ _ _ _ Hm).
  apply N.mod_small. eapply N.lt_le_trans; [apply N.mod_lt, N.pow_nonzero; lia|].
  change 256 with (2 ^ 8). apply N.pow_le_mono_r; lia.
Qed.

Lemma try_read_pan_eq bs : try_read_pan_id bs = read_num 2 LE bs.
Proof.
  unfold try_read_pan_id. rewrite read_with_eq by lia. cbn [skipn].
  destruct (read_num 2 LE bs) as [[v n]|e|]; reflexivity.
Qed.
Lemma try_read_short_eq bs : try_read_short bs = read_num 2 LE bs.
Proof. apply try_read_pan_eq. Qed.
Lemma try_read_extended_eq bs : try_read_extended bs = read_num 8 LE bs.
Proof.
  unfold try_read_extended. rewrite read_with_eq by lia. cbn [skipn].
  destruct (read_num 8 LE bs) as [[v n]|e|]; reflexivity.
Qed.
Lemma read_with_ext {A} (r1 r2 : reader A) bs off : (forall x, r1 x = r2 x) ->
  read_with r1 bs off = read_with r2 bs off.
Proof. intros H. unfold read_with. now rewrite H. Qed.
Lemma read_pan_at bs off : read_with try_read_pan_id bs off = read_with (read_num 2 LE) bs off.
Proof. apply read_with_ext, try_read_pan_eq. Qed.
Lemma read_short_at bs off : read_with try_read_short bs off = read_with (read_num 2 LE) bs off.
Proof. apply read_with_ext, try_read_short_eq. Qed.
Lemma read_extended_at bs off : read_with try_read_extended bs off = read_with (read_num 8 LE) bs off.
Proof. apply read_with_ext, try_read_extended_eq. Qed.

(** Arithmetic of the frame control word. *)
Lemma word_fields w a0 a1 a2 a3 a4 a5 a6 a7 a8 a9 a10 :
  a0 < 8 -> a1 < 2 -> a2 < 2 -> a3 < 2 -> a4 < 2 -> a5 < 2 -> a6 < 2 -> a7 < 2 ->
  a8 < 4 -> a9 < 4 -> a10 < 4 ->
  w = a0 + 2 ^ 3 * a1 + 2 ^ 4 * a2 + 2 ^ 5 * a3 + 2 ^ 6 * a4 + 2 ^ 7 * a5 + 2 ^ 8 * a6
      + 2 ^ 9 * a7 + 2 ^ 10 * a8 + 2 ^ 12 * a9 + 2 ^ 14 * a10 ->
  w < 65536 /\
  w / 2 ^ 0 mod 2 ^ 3 = a0 /\ w / 2 ^ 3 mod 2 ^ 1 = a1 /\ w / 2 ^ 4 mod 2 ^ 1 = a2 /\
  w / 2 ^ 5 mod 2 ^ 1 = a3 /\ w / 2 ^ 6 mod 2 ^ 1 = a4 /\ w / 2 ^ 8 mod 2 ^ 1 = a6 /\
  w / 2 ^ 9 mod 2 ^ 1 = a7 /\ w / 2 ^ 10 mod 2 ^ 2 = a8 /\ w / 2 ^ 12 mod 2 ^ 2 = a9 /\
  w / 2 ^ 14 mod 2 ^ 2 = a10.
Proof.
  intros H0 H1 H2 H3 H4 H5 H6 H7 H8 H9 H10 Hw.
  change (2 ^ 0) with 1; change (2 ^ 1) with 2; change (2 ^ 2) with 4; change (2 ^ 3) with 8 in *;
  change (2 ^ 4) with 16 in *; change (2 ^ 5) with 32 in *; change (2 ^ 6) with 64 in *;
  change (2 ^ 7) with 128 in *; change (2 ^ 8) with 256 in *; change (2 ^ 9) with 512 in *;
  change (2 ^ 10) with 1024 in *; change (2 ^ 12) with 4096 in *; change (2 ^ 14) with 16384 in *.
  repeat split; try lia.
Qed.

Lemma word_sum w : w < 65536 ->
  w = w / 2 ^ 0 mod 2 ^ 3 + 2 ^ 3 * (w / 2 ^ 3 mod 2 ^ 1) + 2 ^ 4 * (w / 2 ^ 4 mod 2 ^ 1)
      + 2 ^ 5 * (w / 2 ^ 5 mod 2 ^ 1) + 2 ^ 6 * (w / 2 ^ 6 mod 2 ^ 1)
      + 2 ^ 7 * (w / 2 ^ 7 mod 2 ^ 1) + 2 ^ 8 * (w / 2 ^ 8 mod 2 ^ 1)
      + 2 ^ 9 * (w / 2 ^ 9 mod 2 ^ 1) + 2 ^ 10 * (w / 2 ^ 10 mod 2 ^ 2)
      + 2 ^ 12 * (w / 2 ^ 12 mod 2 ^ 2) + 2 ^ 14 * (w / 2 ^ 14 mod 2 ^ 2).
Proof.
  intros Hw.
  assert (D : forall a b, w / 2 ^ (a + b) = w / 2 ^ a / 2 ^ b).
  { intros a b. rewrite N.pow_add_r, N.div_div by (apply N.pow_nonzero; lia). reflexivity. }
  pose proof (D 3 1) as D4; pose proof (D 4 1) as D5; pose proof (D 5 1) as D6;
  pose proof (D 6 1) as D7; pose proof (D 7 1) as D8; pose proof (D 8 1) as D9;
  pose proof (D 9 1) as D10; pose proof (D 10 2) as D12; pose proof (D 12 2) as D14.
  assert (B14 : w / 2 ^ 14 < 4) by (apply N.div_lt_upper_bound; [discriminate|exact Hw]).
  cbn [N.add Pos.add Pos.succ] in *.
  change (2 ^ 0) with 1; rewrite N.div_1_r.
  change (2 ^ 1) with 2 in *; change (2 ^ 2) with 4 in *.
  pose proof (N.div_mod' w (2 ^ 3)) as E0.
  pose proof (N.div_mod' (w / 2 ^ 3) 2) as E3. rewrite <- D4 in E3.
  pose proof (N.div_mod' (w / 2 ^ 4) 2) as E4. rewrite <- D5 in E4.
  pose proof (N.div_mod' (w / 2 ^ 5) 2) as E5. rewrite <- D6 in E5.
  pose proof (N.div_mod' (w / 2 ^ 6) 2) as E6. rewrite <- D7 in E6.
  pose proof (N.div_mod' (w / 2 ^ 7) 2) as E7. rewrite <- D8 in E7.
  pose proof (N.div_mod' (w / 2 ^ 8) 2) as E8. rewrite <- D9 in E8.
  pose proof (N.div_mod' (w / 2 ^ 9) 2) as E9. rewrite <- D10 in E9.
  pose proof (N.div_mod' (w / 2 ^ 10) 4) as E10. rewrite <- D12 in E10.
  pose proof (N.div_mod' (w / 2 ^ 12) 4) as E12. rewrite <- D14 in E12.
  pose proof (N.mod_small _ _ B14) as E14.
  clear D D4 D5 D6 D7 D8 D9 D10 D12 D14.
  rewrite E14.
  generalize dependent (w / 2 ^ 14); intros q14.
  generalize dependent (w / 2 ^ 12 mod 4); intros m12. generalize dependent (w / 2 ^ 12); intros q12.
  generalize dependent (w / 2 ^ 10 mod 4); intros m10. generalize dependent (w / 2 ^ 10); intros q10.
  generalize dependent (w / 2 ^ 9 mod 2); intros m9. generalize dependent (w / 2 ^ 9); intros q9.
  generalize dependent (w / 2 ^ 8 mod 2); intros m8. generalize dependent (w / 2 ^ 8); intros q8.
  generalize dependent (w / 2 ^ 7 mod 2); intros m7. generalize dependent (w / 2 ^ 7); intros q7.
  generalize dependent (w / 2 ^ 6 mod 2); intros m6. generalize dependent (w / 2 ^ 6); intros q6.
  generalize dependent (w / 2 ^ 5 mod 2); intros m5. generalize dependent (w / 2 ^ 5); intros q5.
  generalize dependent (w / 2 ^ 4 mod 2); intros m4. generalize dependent (w / 2 ^ 4); intros q4.
  generalize dependent (w / 2 ^ 3 mod 2); intros m3. generalize dependent (w / 2 ^ 3); intros q3.
  generalize dependent (w mod 2 ^ 3); intros m0.
  intros. change (2 ^ 3) with 8 in *; change (2 ^ 4) with 16; change (2 ^ 5) with 32;
  change (2 ^ 6) with 64; change (2 ^ 7) with 128; change (2 ^ 8) with 256; change (2 ^ 9) with 512;
  change (2 ^ 10) with 1024; change (2 ^ 12) with 4096; change (2 ^ 14) with 16384. lia.
Qed.

(** Header::try_read with the bit fields written arithmetically. *)
Definition header_body (c : cfg) (bytes : list N) (w : N) : bres (Header * nat) :=
  version <- ok_or (frame_version_from_bits (w / 2 ^ 12 mod 2 ^ 2)) (BadInput "InvalidFrameVersion") ;;
  frame_type <- ok_or (frame_type_from_bits (w / 2 ^ 0 mod 2 ^ 3)) (BadInput "InvalidFrameType") ;;
  dest_addr_mode <- lift_decode (address_mode_from_bits (w / 2 ^ 10 mod 2 ^ 2)) ;;
  src_addr_mode <- lift_decode (address_mode_from_bits (w / 2 ^ 14 mod 2 ^ 2)) ;;
  let comp := 0 <? w / 2 ^ 6 mod 2 ^ 1 in
  '(sq, off) <- read_with (read_num 1 LE) bytes 2 ;;
  '(dst, off) <- read_destination dest_addr_mode bytes off ;;
  _ <- (if comp then '_ <- ok_or dst (BadInput "InvalidAddressMode") ;; Ok tt else Ok tt) ;;
  '(src, off) <- read_source src_addr_mode comp dst bytes off ;;
  '(aux, off) <-
    (if 0 <? w / 2 ^ 3 mod 2 ^ 1
     then '(a, off) <- read_with (try_read_aux c) bytes off ;; Ok (Some a, off)
     else Ok (None, off)) ;;
  Ok ({| frame_type := frame_type;
         frame_pending := 0 <? w / 2 ^ 4 mod 2 ^ 1;
         ack_request := 0 <? w / 2 ^ 5 mod 2 ^ 1;
         pan_id_compress := comp;
         seq_no_suppress := 0 <? w / 2 ^ 8 mod 2 ^ 1;
         ie_present := 0 <? w / 2 ^ 9 mod 2 ^ 1;
         version := version;
         seq := sq;
         destination := dst;
         source := src;
         auxiliary_security_header := aux |}, off).

Lemma try_read_header_eq c bs :
  try_read_header c bs =
  if (List.length bs <? 3)%nat then Err Incomplete
  else header_body c bs (num_val LE (slice bs 0 2)).
Proof.
  unfold try_read_header, check_len.
  destruct (Nat.ltb_spec (List.length bs) 3) as [H|H].
  - replace (_ <? 3) with true by lia. reflexivity.
  - replace (_ <? 3) with false by lia. cbn [obind].
    rewrite read_num_at by lia. replace (_ <=? _)%nat with true by lia. cbn [obind Nat.add].
    rewrite !(fcf_field_eq _ mask_FRAME_TYPE off_FRAME_TYPE 3),
      !(fcf_field_eq _ mask_SECURITY off_SECURITY 1),
      !(fcf_field_eq _ mask_PENDING off_PENDING 1),
      !(fcf_field_eq _ mask_ACK off_ACK 1),
      !(fcf_field_eq _ mask_PAN_ID_COMPRESS off_PAN_ID_COMPRESS 1),
      !(fcf_field_eq _ mask_SEQ_NO_SUPPRESS off_SEQ_NO_SUPPRESS 1),
      !(fcf_field_eq _ mask_IE_PRESENT off_IE_PRESENT 1),
      !(fcf_field_eq _ mask_DEST_ADDR_MODE off_DEST_ADDR_MODE 2),
      !(fcf_field_eq _ mask_VERSION off_VERSION 2),
      !(fcf_field_eq _ mask_SRC_ADDR_MODE off_SRC_ADDR_MODE 2) by (reflexivity || discriminate).
    reflexivity.
Qed.

(** Code tables. *)
Lemma version_from_inv b v : frame_version_from_bits b = Some v -> b = version_code v.
Proof.
  unfold frame_version_from_bits.
  destruct b as [|[[]|[]|]]; try discriminate; intros [= <-]; reflexivity.
Qed.
Lemma type_from_inv b t : frame_type_from_bits b = Some t -> b = type_code t.
Proof.
  unfold frame_type_from_bits.
  destruct b as [|[[[]|[]|]|[[]|[]|]|]]; try discriminate; intros [= <-]; reflexivity.
Qed.
Lemma mode_from_inv b m : lift_decode (address_mode_from_bits b) = Ok m -> b = address_mode_bits m.
Proof.
  unfold address_mode_from_bits.
  destruct b as [|[[]|[]|]]; cbn; try discriminate; intros [= <-]; reflexivity.
Qed.
Lemma version_from_code v : frame_version_from_bits (version_code v) = Some v.
Proof. destruct v; reflexivity. Qed.
Lemma type_from_code t : frame_type_from_bits (type_code t) = Some t.
Proof. destruct t; reflexivity. Qed.
Lemma mode_from_code a : lift_decode (address_mode_from_bits (addr_mode_code a)) = Ok (address_mode_of a).
Proof. destruct a as [[]|]; reflexivity. Qed.
Lemma mode_bits_of a : address_mode_bits (address_mode_of a) = addr_mode_code a.
Proof. destruct a as [[]|]; reflexivity. Qed.

Lemma bit_flag x : x < 2 -> flag (0 <? x) = x.
Proof. intros H. unfold flag. destruct (N.ltb_spec 0 x); lia. Qed.
Lemma flag_bit b : (0 <? flag b) = b.
Proof. destruct b; reflexivity. Qed.
Lemma flag_lt b : flag b < 2.
Proof. destruct b; cbn; lia. Qed.
Lemma type_code_lt t : type_code t < 8.
Proof. destruct t; cbn; lia. Qed.
Lemma version_code_lt t : version_code t < 4.
Proof. destruct t; cbn; lia. Qed.
Lemma mode_code_lt t : addr_mode_code t < 4.
Proof. destruct t as [[]|]; cbn; lia. Qed.

(** Destination. *)
Lemma read_destination_sound m bs off d off' : octets bs -> (off <= List.length bs)%nat ->
  read_destination m bs off = Ok (d, off') ->
  (off <= off' <= List.length bs)%nat /\ address_mode_of d = m /\ opt_ok address_ok d /\
  slice bs off off' = match d with None => [] | Some a => wire_address a end.
Proof.
  intros Hb Ho H. unfold read_destination in H. destruct m.
  - injection H as <- <-. cbn. rewrite slice_nil. repeat split; auto.
  - inv_bind H. destruct a as [p o1]. inv_bind H. destruct a as [a o2]. injection H as <- <-.
    rewrite read_pan_at in E. rewrite read_short_at in E0.
    apply read_num_inv in E; [|assumption]. destruct E as (-> & L1 & S1 & B1).
    apply read_num_inv in E0; [|assumption]. destruct E0 as (-> & L2 & S2 & B2).
    cbn in B1, B2. repeat split; try lia; try assumption.
    unfold wire_address. cbn [pan_id wire_addr_only]. cbn [in_order] in S1, S2.
    rewrite <- S1, <- S2, slice_app by lia. reflexivity.
  - inv_bind H. destruct a as [p o1]. inv_bind H. destruct a as [a o2]. injection H as <- <-.
    rewrite read_pan_at in E. rewrite read_extended_at in E0.
    apply read_num_inv in E; [|assumption]. destruct E as (-> & L1 & S1 & B1).
    apply read_num_inv in E0; [|assumption]. destruct E0 as (-> & L2 & S2 & B2).
    cbn in B1, B2. repeat split; try lia; try assumption.
    unfold wire_address. cbn [pan_id wire_addr_only]. cbn [in_order] in S1, S2.
    rewrite <- S1, <- S2, slice_app by lia. reflexivity.
Qed.

(** Source. *)
Lemma read_source_sound m (comp : bool) d bs off s off' : octets bs -> (off <= List.length bs)%nat ->
  opt_ok address_ok d ->
  read_source m comp d bs off = Ok (s, off') ->
  (off <= off' <= List.length bs)%nat /\ address_mode_of s = m /\ opt_ok address_ok s /\
  (comp = true -> forall a, s = Some a -> exists d', d = Some d' /\ pan_id a = pan_id d') /\
  slice bs off off' = match s with
                      | None => []
                      | Some a => if comp then wire_addr_only a else wire_address a
                      end.
Proof.
  intros Hb Ho Hd H. unfold read_source in H. destruct m.
  - injection H as <- <-. cbn. rewrite slice_nil. repeat split; auto. discriminate.
  - destruct comp.
    + inv_bind H. inv_bind H. destruct a0 as [x o2]. injection H as <- <-.
      destruct d as [d'|]; [|discriminate]. injection E as ->.
      rewrite read_short_at in E0.
      apply read_num_inv in E0; [|assumption]. destruct E0 as (-> & L2 & S2 & B2).
      cbn in B2. split; [lia|]. split; [reflexivity|]. split.
      { split; [|assumption]. cbn in Hd. destruct a; apply Hd. }
      split; [|exact S2]. intros _ a' [= <-]. exists a. auto.
    + inv_bind H. destruct a as [p o1]. inv_bind H. destruct a as [a o2]. injection H as <- <-.
      rewrite read_pan_at in E. rewrite read_short_at in E0.
      apply read_num_inv in E; [|assumption]. destruct E as (-> & L1 & S1 & B1).
      apply read_num_inv in E0; [|assumption]. destruct E0 as (-> & L2 & S2 & B2).
      cbn in B1, B2. split; [lia|]. split; [reflexivity|]. split; [split; assumption|].
      split; [discriminate|].
      unfold wire_address. cbn [pan_id wire_addr_only]. cbn [in_order] in S1, S2.
      rewrite <- S1, <- S2, slice_app by lia. reflexivity.
  - destruct comp.
    + inv_bind H. inv_bind H. destruct a0 as [x o2]. injection H as <- <-.
      destruct d as [d'|]; [|discriminate]. injection E as ->.
      rewrite read_extended_at in E0.
      apply read_num_inv in E0; [|assumption]. destruct E0 as (-> & L2 & S2 & B2).
      cbn in B2. split; [lia|]. split; [reflexivity|]. split.
      { split; [|assumption]. cbn in Hd. destruct a; apply Hd. }
      split; [|exact S2]. intros _ a' [= <-]. exists a. auto.
    + inv_bind H. destruct a as [p o1]. inv_bind H. destruct a as [a o2]. injection H as <- <-.
      rewrite read_pan_at in E. rewrite read_extended_at in E0.
      apply read_num_inv in E; [|assumption]. destruct E as (-> & L1 & S1 & B1).
      apply read_num_inv in E0; [|assumption]. destruct E0 as (-> & L2 & S2 & B2).
      cbn in B1, B2. split; [lia|]. split; [reflexivity|]. split; [split; assumption|].
      split; [discriminate|].
      unfold wire_address. cbn [pan_id wire_addr_only]. cbn [in_order] in S1, S2.
      rewrite <- S1, <- S2, slice_app by lia. reflexivity.
Qed.

(** Security control octet. *)
Lemma level_from_inv b l : security_level_from_bits b = Some l -> b = level_code l.
Proof.
  unfold security_level_from_bits.
  destruct b as [|[[[]|[]|]|[[]|[]|]|]]; try discriminate; intros [= <-]; reflexivity.
Qed.
Lemma key_mode_from_inv b m : key_id_mode_from_bits b = Some m -> b = key_mode_code m.
Proof.
  unfold key_id_mode_from_bits.
  destruct b as [|[[]|[]|]]; try discriminate; intros [= <-]; reflexivity.
Qed.
Lemma level_from_lt b : b < 8 -> exists l, security_level_from_bits b = Some l.
Proof.
  intros H. unfold security_level_from_bits.
  destruct b as [|[[[]|[]|]|[[]|[]|]|]]; try (exfalso; lia); eexists; reflexivity.
Qed.
Lemma key_mode_from_lt b : b < 4 -> exists l, key_id_mode_from_bits b = Some l.
Proof.
  intros H. unfold key_id_mode_from_bits.
  destruct b as [|[[]|[]|]]; try (exfalso; lia); eexists; reflexivity.
Qed.
Lemma level_from_code l : security_level_from_bits (level_code l) = Some l.
Proof. destruct l; reflexivity. Qed.
Lemma key_mode_from_code l : key_id_mode_from_bits (key_mode_code l) = Some l.
Proof. destruct l; reflexivity. Qed.
Lemma level_code_lt l : level_code l < 8.
Proof. destruct l; cbn; lia. Qed.
Lemma key_mode_code_lt l : key_mode_code l < 4.
Proof. destruct l; cbn; lia. Qed.

Definition control_from (b : N) : option SecurityControl :=
  match security_level_from_bits (b / 2 ^ 0 mod 2 ^ 3), key_id_mode_from_bits (b / 2 ^ 3 mod 2 ^ 2) with
  | Some l, Some m => Some {| security_level := l; key_id_mode := m |}
  | _, _ => None
  end.
Lemma try_read_control_eq bs :
  try_read_security_control bs =
  match bs with
  | [] => Err Incomplete
  | b :: _ => match control_from b with Some s => Ok (s, 1%nat) | None => Panic end
  end.
Proof.
  unfold try_read_security_control. rewrite read_num_at by lia.
  destruct bs as [|b r]; [reflexivity|].
  replace (_ <=? _)%nat with true by (cbn; reflexivity).
  cbn [obind Nat.add]. unfold slice. cbn [Nat.sub skipn firstn num_val le_val].
  replace (b + 256 * 0) with b by lia.
  rewrite (shiftr_land_field b mask_SECURITY_LEVEL off_SECURITY_LEVEL 3) by reflexivity.
  rewrite (shiftr_land_field b mask_KEY_IDENTIFIER_MODE off_KEY_IDENTIFIER_MODE 2) by reflexivity.
  unfold control_from, off_SECURITY_LEVEL, off_KEY_IDENTIFIER_MODE.
  destruct (level_from_lt (b / 2 ^ 0 mod 2 ^ 3)) as [l El]; [apply N.mod_lt; discriminate|].
  destruct (key_mode_from_lt (b / 2 ^ 3 mod 2 ^ 2)) as [m Em]; [apply N.mod_lt; discriminate|].
  rewrite El, Em. reflexivity.
Qed.
Lemma control_from_some b : exists s, control_from b = Some s.
Proof.
  unfold control_from.
  destruct (level_from_lt (b / 2 ^ 0 mod 2 ^ 3)) as [l El]; [apply N.mod_lt; discriminate|].
  destruct (key_mode_from_lt (b / 2 ^ 3 mod 2 ^ 2)) as [m Em]; [apply N.mod_lt; discriminate|].
  rewrite El, Em. eauto.
Qed.
Lemma control_from_inv b s : b < 256 -> control_from b = Some s ->
  exists rs, rs < 8 /\ b = level_code (security_level s) + 2 ^ 3 * key_mode_code (key_id_mode s) + 2 ^ 5 * rs.
Proof.
  intros Hb. unfold control_from.
  destruct (security_level_from_bits _) as [l|] eqn:El; [|discriminate].
  destruct (key_id_mode_from_bits _) as [m|] eqn:Em; [|discriminate].
  intros [= <-]. apply level_from_inv in El. apply key_mode_from_inv in Em.
  cbn [security_level key_id_mode].
  rewrite <- El, <- Em. exists (b / 2 ^ 5).
  change (2 ^ 0) with 1. change (2 ^ 3) with 8. change (2 ^ 2) with 4. change (2 ^ 5) with 32.
  split; lia.
Qed.
Lemma control_from_code l m rs : rs < 8 ->
  control_from (level_code l + 2 ^ 3 * key_mode_code m + 2 ^ 5 * rs)
  = Some {| security_level := l; key_id_mode := m |}.
Proof.
  intros Hr. unfold control_from. pose proof (level_code_lt l). pose proof (key_mode_code_lt m).
  change (2 ^ 0) with 1. change (2 ^ 3) with 8. change (2 ^ 2) with 4. change (2 ^ 5) with 32.
  replace ((level_code l + 8 * key_mode_code m + 32 * rs) / 1 mod 8) with (level_code l) by lia.
  replace ((level_code l + 8 * key_mode_code m + 32 * rs) / 8 mod 4) with (key_mode_code m) by lia.
  rewrite level_from_code, key_mode_from_code. reflexivity.
Qed.

(** Auxiliary security header. *)
Lemma try_read_aux_sound c bs a n : octets bs -> try_read_aux c bs = Ok (a, n) ->
  (n <= List.length bs)%nat /\ aux_ok a /\
  key_id_mode (control a) = mode_of_key (key_identifier a) /\
  exists rs, rs < 8 /\ firstn n bs = wire_aux LE (native c) rs a.
Proof.
  intros Hb H. unfold try_read_aux in H.
  inv_bind H. destruct a0 as [ctl o1]. inv_bind H. destruct a0 as [fc o2].
  apply read_with_inv in E. destruct E as (_ & k & -> & E). cbn [skipn] in E.
  rewrite try_read_control_eq in E. destruct bs as [|b r] eqn:Ebs; [discriminate|].
  rewrite <- Ebs in *.
  destruct (control_from b) as [ctl'|] eqn:Ec; [|discriminate]. injection E as -> <-.
  assert (Hb0 : b < 256) by (rewrite Ebs in Hb; apply octets_cons in Hb; apply Hb).
  destruct (control_from_inv b ctl Hb0 Ec) as (rs & Hrs & Hctl).
  assert (S0 : slice bs 0 1 = [b]) by (rewrite Ebs; reflexivity).
  apply read_num_inv in E0; [|assumption]. cbn [Nat.add] in E0.
  destruct E0 as (-> & L1 & S1 & B1). cbn in B1.
  destruct (key_id_mode ctl) eqn:Em.
  - injection H as <- <-. split; [lia|]. split; [split; [exact B1|exact I]|].
    split; [exact Em|]. exists rs. split; [assumption|]. unfold wire_aux.
    cbn [control frame_counter key_identifier mode_of_key]. rewrite app_nil_r.
    rewrite <- Hctl, <- S0, <- S1, slice_app by lia. symmetry. apply slice_0.
  - cbn [obind] in H. inv_bind H. destruct a0 as [i o3]. injection H as <- <-.
    apply read_num_inv in E; [|assumption]. destruct E as (-> & L2 & S2 & B2). cbn in B2.
    split; [lia|]. split; [split; [exact B1|split; [exact B2|exact I]]|].
    split; [exact Em|]. exists rs. split; [assumption|]. unfold wire_aux, wire_key_identifier.
    cbn [control frame_counter key_identifier mode_of_key key_source key_index].
    cbn [in_order] in S2. rewrite le_S, le_0, N.mod_small in S2 by exact B2.
    cbn [app]. change (?x :: ?y) with ([x] ++ y) at 1.
    rewrite <- Hctl, <- S0, <- S1, <- S2, !slice_app by lia. symmetry. apply slice_0.
  - inv_bind H. destruct a0 as [ks o3]. inv_bind E. destruct a0 as [v o3']. injection E as <- <-.
    inv_bind H. destruct a0 as [i o4]. injection H as <- <-.
    apply read_num_inv in E0; [|assumption]. destruct E0 as (-> & L2 & S2 & B2). cbn in B2.
    apply read_num_inv in E; [|assumption]. destruct E as (-> & L3 & S3 & B3). cbn in B3.
    split; [lia|]. split; [split; [exact B1|split; [exact B3|exact B2]]|].
    split; [exact Em|]. exists rs. split; [assumption|]. unfold wire_aux, wire_key_identifier.
    cbn [control frame_counter key_identifier mode_of_key key_source key_index].
    cbn [in_order] in S3. rewrite le_S, le_0, N.mod_small in S3 by exact B3.
    rewrite <- Hctl, <- S0, <- S1, <- S2, <- S3, !slice_app by lia. symmetry. apply slice_0.
  - inv_bind H. destruct a0 as [ks o3]. inv_bind E. destruct a0 as [v o3']. injection E as <- <-.
    inv_bind H. destruct a0 as [i o4]. injection H as <- <-.
    apply read_num_inv in E0; [|assumption]. destruct E0 as (-> & L2 & S2 & B2). cbn in B2.
    apply read_num_inv in E; [|assumption]. destruct E as (-> & L3 & S3 & B3). cbn in B3.
    split; [lia|]. split; [split; [exact B1|split; [exact B3|exact B2]]|].
    split; [exact Em|]. exists rs. split; [assumption|]. unfold wire_aux, wire_key_identifier.
    cbn [control frame_counter key_identifier mode_of_key key_source key_index].
    cbn [in_order] in S3. rewrite le_S, le_0, N.mod_small in S3 by exact B3.
    rewrite <- Hctl, <- S0, <- S1, <- S2, <- S3, !slice_app by lia. symmetry. apply slice_0.
Qed.
