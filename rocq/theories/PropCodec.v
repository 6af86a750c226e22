(** Property C52: the public codecs of the parts of a frame, used on their own. *)
From Coq Require Import List Arith NArith ZArith Bool String Lia ZifyBool ZifyNat ZifyN.
From Verif Require Import ByteCrate Types HeaderModel BeaconModel CommandModel CcmModel FrameModel
  Spec SecSpec ProofLib HeaderProofs HeaderReadProofs BeaconProofs CommandProofs FrameProofs
  RepoTests PropHeader PropContent.
Import ListNotations.
Open Scope N_scope.
Open Scope list_scope.
Ltac Zify.zify_post_hook ::= Z.div_mod_to_equations.

(** A reader of values that take [n] octets: it fails, with Incomplete, exactly when fewer are
    there; otherwise it takes [n] octets and yields a value in range that encodes as them. It
    never panics and does not look further. *)
Definition decodes_as {A} (rd : reader A) (n : nat) (ok : A -> Prop) (wire : A -> list N) : Prop :=
  forall bs, octets bs ->
    if (n <=? List.length bs)%nat
    then exists v, rd bs = Ok (v, n) /\ ok v /\ wire v = firstn n bs
    else rd bs = Err Incomplete.

Lemma decodes_num n e : decodes_as (read_num n e) n (fun v => v < 256 ^ N.of_nat n) (in_order e n).
Proof.
  intros bs Hb. rewrite read_num_eq. destruct (Nat.leb_spec n (List.length bs)) as [L|L]; [|reflexivity].
  assert (Ln : List.length (firstn n bs) = n) by (rewrite firstn_length; lia).
  eexists. split; [reflexivity|]. split.
  - apply num_val_bound; [now apply octets_firstn|exact Ln].
  - apply in_order_num_val; [now apply octets_firstn|exact Ln].
Qed.

(** ** C52 Addresses *)
Theorem C52_addresses_read :
  decodes_as try_read_pan_id 2 u16_ok (le 2) /\
  decodes_as try_read_short 2 u16_ok (le 2) /\
  decodes_as try_read_extended 8 u64_ok (le 8).
Proof.
  split; [|split]; intros bs Hb.
  - rewrite try_read_pan_eq. exact (decodes_num 2 LE bs Hb).
  - rewrite try_read_short_eq. exact (decodes_num 2 LE bs Hb).
  - rewrite try_read_extended_eq. exact (decodes_num 8 LE bs Hb).
Qed.

Theorem C52_addresses_write :
  (forall p, encodes_as (try_write_pan_id p) (le 2 p)) /\
  (forall s, encodes_as (try_write_short s) (le 2 s)) /\
  (forall x, encodes_as (try_write_extended x) (le 8 x)) /\
  (forall a, encodes_as (try_write_address a Enc_Normal) (wire_address a)) /\
  (forall a, encodes_as (try_write_address a Enc_Compressed) (wire_addr_only a)).
Proof.
  repeat split; intros; apply emits_encodes;
    first [apply emits_pan|apply emits_short|apply emits_extended|apply emits_address|apply emits_address_c].
Qed.

(** Integers written are the integers read back, whatever follows. *)
Theorem C52_addresses_round_trip :
  (forall p tail, u16_ok p -> try_read_pan_id (le 2 p ++ tail) = Ok (p, 2%nat)) /\
  (forall s tail, u16_ok s -> try_read_short (le 2 s ++ tail) = Ok (s, 2%nat)) /\
  (forall x tail, u64_ok x -> try_read_extended (le 8 x ++ tail) = Ok (x, 8%nat)).
Proof.
  repeat split; intros; rewrite ?try_read_pan_eq, ?try_read_short_eq, ?try_read_extended_eq.
  - exact (read_num_complete 2 LE p tail H).
  - exact (read_num_complete 2 LE s tail H).
  - exact (read_num_complete 8 LE x tail H).
Qed.

(** ** C52 Security control *)

(** Every octet decodes: the errors InvalidSecurityLevel and InvalidKeyIdentifierMode are never
    produced. Bits 5 to 7 are ignored. *)
Theorem C52_security_control_read : forall b r, b < 256 ->
  exists l m, try_read_security_control (b :: r) = Ok ({| security_level := l; key_id_mode := m |}, 1%nat) /\
    level_code l = b mod 8 /\ key_mode_code m = b / 8 mod 4.
Proof.
  intros b r Hb. rewrite try_read_control_eq. destruct (control_from_some b) as [[l m] Es]. rewrite Es.
  exists l, m. split; [reflexivity|]. destruct (control_from_inv b _ Hb Es) as (rs & Hrs & Eb).
  cbn [security_level key_id_mode] in Eb. pose proof (level_code_lt l). pose proof (key_mode_code_lt m).
  change (2 ^ 3) with 8 in Eb. change (2 ^ 5) with 32 in Eb. lia.
Qed.
Theorem C52_security_control_empty : try_read_security_control [] = Err Incomplete.
Proof. reflexivity. Qed.
Theorem C52_security_control_write : forall s,
  encodes_as (try_write_security_control s) [level_code (security_level s) + 8 * key_mode_code (key_id_mode s)].
Proof. intros [l m]. apply emits_encodes, (emits_security_control l m). Qed.

(** ** C52 Auxiliary security header *)
Theorem C52_aux_read_exact : forall c bs a n, octets bs ->
  (try_read_aux c bs = Ok (a, n) <->
   (n <= List.length bs)%nat /\ aux_ok a /\
   key_id_mode (control a) = mode_of_key (key_identifier a) /\
   exists rs, rs < 8 /\ firstn n bs = wire_aux LE (native c) rs a).
Proof.
  intros c bs a n Hb. split; [now apply try_read_aux_sound|].
  intros (Ln & Ha & Hm & rs & Hrs & Ew).
  rewrite <- (firstn_skipn n bs), Ew, (try_read_aux_complete c rs a (skipn n bs) Hrs Ha Hm).
  do 2 f_equal. rewrite <- Ew, firstn_length. lia.
Qed.

(** How many octets it takes is in bits 3 and 4 of its first octet; fewer is Incomplete. *)
Theorem C52_aux_read_total : forall c bs,
  match bs with
  | [] => try_read_aux c bs = Err Incomplete
  | b :: _ =>
      let need := match field b 3 2 with 0%N => 5 | 1%N => 6 | 2%N => 10 | _ => 14 end%nat in
      if (need <=? List.length bs)%nat then exists a, try_read_aux c bs = Ok (a, need)
      else try_read_aux c bs = Err Incomplete
  end.
Proof.
  intros c bs. pose proof (aux_fate c bs) as H. destruct bs as [|b r]; [exact H|].
  change (match field b 3 2 with 0%N => 5 | 1%N => 6 | 2%N => 10 | _ => 14 end%nat) with (aux_need b).
  cbv zeta. destruct H as [[L [a H]]|[L H]].
  - replace (_ <=? _)%nat with true by lia. eauto.
  - replace (_ <=? _)%nat with false by lia. exact H.
Qed.

(** What is written is the level, the mode of the key identifier and the counter of the security
    context; the frame counter and the key identifier mode stored in the value are not used. *)
Theorem C52_aux_write : forall c a fc, opt_ok key_identifier_ok (key_identifier a) ->
  encodes_as (try_write_aux c a fc)
    ([level_code (security_level (control a)) + 8 * key_mode_code (mode_of_key (key_identifier a))]
     ++ in_order (native c) 4 fc
     ++ match key_identifier a with None => [] | Some k => wire_key_identifier (native c) k end).
Proof.
  intros c a fc Hk. apply emits_encodes. eapply emits_eq; [now apply emits_aux|].
  unfold wire_aux, aux_sent. cbn [control security_level key_identifier frame_counter].
  change (2 ^ 3) with 8. now rewrite N.mul_0_r, N.add_0_r.
Qed.
Theorem C52_aux_write_ignores_stored_counter : forall c a b fc,
  security_level (control a) = security_level (control b) -> key_identifier a = key_identifier b ->
  try_write_aux c a fc = try_write_aux c b fc.
Proof. intros c a b fc Hl Hk. unfold try_write_aux. now rewrite Hl, Hk. Qed.

(** On a little-endian host the value read back carries the context's counter, whatever counter
    the value was created with ([new] sets 0, [new_unsafe] any). *)
Theorem C52_aux_round_trip : forall c ctl k v fc buf n buf', native c = LE -> opt_ok key_identifier_ok k ->
  u32_ok fc ->
  try_write_aux c (AuxiliarySecurityHeader_new_unsafe ctl k v) fc buf = (Ok n, buf') ->
  exists a, try_read_aux c buf' = Ok (a, n) /\ get_frame_counter a = fc /\ key_identifier a = k /\
    security_level (control a) = security_level ctl /\ n = aux_octet_size a.
Proof.
  intros c ctl k v fc buf n buf' Hn Hk Hfc W. set (a0 := AuxiliarySecurityHeader_new_unsafe ctl k v) in *.
  pose proof (emits_encodes _ _ (emits_aux c a0 fc Hk)) as EW.
  destruct (encodes_ok _ _ _ _ _ EW W) as (-> & _ & -> & _).
  exists (aux_sent fc a0).
  split; [|split; [reflexivity|split; [reflexivity|split; [reflexivity|]]]].
  - pose proof (try_read_aux_complete c 0 (aux_sent fc a0)
      (skipn (List.length (wire_aux (native c) (native c) 0 (aux_sent fc a0))) buf)
      eq_refl (conj Hfc Hk) eq_refl) as X.
    rewrite Hn in *. exact X.
  - rewrite wire_aux_length. unfold aux_len, aux_octet_size, key_len. cbn [aux_sent key_identifier].
    destruct k as [[[[]|] ?]|]; reflexivity.
Qed.
Theorem C52_key_identifier_write : forall c k, u8_ok (key_index k) ->
  encodes_as (try_write_key_identifier c k) (wire_key_identifier (native c) k).
Proof. intros c k H. now apply emits_encodes, emits_key_identifier. Qed.

(** ** C52 GTS descriptor: the direction is not part of its octets *)
Theorem C52_gts_descriptor_read :
  decodes_as try_read_gts_descriptor 3
    (fun d => gts_descriptor_ok d /\ gts_direction d = Receive) wire_gts_descriptor.
Proof.
  intros bs Hb. rewrite try_read_gts_descriptor_eq. destruct bs as [|x [|y [|z r]]]; try reflexivity.
  cbn [List.length Nat.leb]. eexists. split; [reflexivity|].
  apply octets_cons in Hb. destruct Hb as [Hx Hb]. apply octets_cons in Hb. destruct Hb as [Hy Hb].
  apply octets_cons in Hb. destruct Hb as [Hz _].
  unfold gts_descriptor_ok, u16_ok, wire_gts_descriptor. cbn [gts_short_address gts_starting_slot gts_length gts_direction].
  change (2 ^ 16) with 65536. change (2 ^ 4) with 16.
  split; [repeat split; lia|]. rewrite !le_S, le_0. cbn [app firstn]. f_equal; [lia|]. f_equal; [lia|]. f_equal. lia.
Qed.
Theorem C52_gts_descriptor_write : forall d, gts_descriptor_ok d ->
  encodes_as (try_write_gts_descriptor d) (wire_gts_descriptor d).
Proof. intros d H. now apply emits_encodes, emits_gts_descriptor. Qed.
Theorem C52_gts_descriptor_round_trip : forall d tail, gts_descriptor_ok d ->
  try_read_gts_descriptor (wire_gts_descriptor d ++ tail)
  = Ok ({| gts_short_address := gts_short_address d; gts_starting_slot := gts_starting_slot d;
           gts_length := gts_length d; gts_direction := Receive |}, 3%nat).
Proof. intros d tail H. exact (try_read_gts_descriptor_wire d tail H). Qed.

(** A descriptor decoded with the direction set afterwards is in range. *)
Example codec_cases :
  try_read_pan_id [0x34; 0x12; 9] = Ok (0x1234, 2%nat) /\
  try_read_extended [1; 2; 3] = Err Incomplete /\
  try_read_security_control [0xED] = Ok ({| security_level := SL_ENCMIC32; key_id_mode := KIM_KeyIndex |}, 1%nat) /\
  try_read_aux host [0x0D; 1; 0; 0; 0; 7; 99]
  = Ok ({| control := {| security_level := SL_ENCMIC32; key_id_mode := KIM_KeyIndex |}; frame_counter := 1;
           key_identifier := Some {| key_source := None; key_index := 7 |} |}, 6%nat) /\
  try_read_aux host [0x0D; 1; 0; 0; 0] = Err Incomplete /\
  fst (try_write_aux host (AuxiliarySecurityHeader_new_unsafe (SecurityControl_new SL_MIC32)
         (Some {| key_source := Some (KS_Short 5); key_index := 7 |}) 77) 41 (repeat 0 10)) = Ok 10%nat /\
  try_read_gts_descriptor [0x34; 0x12; 0x5A]
  = Ok ({| gts_short_address := 0x1234; gts_starting_slot := 10; gts_length := 5; gts_direction := Receive |}, 3%nat).
Proof. vm_compute. repeat split. Qed.

Print Assumptions C52_addresses_read.
Print Assumptions C52_addresses_write.
Print Assumptions C52_addresses_round_trip.
Print Assumptions C52_security_control_read.
Print Assumptions C52_security_control_empty.
Print Assumptions C52_security_control_write.
Print Assumptions C52_aux_read_exact.
Print Assumptions C52_aux_read_total.
Print Assumptions C52_aux_write.
Print Assumptions C52_aux_write_ignores_stored_counter.
Print Assumptions C52_aux_round_trip.
Print Assumptions C52_key_identifier_write.
Print Assumptions C52_gts_descriptor_read.
Print Assumptions C52_gts_descriptor_write.
Print Assumptions C52_gts_descriptor_round_trip.
