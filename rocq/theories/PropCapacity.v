(** Property C88: how much fits. What the parts of a frame can take on the air at most, which frames
    are sure to fit a PHY packet of 127 octets, and that only secured frames are held to it. *)
From Coq Require Import List Arith NArith ZArith Bool String Lia ZifyBool ZifyNat ZifyN.
From Verif Require Import ByteCrate Types HeaderModel BeaconModel CommandModel CcmModel FrameModel
  Spec SecSpec ProofLib HeaderProofs HeaderReadProofs BeaconProofs CommandProofs FrameProofs CcmProofs
  SecureProofs RepoTests Aes128 AesProofs PropHeader PropContent PropFrame PropSecure PropReceive PropShows.
Import ListNotations.
Open Scope N_scope.
Open Scope list_scope.

(** * Specification *)

(** Octets at most in front of the payload, by the kind of content. *)
Definition front_limit (ct : FrameContent) : nat :=
  match ct with FC_Beacon _ => 119 | FC_Command _ => 32 | _ => 23 end%nat.
(** Payload octets a secured data frame may have: the packet less checksum, header with both PAN
    identifiers (also if one of them is left out), security header and tag. *)
Definition secured_capacity (h : Header) (a : AuxiliarySecurityHeader) : nat :=
  (125 - (3 + match destination h with None => 0 | Some x => 2 + addr_len x end
            + match source h with None => 0 | Some x => 2 + addr_len x end)
       - aux_len a - tag_len (security_level (control a)))%nat.

(** * Proofs *)

Lemma mhr_limit h : (3 <= mhr_len h <= 23)%nat.
Proof.
  unfold mhr_len, dest_len, source_len. destruct (destination h) as [[]|], (source h) as [[]|], (pan_id_compress h); cbn; lia.
Qed.
Lemma aux_limit a : (5 <= aux_len a <= 14)%nat.
Proof. unfold aux_len, key_len. destruct (mode_of_key _); lia. Qed.
Lemma tag_limit l : (tag_len l <= 16)%nat.
Proof. destruct l; cbn; lia. Qed.

Lemma flat_map_length_const {A B} (f : A -> list B) k l : (forall x, List.length (f x) = k) ->
  List.length (flat_map f l) = (k * List.length l)%nat.
Proof. intros H. induction l as [|x l IH]; [cbn; lia|]. cbn [flat_map List.length]. rewrite app_length, H, IH. lia. Qed.

Lemma beacon_length b : beacon_ok b -> (4 <= List.length (wire_beacon br_zero b) <= 96)%nat.
Proof.
  intros (_ & G & P). unfold wire_beacon. rewrite !app_length.
  replace (List.length (wire_superframe (br_superframe br_zero) (superframe_spec b))) with 2%nat
    by reflexivity.
  assert (Hg : (1 <= List.length (wire_gts (br_gts br_zero) (br_direction br_zero) (guaranteed_time_slot_info b)) <= 23)%nat).
  { unfold wire_gts. rewrite app_length. cbn [List.length].
    assert (L : (List.length (active_slots (guaranteed_time_slot_info b)) <= 7)%nat).
    { unfold active_slots. rewrite firstn_length. destruct G as (X & _). exact (Nat.le_trans _ _ _ (Nat.le_min_l _ _) X). }
    destruct (active_slots (guaranteed_time_slot_info b)) as [|s l] eqn:El; [cbn; lia|].
    cbn [List.length].
    rewrite (flat_map_length_const _ 3%nat) by (intros x; unfold wire_gts_descriptor; rewrite app_length, le_length; reflexivity).
    cbn [List.length] in L |- *. lia. }
  assert (Hp : (1 <= List.length (wire_pending (br_pending3 br_zero) (br_pending7 br_zero) (pending_address b)) <= 71)%nat).
  { unfold wire_pending. rewrite !app_length.
    rewrite (flat_map_length_const (le 2) 2%nat) by (intros; apply le_length).
    rewrite (flat_map_length_const (le 8) 8%nat) by (intros; apply le_length).
    assert (List.length (shorts_of (pending_address b)) <= 7)%nat by (unfold shorts_of; rewrite firstn_length; destruct P as (X & _); exact (Nat.le_trans _ _ _ (Nat.le_min_l _ _) X)).
    assert (List.length (extendeds_of (pending_address b)) <= 7)%nat by (unfold extendeds_of; rewrite firstn_length; destruct P as (_ & X & _); exact (Nat.le_trans _ _ _ (Nat.le_min_l _ _) X)).
    unfold ShortAddress, ExtendedAddress in *. cbn [List.length]. lia. }
  lia.
Qed.
Lemma command_length x : (1 <= List.length (wire_command mr_zero x) <= 9)%nat.
Proof.
  destruct x; cbn [wire_command List.length app]; try lia.
  - rewrite app_length, le_length. cbn. lia.
  - unfold wire_realignment. rewrite !app_length, !le_length. destruct (cr_channel_page _); cbn; lia.
Qed.

Lemma content_limit f : content_ok (content f) ->
  (mhr_len (header f) + List.length (wire_content br_zero mr_zero (content f)) <= front_limit (content f))%nat.
Proof.
  intros H. pose proof (mhr_limit (header f)). destruct (content f) eqn:Ec; cbn [wire_content front_limit content_ok List.length] in *; try lia.
  - pose proof (beacon_length _ H). lia.
  - match goal with |- context [wire_command _ ?x] => pose proof (command_length x) end. lia.
Qed.

Section Capacity.
Context {K : Type} (c : cfg) (E : block_cipher K).
Hypothesis HE : cipher_ok E.

(** Frames without security: what a write takes beyond the payload. A data frame with up to 102
    octets of payload, a command frame with up to 93 and a beacon frame with up to 6 fit a PHY
    packet with its checksum whatever the addresses and contents. *)
Theorem C88_unsecured_overhead : forall f m buf n buf', frame_ok f -> write_plain c E f m buf = (Ok n, buf') ->
  (n <= front_limit (content f) + List.length (payload f) + match m with Footer_None => 0 | Footer_Explicit => 2 end)%nat /\
  (List.length (payload f) <= 125 - front_limit (content f) ->
   n + match m with Footer_None => 2 | Footer_Explicit => 0 end <= 127)%nat.
Proof using Type.
  intros f m buf n buf' Hf W. rewrite (C18_plain_frame_length c E f m buf n buf' Hf W).
  pose proof (content_limit f ltac:(apply Hf)) as X. assert (front_limit (content f) <= 119)%nat by (destruct (content f); cbn; lia).
  destruct m; lia.
Qed.

(** But nothing holds frames without security to that size: a frame with any payload is written
    if the buffer has the room. *)
Theorem C88_unsecured_no_limit : forall f p, frame_ok f -> octets p ->
  auxiliary_security_header (header f) = None -> compression_allowed (header f) ->
  let g := {| header := header f; content := content f; payload := p; footer := footer f |} in
  forall buf, (front_limit (content f) + List.length p <= List.length buf)%nat ->
  exists n buf', write_plain c E g Footer_None buf = (Ok n, buf') /\ (List.length p <= n)%nat.
Proof using Type.
  intros f p Hf Hp Ha Hc g buf Lb. destruct Hf as (H1 & H2 & H3 & H4).
  assert (Hg : frame_ok g) by (split; [exact H1|split; [exact H2|split; [exact Hp|exact H4]]]).
  pose proof (C18_plain_frame_layout c E g Footer_None Hg Ha Hc buf) as X.
  pose proof (content_limit g H2) as Y. cbn [g content header] in Y.
  assert (L : List.length (wire_frame Footer_None g) = (mhr_len (header f) + List.length (wire_content br_zero mr_zero (content f)) + List.length p)%nat).
  { unfold wire_frame. rewrite !app_length, wire_header_length. cbn [wire_footer List.length].
    assert (Hc' : compression_ok (header g) = true) by (apply compression_ok_iff; exact Hc).
    rewrite header_len_sent by exact Hc'. unfold header_len. cbn [g header content payload]. rewrite Ha. lia. }
  rewrite L in X. cbn [wire_footer] in X.
  replace (_ <=? _)%nat with true in X by (symmetry; apply Nat.leb_le; lia).
  rewrite X. do 2 eexists. split; [reflexivity|]. lia.
Qed.

(** Secured data frames (key found, counter not exhausted, a buffer of at least 127 octets): the
    write succeeds exactly if the payload is within the capacity, and fails with FrameTooLong
    otherwise. *)
Theorem C88_secured_capacity : forall f sc a eui key buf, frame_ok f -> u32_ok (sc_frame_counter sc) ->
  auxiliary_security_header (header f) = Some a -> authenticated (security_level (control a)) = true ->
  frame_type (header f) = Data_t -> content f = FC_Data -> compression_allowed (header f) ->
  sc_frame_counter sc < last_counter ->
  sc_key_provider sc DstAddrMode (key_identifier a) (destination (header f)) = Some (eui, key) ->
  (127 <= List.length buf)%nat ->
  let w := fst (try_write_frame c E f (ser_ctx Footer_None sc) buf) in
  ((List.length (payload f) <= secured_capacity (header f) a)%nat ->
   w = Ok (header_len (header f) + List.length (payload f) + tag_len (security_level (control a)))%nat) /\
  ((secured_capacity (header f) a < List.length (payload f))%nat -> w = Err (BadInput "FrameTooLong")).
Proof using HE.
  intros f sc a eui key buf Hf Hfc Ha Au Ht Hct Hc Lc Hk Lb w.
  assert (Hc' : compression_ok (header f) = true) by (apply compression_ok_iff; exact Hc).
  assert (Le : length_estimate f a = (List.length (payload f) + 2 + (125 - secured_capacity (header f) a))%nat /\ (secured_capacity (header f) a <= 125)%nat).
  { unfold length_estimate, secured_capacity, mhr_len, dest_len, source_len.
    pose proof (aux_limit a) as X1. pose proof (tag_limit (security_level (control a))) as X2.
    unfold compression_ok in Hc'.
    destruct (destination (header f)) as [[]|], (source (header f)) as [[]|], (pan_id_compress (header f));
      cbn [addr_len is_some andb negb orb] in *; try discriminate Hc'; lia. }
  destruct Le as [Le Cx].
  assert (Lf : List.length (wire_front (native c) (sc_frame_counter sc) f) = header_len (header f)).
  { unfold wire_front. rewrite app_length, wire_header_length, Hct. cbn [wire_content List.length]. rewrite header_len_sent by exact Hc'. lia. }
  assert (He : (header_len (header f) + List.length (payload f) + tag_len (security_level (control a)) + 2 <= length_estimate f a)%nat).
  { unfold length_estimate, header_len. rewrite Ha. lia. }
  split; intros Lp.
  - destruct (C27_secured_write_succeeds c E HE f sc a eui key buf Hf Ha Au Ht Hc Lc ltac:(lia) Hk ltac:(rewrite Lf; lia)) as (n & buf' & W).
    subst w. rewrite W. cbn [fst]. f_equal.
    destruct (C27_secured_frame_layout c E HE f Footer_None sc a buf n _ buf' Hf Hfc Ha Au W) as (eui' & key' & _ & B & Ln & _).
    rewrite Ln, B, !app_length, wire_header_length, Hct. cbn [wire_content List.length].
    rewrite secured_payload_length, secured_tag_length, header_len_sent by exact Hc'. lia.
  - destruct (write_plan E (native c) Footer_None sc f) as [[bs st] u] eqn:P.
    pose proof (C27_secured_write_exact c E HE f Footer_None sc bs st u Hf Hfc P buf) as W.
    unfold write_plan in P. rewrite Ha in P. unfold is_data in P. rewrite Ht in P. cbn [negb] in P.
    replace (pan_id_compress (header f) && negb (is_some (destination (header f)) && is_some (source (header f)))) with false in P.
    2:{ unfold compression_ok in Hc'. destruct (destination (header f)), (source (header f)), (pan_id_compress (header f)); first [discriminate Hc'|reflexivity]. }
    replace (127 <? length_estimate f a)%nat with true in P by (symmetry; apply Nat.ltb_lt; lia).
    injection P as <- <- <-. rewrite Lf in W.
    replace (header_len (header f) <=? List.length buf)%nat with true in W.
    2:{ symmetry. apply Nat.leb_le. pose proof (mhr_limit (header f)). pose proof (aux_limit a). unfold header_len. rewrite Ha. lia. }
    subst w. rewrite W. reflexivity.
Qed.

(** No secured data frame with at most 72 octets of payload is too long; with the longest
    addresses, key identifier and tag none with more is written. *)
Theorem C88_secured_floor : forall h a, authenticated (security_level (control a)) = true -> (72 <= secured_capacity h a <= 113)%nat.
Proof using Type.
  intros h a Au. unfold secured_capacity. pose proof (aux_limit a). 
  assert (4 <= tag_len (security_level (control a)) <= 16)%nat by (destruct (security_level (control a)); first [discriminate Au|cbn; lia]).
  destruct (destination h) as [[]|], (source h) as [[]|]; cbn [addr_len]; lia.
Qed.
End Capacity.

(** * The limits are reached *)

Definition long_header (t : FrameType) (compress : bool) (a : option AuxiliarySecurityHeader) : Header :=
  mk_header t false true compress Ieee802154_2006 (Some (Extended 0x111 0x02)) (Some (Extended 0x222 0x01)) 9 a.
Definition full_beacon : Beacon :=
  {| superframe_spec := {| beacon_order := BO_Order 3; superframe_order := SO_Order 3; final_cap_slot := 15;
        battery_life_extension := true; pan_coordinator := true; association_permit := false |};
     guaranteed_time_slot_info := {| gts_permit := true; gts_slot_count := 7;
        gts_slots := repeat {| gts_short_address := 0x1234; gts_starting_slot := 5; gts_length := 1; gts_direction := Transmit |} 7 |};
     pending_address := {| short_address_count := 7; short_addresses := repeat 0x4321 7;
        extended_address_count := 7; extended_addresses := repeat 0x1122334455667788 7 |} |}.
Definition longest (ct : FrameContent) (t : FrameType) (p : list N) : Frame :=
  {| header := long_header t false None; content := ct; payload := p; footer := (0, 0) |}.
Definition realignment : Command :=
  CoordinatorRealignment {| cr_pan_id := 1; cr_coordinator_address := 2; cr_channel := 3; cr_device_address := 4; cr_channel_page := Some 5 |}.
Definition long_secured (n : nat) : Frame :=
  {| header := long_header Data_t false (Some (AuxiliarySecurityHeader_new (SecurityControl_new SL_ENCMIC128)
                                            (Some {| key_source := Some (KS_Long 7); key_index := 1 |})));
     content := FC_Data; payload := repeat 0x5A n; footer := (0, 0) |}.

Lemma full_beacon_ok : beacon_ok full_beacon.
Proof.
  split; [repeat split|]. split.
  - split; [cbn; lia|]. exists (repeat {| gts_short_address := 0x1234; gts_starting_slot := 5; gts_length := 1; gts_direction := Transmit |} 7).
    split; [reflexivity|]. split; [repeat constructor|reflexivity].
  - split; [cbn; lia|]. split; [cbn; lia|]. split.
    + exists (repeat 0x4321 7). split; [reflexivity|]. split; [repeat constructor|reflexivity].
    + exists (repeat 0x1122334455667788 7). split; [reflexivity|]. split; [repeat constructor|reflexivity].
Qed.

(** Frames at the limits of [C88_unsecured_overhead], in a packet of 127 octets with its checksum. *)
Example limits_reached :
  let written f := fst (write_plain host aes_cipher f Footer_None (repeat 0 127)) in
  frame_ok (longest (FC_Beacon full_beacon) Beacon_t (repeat 1 6)) /\
  written (longest (FC_Beacon full_beacon) Beacon_t (repeat 1 6)) = Ok 125%nat /\
  frame_ok (longest (FC_Command realignment) MacCommand_t (repeat 1 93)) /\
  written (longest (FC_Command realignment) MacCommand_t (repeat 1 93)) = Ok 125%nat /\
  frame_ok (longest FC_Data Data_t (repeat 1 102)) /\
  written (longest FC_Data Data_t (repeat 1 102)) = Ok 125%nat.
Proof.
  cbv zeta. assert (O : forall n, octets (repeat 1 n)) by (induction n; constructor; [reflexivity|assumption]).
  split; [split; [repeat split|split; [exact full_beacon_ok|split; [apply O|split; reflexivity]]]|]. split; [vm_compute; reflexivity|].
  split; [split; [repeat split|split; [repeat split|split; [apply O|split; reflexivity]]]|]. split; [vm_compute; reflexivity|].
  split; [split; [repeat split|split; [exact I|split; [apply O|split; reflexivity]]]|]. vm_compute. reflexivity.
Qed.

(** That every written frame fits a PHY packet with its checksum is false: the data frame with one
    octet more is written just the same, and so is one of a thousand octets. *)
Theorem C88_every_written_frame_fits_refuted :
  exists f n buf', frame_ok f /\ auxiliary_security_header (header f) = None /\
    write_plain host aes_cipher f Footer_None (repeat 0 1100) = (Ok n, buf') /\ (1000 < n)%nat /\
    try_read_frame host Footer_None (firstn n buf') = Ok (f, n).
Proof.
  exists (longest FC_Data Data_t (repeat 1 1000)).
  destruct (write_plain host aes_cipher (longest FC_Data Data_t (repeat 1 1000)) Footer_None (repeat 0 1100)) as [r buf'] eqn:W.
  vm_compute in W. injection W as <- <-. do 2 eexists.
  split. { split; [repeat split|]. split; [exact I|]. split; [|split; reflexivity].
           cbn [payload longest]. generalize 1000%nat as n. induction n; constructor; [reflexivity|assumption]. }
  split; [reflexivity|]. split; [reflexivity|]. split; [apply Nat.ltb_lt; vm_compute; reflexivity|]. vm_compute. reflexivity.
Qed.

(** Secured: 72 octets are written, 73 refused. *)
Example secured_limit_reached :
  secured_capacity (header (long_secured 0)) {| control := {| security_level := SL_ENCMIC128; key_id_mode := KIM_None |};
    frame_counter := 0; key_identifier := Some {| key_source := Some (KS_Long 7); key_index := 1 |} |} = 72%nat /\
  frame_ok (long_secured 72) /\
  fst (try_write_frame host aes_cipher (long_secured 72) (aes_ctx 1 5) (repeat 0 127)) = Ok 125%nat /\
  fst (try_write_frame host aes_cipher (long_secured 73) (aes_ctx 1 5) (repeat 0 127)) = Err (BadInput "FrameTooLong").
Proof.
  split; [reflexivity|]. split.
  { split; [repeat split|]. split; [exact I|]. split; [|split; reflexivity]. cbn [payload long_secured].
    generalize 72%nat as n. induction n; constructor; [reflexivity|assumption]. }
  split; vm_compute; reflexivity.
Qed.

Print Assumptions C88_unsecured_overhead.
Print Assumptions C88_unsecured_no_limit.
Print Assumptions C88_secured_capacity.
Print Assumptions C88_secured_floor.
Print Assumptions C88_every_written_frame_fits_refuted.
