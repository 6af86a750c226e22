(** Properties C09 - C17 and C48: beacons and MAC commands. *)
From Coq Require Import List Arith NArith ZArith Bool String Lia ZifyBool ZifyNat ZifyN.
From Verif Require Import ByteCrate Types HeaderModel BeaconModel CommandModel CcmModel Spec ProofLib
  HeaderProofs HeaderReadProofs BeaconProofs CommandProofs RepoTests.
Import ListNotations.
Open Scope N_scope.
Open Scope list_scope.
Ltac Zify.zify_post_hook ::= Z.div_mod_to_equations.

Lemma emits_encodes w bs : emits w bs (Ok tt) -> encodes_as w bs.
Proof.
  intros H buf. destruct (H buf) as [H1 H2].
  destruct (Nat.leb_spec (List.length bs) (List.length buf)) as [L|L]; auto.
Qed.

Lemma encodes_ok w bs buf n buf' : encodes_as w bs -> w buf = (Ok n, buf') ->
  n = List.length bs /\ firstn n buf' = bs /\ buf' = bs ++ skipn n buf /\ (n <= List.length buf)%nat.
Proof.
  intros H E. specialize (H buf). rewrite E in H.
  destruct (Nat.leb_spec (List.length bs) (List.length buf)) as [L|L].
  - assert (En : n = List.length bs) by congruence.
    assert (Eb : buf' = bs ++ skipn (List.length bs) buf) by congruence.
    subst n buf'. rewrite firstn_app_exact. auto.
  - destruct H as (k & _ & H). discriminate.
Qed.

(** ** C09 Superframe specification codec *)
Theorem C09_superframe_write : forall s,
  encodes_as (try_write_superframe s) (wire_superframe false s).
Proof. intros s. apply emits_encodes, emits_superframe. Qed.

Theorem C09_superframe_read : forall bs s n, octets bs ->
  (try_read_superframe bs = Ok (s, n) <->
   n = 2%nat /\ (2 <= List.length bs)%nat /\ superframe_canonical s /\
   exists r5, firstn 2 bs = wire_superframe r5 s).
Proof.
  intros bs s n Hb. rewrite try_read_superframe_eq. split.
  - destruct bs as [|a [|b r]]; try discriminate. intros E. apply Ok_inj in E. destruct E as [<- <-].
    apply octets_cons in Hb. destruct Hb as [Ha Hb]. apply octets_cons in Hb. destruct Hb as [Hb _].
    destruct (superframe_of_wire a b Ha Hb) as [C W]. cbn [List.length]. repeat split; try apply C; try lia.
    exact W.
  - intros (-> & L & C & r5 & W). destruct bs as [|a [|b r]]; cbn [List.length] in L; try lia.
    destruct (superframe_of_canonical r5 s C) as (a' & b' & W' & _ & _ & <-).
    rewrite W' in W. cbn [firstn] in W. now injection W as <- <-.
Qed.

Theorem C09_superframe_read_total : forall bs,
  match bs with
  | _ :: _ :: _ => exists s, try_read_superframe bs = Ok (s, 2%nat)
  | _ => try_read_superframe bs = Err Incomplete
  end.
Proof. intros bs. rewrite try_read_superframe_eq. destruct bs as [|a [|b r]]; eauto. Qed.

Theorem C09_superframe_round_trip : forall s buf n buf' tail, superframe_canonical s ->
  try_write_superframe s buf = (Ok n, buf') ->
  try_read_superframe (firstn n buf' ++ tail) = Ok (s, n).
Proof.
  intros s buf n buf' tail C E. destruct (encodes_ok _ _ _ _ _ (C09_superframe_write s) E) as (-> & -> & _).
  destruct (superframe_of_canonical false s C) as (a & b & Ew & _ & _ & Es). rewrite Ew.
  cbn [app]. now rewrite try_read_superframe_eq, Es.
Qed.

(** Orders above 15 (only possible by constructing the value by hand) lose their high bits. *)
Theorem C09_superframe_truncation : forall s buf n buf' tail,
  try_write_superframe s buf = (Ok n, buf') ->
  exists s', try_read_superframe (firstn n buf' ++ tail) = Ok (s', n) /\
    beacon_order_code (beacon_order s') = beacon_order_code (beacon_order s) mod 16 /\
    superframe_order_code (superframe_order s') = superframe_order_code (superframe_order s) mod 16 /\
    final_cap_slot s' = final_cap_slot s mod 16 /\
    battery_life_extension s' = battery_life_extension s /\
    pan_coordinator s' = pan_coordinator s /\ association_permit s' = association_permit s.
Proof.
  intros s buf n buf' tail E. destruct (encodes_ok _ _ _ _ _ (C09_superframe_write s) E) as (-> & -> & _).
  {
    set (s0 := {| beacon_order := if beacon_order_code (beacon_order s) mod 16 =? 15 then BO_OnDemand
                                  else BO_Order (beacon_order_code (beacon_order s) mod 16);
                  superframe_order := if superframe_order_code (superframe_order s) mod 16 =? 15 then SO_Inactive
                                  else SO_Order (superframe_order_code (superframe_order s) mod 16);
                  final_cap_slot := final_cap_slot s mod 16;
                  battery_life_extension := battery_life_extension s;
                  pan_coordinator := pan_coordinator s; association_permit := association_permit s |}).
    assert (C1 : beacon_order_code (beacon_order s0) = beacon_order_code (beacon_order s) mod 16).
    { cbn [s0 beacon_order]. destruct (N.eqb_spec (beacon_order_code (beacon_order s) mod 16) 15) as [->|]; reflexivity. }
    assert (C2 : superframe_order_code (superframe_order s0) = superframe_order_code (superframe_order s) mod 16).
    { cbn [s0 superframe_order]. destruct (N.eqb_spec (superframe_order_code (superframe_order s) mod 16) 15) as [->|]; reflexivity. }
    assert (C : superframe_canonical s0).
    { unfold superframe_canonical. cbn [s0 beacon_order superframe_order final_cap_slot].
      assert (M : forall x, x mod 16 < 16) by (intros x; apply N.mod_lt; discriminate).
      pose proof (M (beacon_order_code (beacon_order s))). pose proof (M (superframe_order_code (superframe_order s))).
      repeat split; try apply M.
      - destruct (N.eqb_spec (beacon_order_code (beacon_order s) mod 16) 15); [exact I|lia].
      - destruct (N.eqb_spec (superframe_order_code (superframe_order s) mod 16) 15); [exact I|lia]. }
    assert (Ew : wire_superframe false s = wire_superframe false s0).
    { unfold wire_superframe. rewrite C1, C2. cbn [s0 final_cap_slot battery_life_extension pan_coordinator association_permit].
      now rewrite !N.mod_mod by discriminate. }
    exists s0. rewrite Ew.
    destruct (superframe_of_canonical false s0 C) as (a & b & Ew' & _ & _ & Es). rewrite Ew'. cbn [app].
    rewrite try_read_superframe_eq, Es. repeat split; assumption || reflexivity. }
Qed.

(** ** C10 GTS information codec *)

(** Values a user can get hold of: slots are private, [permit] is public. *)
Inductive gts_from_api : GtsInformation -> Prop :=
| gts_api_new : gts_from_api GtsInformation_new
| gts_api_read bs g n : octets bs -> try_read_gts_information bs = Ok (g, n) -> gts_from_api g
| gts_api_permit g p : gts_from_api g ->
    gts_from_api {| gts_permit := p; gts_slot_count := gts_slot_count g; gts_slots := gts_slots g |}.

Theorem C10_gts_api_values : forall g, gts_from_api g <-> gts_reachable g.
Proof.
  intros g. split.
  - induction 1 as [|bs g n Hb E|g p H IH].
    + split; [cbn; lia|]. exists []. repeat split; constructor.
    + apply try_read_gts_sound in E; tauto.
    + exact IH.
  - intros R. apply (gts_api_read (wire_gts 0 0 g ++ [0]) g (List.length (wire_gts 0 0 g))).
    + apply octets_app. split; [|repeat constructor].
      unfold wire_gts. apply octets_app. split.
      * constructor; [|constructor]. destruct R as [R _]. change (2 ^ 3) with 8. change (2 ^ 7) with 128.
        destruct (gts_permit g); cbn [flag]; lia.
      * destruct R as (Hc & slots & Hl & Hf & Es). rewrite (active_reachable g slots Hl Es).
        destruct slots as [|d r] eqn:E0; [constructor|]. rewrite <- E0 in *. clear E0 d r.
        apply octets_cons. split.
        -- pose proof (direction_octet_lt slots 0 0 ltac:(reflexivity)) as B.
           eapply N.lt_le_trans; [exact B|]. change 256 with (2 ^ 8). apply N.pow_le_mono_r; lia.
        -- clear -Hf. induction Hf as [|d r (_ & H1 & H2) Hf IH]; [constructor|].
           cbn [flat_map]. apply octets_app. split; [|exact IH]. unfold wire_gts_descriptor.
           apply octets_app. split; [apply octets_le|]. constructor; [|constructor]. change (2 ^ 4) with 16. lia.
    + apply try_read_gts_complete; try assumption.
      * reflexivity.
      * destruct R as [R _]. assert (2 ^ 0 <= 2 ^ (8 - N.of_nat (gts_slot_count g))) by
          (apply N.pow_le_mono_r; lia). change (2 ^ 0) with 1 in *. lia.
      * right. discriminate.
Qed.

Theorem C10_gts_write : forall g, gts_from_api g ->
  encodes_as (try_write_gts_information g) (wire_gts 0 0 g).
Proof. intros g H. apply emits_encodes, emits_gts_information. now apply C10_gts_api_values. Qed.

Theorem C10_gts_read : forall bs g n, octets bs ->
  (try_read_gts_information bs = Ok (g, n) <->
   (if (gts_slot_count g =? 0)%nat then (n <= List.length bs)%nat else (n < List.length bs)%nat) /\ gts_reachable g /\
   exists r rd, r < 16 /\ rd < 2 ^ (8 - N.of_nat (gts_slot_count g)) /\ firstn n bs = wire_gts r rd g).
Proof.
  intros bs g n Hb. split.
  - intros H. pose proof (gts_fate bs) as F. destruct (try_read_gts_sound bs g n Hb H) as (L & R & r & rd & Hr & Hrd & W).
    split; [|split; [assumption|exists r, rd; auto]].
    destruct (Nat.eqb_spec (gts_slot_count g) 0) as [|Hc]; [assumption|].
    destruct bs as [|b bs]; [congruence|].
    assert (Eb : b mod 8 = N.of_nat (gts_slot_count g)).
    { destruct n as [|n]; [cbn in W; unfold wire_gts in W; discriminate|]. cbn [firstn] in W. unfold wire_gts in W. cbn [app] in W.
      assert (Hd : b = N.of_nat (gts_slot_count g) + 2 ^ 3 * r + 2 ^ 7 * flag (gts_permit g))
        by exact (f_equal (hd 0) W).
      rewrite Hd. destruct R as [R _].
      change (2 ^ 3) with 8. change (2 ^ 7) with 128. unfold flag. destruct (gts_permit g); lia. }
    destruct F as [(_ & _ & F)|(Hl & g' & F)]; [congruence|]. rewrite H in F. injection F as _ En. subst n. lia.
  - intros (L & R & r & rd & Hr & Hrd & W).
    assert (Ln : (n <= List.length bs)%nat) by (destruct (gts_slot_count g =? 0)%nat; lia).
    rewrite <- (firstn_skipn n bs), W, try_read_gts_complete; try assumption.
    + rewrite <- W, firstn_length. now rewrite Nat.min_l by lia.
    + destruct (Nat.eqb_spec (gts_slot_count g) 0); [now left|right]. intros X.
      apply (f_equal (@List.length N)) in X. rewrite skipn_length in X. cbn in X. lia.
Qed.

(** Reading succeeds or is Incomplete; with slots it wants one octet more than it uses. *)
Theorem C10_gts_read_total : forall bs,
  match bs with
  | [] => try_read_gts_information bs = Err Incomplete
  | b :: _ =>
      let slots := N.to_nat (b mod 8) in
      if (slots =? 0)%nat then exists g, try_read_gts_information bs = Ok (g, 1%nat)
      else if (List.length bs <? 3 + 3 * slots)%nat then try_read_gts_information bs = Err Incomplete
      else exists g, try_read_gts_information bs = Ok (g, (2 + 3 * slots)%nat)
  end.
Proof.
  intros bs. pose proof (gts_fate bs) as F. destruct bs as [|b bs]; [exact F|]. cbv zeta. unfold gts_size in F.
  destruct (Nat.eqb_spec (N.to_nat (b mod 8)) 0) as [E0|E0].
  - replace (b mod 8 =? 0) with true in F by (symmetry; apply N.eqb_eq; lia).
    destruct F as [(X & _)|(_ & F)]; [lia|exact F].
  - replace (b mod 8 =? 0) with false in F by (symmetry; apply N.eqb_neq; lia).
    destruct (Nat.ltb_spec (List.length (b :: bs)) (3 + 3 * N.to_nat (b mod 8))).
    + destruct F as [(_ & _ & F)|([X|X] & _)]; [exact F|lia|lia].
    + destruct F as [(_ & X & _)|(_ & F)]; [lia|exact F].
Qed.

Theorem C10_gts_round_trip : forall g buf n buf' t tail, gts_from_api g ->
  try_write_gts_information g buf = (Ok n, buf') ->
  try_read_gts_information (firstn n buf' ++ t :: tail) = Ok (g, n).
Proof.
  intros g buf n buf' t tail H E. destruct (encodes_ok _ _ _ _ _ (C10_gts_write g H) E) as (-> & -> & _).
  apply C10_gts_api_values in H.
  { apply try_read_gts_complete; try assumption.
    + reflexivity.
    + destruct H as [R _]. assert (2 ^ 0 <= 2 ^ (8 - N.of_nat (gts_slot_count g))) by
          (apply N.pow_le_mono_r; lia). change (2 ^ 0) with 1 in *. lia.
    + right. discriminate. }
Qed.

(** ** C11 A complete GTS information decodes on its own: only without slots *)
Theorem C11_gts_own_bytes : forall g buf n buf', gts_from_api g ->
  try_write_gts_information g buf = (Ok n, buf') ->
  try_read_gts_information (firstn n buf')
  = if (gts_slot_count g =? 0)%nat then Ok (g, n) else Err Incomplete.
Proof.
  intros g buf n buf' H E. destruct (encodes_ok _ _ _ _ _ (C10_gts_write g H) E) as (-> & -> & _).
  apply C10_gts_api_values in H.

  destruct (Nat.eqb_spec (gts_slot_count g) 0) as [Z|Z].
  - rewrite <- (app_nil_r (wire_gts 0 0 g)) at 1. apply try_read_gts_complete; try assumption.
    + reflexivity.
    + rewrite Z. reflexivity.
    + now left.
  - pose proof (wire_gts_length 0 0 g H) as Lw. pose proof (gts_fate (wire_gts 0 0 g)) as F.
    destruct (wire_gts 0 0 g) as [|b r] eqn:Ew; [assumption|].
    destruct H as [Hc _].
    assert (Eb : b = N.of_nat (gts_slot_count g) + 2 ^ 3 * 0 + 2 ^ 7 * flag (gts_permit g)).
    { unfold wire_gts in Ew. cbn [app] in Ew. injection Ew as <- _. reflexivity. }
    assert (Em : b mod 8 = N.of_nat (gts_slot_count g)).
    { rewrite Eb. destruct (gts_permit g); cbn [flag]; lia. }
    assert (Es : gts_size b = (2 + 3 * gts_slot_count g)%nat).
    { unfold gts_size. rewrite Em. destruct (N.eqb_spec (N.of_nat (gts_slot_count g)) 0); [lia|]. lia. }
    replace (gts_slot_count g =? 0)%nat with false in Lw by (symmetry; now apply Nat.eqb_neq).
    destruct F as [(_ & _ & F)|([F|F] & _)]; [exact F|lia|lia].
Qed.

Theorem C11_gts_decodes_own_bytes_refuted : exists g buf n buf',
  gts_from_api g /\ try_write_gts_information g buf = (Ok n, buf') /\
  try_read_gts_information (firstn n buf') = Err Incomplete.
Proof.
  exists {| gts_permit := true; gts_slot_count := 1;
            gts_slots := bslot 0x1234 1 2 Transmit :: repeat GtsDescriptor_new 6 |}, (repeat 0 5).
  eexists. eexists. split.
  { apply C10_gts_api_values. split; [cbn; lia|]. exists [bslot 0x1234 1 2 Transmit].
    repeat split; repeat constructor. }
  split; vm_compute; reflexivity.
Qed.

(** ** C12 Pending address codec *)
Inductive pending_from_api : PendingAddress -> Prop :=
| pending_api_new : pending_from_api PendingAddress_new
| pending_api_read bs p n : octets bs -> try_read_pending bs = Ok (p, n) -> pending_from_api p.

Lemma octets_flat_le z l : octets (flat_map (le z) l).
Proof. induction l as [|x l IH]; [constructor|]. cbn [flat_map]. apply octets_app. split; [apply octets_le|exact IH]. Qed.

Theorem C12_pending_api_values : forall p, pending_from_api p <-> pending_reachable p.
Proof.
  intros p. split.
  - induction 1 as [|bs p n Hb E].
    + split; [cbn; lia|]. split; [cbn; lia|]. split; exists []; repeat split; constructor.
    + apply try_read_pending_sound in E; tauto.
  - intros R. apply (pending_api_read (wire_pending false false p ++ []) p
      (List.length (wire_pending false false p))).
    + rewrite app_nil_r. unfold wire_pending. destruct R as (H1 & H2 & _).
      apply octets_app. split; [|apply octets_app; split; apply octets_flat_le].
      constructor; [|constructor]. cbn [flag]. lia.
    + now apply try_read_pending_complete.
Qed.

Theorem C12_pending_write : forall p, pending_from_api p ->
  encodes_as (try_write_pending p) (wire_pending false false p).
Proof. intros p H. apply emits_encodes, emits_pending. now apply C12_pending_api_values. Qed.

Theorem C12_pending_read : forall bs p n, octets bs ->
  (try_read_pending bs = Ok (p, n) <->
   (n <= List.length bs)%nat /\ pending_reachable p /\
   exists r3 r7, firstn n bs = wire_pending r3 r7 p).
Proof.
  intros bs p n Hb. split; [now apply try_read_pending_sound|].
  intros (L & R & r3 & r7 & W). rewrite <- (firstn_skipn n bs), W.
  rewrite try_read_pending_complete by assumption. rewrite <- W, firstn_length.
  now rewrite Nat.min_l.
Qed.

Theorem C12_pending_round_trip : forall p buf n buf' tail, pending_from_api p ->
  try_write_pending p buf = (Ok n, buf') ->
  try_read_pending (firstn n buf' ++ tail) = Ok (p, n).
Proof.
  intros p buf n buf' tail H E. destruct (encodes_ok _ _ _ _ _ (C12_pending_write p H) E) as (-> & -> & _).
  apply C12_pending_api_values in H.
  { now apply try_read_pending_complete. }
Qed.

Theorem C12_pending_accepts : forall bs,
  match bs with
  | [] => try_read_pending bs = Err Incomplete
  | b :: _ =>
      if (List.length bs <? 1 + 2 * N.to_nat (b mod 8) + 8 * N.to_nat (b / 16 mod 8))%nat
      then try_read_pending bs = Err Incomplete
      else exists p, try_read_pending bs
             = Ok (p, (1 + 2 * N.to_nat (b mod 8) + 8 * N.to_nat (b / 16 mod 8))%nat)
  end.
Proof.
  intros bs. pose proof (pending_fate bs) as F. destruct bs as [|b r]; [exact F|].
  unfold pending_size in F. destruct (Nat.ltb_spec (List.length (b :: r))
    (1 + 2 * N.to_nat (b mod 8) + 8 * N.to_nat (b / 16 mod 8))) as [L|L];
  destruct F as [[L' F]|[L' F]]; try assumption; exfalso; apply (Nat.lt_irrefl (List.length (b :: r)));
    eapply Nat.lt_le_trans; eassumption.
Qed.

(** ** C13 Beacon codec *)
Inductive beacon_from_api : Beacon -> Prop :=
| beacon_api_read bs b n : octets bs -> try_read_beacon bs = Ok (b, n) -> beacon_from_api b
| beacon_api_build s g p : superframe_ok s -> gts_from_api g -> pending_from_api p ->
    beacon_from_api {| superframe_spec := s; guaranteed_time_slot_info := g; pending_address := p |}.

Lemma superframe_canonical_ok s : superframe_canonical s -> superframe_ok s.
Proof.
  intros (H1 & H2 & H3). unfold superframe_ok, u8_ok. change (2 ^ 8) with 256.
  destruct (beacon_order s), (superframe_order s); cbn [beacon_order_code superframe_order_code]; lia.
Qed.

Theorem C13_beacon_api_values : forall b, beacon_from_api b <-> beacon_ok b.
Proof.
  intros b. split.
  - induction 1 as [bs b n Hb E|s g p Hs Hg Hp].
    + apply try_read_beacon_sound in E; [|assumption]. destruct E as (_ & (H1 & H2 & H3) & _).
      split; [now apply superframe_canonical_ok|]. now split.
    + split; [exact Hs|]. split; [now apply C10_gts_api_values|now apply C12_pending_api_values].
  - intros (H1 & H2 & H3). destruct b as [s g p]. apply beacon_api_build; [exact H1| |].
    + now apply C10_gts_api_values.
    + now apply C12_pending_api_values.
Qed.

Theorem C13_beacon_write : forall b, beacon_from_api b ->
  encodes_as (try_write_beacon b) (wire_beacon br_zero b) /\
  (4 <= List.length (wire_beacon br_zero b) <= 96)%nat.
Proof.
  intros b H. apply C13_beacon_api_values in H. split; [now apply emits_encodes, emits_beacon|].
  now apply wire_beacon_length.
Qed.

Theorem C13_beacon_read : forall bs b n, octets bs ->
  (try_read_beacon bs = Ok (b, n) <->
   (n <= List.length bs)%nat /\ beacon_canonical b /\
   exists r, reserved_fit r (FC_Beacon b) /\ firstn n bs = wire_beacon r b).
Proof.
  intros bs b n Hb. split; [now apply try_read_beacon_sound|].
  intros (L & R & r & Hr & W). rewrite <- (firstn_skipn n bs), W.
  rewrite try_read_beacon_complete by assumption. rewrite <- W, firstn_length.
  now rewrite Nat.min_l.
Qed.

Lemma br_zero_fit b : gts_reachable (guaranteed_time_slot_info b) -> reserved_fit br_zero (FC_Beacon b).
Proof.
  intros [R _]. split; [reflexivity|]. cbn [br_zero br_direction].
  assert (2 ^ 0 <= 2 ^ (8 - N.of_nat (gts_slot_count (guaranteed_time_slot_info b)))) by
    (apply N.pow_le_mono_r; lia). change (2 ^ 0) with 1 in *. lia.
Qed.

Theorem C13_beacon_round_trip : forall b buf n buf' tail, beacon_canonical b ->
  try_write_beacon b buf = (Ok n, buf') ->
  try_read_beacon (firstn n buf' ++ tail) = Ok (b, n).
Proof.
  intros b buf n buf' tail C E.
  assert (H : beacon_ok b) by (destruct C as (C1 & C2); split; [now apply superframe_canonical_ok|exact C2]).
  destruct (encodes_ok _ _ _ _ _ (emits_encodes _ _ (emits_beacon b H)) E) as (-> & -> & _).
  { apply try_read_beacon_complete; [assumption|].
    apply br_zero_fit, H. }
Qed.

(** Which inputs decode as a beacon: exactly the long enough ones; otherwise Incomplete. *)
Theorem C13_beacon_read_total : forall bs,
  if (List.length bs <? beacon_need bs)%nat then try_read_beacon bs = Err Incomplete
  else exists b, try_read_beacon bs = Ok (b, beacon_need bs).
Proof.
  intros bs. destruct (beacon_fate bs) as [(L & F)|(L & F)].
  - replace (_ <? _)%nat with false by lia. exact F.
  - replace (_ <? _)%nat with true by lia. exact F.
Qed.

(** ** C14 Beacon values never trip an assertion or index out of range *)
Theorem C14_beacon_no_panic : forall b buf, beacon_from_api b ->
  fst (try_write_beacon b buf) <> Panic /\
  fst (try_write_gts_information (guaranteed_time_slot_info b) buf) <> Panic /\
  fst (try_write_pending (pending_address b) buf) <> Panic /\
  (exists l, gts_slots_slice (guaranteed_time_slot_info b) = Ok l /\ (List.length l <= 7)%nat) /\
  (exists l, short_addresses_slice (pending_address b) = Ok l /\ (List.length l <= 7)%nat) /\
  (exists l, extended_addresses_slice (pending_address b) = Ok l /\ (List.length l <= 7)%nat).
Proof.
  intros b buf H.
  assert (NP : forall w bs, encodes_as w bs -> fst (w buf) <> Panic).
  { intros w bs W. specialize (W buf). destruct (_ <=? _)%nat; [rewrite W; discriminate|].
    destruct W as (k & _ & ->). discriminate. }
  pose proof (proj1 (C13_beacon_write b H)) as WB. apply C13_beacon_api_values in H.
  destruct H as (Hs & Hg & Hp).
  split; [exact (NP _ _ WB)|]. split.
  { eapply NP, C10_gts_write. now apply C10_gts_api_values. }
  split. { eapply NP, C12_pending_write. now apply C12_pending_api_values. }
  assert (SL : forall A (a : list A) n, (n <= 7)%nat -> (n <= List.length a)%nat ->
     exists l, slice_to (E := byte_error) a n = Ok l /\ (List.length l <= 7)%nat).
  { intros A a n H7 Hl. exists (firstn n a). unfold slice_to.
    apply Nat.leb_le in Hl. rewrite Hl. split; [reflexivity|]. rewrite firstn_length. lia. }
  split; [|split]; apply SL.
  - apply Hg.
  - destruct Hg as (H7 & slots & Hl & _ & ->). rewrite app_length, repeat_length. lia.
  - apply Hp.
  - destruct Hp as (_ & _ & (l & Hl & _ & ->) & _). rewrite app_length, repeat_length. lia.
  - apply Hp.
  - destruct Hp as (_ & _ & _ & (l & Hl & _ & ->)). rewrite app_length, repeat_length. lia.
Qed.

(** ** C15 Command codec *)
Theorem C15_command_write : forall cmd, command_ok cmd ->
  encodes_as (try_write_command cmd) (wire_command mr_zero cmd).
Proof. intros cmd H. now apply emits_encodes, emits_command. Qed.

Theorem C15_command_read : forall bs cmd n, octets bs ->
  (try_read_command bs = Ok (cmd, n) <->
   (n <= List.length bs)%nat /\ command_canonical cmd /\
   (open_ended cmd = true -> n = List.length bs) /\
   exists r, firstn n bs = wire_command r cmd).
Proof.
  intros bs cmd n Hb. split; [now apply try_read_command_sound|].
  intros (L & C & O & r & W). rewrite <- (firstn_skipn n bs), W.
  rewrite try_read_command_complete; [|assumption|].
  - rewrite <- W, firstn_length. now rewrite Nat.min_l.
  - intros Ho. rewrite (O Ho). apply skipn_all.
Qed.

Theorem C15_command_round_trip : forall cmd buf n buf' tail, command_canonical cmd ->
  (open_ended cmd = true -> tail = []) ->
  try_write_command cmd buf = (Ok n, buf') ->
  try_read_command (firstn n buf' ++ tail) = Ok (cmd, n).
Proof.
  intros cmd buf n buf' tail C Ht E. destruct (encodes_ok _ _ _ _ _ (C15_command_write cmd (proj1 C)) E) as (-> & -> & _).
  { now apply try_read_command_complete. }
Qed.

(** ** C16 Invalid commands are rejected *)
Theorem C16_command_verdict : forall bs, octets bs ->
  match command_verdict bs with
  | Some e => try_read_command bs = Err e
  | None => exists cmd, try_read_command bs = Ok (cmd, command_size bs)
  end.
Proof. exact try_read_command_fate. Qed.

Theorem C16_command_read_never_panics : forall bs, octets bs -> try_read_command bs <> Panic.
Proof.
  intros bs Hb. pose proof (try_read_command_fate bs Hb) as F.
  destruct (command_verdict bs); [congruence|]. destruct F as [x F]. congruence.
Qed.

Theorem C16_unknown_identifier : forall id tail, octets (id :: tail) ->
  (id = 0 \/ 9 < id) -> try_read_command (id :: tail) = Err (BadInput "InvalidValue").
Proof.
  intros id tail Hb Hid. pose proof (try_read_command_fate (id :: tail) Hb) as F.
  unfold command_verdict in F.
  assert (Eo : octet_in id [1; 2; 3; 4; 5; 6; 7; 8; 9] = false).
  { unfold octet_in. cbn [existsb]. clear F. lia. }
  rewrite Eo in F. exact F.
Qed.

Theorem C16_unknown_status : forall a b s tail, octets (2 :: a :: b :: s :: tail) ->
  ~ In s [0; 1; 2; 3; 0x80] ->
  try_read_command (2 :: a :: b :: s :: tail) = Err (BadInput "InvalidValue").
Proof.
  intros a b s tail Hb Hs. pose proof (try_read_command_fate _ Hb) as F. unfold command_verdict in F.
  assert (Eo : octet_in s [0; 1; 2; 3; 128] = false).
  { unfold octet_in. apply Bool.not_true_is_false. intros E. apply existsb_exists in E.
    destruct E as (x & Hx & E). apply N.eqb_eq in E. subst x. contradiction. }
  change (octet (2 :: a :: b :: s :: tail) 3) with s in F. rewrite Eo in F.
  exact F.
Qed.

Theorem C16_unknown_reason : forall r tail, octets (3 :: r :: tail) ->
  ~ In r [1; 2] -> try_read_command (3 :: r :: tail) = Err (BadInput "InvalidValue").
Proof.
  intros r tail Hb Hs. pose proof (try_read_command_fate _ Hb) as F. unfold command_verdict in F.
  assert (Eo : octet_in r [1; 2] = false).
  { unfold octet_in. apply Bool.not_true_is_false. intros E. apply existsb_exists in E.
    destruct E as (x & Hx & E). apply N.eqb_eq in E. subst x. contradiction. }
  change (octet (3 :: r :: tail) 1) with r in F. rewrite Eo in F. exact F.
Qed.

(** ** C17 Realignment commands are not self-delimiting *)
Theorem C17_realignment_swallows : forall d buf n buf' t tail,
  command_ok (CoordinatorRealignment d) -> cr_channel_page d = None ->
  try_write_command (CoordinatorRealignment d) buf = (Ok n, buf') ->
  try_read_command (firstn n buf') = Ok (CoordinatorRealignment d, n) /\
  try_read_command (firstn n buf' ++ t :: tail)
  = Ok (CoordinatorRealignment
          {| cr_pan_id := cr_pan_id d; cr_coordinator_address := cr_coordinator_address d;
             cr_channel := cr_channel d; cr_device_address := cr_device_address d;
             cr_channel_page := Some t |}, S n).
Proof.
  intros d buf n buf' t tail H Hp E.
  destruct (encodes_ok _ _ _ _ _ (C15_command_write _ H) E) as (-> & -> & _).
 split.
  - rewrite <- (app_nil_r (wire_command _ _)) at 1. apply try_read_command_complete; [|reflexivity].
    split; [exact H|exact I].
  - destruct H as (H1 & H2 & H3 & H4 & H5).
    rewrite try_read_command_swallow by assumption. repeat f_equal.
    cbn [wire_command]. unfold wire_realignment. rewrite Hp, !app_length, !le_length. reflexivity.
Qed.

Theorem C17_commands_self_delimiting_refuted : exists cmd buf n buf' tail cmd',
  command_canonical cmd /\ octets tail /\ try_write_command cmd buf = (Ok n, buf') /\
  try_read_command (firstn n buf' ++ tail) = Ok (cmd', S n) /\ cmd' <> cmd.
Proof.
  exists (CoordinatorRealignment {| cr_pan_id := 0x1234; cr_coordinator_address := 0x5678;
    cr_channel := 11; cr_device_address := 0x9abc; cr_channel_page := None |}), (repeat 0 8).
  do 2 eexists. exists [0x55]. eexists. split; [repeat split; reflexivity|]. split; [repeat constructor|].
  split; [vm_compute; reflexivity|]. split; [vm_compute; reflexivity|]. discriminate.
Qed.

(** All other commands do delimit themselves. *)
Theorem C17_other_commands_self_delimiting : forall cmd buf n buf' tail, command_canonical cmd ->
  open_ended cmd = false -> try_write_command cmd buf = (Ok n, buf') ->
  try_read_command (firstn n buf' ++ tail) = Ok (cmd, n).
Proof.
  intros cmd buf n buf' tail C O E. eapply C15_command_round_trip; [assumption| |eassumption].
  rewrite O. discriminate.
Qed.

(** ** C48 extended_enum conversions *)
Theorem C48_command_id : forall v i, v < 256 ->
  (command_id_optional_from v = Some i <-> v = command_id_u8 i) /\
  (command_id_from v = Ok i <-> v = command_id_u8 i) /\
  (command_id_from v = Panic <-> command_id_optional_from v = None) /\
  u8_eq_command_id v i = (v =? command_id_u8 i) /\
  u8_ne_command_id v i = negb (u8_eq_command_id v i).
Proof.
  intros v i _.
  assert (F : command_id_from v = match command_id_optional_from v with Some x => Ok x | None => Panic end).
  { unfold command_id_from, command_id_optional_from. destruct v as [|p]; [reflexivity|].
    do 8 (try match goal with p : positive |- _ => destruct p as [p|p|]; try reflexivity end). }
  assert (I : command_id_optional_from v = Some i <-> v = command_id_u8 i).
  { split; [apply command_id_inv|intros ->; destruct i; reflexivity]. }
  rewrite F. destruct (command_id_optional_from v) as [j|] eqn:Eo; repeat split; try apply I; try discriminate;
    try (intros H; inversion H; subst; now apply I); try (intros H; apply I in H; congruence);
    destruct i; reflexivity.
Qed.
Theorem C48_association_status : forall v i, v < 256 ->
  (association_status_optional_from v = Some i <-> v = status_code i) /\
  (association_status_from v = Ok i <-> v = status_code i) /\
  (association_status_from v = Panic <-> association_status_optional_from v = None) /\
  association_status_u8 i = status_code i /\
  u8_eq_association_status v i = (v =? status_code i) /\
  u8_ne_association_status v i = negb (u8_eq_association_status v i).
Proof.
  intros v i _.
  assert (F : association_status_from v = match association_status_optional_from v with Some x => Ok x | None => Panic end).
  { unfold association_status_from, association_status_optional_from. destruct v as [|p]; [reflexivity|].
    do 8 (try match goal with p : positive |- _ => destruct p as [p|p|]; try reflexivity end). }
  assert (I : association_status_optional_from v = Some i <-> v = status_code i).
  { split; [apply status_inv|intros ->; apply status_from_code]. }
  rewrite F. destruct (association_status_optional_from v) as [j|] eqn:Eo; repeat split; try apply I; try discriminate;
    try (intros H; inversion H; subst; now apply I); try (intros H; apply I in H; congruence);
    destruct i; reflexivity.
Qed.
Theorem C48_disassociation_reason : forall v i, v < 256 ->
  (disassociation_reason_optional_from v = Some i <-> v = reason_code i) /\
  (disassociation_reason_from v = Ok i <-> v = reason_code i) /\
  (disassociation_reason_from v = Panic <-> disassociation_reason_optional_from v = None) /\
  disassociation_reason_u8 i = reason_code i /\
  u8_eq_disassociation_reason v i = (v =? reason_code i) /\
  u8_ne_disassociation_reason v i = negb (u8_eq_disassociation_reason v i).
Proof.
  intros v i _.
  assert (F : disassociation_reason_from v = match disassociation_reason_optional_from v with Some x => Ok x | None => Panic end).
  { unfold disassociation_reason_from, disassociation_reason_optional_from. destruct v as [|p]; [reflexivity|].
    do 2 (try match goal with p : positive |- _ => destruct p as [p|p|]; try reflexivity end). }
  assert (I : disassociation_reason_optional_from v = Some i <-> v = reason_code i).
  { split; [apply reason_inv|intros ->; apply reason_from_code]. }
  rewrite F. destruct (disassociation_reason_optional_from v) as [j|] eqn:Eo; repeat split; try apply I; try discriminate;
    try (intros H; inversion H; subst; now apply I); try (intros H; apply I in H; congruence);
    destruct i; reflexivity.
Qed.

(** ** Non-vacuity *)
Definition sample_gts : GtsInformation :=
  {| gts_permit := true; gts_slot_count := 2;
     gts_slots := [bslot 0x1234 1 2 Transmit; bslot 0x5678 3 4 Receive] ++ repeat GtsDescriptor_new 5 |}.
Definition sample_pending : PendingAddress :=
  {| short_address_count := 1; short_addresses := [0xaabb] ++ repeat short_broadcast 6;
     extended_address_count := 1; extended_addresses := [0x1122334455667788] ++ repeat extended_broadcast 6 |}.
Definition sample_beacon : Beacon :=
  {| superframe_spec := bsf; guaranteed_time_slot_info := sample_gts; pending_address := sample_pending |}.

Example sample_gts_api : gts_from_api sample_gts.
Proof.
  apply C10_gts_api_values. split; [cbn; lia|].
  exists [bslot 0x1234 1 2 Transmit; bslot 0x5678 3 4 Receive]. repeat split; repeat constructor.
Qed.
Example sample_pending_api : pending_from_api sample_pending.
Proof.
  apply C12_pending_api_values. split; [cbn; lia|]. split; [cbn; lia|].
  split; [exists [0xaabb]|exists [0x1122334455667788]]; repeat split; repeat constructor.
Qed.
Example sample_beacon_ok : beacon_from_api sample_beacon /\ beacon_canonical sample_beacon.
Proof.
  split; [apply beacon_api_build|split; [|split]]; try exact sample_gts_api; try exact sample_pending_api;
    try (apply C10_gts_api_values, sample_gts_api); try (apply C12_pending_api_values, sample_pending_api);
    repeat split; reflexivity.
Qed.
Example sample_beacon_bytes :
  try_write_beacon sample_beacon (repeat 0 23) =
  (Ok 21%nat, wire_beacon br_zero sample_beacon ++ [0; 0]) /\
  wire_beacon br_zero sample_beacon =
  [0x12; 0xc3; 0x82; 0x01; 0x34; 0x12; 0x21; 0x78; 0x56; 0x43; 0x11; 0xbb; 0xaa;
   0x88; 0x77; 0x66; 0x55; 0x44; 0x33; 0x22; 0x11].
Proof. split; vm_compute; reflexivity. Qed.
Example sample_command_reads :
  octets [2; 0x34; 0x12; 0x80; 9] /\
  try_read_command [2; 0x34; 0x12; 0x80; 9]
  = Ok (AssociationResponse 0x1234 AS_FastAssociationSuccesful, 4%nat).
Proof. split; [repeat constructor|vm_compute; reflexivity]. Qed.

Print Assumptions C09_superframe_write.
Print Assumptions C09_superframe_read.
Print Assumptions C09_superframe_read_total.
Print Assumptions C09_superframe_round_trip.
Print Assumptions C09_superframe_truncation.
Print Assumptions C10_gts_api_values.
Print Assumptions C10_gts_write.
Print Assumptions C10_gts_read.
Print Assumptions C10_gts_read_total.
Print Assumptions C10_gts_round_trip.
Print Assumptions C11_gts_own_bytes.
Print Assumptions C11_gts_decodes_own_bytes_refuted.
Print Assumptions C12_pending_api_values.
Print Assumptions C12_pending_write.
Print Assumptions C12_pending_read.
Print Assumptions C12_pending_round_trip.
Print Assumptions C12_pending_accepts.
Print Assumptions C13_beacon_api_values.
Print Assumptions C13_beacon_write.
Print Assumptions C13_beacon_read.
Print Assumptions C13_beacon_round_trip.
Print Assumptions C13_beacon_read_total.
Print Assumptions C14_beacon_no_panic.
Print Assumptions C15_command_write.
Print Assumptions C15_command_read.
Print Assumptions C15_command_round_trip.
Print Assumptions C16_command_verdict.
Print Assumptions C16_command_read_never_panics.
Print Assumptions C16_unknown_identifier.
Print Assumptions C16_unknown_status.
Print Assumptions C16_unknown_reason.
Print Assumptions C17_realignment_swallows.
Print Assumptions C17_commands_self_delimiting_refuted.
Print Assumptions C17_other_commands_self_delimiting.
Print Assumptions C48_command_id.
Print Assumptions C48_association_status.
Print Assumptions C48_disassociation_reason.
