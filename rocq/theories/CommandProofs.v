(** Proofs about the command codec (CommandModel.v against Spec.v). *)
From Coq Require Import List Arith NArith ZArith Bool String Lia ZifyBool ZifyNat ZifyN.
From Verif Require Import ByteCrate Types HeaderModel CommandModel CcmModel Spec ProofLib
  HeaderProofs HeaderReadProofs BeaconProofs.
Import ListNotations.
Open Scope N_scope.
Open Scope list_scope.
Ltac Zify.zify_post_hook ::= Z.div_mod_to_equations.

Lemma emits_realignment d :
  u8_ok (cr_channel d) -> opt_ok u8_ok (cr_channel_page d) ->
  emits (try_write_realignment d) (wire_realignment d) (Ok tt).
Proof.
  intros Hc Hp. unfold try_write_realignment, wire_realignment. apply emits_body.
  repeat apply runs_seq; try apply runs_write; auto using emits_pan, emits_short.
  - apply emits_u8, Hc.
  - destruct (cr_channel_page d); [|apply runs_ret]. apply runs_write, emits_u8, Hp.
Qed.

Lemma capability_wire c : capability_u8 c = wire_capability false false false c /\ capability_u8 c < 256.
Proof. destruct c as [[] [] [] [] []]; split; reflexivity. Qed.

Lemma gtsc_wire g : gtsc_u8 g = wire_gts_characteristics false false g /\ gtsc_u8 g < 256.
Proof.
  unfold gtsc_u8, wire_gts_characteristics. rewrite land_15.
  assert (H : gtsc_count g mod 16 < 16) by lia.
  assert (P : forall x, x < 16 -> forall a b : bool,
    (let byte := if a then N.lor x GTSC_RECEIVE_ONLY else x in
     if b then N.lor byte GTSC_ALLOCATION else byte)
    = x + 2 ^ 4 * flag a + 2 ^ 5 * flag b).
  { intros x Hx a b.
    destruct x as [|[[[[]|[]|]|[[]|[]|]|]|[[[]|[]|]|[[]|[]|]|]|]]; try (exfalso; lia);
      destruct a, b; reflexivity. }
  rewrite (P _ H). pose proof (flag_lt (gtsc_receive_only g)). pose proof (flag_lt (gtsc_allocation g)).
  cbn [flag]. change (2 ^ 4) with 16. change (2 ^ 5) with 32. change (2 ^ 6) with 64. change (2 ^ 7) with 128.
  split; lia.
Qed.

Lemma emits_id i : emits (write_u8 (command_id_u8 i)) [command_id_u8 i] (Ok tt).
Proof. apply emits_u8. destruct i; reflexivity. Qed.

Lemma emits_command c : command_ok c -> emits (try_write_command c) (wire_command mr_zero c) (Ok tt).
Proof.
  intros H. unfold try_write_command. apply emits_body.
  destruct c; cbn [wire_command];
    try (apply runs_write, emits_id).
  - change ([1; ?x]) with ([1] ++ [x]). apply runs_seq; apply runs_write; [exact (emits_id CI_AssociationRequest)|].
    destruct (capability_wire c) as [E B]. cbn [mr_zero mr_a mr_b mr_c]. rewrite <- E. now apply emits_u8.
  - apply runs_seq; [apply runs_write, (emits_id CI_AssociationResponse)|].
    apply runs_seq; apply runs_write; [apply emits_short|].
    destruct s; apply emits_u8; reflexivity.
  - change ([3; ?x]) with ([3] ++ [x]). apply runs_seq; apply runs_write; [exact (emits_id CI_DisassociationNotification)|].
    destruct r; apply emits_u8; reflexivity.
  - apply runs_seq; apply runs_write; [exact (emits_id CI_CoordinatorRealignment)|].
    destruct H as (_ & _ & H1 & _ & H2). now apply emits_realignment.
  - change ([9; ?x]) with ([9] ++ [x]). apply runs_seq; apply runs_write; [exact (emits_id CI_GuaranteedTimeSlotRequest)|].
    destruct (gtsc_wire g) as [E B]. cbn [mr_zero mr_a mr_b mr_c]. rewrite <- E. now apply emits_u8.
Qed.

(** * Reading *)

Definition word16 (a b : N) : N := a + 256 * b.
Definition realignment_of (a b c d e f g : N) (page : option N) : CoordinatorRealignmentData :=
  {| cr_pan_id := word16 a b; cr_coordinator_address := word16 c d; cr_channel := e;
     cr_device_address := word16 f g; cr_channel_page := page |}.

Lemma read_at bs off n v r : (n <= List.length v)%nat ->
  skipn off bs = v ++ r -> (off <= List.length bs)%nat ->
  read_with (read_num n LE) bs off = Ok (le_val (firstn n v), (off + n)%nat).
Proof.
  intros Hn Hs Ho. rewrite read_with_eq, Hs, read_num_eq by assumption.
  rewrite app_length. replace (_ <=? _)%nat with true by lia. cbn [num_val].
  rewrite firstn_app. replace (n - List.length v)%nat with 0%nat by lia. cbn [firstn].
  now rewrite app_nil_r.
Qed.

Lemma read_u8_at bs off b r : skipn off bs = b :: r -> (off <= List.length bs)%nat ->
  read_with (read_num 1 LE) bs off = Ok (b, (off + 1)%nat).
Proof.
  intros Hs Ho. rewrite (read_at bs off 1 [b] r) by (assumption || reflexivity).
  cbn [firstn le_val]. now rewrite N.mul_0_r, N.add_0_r.
Qed.
Lemma read_u16_at bs off a b r : skipn off bs = a :: b :: r -> (off <= List.length bs)%nat ->
  read_with (read_num 2 LE) bs off = Ok (word16 a b, (off + 2)%nat).
Proof.
  intros Hs Ho. rewrite (read_at bs off 2 [a; b] r) by (assumption || reflexivity).
  cbn [firstn le_val]. now rewrite N.mul_0_r, N.add_0_r.
Qed.
Lemma read_short_list bs off n : (List.length bs < off + n)%nat -> (off <= List.length bs)%nat ->
  read_with (read_num n LE) bs off = Err Incomplete.
Proof. intros H Ho. rewrite read_num_at by assumption. now replace (_ <=? _)%nat with false by lia. Qed.

Lemma try_read_realignment_eq bs :
  try_read_realignment bs =
  match bs with
  | a :: b :: c :: d :: e :: f :: g :: r =>
      match r with
      | [] => Ok (realignment_of a b c d e f g None, 7%nat)
      | p :: _ => Ok (realignment_of a b c d e f g (Some p), 8%nat)
      end
  | _ => Err Incomplete
  end.
Proof.
  unfold try_read_realignment, check_len.
  destruct bs as [|a [|b [|c [|d [|e [|f [|g r]]]]]]]; try reflexivity.
  set (bs := a :: b :: c :: d :: e :: f :: g :: r).
  assert (L : List.length bs = (7 + List.length r)%nat) by reflexivity.
  replace (N.of_nat (List.length bs) <? 7) with false by lia. cbn [obind].
  rewrite read_pan_at, (read_u16_at bs 0 a b (c :: d :: e :: f :: g :: r)) by (reflexivity || lia). cbn [obind].
  rewrite read_short_at, (read_u16_at bs (0 + 2) c d (e :: f :: g :: r)) by (reflexivity || lia). cbn [obind].
  rewrite (read_u8_at bs (0 + 2 + 2) e (f :: g :: r)) by (reflexivity || lia). cbn [obind].
  rewrite read_short_at, (read_u16_at bs (0 + 2 + 2 + 1) f g r) by (reflexivity || lia). cbn [obind].
  destruct r as [|p r].
  - replace (_ <? List.length bs)%nat with false by (cbn [List.length] in L; lia). reflexivity.
  - replace (_ <? List.length bs)%nat with true by (cbn [List.length] in L; lia).
    rewrite (read_u8_at bs (0 + 2 + 2 + 1 + 2) p r) by (reflexivity || lia). reflexivity.
Qed.

Definition invalid {A} : bres A := Err (BadInput "InvalidValue").

(** The command an input denotes. *)
Definition command_of (bs : list N) : bres (Command * nat) :=
  match bs with
  | [] => Err Incomplete
  | id :: r =>
      match command_id_optional_from id with
      | None => invalid
      | Some CI_AssociationRequest =>
          match r with b :: _ => Ok (AssociationRequest (capability_from b), 2%nat) | [] => Err Incomplete end
      | Some CI_AssociationResponse =>
          match r with
          | a :: b :: s :: _ =>
              match association_status_optional_from s with
              | Some st => Ok (AssociationResponse (word16 a b) st, 4%nat)
              | None => invalid
              end
          | _ => Err Incomplete
          end
      | Some CI_DisassociationNotification =>
          match r with
          | b :: _ => match disassociation_reason_optional_from b with
                      | Some x => Ok (DisassociationNotification x, 2%nat)
                      | None => invalid
                      end
          | [] => Err Incomplete
          end
      | Some CI_DataRequest => Ok (DataRequest, 1%nat)
      | Some CI_PanIdConflictNotification => Ok (PanIdConflictNotification, 1%nat)
      | Some CI_OrphanNotification => Ok (OrphanNotification, 1%nat)
      | Some CI_BeaconRequest => Ok (BeaconRequest, 1%nat)
      | Some CI_CoordinatorRealignment =>
          match r with
          | a :: b :: c :: d :: e :: f :: g :: [] =>
              Ok (CoordinatorRealignment (realignment_of a b c d e f g None), 8%nat)
          | a :: b :: c :: d :: e :: f :: g :: p :: _ =>
              Ok (CoordinatorRealignment (realignment_of a b c d e f g (Some p)), 9%nat)
          | _ => Err Incomplete
          end
      | Some CI_GuaranteedTimeSlotRequest =>
          match r with b :: _ => Ok (GuaranteedTimeSlotRequest (gtsc_from b), 2%nat) | [] => Err Incomplete end
      end
  end.

Lemma try_read_command_eq bs : try_read_command bs = command_of bs.
Proof.
  destruct bs as [|id r]; [reflexivity|].
  unfold try_read_command, command_of. set (bs := id :: r).
  assert (L : List.length bs = (1 + List.length r)%nat) by reflexivity.
  rewrite (read_u8_at bs 0 id r) by (reflexivity || lia). cbn [obind].
  change (0 + 1)%nat with 1%nat. 
  destruct (command_id_optional_from id) as [ci|]; [|reflexivity]. cbn [ok_or obind].
  assert (Hs : skipn 1 bs = r) by reflexivity.
  destruct ci; try reflexivity.
  - destruct r as [|b r]; [reflexivity|].
    now rewrite (read_u8_at bs 1 b r) by (reflexivity || lia).
  - destruct r as [|a [|b r]]; try reflexivity.
    rewrite read_short_at, (read_u16_at bs 1 a b r) by (reflexivity || lia). cbn [obind].
    destruct r as [|s r]; [rewrite read_short_list by (cbn [List.length] in L; lia); reflexivity|].
    rewrite (read_u8_at bs (1 + 2) s r) by (reflexivity || (cbn [List.length] in L; lia)). cbn [obind].
    destruct (association_status_optional_from s); reflexivity.
  - destruct r as [|b r]; [reflexivity|].
    rewrite (read_u8_at bs 1 b r) by (reflexivity || lia). cbn [obind].
    destruct (disassociation_reason_optional_from b); reflexivity.
  - rewrite read_with_eq, Hs, try_read_realignment_eq by lia.
    destruct r as [|a [|b [|c [|d [|e [|f [|g [|p r]]]]]]]]; reflexivity.
  - destruct r as [|b r]; [reflexivity|].
    now rewrite (read_u8_at bs 1 b r) by (reflexivity || lia).
Qed.

Lemma command_id_inv b c : command_id_optional_from b = Some c -> b = command_id_u8 c.
Proof.
  unfold command_id_optional_from.
  destruct b as [|[[[[]|[]|]|[[]|[]|]|]|[[[]|[]|]|[[]|[]|]|]|]]; try discriminate; intros [= <-]; reflexivity.
Qed.
Lemma status_inv b s : association_status_optional_from b = Some s -> b = status_code s.
Proof.
  unfold association_status_optional_from.
  destruct b as [|p]; [intros [= <-]; reflexivity|].
  do 8 (destruct p as [p|p|]; try discriminate; try (intros [= <-]; reflexivity)).
Qed.
Lemma reason_inv b s : disassociation_reason_optional_from b = Some s -> b = reason_code s.
Proof.
  unfold disassociation_reason_optional_from.
  destruct b as [|[[]|[]|]]; try discriminate; intros [= <-]; reflexivity.
Qed.
Lemma status_from_code s : association_status_optional_from (status_code s) = Some s.
Proof. destruct s; reflexivity. Qed.
Lemma reason_from_code s : disassociation_reason_optional_from (reason_code s) = Some s.
Proof. destruct s; reflexivity. Qed.

Lemma flag_bit_eq x : flag (x mod 2 =? 1) = x mod 2.
Proof. unfold flag. destruct (N.eqb_spec (x mod 2) 1); lia. Qed.

Lemma capability_from_wire b : b < 256 ->
  exists r0 r4 r5, b = wire_capability r0 r4 r5 (capability_from b).
Proof.
  intros Hb. exists (b / 1 mod 2 =? 1), (b / 16 mod 2 =? 1), (b / 32 mod 2 =? 1).
  apply N.eqb_eq. revert b Hb.
  apply (octet_sweep (fun b => b =? wire_capability (b / 1 mod 2 =? 1) (b / 16 mod 2 =? 1) (b / 32 mod 2 =? 1)
    (capability_from b))).
  vm_compute. reflexivity.
Qed.
Lemma capability_from_complete r0 r4 r5 c : capability_from (wire_capability r0 r4 r5 c) = c.
Proof. destruct c as [[] [] [] [] []], r0, r4, r5; reflexivity. Qed.
Lemma wire_capability_lt r0 r4 r5 c : wire_capability r0 r4 r5 c < 256.
Proof. destruct c as [[] [] [] [] []], r0, r4, r5; reflexivity. Qed.

Lemma gtsc_from_wire b : b < 256 ->
  gtsc_count (gtsc_from b) < 16 /\ exists r6 r7, b = wire_gts_characteristics r6 r7 (gtsc_from b).
Proof.
  intros Hb. unfold gtsc_from. cbn [gtsc_count]. rewrite land_15. split; [lia|].
  exists (b / 64 mod 2 =? 1), (b / 128 mod 2 =? 1). unfold wire_gts_characteristics.
  cbn [gtsc_count gtsc_receive_only gtsc_allocation].
  change GTSC_RECEIVE_ONLY with (2 ^ 4). change GTSC_ALLOCATION with (2 ^ 5).
  rewrite !land_bit, !flag_bit_eq.
  change (2 ^ 4) with 16; change (2 ^ 5) with 32; change (2 ^ 6) with 64; change (2 ^ 7) with 128. lia.
Qed.
Lemma gtsc_from_complete r6 r7 g : gtsc_count g < 16 -> gtsc_from (wire_gts_characteristics r6 r7 g) = g.
Proof.
  destruct g as [n a b]. cbn [gtsc_count]. intros H.
  destruct n as [|[[[[]|[]|]|[[]|[]|]|]|[[[]|[]|]|[[]|[]|]|]|]]; try (exfalso; lia);
    destruct a, b, r6, r7; reflexivity.
Qed.

Lemma le2_word16 a b : a < 256 -> b < 256 -> le 2 (word16 a b) = [a; b] /\ word16 a b < 65536.
Proof.
  intros Ha Hb. unfold word16. rewrite !le_S, le_0. split; [|lia]. f_equal; [lia|f_equal; lia].
Qed.
Lemma word16_le v : v < 65536 -> exists a b, le 2 v = [a; b] /\ word16 a b = v.
Proof.
  intros Hv. unfold word16. rewrite !le_S, le_0. eexists _, _. split; [reflexivity|]. lia.
Qed.

Ltac octets_dec H :=
  repeat match type of H with octets (_ :: _) =>
    let h := fresh "Hoct" in apply octets_cons in H; destruct H as [h H] end.

Lemma try_read_command_sound bs c n : octets bs -> try_read_command bs = Ok (c, n) ->
  (n <= List.length bs)%nat /\ command_canonical c /\
  (open_ended c = true -> n = List.length bs) /\
  exists r, firstn n bs = wire_command r c.
Proof.
  intros Hb H. rewrite try_read_command_eq in H. unfold command_of in H.
  destruct bs as [|id r]; [discriminate|].
  destruct (command_id_optional_from id) as [ci|] eqn:Eid; [|discriminate].
  apply command_id_inv in Eid. subst id.
  destruct ci; cbn [command_id_u8] in *.
  - destruct r as [|b r]; [discriminate|]. apply Ok_inj in H. destruct H as [<- <-]. octets_dec Hb.
    split; [cbn; lia|]. split; [split; exact I|]. split; [discriminate|].
    destruct (capability_from_wire b Hoct0) as (x & y & z & E).
    exists {| mr_a := x; mr_b := y; mr_c := z |}. cbn [wire_command mr_a mr_b mr_c firstn].
    rewrite <- E. reflexivity.
  - destruct r as [|a [|b [|s r]]]; try discriminate.
    destruct (association_status_optional_from s) as [st|] eqn:Es; [|discriminate].
    apply status_inv in Es. subst s. apply Ok_inj in H. destruct H as [<- <-]. octets_dec Hb.
    destruct (le2_word16 a b) as [E B]; try assumption.
    split; [cbn; lia|]. split; [split; [exact B|exact I]|]. split; [discriminate|].
    exists mr_zero. cbn [wire_command firstn]. rewrite E. reflexivity.
  - destruct r as [|b r]; [discriminate|].
    destruct (disassociation_reason_optional_from b) as [x|] eqn:Es; [|discriminate].
    apply reason_inv in Es. subst b. apply Ok_inj in H. destruct H as [<- <-].
    split; [cbn; lia|]. split; [split; exact I|]. split; [discriminate|]. exists mr_zero. reflexivity.
  - apply Ok_inj in H. destruct H as [<- <-].
    split; [cbn; lia|]. split; [split; exact I|]. split; [discriminate|]. exists mr_zero. reflexivity.
  - apply Ok_inj in H. destruct H as [<- <-].
    split; [cbn; lia|]. split; [split; exact I|]. split; [discriminate|]. exists mr_zero. reflexivity.
  - apply Ok_inj in H. destruct H as [<- <-].
    split; [cbn; lia|]. split; [split; exact I|]. split; [discriminate|]. exists mr_zero. reflexivity.
  - apply Ok_inj in H. destruct H as [<- <-].
    split; [cbn; lia|]. split; [split; exact I|]. split; [discriminate|]. exists mr_zero. reflexivity.
  - destruct r as [|a [|b [|c' [|d [|e [|f [|g r]]]]]]]; try discriminate.
    octets_dec Hb.
    destruct (le2_word16 a b) as [E1 B1]; try assumption.
    destruct (le2_word16 c' d) as [E2 B2]; try assumption.
    destruct (le2_word16 f g) as [E3 B3]; try assumption.
    destruct r as [|p r]; apply Ok_inj in H; destruct H as [<- <-].
    + split; [cbn; lia|]. split; [split; [|exact I]|].
      { repeat split; try assumption. }
      split; [reflexivity|]. exists mr_zero. cbn [wire_command].
      unfold wire_realignment, realignment_of.
      cbn [cr_pan_id cr_coordinator_address cr_channel cr_device_address cr_channel_page].
      rewrite E1, E2, E3. reflexivity.
    + octets_dec Hb. split; [cbn; lia|]. split; [split; [|exact I]|].
      { repeat split; try assumption. }
      split; [discriminate|]. exists mr_zero. cbn [wire_command].
      unfold wire_realignment, realignment_of.
      cbn [cr_pan_id cr_coordinator_address cr_channel cr_device_address cr_channel_page].
      rewrite E1, E2, E3. reflexivity.
  - destruct r as [|b r]; [discriminate|]. apply Ok_inj in H. destruct H as [<- <-]. octets_dec Hb.
    destruct (gtsc_from_wire b Hoct0) as (Bc & x & y & E).
    split; [cbn; lia|]. split; [split; [|exact Bc]|].
    { unfold command_ok, u8_ok. change (2 ^ 8) with 256. lia. }
    split; [discriminate|].
    exists {| mr_a := x; mr_b := y; mr_c := false |}. cbn [wire_command mr_a mr_b mr_c firstn].
    rewrite <- E. reflexivity.
Qed.

Lemma try_read_command_complete r c tail : command_canonical c ->
  (open_ended c = true -> tail = []) ->
  try_read_command (wire_command r c ++ tail) = Ok (c, List.length (wire_command r c)).
Proof.
  intros (Hok & Hcan) Ht. rewrite try_read_command_eq. unfold command_of.
  destruct c; cbn [wire_command app]; try reflexivity.
  - cbn [command_id_optional_from List.length]. now rewrite capability_from_complete.
  - destruct (word16_le a Hok) as (x & y & E & W). rewrite E. cbn [app command_id_optional_from List.length].
    now rewrite status_from_code, W.
  - cbn [command_id_optional_from List.length]. now rewrite reason_from_code.
  - destruct d as [pan coord chan dev page]. destruct Hok as (H1 & H2 & H3 & H4 & H5).
    cbn [cr_pan_id cr_coordinator_address cr_channel cr_device_address cr_channel_page open_ended is_some negb] in *.
    unfold wire_realignment. cbn [cr_pan_id cr_coordinator_address cr_channel cr_device_address cr_channel_page].
    destruct (word16_le pan H1) as (x1 & y1 & E1 & W1). rewrite E1.
    destruct (word16_le coord H2) as (x2 & y2 & E2 & W2). rewrite E2.
    destruct (word16_le dev H4) as (x3 & y3 & E3 & W3). rewrite E3.
    destruct page as [p|]; cbn [app command_id_optional_from List.length].
    + unfold realignment_of. now rewrite W1, W2, W3.
    + rewrite Ht by reflexivity. unfold realignment_of. now rewrite W1, W2, W3.
  - cbn [command_id_optional_from List.length]. now rewrite gtsc_from_complete.
Qed.

(** With trailing octets, a realignment without channel page takes the first of them. *)
Lemma try_read_command_swallow d t tail :
  u16_ok (cr_pan_id d) -> u16_ok (cr_coordinator_address d) -> u16_ok (cr_device_address d) ->
  cr_channel_page d = None ->
  try_read_command (wire_command mr_zero (CoordinatorRealignment d) ++ t :: tail)
  = Ok (CoordinatorRealignment
          {| cr_pan_id := cr_pan_id d; cr_coordinator_address := cr_coordinator_address d;
             cr_channel := cr_channel d; cr_device_address := cr_device_address d;
             cr_channel_page := Some t |}, 9%nat).
Proof.
  intros H1 H2 H4 Hp. rewrite try_read_command_eq. unfold command_of.
  destruct d as [pan coord chan dev page]. cbn in Hp. subst page.
  cbn [wire_command app]. unfold wire_realignment.
  cbn [cr_pan_id cr_coordinator_address cr_channel cr_device_address cr_channel_page] in *.
  destruct (word16_le pan H1) as (x1 & y1 & E1 & W1). rewrite E1.
  destruct (word16_le coord H2) as (x2 & y2 & E2 & W2). rewrite E2.
  destruct (word16_le dev H4) as (x3 & y3 & E3 & W3). rewrite E3.
  cbn [app command_id_optional_from]. unfold realignment_of. now rewrite W1, W2, W3.
Qed.

Lemma in_ids id : id < 256 ->
  octet_in id [1; 2; 3; 4; 5; 6; 7; 8; 9]
  = match command_id_optional_from id with Some _ => true | None => false end.
Proof.
  intros H. revert id H. 
  assert (G : forall id, id < 256 ->
    Bool.eqb (octet_in id [1; 2; 3; 4; 5; 6; 7; 8; 9])
        match command_id_optional_from id with Some _ => true | None => false end = true).
  { apply octet_sweep. vm_compute. reflexivity. }
  intros id H. now apply eqb_prop, G.
Qed.
Lemma in_status id : id < 256 ->
  octet_in id [0; 1; 2; 3; 128]
  = match association_status_optional_from id with Some _ => true | None => false end.
Proof.
  intros H. revert id H. 
  assert (G : forall id, id < 256 ->
    Bool.eqb (octet_in id [0; 1; 2; 3; 128])
        match association_status_optional_from id with Some _ => true | None => false end = true).
  { apply octet_sweep. vm_compute. reflexivity. }
  intros id H. now apply eqb_prop, G.
Qed.
Lemma in_reason id : id < 256 ->
  octet_in id [1; 2]
  = match disassociation_reason_optional_from id with Some _ => true | None => false end.
Proof.
  intros H. revert id H. 
  assert (G : forall id, id < 256 ->
    Bool.eqb (octet_in id [1; 2])
        match disassociation_reason_optional_from id with Some _ => true | None => false end = true).
  { apply octet_sweep. vm_compute. reflexivity. }
  intros id H. now apply eqb_prop, G.
Qed.

Lemma try_read_command_fate bs : octets bs ->
  match command_verdict bs with
  | Some e => try_read_command bs = Err e
  | None => exists c, try_read_command bs = Ok (c, command_size bs)
  end.
Proof.
  intros Hb. rewrite try_read_command_eq. unfold command_verdict, command_of, command_size.
  destruct bs as [|id r]; [reflexivity|]. octets_dec Hb.
  rewrite in_ids by assumption.
  destruct (command_id_optional_from id) as [ci|] eqn:Eid; [|reflexivity].
  apply command_id_inv in Eid. subst id. cbn [negb].
  destruct ci; cbn [command_id_u8 command_need N.eqb Pos.eqb andb] in *; try (eexists; reflexivity).
  - destruct r as [|b r]; cbn; [reflexivity|eexists; reflexivity].
  - destruct r as [|a [|b [|s r]]]; try reflexivity. octets_dec Hb.
    change (_ <? _)%nat with false. cbv iota. change (octet (2 :: a :: b :: s :: r) 3) with s.
    rewrite in_status by assumption. destruct (association_status_optional_from s); cbn [negb]; [eexists|]; reflexivity.
  - destruct r as [|b r]; [reflexivity|]. octets_dec Hb.
    change (_ <? _)%nat with false. cbv iota. change (octet (3 :: b :: r) 1) with b.
    rewrite in_reason by assumption. destruct (disassociation_reason_optional_from b); cbn [negb]; [eexists|]; reflexivity.
  - destruct r as [|a [|b [|c' [|d [|e [|f [|g r]]]]]]]; try reflexivity.
    change (_ <? _)%nat with false. cbv iota. 
    destruct r as [|p r]; [eexists; reflexivity|].
    rewrite Nat.min_r by (cbn [List.length]; lia). eexists; reflexivity.
  - destruct r as [|b r]; cbn; [reflexivity|eexists; reflexivity].
Qed.
