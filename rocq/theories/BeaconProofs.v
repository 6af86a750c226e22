(** Proofs about the beacon codec (BeaconModel.v against Spec.v). *)
From Coq Require Import List Arith NArith ZArith Bool String Lia ZifyBool ZifyNat ZifyN.
From Verif Require Import ByteCrate Types HeaderModel BeaconModel CcmModel Spec ProofLib
  HeaderProofs HeaderReadProofs.
Import ListNotations.
Open Scope N_scope.
Open Scope list_scope.
Ltac Zify.zify_post_hook ::= Z.div_mod_to_equations.

Lemma Ok_inj {E A B} (a c : A) (b d : B) : Ok (E := E) (a, b) = Ok (c, d) -> a = c /\ b = d.
Proof. intros [= -> ->]. auto. Qed.

(** * Bit operations on octets *)
Lemma land_15 b : N.land b 0x0f = b mod 16.
Proof. exact (N.land_ones b 4). Qed.
Lemma land_7 b : N.land b 0x07 = b mod 8.
Proof. exact (N.land_ones b 3). Qed.
Lemma shiftr_4 b : N.shiftr b 4 = b / 16.
Proof. exact (N.shiftr_div_pow2 b 4). Qed.
Lemma land_bit b k : N.land b (2 ^ k) =? 2 ^ k = (b / 2 ^ k mod 2 =? 1).
Proof.
  assert (H : N.land b (2 ^ k) = 2 ^ k * (b / 2 ^ k mod 2)).
  { apply N.bits_inj. intros i. rewrite N.land_spec, N.pow2_bits_eqb.
    rewrite (N.mul_comm (2 ^ k)).
    assert (T : b / 2 ^ k mod 2 = N.b2n (N.testbit b k)) by (now rewrite N.testbit_spec').
    rewrite T. destruct (N.eqb_spec k i) as [->|Hn].
    - rewrite N.mul_pow2_bits_high by lia. rewrite N.sub_diag, N.b2n_bit0.
      now rewrite andb_true_r.
    - rewrite andb_false_r. symmetry. destruct (N.ltb_spec i k) as [Hi|Hi].
      + now apply N.mul_pow2_bits_low.
      + rewrite N.mul_pow2_bits_high by lia.
        destruct (N.testbit b k); cbn [N.b2n].
        * apply N.bits_above_log2. cbn. lia.
        * apply N.bits_0. }
  rewrite H. assert (P : 2 ^ k <> 0) by (apply N.pow_nonzero; discriminate).
  assert (B : b / 2 ^ k mod 2 < 2) by (apply N.mod_lt; discriminate).
  generalize dependent (b / 2 ^ k mod 2). intros x Bx Hx. generalize dependent (2 ^ k). intros; nia.
Qed.
Lemma shiftl_4 b : u8_shl b 4 = 16 * (b mod 16).
Proof. unfold u8_shl. rewrite N.shiftl_mul_pow2. change (2 ^ 4) with 16. lia. Qed.

(** * Superframe specification *)

Lemma emits_superframe s : emits (try_write_superframe s) (wire_superframe false s) (Ok tt).
Proof.
  unfold try_write_superframe, wire_superframe. apply emits_body.
  change (?x :: [?y]) with ([x] ++ [y]).
  apply runs_seq; apply runs_write.
  - rewrite land_15, shiftl_4, (N.mul_comm 16).
    change 16 with (2 ^ 4) at 3. rewrite lor_add by (change (2 ^ 4) with 16; lia).
    eapply emits_eq; [apply emits_u8; change (2 ^ 4) with 16; lia|].
    f_equal. change (2 ^ 4) with 16.
    destruct (beacon_order s), (superframe_order s); cbn [beacon_order_u8 superframe_order_u8 beacon_order_code superframe_order_code]; lia.
  - rewrite land_15.
    assert (H : final_cap_slot s mod 16 < 16) by lia.
    generalize dependent (final_cap_slot s mod 16). intros x Hx.
    assert (Hp : forall y, y < 16 -> forall b1 b2 b3 : bool,
       N.lor (N.lor (N.lor y (if b1 then BATTERY_LIFE_EXTENSION else 0))
         (if b2 then PAN_COORDINATOR else 0)) (if b3 then ASSOCIATION_PERMIT else 0)
       = y + 2 ^ 4 * flag b1 + 2 ^ 5 * flag false + 2 ^ 6 * flag b2 + 2 ^ 7 * flag b3).
    { intros y Hy b1 b2 b3.
      destruct y as [|[[[[]|[]|]|[[]|[]|]|]|[[[]|[]|]|[[]|[]|]|]|]]; try (exfalso; lia);
        destruct b1, b2, b3; reflexivity. }
    rewrite Hp by assumption. apply emits_u8.
    pose proof (flag_lt (battery_life_extension s)). pose proof (flag_lt (pan_coordinator s)).
    pose proof (flag_lt (association_permit s)).
    cbn [flag]. change (2 ^ 4) with 16. change (2 ^ 5) with 32. change (2 ^ 6) with 64. change (2 ^ 7) with 128. lia.
Qed.

(** The superframe specification two octets denote. *)
Definition superframe_of (a b : N) : SuperframeSpecification :=
  {| beacon_order := if a mod 16 =? 15 then BO_OnDemand else BO_Order (a mod 16);
     superframe_order := if a / 16 mod 16 =? 15 then SO_Inactive else SO_Order (a / 16 mod 16);
     final_cap_slot := b mod 16;
     battery_life_extension := b / 2 ^ 4 mod 2 =? 1;
     pan_coordinator := b / 2 ^ 6 mod 2 =? 1;
     association_permit := b / 2 ^ 7 mod 2 =? 1 |}.

Lemma beacon_order_from_eq v : v < 16 -> beacon_order_from v = if v =? 15 then BO_OnDemand else BO_Order v.
Proof.
  intros H. unfold beacon_order_from.
  destruct v as [|[[[[]|[]|]|[[]|[]|]|]|[[[]|[]|]|[[]|[]|]|]|]]; try (exfalso; lia); reflexivity.
Qed.
Lemma superframe_order_from_eq v : v < 16 -> superframe_order_from v = if v =? 15 then SO_Inactive else SO_Order v.
Proof.
  intros H. unfold superframe_order_from.
  destruct v as [|[[[[]|[]|]|[[]|[]|]|]|[[[]|[]|]|[[]|[]|]|]|]]; try (exfalso; lia); reflexivity.
Qed.

Lemma try_read_superframe_eq bs :
  try_read_superframe bs =
  match bs with a :: b :: _ => Ok (superframe_of a b, 2%nat) | _ => Err Incomplete end.
Proof.
  destruct bs as [|a [|b r]]; try reflexivity.
  unfold try_read_superframe, check_len.
  replace (_ <? 2) with false by (cbn [List.length]; lia). cbn [obind].
  rewrite read_num_at by (cbn [List.length]; lia).
  replace (_ <=? _)%nat with true by (cbn [List.length]; lia). cbn [obind].
  rewrite read_num_at by (cbn [List.length]; lia).
  replace (_ <=? _)%nat with true by (cbn [List.length]; lia). cbn [obind].
  unfold slice. cbn [Nat.add Nat.sub skipn firstn num_val le_val].
  rewrite !N.mul_0_r, !N.add_0_r.
  change BATTERY_LIFE_EXTENSION with (2 ^ 4). change PAN_COORDINATOR with (2 ^ 6).
  change ASSOCIATION_PERMIT with (2 ^ 7).
  rewrite !land_bit, !land_15, shiftr_4.
  rewrite beacon_order_from_eq, superframe_order_from_eq by lia. reflexivity.
Qed.

Lemma superframe_of_wire a b : a < 256 -> b < 256 ->
  superframe_canonical (superframe_of a b) /\
  exists r5, [a; b] = wire_superframe r5 (superframe_of a b).
Proof.
  intros Ha Hb. split.
  - unfold superframe_canonical, superframe_of. cbn [beacon_order superframe_order final_cap_slot].
    destruct (N.eqb_spec (a mod 16) 15), (N.eqb_spec (a / 16 mod 16) 15); repeat split; lia.
  - exists (b / 2 ^ 5 mod 2 =? 1). unfold wire_superframe, superframe_of.
    cbn [beacon_order superframe_order final_cap_slot battery_life_extension pan_coordinator association_permit].
    assert (F : forall x, flag (x mod 2 =? 1) = x mod 2).
    { intros x. unfold flag. destruct (N.eqb_spec (x mod 2) 1); lia. }
    rewrite !F. f_equal; [|f_equal].
    + change (2 ^ 4) with 16.
      destruct (N.eqb_spec (a mod 16) 15), (N.eqb_spec (a / 16 mod 16) 15);
        cbn [beacon_order_code superframe_order_code]; lia.
    + change (2 ^ 4) with 16. change (2 ^ 5) with 32. change (2 ^ 6) with 64. change (2 ^ 7) with 128. lia.
Qed.

Lemma superframe_of_canonical r5 s : superframe_canonical s ->
  exists a b, wire_superframe r5 s = [a; b] /\ a < 256 /\ b < 256 /\ superframe_of a b = s.
Proof.
  intros (H1 & H2 & H3). unfold wire_superframe. eexists _, _. split; [reflexivity|].
  destruct s as [bo so fin ble pc ap].
  cbn [beacon_order superframe_order final_cap_slot battery_life_extension pan_coordinator association_permit] in *.
  pose proof (flag_lt ble). pose proof (flag_lt pc). pose proof (flag_lt ap). pose proof (flag_lt r5).
  assert (B : beacon_order_code bo < 16) by (destruct bo; cbn; lia).
  assert (S : superframe_order_code so < 16) by (destruct so; cbn; lia).
  change (2 ^ 4) with 16. change (2 ^ 5) with 32. change (2 ^ 6) with 64. change (2 ^ 7) with 128.
  split; [lia|]. split; [lia|]. unfold superframe_of.
  change (2 ^ 4) with 16. change (2 ^ 6) with 64. change (2 ^ 7) with 128.
  set (x := beacon_order_code bo mod 16 + 16 * (superframe_order_code so mod 16)).
  set (y := fin mod 16 + 16 * flag ble + 32 * flag r5 + 64 * flag pc + 128 * flag ap).
  assert (X1 : x mod 16 = beacon_order_code bo) by (unfold x; lia).
  assert (X2 : x / 16 mod 16 = superframe_order_code so) by (unfold x; lia).
  assert (Y1 : y mod 16 = fin) by (unfold y; lia).
  assert (Y2 : y / 16 mod 2 = flag ble)
    by (unfold y; clear - H3; destruct ble, r5, pc, ap; cbn [flag]; lia).
  assert (Y3 : y / 64 mod 2 = flag pc)
    by (unfold y; clear - H3; destruct ble, r5, pc, ap; cbn [flag]; lia).
  assert (Y4 : y / 128 mod 2 = flag ap)
    by (unfold y; clear - H3; destruct ble, r5, pc, ap; cbn [flag]; lia).
  rewrite X1, X2, Y1, Y2, Y3, Y4. clear x y X1 X2 Y1 Y2 Y3 Y4.
  assert (F : forall z, (flag z =? 1) = z) by (intros []; reflexivity). rewrite !F.
  f_equal.
  - destruct bo as [v|]; [|reflexivity]. cbn [beacon_order_code]. now replace (v =? 15) with false by lia.
  - destruct so as [v|]; [|reflexivity]. cbn [superframe_order_code]. now replace (v =? 15) with false by lia.
Qed.

(** * Loops over arrays *)

Lemma index_mid {E A} (pre : list A) x post : index (E := E) (pre ++ x :: post) (List.length pre) = Ok x.
Proof. unfold index. now rewrite nth_error_app2, Nat.sub_diag by lia. Qed.

Lemma set_index_mid {E A} (pre : list A) y post x :
  set_index (E := E) (pre ++ y :: post) (List.length pre) x = Ok (pre ++ x :: post).
Proof.
  induction pre as [|p pre IH]; [reflexivity|].
  cbn [app List.length set_index]. rewrite IH. reflexivity.
Qed.

Lemma write_loop_runs {A} (wr : A -> writer) (W : A -> list N) l : forall pre post,
  Forall (fun x => emits (wr x) (W x) (Ok tt)) l ->
  runs (write_loop wr (pre ++ l ++ post) (List.length pre) (List.length l)) (flat_map W l) (Ok tt).
Proof.
  induction l as [|x l IH]; intros pre post H; [apply runs_ret|].
  apply Forall_cons_iff in H. destruct H as [Hx Hl].
  cbn [List.length write_loop flat_map].
  assert (R : runs (write_with (wr x) >> write_loop wr (pre ++ (x :: l) ++ post) (S (List.length pre)) (List.length l))
                (W x ++ flat_map W l) (Ok tt)).
  { apply runs_seq; [now apply runs_write|].
    specialize (IH (pre ++ [x]) post Hl). rewrite app_length, Nat.add_1_r in IH.
    rewrite <- app_assoc in IH. exact IH. }
  intros buf off Ho. specialize (R buf off Ho).
  unfold wbind, wlift. cbn [app]. rewrite index_mid. exact R.
Qed.

Lemma runs_lift {A} (r : bres A) (v : A) (f : A -> wm unit) bs st :
  r = Ok v -> runs (f v) bs st -> runs (wbind (wlift r) f) bs st.
Proof. intros -> R buf off Ho. exact (R buf off Ho). Qed.

(** * GTS *)

Lemma emits_gts_descriptor d : gts_descriptor_ok d ->
  emits (try_write_gts_descriptor d) (wire_gts_descriptor d) (Ok tt).
Proof.
  intros (H1 & H2 & H3). unfold try_write_gts_descriptor, wire_gts_descriptor.
  apply emits_body, runs_seq; apply runs_write; [apply emits_short|].
  rewrite shiftl_4, (N.mul_comm 16), N.mod_small by assumption.
  change 16 with (2 ^ 4). rewrite lor_add by (change (2 ^ 4) with 16; lia).
  eapply emits_eq; [apply emits_u8; change (2 ^ 4) with 16; lia|]. now rewrite N.mul_comm.
Qed.

Lemma direction_octet_lt l rest : forall m, rest < 2 ^ m ->
  direction_octet l rest < 2 ^ (m + N.of_nat (List.length l)).
Proof.
  induction l as [|d l IH]; intros m H; cbn [direction_octet List.length].
  - now rewrite N.add_0_r.
  - specialize (IH m H). rewrite Nat2N.inj_succ, N.add_succ_r, N.pow_succ_r'.
    pose proof (flag_lt (transmits d)). lia.
Qed.

Lemma direction_loop_eq l : forall pre post n mask,
  N.of_nat (List.length l) + n <= 7 -> mask < 2 ^ n ->
  direction_loop (pre ++ l ++ post) (List.length pre) (List.length l) (2 ^ n) mask
  = Ok (mask + 2 ^ n * direction_octet l 0).
Proof.
  induction l as [|d l IH]; intros pre post n mask Hn Hm; cbn [List.length direction_loop direction_octet].
  - f_equal. lia.
  - cbn [app]. rewrite index_mid. cbn [obind].
    set (mask' := if direction_transmit d then N.lor mask (2 ^ n) else mask).
    assert (Em : mask' = mask + 2 ^ n * flag (transmits d)).
    { unfold mask', direction_transmit, transmits. destruct (gts_direction d); cbn [flag].
      - lia.
      - rewrite <- (N.mul_1_l (2 ^ n)) at 1. rewrite lor_add by assumption. lia. }
    assert (Es : u8_shl (2 ^ n) 1 = 2 ^ (n + 1)).
    { unfold u8_shl. rewrite N.shiftl_mul_pow2, <- N.pow_add_r. apply N.mod_small.
      change 256 with (2 ^ 8). apply N.pow_lt_mono_r; cbn [List.length] in Hn; lia. }
    rewrite Es. specialize (IH (pre ++ [d]) post (n + 1) mask').
    rewrite app_length, Nat.add_1_r, <- app_assoc in IH. cbn [app] in IH. rewrite IH.
    + f_equal. rewrite Em, N.add_1_r, N.pow_succ_r'. lia.
    + cbn [List.length] in Hn. lia.
    + rewrite Em, N.add_1_r, N.pow_succ_r'. pose proof (flag_lt (transmits d)). nia.
Qed.

Lemma active_reachable g slots : List.length slots = gts_slot_count g ->
  gts_slots g = slots ++ repeat GtsDescriptor_new (7 - gts_slot_count g) ->
  active_slots g = slots.
Proof. intros L E. unfold active_slots. rewrite E. now apply firstn_app_exact'. Qed.

Lemma emits_gts_information g : gts_reachable g ->
  emits (try_write_gts_information g) (wire_gts 0 0 g) (Ok tt).
Proof.
  intros (Hc & slots & Hl & Hs & Eg). unfold try_write_gts_information, wire_gts.
  rewrite (active_reachable g slots Hl Eg), Eg. apply emits_body.
  replace (gts_slot_count g <=? 7)%nat with true by lia.
  apply runs_seq_nil; [apply runs_ret|]. apply runs_seq.
  - apply runs_write. unfold COUNT_MASK, as_u8. rewrite land_7.
    assert (Hn : N.of_nat (gts_slot_count g) < 8) by lia.
    rewrite (N.mod_small _ 256), (N.mod_small _ 8) by lia.
    eapply emits_eq; [apply emits_u8|].
    + destruct (gts_permit g); [|rewrite N.lor_0_r; lia]. unfold PERMIT.
      change 0x80 with (1 * 2 ^ 7). rewrite lor_add by (change (2 ^ 7) with 128; lia).
      change (1 * 2 ^ 7) with 128. lia.
    + f_equal. destruct (gts_permit g); cbn [flag]; [|rewrite N.lor_0_r; lia].
      unfold PERMIT. change 0x80 with (1 * 2 ^ 7).
      rewrite lor_add by (change (2 ^ 7) with 128; lia). lia.
  - destruct slots as [|d slots].
    + cbn [List.length] in Hl. rewrite <- Hl. apply runs_ret.
    + replace (0 <? gts_slot_count g)%nat with true by (cbn [List.length] in Hl; lia).
      rewrite <- Hl.
      eapply runs_lift.
      * apply (direction_loop_eq (d :: slots) [] _ 0 0); [lia|cbn; lia].
      * rewrite N.add_0_l, N.pow_0_r, N.mul_1_l.
        change (direction_octet (d :: slots) 0 :: flat_map wire_gts_descriptor (d :: slots))
          with ([direction_octet (d :: slots) 0] ++ flat_map wire_gts_descriptor (d :: slots)).
        apply runs_seq.
        -- apply runs_write, emits_u8.
           eapply N.lt_le_trans; [apply (direction_octet_lt _ 0 0); lia|].
           change 256 with (2 ^ 8). apply N.pow_le_mono_r; lia.
        -- apply (write_loop_runs _ wire_gts_descriptor (d :: slots) []).
           eapply Forall_impl; [|exact Hs]. exact emits_gts_descriptor.
Qed.

(** Reading. *)
Lemma try_read_gts_descriptor_eq bs :
  try_read_gts_descriptor bs =
  match bs with
  | a :: b :: x :: _ =>
      Ok ({| gts_short_address := a + 256 * b; gts_starting_slot := x mod 16;
             gts_length := x / 16; gts_direction := Receive |}, 3%nat)
  | _ => Err Incomplete
  end.
Proof.
  destruct bs as [|a [|b [|x r]]]; try reflexivity.
  unfold try_read_gts_descriptor, check_len.
  replace (_ <? 3) with false by (cbn [List.length]; lia). cbn [obind].
  rewrite read_short_at. rewrite read_num_at by (cbn [List.length]; lia).
  replace (_ <=? _)%nat with true by (cbn [List.length]; lia). cbn [obind].
  rewrite read_num_at by (cbn [List.length]; lia).
  replace (_ <=? _)%nat with true by (cbn [List.length]; lia). cbn [obind].
  unfold slice. cbn [Nat.add Nat.sub skipn firstn num_val le_val].
  rewrite !N.mul_0_r, !N.add_0_r. rewrite land_15, shiftr_4. reflexivity.
Qed.

Lemma read_slots_fate : forall k bs off pre post mask,
  (off <= List.length bs)%nat ->
  ((off + 3 * k <= List.length bs)%nat ->
   exists l, List.length l = k /\
    read_slots bs off (pre ++ repeat GtsDescriptor_new k ++ post) (List.length pre) k mask
     = Ok (pre ++ l ++ post, (off + 3 * k)%nat)).
Proof.
  induction k as [|k IH]; intros bs off pre post mask Ho Hl.
  - exists []. split; [reflexivity|]. cbn. now rewrite Nat.add_0_r.
  - cbn [read_slots repeat]. rewrite read_with_eq by assumption.
    rewrite try_read_gts_descriptor_eq.
    assert (Ls := skipn_length off bs). destruct (skipn off bs) as [|a [|b [|x r]]];
      cbn [List.length] in Ls; try lia.
    cbn [obind app]. rewrite set_index_mid. cbn [obind].
    match goal with |- context [set_direction ?s ?d] => set (s' := set_direction s d) end.
    destruct (IH bs (off + 3)%nat (pre ++ [s']) post (N.shiftr mask 1)) as (l & Ll & R); [lia|lia|].
    rewrite app_length, Nat.add_1_r, <- app_assoc in R. cbn [app] in R. rewrite R.
    exists (s' :: l). split; [cbn; lia|]. f_equal. f_equal; [now rewrite <- app_assoc|lia].
Qed.

Lemma read_slots_sound : forall k bs off pre post mask slots off', octets bs ->
  read_slots bs off (pre ++ repeat GtsDescriptor_new k ++ post) (List.length pre) k mask
    = Ok (slots, off') ->
  (off <= List.length bs)%nat ->
  exists l, List.length l = k /\ slots = pre ++ l ++ post /\ off' = (off + 3 * k)%nat /\
    (off' <= List.length bs)%nat /\ Forall gts_descriptor_ok l /\
    slice bs off off' = flat_map wire_gts_descriptor l /\
    mask = direction_octet l (mask / 2 ^ N.of_nat k).
Proof.
  induction k as [|k IH]; intros bs off pre post mask slots off' Hb H Ho.
  - cbn in H. injection H as <- <-. exists []. rewrite Nat.mul_0_r, Nat.add_0_r.
    repeat split; auto. + apply slice_nil. + cbn. now rewrite N.div_1_r.
  - cbn [read_slots repeat] in H. inv_bind H. destruct a as [slot o1]. inv_bind H.
    apply read_with_inv in E. destruct E as (_ & n & -> & E).
    rewrite try_read_gts_descriptor_eq in E.
    assert (Ls := skipn_length off bs).
    assert (Hob := octets_skipn off bs Hb).
    destruct (skipn off bs) as [|x [|y [|z r]]] eqn:Esk; try discriminate.
    apply Ok_inj in E. destruct E as [<- <-]. cbn [List.length] in Ls.
    cbn [app] in E0. rewrite set_index_mid in E0. injection E0 as <-.
    match type of H with context [set_direction ?s ?d] => set (s' := set_direction s d) in * end.
    specialize (IH bs (off + 3)%nat (pre ++ [s']) post (N.shiftr mask 1) slots off' Hb).
    rewrite app_length, Nat.add_1_r, <- app_assoc in IH. cbn [app] in IH.
    destruct (IH H ltac:(lia)) as (l & Ll & Es & Eo & Lo & Fl & Sl & Em).
    apply octets_cons in Hob. destruct Hob as [Hx Hob].
    apply octets_cons in Hob. destruct Hob as [Hy Hob].
    apply octets_cons in Hob. destruct Hob as [Hz Hob].
    assert (F1 : gts_short_address s' = x + 256 * y) by reflexivity.
    assert (F2 : gts_starting_slot s' = z mod 16) by reflexivity.
    assert (F3 : gts_length s' = z / 16) by reflexivity.
    exists (s' :: l). split; [cbn; lia|]. split; [now rewrite Es, <- app_assoc|]. split; [lia|].
    split; [assumption|]. split; [|split].
    + constructor; [|assumption]. unfold gts_descriptor_ok, u16_ok.
      rewrite F1, F2, F3. change (2 ^ 16) with 65536. clear - Hx Hy Hz. repeat split; lia.
    + cbn [flat_map]. rewrite <- Sl, <- (slice_app bs off (off + 3)) by lia. f_equal.
      unfold slice. rewrite Esk. replace (off + 3 - off)%nat with 3%nat by lia.
      unfold wire_gts_descriptor. rewrite F1, F2, F3, !le_S, le_0. cbn [firstn app].
      change (2 ^ 4) with 16. clear - Hx Hy Hz.
      replace ((x + 256 * y) mod 256) with x by lia.
      replace ((x + 256 * y) / 256 mod 256) with y by lia.
      replace (z mod 16 + 16 * (z / 16)) with z by lia. reflexivity.
    + cbn [direction_octet]. rewrite N.shiftr_div_pow2, N.pow_1_r in Em.
      rewrite Nat2N.inj_succ, N.pow_succ_r', <- N.div_div
        by (try apply N.pow_nonzero; discriminate).
      rewrite <- Em. unfold s', set_direction, transmits. cbn [gts_direction].
      change 1 with (N.ones 1) at 1. rewrite N.land_ones, N.pow_1_r.
      destruct (N.eqb_spec (mask mod 2) 1); cbn [flag]; lia.
Qed.

Lemma direction_octet_div l rest : direction_octet l rest / 2 ^ N.of_nat (List.length l) = rest.
Proof.
  induction l as [|d l IH]; cbn [direction_octet List.length].
  - now rewrite N.div_1_r.
  - rewrite Nat2N.inj_succ, N.pow_succ_r', <- N.div_div by (try apply N.pow_nonzero; discriminate).
    pose proof (flag_lt (transmits d)).
    replace ((flag (transmits d) + 2 * direction_octet l rest) / 2) with (direction_octet l rest) by lia.
    exact IH.
Qed.

Lemma repeat_split {A} (x : A) k n : (k <= n)%nat -> repeat x n = repeat x k ++ repeat x (n - k).
Proof. intros. rewrite <- repeat_app. f_equal. lia. Qed.

Lemma try_read_gts_unfold b r :
  try_read_gts_information (b :: r) =
  (let slots := repeat GtsDescriptor_new 7 in
   let count := N.to_nat (b mod 8) in
   if b mod 8 =? 0 then
     Ok ({| gts_permit := b / 2 ^ 7 mod 2 =? 1; gts_slot_count := 0; gts_slots := slots |}, 1%nat)
   else if (List.length (b :: r) <? 3 + 3 * count)%nat then Err Incomplete
   else
     '(slots, off) <- read_slots (b :: r) 2 slots 0 count (octet r 0) ;;
     Ok ({| gts_permit := b / 2 ^ 7 mod 2 =? 1; gts_slot_count := count; gts_slots := slots |}, off)).
Proof.
  cbv zeta. unfold try_read_gts_information.
  rewrite read_num_at by lia. replace (_ <=? _)%nat with true by (cbn [List.length]; lia).
  cbn [obind].
  assert (S0 : num_val LE (slice (b :: r) 0 (0 + 1)) = b).
  { unfold slice. cbn [Nat.add Nat.sub skipn firstn num_val le_val]. now rewrite N.mul_0_r, N.add_0_r. }
  rewrite S0. clear S0. change (0 + 1)%nat with 1%nat. unfold COUNT_MASK. rewrite land_7.
  change PERMIT with (2 ^ 7). rewrite land_bit.
  destruct (N.eqb_spec (b mod 8) 0) as [E0|E0].
  - rewrite E0. reflexivity.
  - replace (0 <? N.to_nat (b mod 8))%nat with true by lia.
    unfold check_len. cbn [skipn].
    destruct (Nat.ltb_spec (List.length (b :: r)) (3 + 3 * N.to_nat (b mod 8))) as [Hl|Hl].
    + replace (_ <? _) with true by (cbn [List.length] in *; lia). reflexivity.
    + replace (_ <? _) with false by (cbn [List.length] in *; lia). cbn [obind].
      rewrite read_num_at by (cbn [List.length] in *; lia).
      replace (_ <=? _)%nat with true by (cbn [List.length] in *; lia). cbn [obind].
      unfold slice. cbn [Nat.add Nat.sub skipn]. destruct r as [|b1 r]; [cbn [List.length] in Hl; lia|].
      cbn [firstn num_val le_val octet nth]. rewrite N.mul_0_r, N.add_0_r. reflexivity.
Qed.

Lemma wire_gts_descriptor_length d : List.length (wire_gts_descriptor d) = 3%nat.
Proof. unfold wire_gts_descriptor. now rewrite app_length, le_length. Qed.

Lemma try_read_gts_descriptor_wire d tail : gts_descriptor_ok d ->
  try_read_gts_descriptor (wire_gts_descriptor d ++ tail) = Ok (set_direction d Receive, 3%nat).
Proof.
  intros (H1 & H2 & H3). unfold u16_ok in H1. change (2 ^ 16) with 65536 in H1.
  unfold wire_gts_descriptor. rewrite !le_S, le_0. cbn [app].
  rewrite try_read_gts_descriptor_eq. unfold set_direction. change (2 ^ 4) with 16.
  destruct d as [sa ss ln di]. cbn [gts_short_address gts_starting_slot gts_length] in *.
  replace (sa mod 256 + 256 * (sa / 256 mod 256)) with sa by lia.
  replace ((ss + 16 * ln) mod 16) with ss by lia. replace ((ss + 16 * ln) / 16) with ln by lia.
  reflexivity.
Qed.

Lemma set_direction_transmits d : 
  set_direction (set_direction d Receive) (if flag (transmits d) =? 1 then Transmit else Receive) = d.
Proof. destruct d as [? ? ? []]; reflexivity. Qed.

Lemma read_slots_complete l : forall bs off pre post rest tail,
  (off <= List.length bs)%nat -> Forall gts_descriptor_ok l ->
  skipn off bs = flat_map wire_gts_descriptor l ++ tail ->
  read_slots bs off (pre ++ repeat GtsDescriptor_new (List.length l) ++ post) (List.length pre)
    (List.length l) (direction_octet l rest)
  = Ok (pre ++ l ++ post, (off + 3 * List.length l)%nat).
Proof.
  induction l as [|d l IH]; intros bs off pre post rest tail Ho Hl Hs.
  - cbn. now rewrite Nat.add_0_r.
  - apply Forall_cons_iff in Hl. destruct Hl as [Hd Hl].
    cbn [flat_map] in Hs. rewrite <- app_assoc in Hs.
    destruct (read_step try_read_gts_descriptor bs off _ _ (set_direction d Receive) Ho Hs) as (R1 & L1 & S1).
    { rewrite wire_gts_descriptor_length. now apply try_read_gts_descriptor_wire. }
    rewrite wire_gts_descriptor_length in R1, L1, S1.
    cbn [List.length repeat read_slots]. rewrite R1. cbn [obind app].
    rewrite set_index_mid. cbn [obind direction_octet].
    assert (P := flag_lt (transmits d)).
    replace (N.land (flag (transmits d) + 2 * direction_octet l rest) 1) with (flag (transmits d)).
    2:{ change 1 with (N.ones 1). rewrite N.land_ones, N.pow_1_r. lia. }
    replace (N.shiftr (flag (transmits d) + 2 * direction_octet l rest) 1) with (direction_octet l rest).
    2:{ rewrite N.shiftr_div_pow2, N.pow_1_r. lia. }
    rewrite set_direction_transmits.
    specialize (IH bs (off + 3)%nat (pre ++ [d]) post rest tail L1 Hl S1).
    rewrite app_length, Nat.add_1_r, <- app_assoc in IH. cbn [app] in IH. rewrite IH.
    f_equal. f_equal; [now rewrite <- app_assoc|lia].
Qed.

Lemma gts_fate bs :
  match bs with
  | [] => try_read_gts_information bs = Err Incomplete
  | b :: _ =>
      (b mod 8 <> 0 /\ (List.length bs < 1 + gts_size b)%nat /\
       try_read_gts_information bs = Err Incomplete) \/
      ((b mod 8 = 0 \/ (1 + gts_size b <= List.length bs)%nat) /\
       exists g, try_read_gts_information bs = Ok (g, gts_size b))
  end.
Proof.
  destruct bs as [|b r]; [reflexivity|]. rewrite try_read_gts_unfold. cbv zeta. unfold gts_size.
  destruct (N.eqb_spec (b mod 8) 0) as [E0|E0].
  - right. split; [now left|]. eexists. reflexivity.
  - destruct (Nat.ltb_spec (List.length (b :: r)) (3 + 3 * N.to_nat (b mod 8))) as [Hl|Hl].
    + left. split; [assumption|]. split; [lia|reflexivity].
    + right. split; [right; lia|].
      destruct (read_slots_fate (N.to_nat (b mod 8)) (b :: r) 2 []
                  (repeat GtsDescriptor_new (7 - N.to_nat (b mod 8))) (octet r 0))
        as (l & Ll & R); [lia|lia|].
      cbn [app List.length] in R. rewrite <- repeat_split in R by lia. rewrite R. cbn [obind app].
      eexists. reflexivity.
Qed.

Lemma try_read_gts_sound bs g n : octets bs -> try_read_gts_information bs = Ok (g, n) ->
  (n <= List.length bs)%nat /\ gts_reachable g /\
  exists r rd, r < 16 /\ rd < 2 ^ (8 - N.of_nat (gts_slot_count g)) /\
    firstn n bs = wire_gts r rd g.
Proof.
  intros Hb H. destruct bs as [|b r0]; [discriminate|].
  assert (Hb0 : b < 256) by (apply octets_cons in Hb; apply Hb).
  rewrite try_read_gts_unfold in H. cbv zeta in H.
  assert (Hfirst : forall x, x = b mod 8 -> b = x + 2 ^ 3 * (b / 8 mod 16) + 2 ^ 7 * flag (b / 2 ^ 7 mod 2 =? 1)).
  { intros x ->. change (2 ^ 3) with 8. change (2 ^ 7) with 128. unfold flag.
    destruct (N.eqb_spec (b / 128 mod 2) 1); lia. }
  destruct (N.eqb_spec (b mod 8) 0) as [E0|E0].
  - apply Ok_inj in H. destruct H as [<- <-]. split; [cbn; lia|]. split.
    + split; [cbn; lia|]. exists []. repeat split. constructor.
    + exists (b / 8 mod 16), 0. split; [lia|]. split; [cbn; lia|].
      unfold wire_gts. cbn [gts_slot_count gts_permit active_slots gts_slots firstn].
      rewrite app_nil_r. f_equal. apply Hfirst. now rewrite E0.
  - destruct (Nat.ltb_spec (List.length (b :: r0)) (3 + 3 * N.to_nat (b mod 8))) as [|Hl]; [discriminate|].
    set (k := N.to_nat (b mod 8)) in *. assert (Hk : (1 <= k <= 7)%nat) by lia.
    assert (Ek : N.of_nat k = b mod 8) by lia. clearbody k.
    inv_bind H. destruct a as [slots off]. apply Ok_inj in H. destruct H as [<- <-].
    rewrite (repeat_split GtsDescriptor_new k 7) in E by lia.
    apply (read_slots_sound k (b :: r0) 2 []) in E; [|assumption|lia].
    destruct E as (l & Ll & -> & -> & Lo & Fl & Sl & Em).
    split; [lia|]. cbn [app]. split.
    + split; [cbn [gts_slot_count]; lia|]. exists l. repeat split; auto.
    + exists (b / 8 mod 16), (octet r0 0 / 2 ^ N.of_nat k). split; [lia|].
      destruct r0 as [|m r1]; [cbn [List.length] in Hl; lia|].
      cbn [octet nth] in *. split.
      * cbn [gts_slot_count].
        assert (Hm : m < 2 ^ 8) by (apply octets_cons in Hb; destruct Hb as [_ Hb]; apply octets_cons in Hb; apply Hb).
        apply N.div_lt_upper_bound; [apply N.pow_nonzero; discriminate|].
        rewrite <- N.pow_add_r. replace (N.of_nat k + (8 - N.of_nat k)) with 8 by lia. exact Hm.
      * unfold wire_gts.
        match goal with |- context [active_slots ?g] => assert (Ea : active_slots g = l) end.
        { unfold active_slots. cbn [gts_slot_count gts_slots]. now apply firstn_app_exact'. }
        rewrite Ea. cbn [gts_slot_count gts_permit].
        destruct l as [|d l']; [cbn in Ll; lia|].
        rewrite <- Em, <- Sl. rewrite <- (Hfirst _ Ek).
        change (2 + 3 * k)%nat with (S (S (3 * k))). cbn [firstn app].
        unfold slice. cbn [skipn]. do 3 f_equal. lia.
Qed.

Lemma wire_gts_length r rd g : gts_reachable g ->
  List.length (wire_gts r rd g)
  = (if (gts_slot_count g =? 0)%nat then 1 else 2 + 3 * gts_slot_count g)%nat.
Proof.
  intros (Hc & l & Ll & Fl & Eg). unfold wire_gts. rewrite (active_reachable g l Ll Eg).
  rewrite app_length. destruct l as [|d l].
  - cbn [List.length] in *. now rewrite <- Ll.
  - replace (gts_slot_count g =? 0)%nat with false by (cbn [List.length] in Ll; lia).
    cbn [List.length]. rewrite flat_map_concat_map, <- Ll.
    assert (G : forall (l : list GtsDescriptor),
      List.length (List.concat (map wire_gts_descriptor l)) = (3 * List.length l)%nat).
    { induction l0 as [|x l0 IH]; [reflexivity|]. cbn [map List.concat]. rewrite app_length, IH, wire_gts_descriptor_length. cbn [List.length]. lia. }
    rewrite G. lia.
Qed.

Lemma try_read_gts_complete r rd g tail : gts_reachable g -> r < 16 ->
  rd < 2 ^ (8 - N.of_nat (gts_slot_count g)) ->
  (gts_slot_count g = 0%nat \/ tail <> []) ->
  try_read_gts_information (wire_gts r rd g ++ tail) = Ok (g, List.length (wire_gts r rd g)).
Proof.
  intros Hg Hr Hrd Ht. rewrite (wire_gts_length r rd g Hg).
  assert (Lw := wire_gts_length r rd g Hg).
  destruct Hg as (Hc & l & Ll & Fl & Eg).
  remember (wire_gts r rd g ++ tail) as bs eqn:Ebs.
  assert (Lb : List.length bs = (List.length (wire_gts r rd g) + List.length tail)%nat).
  { rewrite Ebs. apply app_length. }
  unfold wire_gts in Ebs. rewrite (active_reachable g l Ll Eg) in Ebs.
  rewrite <- app_assoc in Ebs. cbn [app] in Ebs. rewrite Ebs, try_read_gts_unfold. cbv zeta.
  rewrite <- Ebs.
  set (b := N.of_nat (gts_slot_count g) + 2 ^ 3 * r + 2 ^ 7 * flag (gts_permit g)) in *.
  assert (B1 : b mod 8 = N.of_nat (gts_slot_count g)).
  { unfold b. change (2 ^ 3) with 8. change (2 ^ 7) with 128. lia. }
  assert (B2 : (b / 2 ^ 7 mod 2 =? 1) = gts_permit g).
  { unfold b. change (2 ^ 3) with 8. change (2 ^ 7) with 128.
    destruct (gts_permit g); cbn [flag]; [apply N.eqb_eq|apply N.eqb_neq]; lia. }
  rewrite B1, B2, Nat2N.id. clearbody b.
  destruct (Nat.eqb_spec (gts_slot_count g) 0) as [E0|E0].
  - rewrite E0. cbn [N.of_nat N.eqb]. do 2 f_equal. destruct g as [p k s].
    cbn [gts_slot_count gts_slots gts_permit] in *. subst k. destruct l; [|discriminate].
    now rewrite Eg.
  - destruct Ht as [Ht|Ht]; [contradiction|].
    destruct tail as [|t0 tail]; [contradiction|]. cbn [List.length] in Lb.
    replace (N.of_nat (gts_slot_count g) =? 0) with false by lia.
    replace (List.length bs <? _)%nat with false by (symmetry; apply Nat.ltb_ge; lia).
    destruct l as [|d l]; [cbn in Ll; lia|]. cbn [app octet nth].
    rewrite (repeat_split GtsDescriptor_new (List.length (d :: l)) 7) by lia.
    cbn [app octet nth] in Ebs. 
    rewrite <- Ll.
    pose proof (read_slots_complete (d :: l) bs 2 [] (repeat GtsDescriptor_new (7 - List.length (d :: l)))
                  rd (t0 :: tail) ltac:(lia) Fl ltac:(rewrite Ebs; reflexivity)) as R.
    cbn [app] in R. change (List.length (@nil GtsDescriptor)) with 0%nat in R. rewrite R.
    cbn [obind]. cbn [app]. do 2 f_equal. destruct g as [p k s].
    cbn [gts_slot_count gts_slots gts_permit] in *. rewrite Eg, Ll. reflexivity.
Qed.

(** * Pending addresses *)

Section ReadLoop.
Context (z : nat) (rd : reader N) (Hrd : forall x, rd x = read_num z LE x) (d : N).

Lemma read_loop_fate : forall k bs off pre post,
  (off + z * k <= List.length bs)%nat ->
  exists l, List.length l = k /\
    read_loop rd bs off (pre ++ repeat d k ++ post) (List.length pre) k
    = Ok (pre ++ l ++ post, (off + z * k)%nat).
Proof.
  induction k as [|k IH]; intros bs off pre post Hl.
  - exists []. split; [reflexivity|]. cbn. now rewrite Nat.mul_0_r, Nat.add_0_r.
  - cbn [read_loop repeat]. rewrite (read_with_ext rd (read_num z LE)), read_num_at by (assumption || lia).
    replace (_ <=? _)%nat with true by lia. cbn [obind app]. rewrite set_index_mid. cbn [obind].
    match goal with |- context [pre ++ ?v :: repeat d k ++ post] => set (x := v) end.
    destruct (IH bs (off + z)%nat (pre ++ [x]) post) as (l & Ll & R); [lia|].
    rewrite app_length, Nat.add_1_r, <- app_assoc in R. cbn [app] in R. rewrite R.
    exists (x :: l). split; [cbn; lia|]. f_equal. f_equal; [now rewrite <- app_assoc|lia].
Qed.

Lemma read_loop_sound : forall k bs off pre post a off', octets bs ->
  (off <= List.length bs)%nat ->
  read_loop rd bs off (pre ++ repeat d k ++ post) (List.length pre) k = Ok (a, off') ->
  exists l, List.length l = k /\ a = pre ++ l ++ post /\ off' = (off + z * k)%nat /\
    (off' <= List.length bs)%nat /\ Forall (fun v => v < 256 ^ N.of_nat z) l /\
    slice bs off off' = flat_map (le z) l.
Proof.
  induction k as [|k IH]; intros bs off pre post a off' Hb Ho H.
  - cbn in H. injection H as <- <-. exists []. rewrite Nat.mul_0_r, Nat.add_0_r.
    repeat split; auto. apply slice_nil.
  - cbn [read_loop repeat] in H. inv_bind H. destruct a0 as [x o1]. inv_bind H. 
    rewrite (read_with_ext rd (read_num z LE)) in E by assumption.
    apply read_num_inv in E; [|assumption]. destruct E as (-> & L1 & S1 & B1).
    cbn [app] in E0. rewrite set_index_mid in E0. injection E0 as <-.
    specialize (IH bs (off + z)%nat (pre ++ [x]) post a off' Hb L1).
    rewrite app_length, Nat.add_1_r, <- app_assoc in IH. cbn [app] in IH.
    destruct (IH H) as (l & Ll & Es & Eo & Lo & Fl & Sl).
    exists (x :: l). split; [cbn; lia|]. split; [now rewrite Es, <- app_assoc|]. split; [lia|].
    split; [assumption|]. split; [now constructor|].
    cbn [flat_map]. rewrite <- Sl. cbn [in_order] in S1. rewrite <- S1, slice_app by lia. reflexivity.
Qed.

Lemma read_loop_complete l : forall bs off pre post tail,
  (off <= List.length bs)%nat -> Forall (fun v => v < 256 ^ N.of_nat z) l ->
  skipn off bs = flat_map (le z) l ++ tail ->
  read_loop rd bs off (pre ++ repeat d (List.length l) ++ post) (List.length pre) (List.length l)
  = Ok (pre ++ l ++ post, (off + z * List.length l)%nat) /\
  (off + z * List.length l <= List.length bs)%nat /\
  skipn (off + z * List.length l) bs = tail.
Proof.
  induction l as [|x l IH]; intros bs off pre post tail Ho Hl Hs.
  - cbn [List.length]. rewrite Nat.mul_0_r, Nat.add_0_r. repeat split; auto.
  - apply Forall_cons_iff in Hl. destruct Hl as [Hx Hl].
    cbn [flat_map] in Hs. rewrite <- app_assoc in Hs.
    destruct (read_step rd bs off _ _ x Ho Hs) as (R1 & L1 & S1).
    { rewrite Hrd. now apply (read_num_complete z LE). }
    rewrite le_length in R1, L1, S1.
    cbn [List.length repeat read_loop]. rewrite R1. cbn [obind app]. rewrite set_index_mid. cbn [obind].
    specialize (IH bs (off + z)%nat (pre ++ [x]) post tail L1 Hl S1).
    rewrite app_length, Nat.add_1_r, <- app_assoc in IH. cbn [app] in IH.
    destruct IH as (R & L & Sk). rewrite R.
    replace (off + z * S (List.length l))%nat with (off + z + z * List.length l)%nat by lia.
    split; [now rewrite <- app_assoc|]. split; assumption.
Qed.
End ReadLoop.

Lemma emits_pending p : pending_reachable p ->
  emits (try_write_pending p) (wire_pending false false p) (Ok tt).
Proof.
  intros (Hs & He & (ls & Ls & Fs & Es) & (lx & Lx & Fx & Ex)).
  unfold try_write_pending, wire_pending, shorts_of, extendeds_of.
  rewrite Es, Ex, !firstn_app_exact' by (symmetry; assumption). apply emits_body.
  replace (short_address_count p <=? 7)%nat with true by lia.
  replace (extended_address_count p <=? 7)%nat with true by lia.
  apply runs_seq_nil; [apply runs_ret|]. apply runs_seq_nil; [apply runs_ret|].
  apply runs_seq; [|apply runs_seq].
  - apply runs_write. unfold as_u8, SHORT_MASK. rewrite land_7, shiftl_4.
    assert (P : forall a b, a < 8 -> b < 8 ->
      N.lor (N.land (16 * ((a mod 256) mod 16)) EXTENDED_MASK) ((b mod 256) mod 8) = b + 16 * a).
    { intros a b Ha Hb.
      destruct a as [|[[[]|[]|]|[[]|[]|]|]]; try (exfalso; lia);
      destruct b as [|[[[]|[]|]|[[]|[]|]|]]; try (exfalso; lia); reflexivity. }
    rewrite P by lia. eapply emits_eq; [apply emits_u8; lia|]. f_equal. cbn [flag].
    change (2 ^ 3) with 8. change (2 ^ 4) with 16. change (2 ^ 7) with 128. lia.
  - rewrite <- Ls. apply (write_loop_runs _ (le 2) ls []).
    apply Forall_forall. intros x _. apply emits_short.
  - rewrite <- Lx. apply (write_loop_runs _ (le 8) lx []).
    apply Forall_forall. intros x _. apply emits_extended.
Qed.

Lemma try_read_pending_unfold b r :
  try_read_pending (b :: r) =
  (let sl := N.to_nat (b mod 8) in
   let el := N.to_nat (b / 16 mod 8) in
   if (List.length (b :: r) <? pending_size b)%nat then Err Incomplete
   else
     '(shorts, off) <- read_loop try_read_short (b :: r) 1 (repeat short_broadcast 7) 0 sl ;;
     '(extendeds, off) <-
       read_loop try_read_extended (b :: r) off (repeat extended_broadcast 7) 0 el ;;
     Ok ({| short_address_count := sl; short_addresses := shorts;
            extended_address_count := el; extended_addresses := extendeds |}, off)).
Proof.
  cbv zeta. unfold try_read_pending.
  rewrite read_num_at by lia. replace (_ <=? _)%nat with true by (cbn [List.length]; lia).
  cbn [obind].
  assert (S0 : num_val LE (slice (b :: r) 0 (0 + 1)) = b).
  { unfold slice. cbn [Nat.add Nat.sub skipn firstn num_val le_val]. now rewrite N.mul_0_r, N.add_0_r. }
  rewrite S0. clear S0. change (0 + 1)%nat with 1%nat. unfold SHORT_MASK. rewrite land_7.
  rewrite (shiftr_land_field b EXTENDED_MASK 4 3) by reflexivity.
  change (2 ^ 4) with 16. change (2 ^ 3) with 8. unfold check_len. cbn [skipn].
  unfold pending_size.
  destruct (Nat.ltb_spec (List.length (b :: r)) (1 + 2 * N.to_nat (b mod 8) + 8 * N.to_nat (b / 16 mod 8))) as [Hl|Hl].
  - replace (_ <? _) with true by (cbn [List.length] in *; lia). reflexivity.
  - replace (_ <? _) with false by (cbn [List.length] in *; lia). reflexivity.
Qed.

Lemma pending_fate bs :
  match bs with
  | [] => try_read_pending bs = Err Incomplete
  | b :: _ =>
      ((List.length bs < pending_size b)%nat /\ try_read_pending bs = Err Incomplete) \/
      ((pending_size b <= List.length bs)%nat /\ exists p, try_read_pending bs = Ok (p, pending_size b))
  end.
Proof.
  destruct bs as [|b r]; [reflexivity|]. rewrite try_read_pending_unfold. cbv zeta.
  destruct (Nat.ltb_spec (List.length (b :: r)) (pending_size b)) as [Hl|Hl].
  - left. split; [assumption|reflexivity].
  - right. split; [assumption|]. unfold pending_size in *.
    destruct (read_loop_fate 2 try_read_short try_read_short_eq short_broadcast
      (N.to_nat (b mod 8)) (b :: r) 1 [] (repeat short_broadcast (7 - N.to_nat (b mod 8)))) as (l & Ll & R); [lia|].
    cbn [app List.length] in R. rewrite <- repeat_split in R by lia.
    unfold ShortAddress, ExtendedAddress in *. rewrite R. cbn [obind].
    destruct (read_loop_fate 8 try_read_extended try_read_extended_eq extended_broadcast
      (N.to_nat (b / 16 mod 8)) (b :: r) (1 + 2 * N.to_nat (b mod 8)) []
      (repeat extended_broadcast (7 - N.to_nat (b / 16 mod 8)))) as (l' & Ll' & R'); [lia|].
    cbn [app List.length] in R'. rewrite <- repeat_split in R' by lia. rewrite R'. cbn [obind].
    eexists. reflexivity.
Qed.

Lemma try_read_pending_sound bs p n : octets bs -> try_read_pending bs = Ok (p, n) ->
  (n <= List.length bs)%nat /\ pending_reachable p /\
  exists r3 r7, firstn n bs = wire_pending r3 r7 p.
Proof.
  intros Hb H. destruct bs as [|b r]; [discriminate|].
  assert (Hb0 : b < 256) by (apply octets_cons in Hb; apply Hb).
  rewrite try_read_pending_unfold in H. cbv zeta in H.
  destruct (Nat.ltb_spec (List.length (b :: r)) (pending_size b)) as [|Hl]; [discriminate|].
  set (sl := N.to_nat (b mod 8)) in *. assert (Hsl : (sl <= 7)%nat) by lia.
  assert (Esl : N.of_nat sl = b mod 8) by lia.
  set (el := N.to_nat (b / 16 mod 8)) in *. assert (Hel : (el <= 7)%nat) by lia.
  assert (Eel : N.of_nat el = b / 16 mod 8) by lia. clearbody sl el.
  inv_bind H. destruct a as [ss o1]. inv_bind H. destruct a as [xs o2].
  apply Ok_inj in H. destruct H as [<- <-].
  rewrite (repeat_split short_broadcast sl 7) in E by lia.
  rewrite (repeat_split extended_broadcast el 7) in E0 by lia.
  apply (read_loop_sound 2 try_read_short try_read_short_eq short_broadcast sl (b :: r) 1 []) in E;
    [|assumption|cbn; lia].
  destruct E as (ls & Ls & -> & -> & Lo1 & Fs & Ss).
  apply (read_loop_sound 8 try_read_extended try_read_extended_eq extended_broadcast el (b :: r) _ []) in E0;
    [|assumption|lia].
  destruct E0 as (lx & Lx & -> & -> & Lo2 & Fx & Sx). cbn [app].
  split; [assumption|]. split.
  - split; [exact Hsl|]. split; [exact Hel|]. split.
    + exists ls. split; [exact Ls|]. split; [exact Fs|reflexivity].
    + exists lx. split; [exact Lx|]. split; [exact Fx|reflexivity].
  - exists (b / 8 mod 2 =? 1), (b / 128 mod 2 =? 1). unfold wire_pending, shorts_of, extendeds_of.
    cbn [short_address_count extended_address_count short_addresses extended_addresses].
    rewrite !firstn_app_exact' by (symmetry; assumption). rewrite <- Ss, <- Sx, slice_app by lia.
    rewrite Esl, Eel.
    match goal with |- _ = [?x] ++ _ => replace x with b end.
    + replace [b] with (slice (b :: r) 0 1) by reflexivity.
      rewrite slice_app by lia. symmetry. apply slice_0.
    + assert (F : forall x, flag (x mod 2 =? 1) = x mod 2).
      { intros x. unfold flag. destruct (N.eqb_spec (x mod 2) 1); lia. }
      rewrite !F. change (2 ^ 3) with 8. change (2 ^ 4) with 16. change (2 ^ 7) with 128.
      clear - Hb0. lia.
Qed.

Lemma flat_map_le_length z l : List.length (flat_map (le z) l) = (z * List.length l)%nat.
Proof. induction l as [|x l IH]; cbn [flat_map List.length]; [lia|]. rewrite app_length, le_length, IH. lia. Qed.

Lemma wire_pending_length r3 r7 p : pending_reachable p ->
  List.length (wire_pending r3 r7 p)
  = (1 + 2 * short_address_count p + 8 * extended_address_count p)%nat.
Proof.
  intros (Hs & He & (ls & Ls & Fs & Es) & (lx & Lx & Fx & Ex)).
  unfold wire_pending, shorts_of, extendeds_of. rewrite Es, Ex, !firstn_app_exact' by (symmetry; assumption).
  rewrite !app_length, !flat_map_le_length. cbn [List.length]. lia.
Qed.

Lemma try_read_pending_complete r3 r7 p tail : pending_reachable p ->
  try_read_pending (wire_pending r3 r7 p ++ tail) = Ok (p, List.length (wire_pending r3 r7 p)).
Proof.
  intros Hp. assert (Lw := wire_pending_length r3 r7 p Hp). rewrite Lw.
  destruct Hp as (Hs & He & (ls & Ls & Fs & Es) & (lx & Lx & Fx & Ex)).
  remember (wire_pending r3 r7 p ++ tail) as bs eqn:Ebs.
  assert (Lb : List.length bs = (List.length (wire_pending r3 r7 p) + List.length tail)%nat).
  { rewrite Ebs. apply app_length. }
  unfold wire_pending, shorts_of, extendeds_of in Ebs.
  rewrite Es, Ex, !firstn_app_exact' in Ebs by (symmetry; assumption).
  rewrite <- app_assoc in Ebs. cbn [app] in Ebs. rewrite Ebs, try_read_pending_unfold. cbv zeta.
  rewrite <- Ebs.
  set (b := N.of_nat (short_address_count p) + 2 ^ 3 * flag r3
            + 2 ^ 4 * N.of_nat (extended_address_count p) + 2 ^ 7 * flag r7) in *.
  assert (P3 := flag_lt r3). assert (P7 := flag_lt r7).
  assert (B1 : b mod 8 = N.of_nat (short_address_count p)).
  { unfold b. change (2 ^ 3) with 8. change (2 ^ 4) with 16. change (2 ^ 7) with 128. clear - Hs He P3 P7. lia. }
  assert (B2 : b / 16 mod 8 = N.of_nat (extended_address_count p)).
  { unfold b. change (2 ^ 3) with 8. change (2 ^ 4) with 16. change (2 ^ 7) with 128. clear - Hs He P3 P7. lia. }
  unfold pending_size. rewrite B1, B2, !Nat2N.id. clearbody b.
  replace (List.length bs <? _)%nat with false by (symmetry; apply Nat.ltb_ge; lia).
  rewrite <- app_assoc in Ebs.
  assert (Sk : skipn 1 bs = flat_map (le 2) ls ++ flat_map (le 8) lx ++ tail) by now rewrite Ebs.
  rewrite <- Ls, <- Lx.
  rewrite (repeat_split short_broadcast (List.length ls) 7) by lia.
  rewrite (repeat_split extended_broadcast (List.length lx) 7) by lia.
  destruct (read_loop_complete 2 try_read_short try_read_short_eq short_broadcast ls bs 1 []
    (repeat short_broadcast (7 - List.length ls)) _ ltac:(lia) Fs Sk) as (R1 & L1 & S1).
  change (List.length (@nil N)) with 0%nat in R1. cbn [app] in R1.
  unfold ShortAddress, ExtendedAddress in *. rewrite R1. cbn [obind].
  destruct (read_loop_complete 8 try_read_extended try_read_extended_eq extended_broadcast lx bs _ []
    (repeat extended_broadcast (7 - List.length lx)) _ L1 Fx S1) as (R2 & L2 & S2).
  change (List.length (@nil N)) with 0%nat in R2. cbn [app] in R2. unfold ShortAddress, ExtendedAddress in *. rewrite R2. cbn [obind].
  do 2 f_equal. destruct p as [a b' c d]. cbn in *. subst. reflexivity.
Qed.

(** * Beacon *)

Lemma emits_beacon b : beacon_ok b -> emits (try_write_beacon b) (wire_beacon br_zero b) (Ok tt).
Proof.
  intros (Hs & Hg & Hp). unfold try_write_beacon, wire_beacon. apply emits_body.
  apply runs_seq; [|apply runs_seq]; apply runs_write.
  - apply emits_superframe. - now apply emits_gts_information. - now apply emits_pending.
Qed.

(** Reserved bits that fit. *)
Definition reserved_ok (r : beacon_reserved) (b : Beacon) : Prop :=
  br_gts r < 16 /\
  br_direction r < 2 ^ (8 - N.of_nat (gts_slot_count (guaranteed_time_slot_info b))).

Lemma try_read_beacon_sound bs b n : octets bs -> try_read_beacon bs = Ok (b, n) ->
  (n <= List.length bs)%nat /\ beacon_canonical b /\
  exists r, reserved_ok r b /\ firstn n bs = wire_beacon r b.
Proof.
  intros Hb H. unfold try_read_beacon in H.
  inv_bind H. destruct a as [s o1]. inv_bind H. destruct a as [g o2]. inv_bind H. destruct a as [p o3].
  apply Ok_inj in H. destruct H as [<- <-].
  apply read_with_inv in E. destruct E as (_ & n1 & -> & E). cbn [Nat.add skipn] in *.
  apply read_with_inv in E0. destruct E0 as (L1 & n2 & -> & E0).
  apply read_with_inv in E1. destruct E1 as (L2 & n3 & -> & E1).
  rewrite try_read_superframe_eq in E. destruct bs as [|x [|y r]]; try discriminate.
  apply Ok_inj in E. destruct E as [<- <-].
  assert (Hx : x < 256 /\ y < 256).
  { apply octets_cons in Hb. destruct Hb as [? Hb]. apply octets_cons in Hb. now destruct Hb. }
  destruct (superframe_of_wire x y (proj1 Hx) (proj2 Hx)) as (Cs & r5 & W).
  apply try_read_gts_sound in E0; [|now apply octets_skipn].
  destruct E0 as (Lg & Rg & rg & rd & Hrg & Hrd & Wg).
  apply try_read_pending_sound in E1; [|now apply octets_skipn].
  destruct E1 as (Lp & Rp & r3 & r7 & Wp). rewrite skipn_length in *.
  split; [lia|]. split; [split; [exact Cs|split; assumption]|].
  exists {| br_superframe := r5; br_gts := rg; br_direction := rd; br_pending3 := r3; br_pending7 := r7 |}.
  split; [split; assumption|]. unfold wire_beacon.
  cbn [br_superframe br_gts br_direction br_pending3 br_pending7 superframe_spec
       guaranteed_time_slot_info pending_address].
  rewrite <- W, <- Wg, <- Wp. rewrite app_assoc. rewrite firstn_add. f_equal.
Qed.

Lemma try_read_beacon_complete r b tail : beacon_canonical b -> reserved_ok r b ->
  try_read_beacon (wire_beacon r b ++ tail) = Ok (b, List.length (wire_beacon r b)).
Proof.
  intros (Hs & Hg & Hp) (H1 & H2).
  remember (wire_beacon r b ++ tail) as bs eqn:Ebs. unfold wire_beacon in *.
  rewrite <- !app_assoc in Ebs.
  destruct (superframe_of_canonical (br_superframe r) _ Hs) as (x & y & W & Hx & Hy & Eo).
  destruct (read_step try_read_superframe bs 0 [x; y] _ (superframe_spec b) ltac:(lia)
     ltac:(cbn [skipn]; rewrite Ebs, W; reflexivity)) as (R1 & L1 & S1).
  { cbn [app]. now rewrite try_read_superframe_eq, Eo. }
  unfold try_read_beacon. rewrite R1. cbn [obind].
  destruct (read_step try_read_gts_information bs _ _ _ (guaranteed_time_slot_info b) L1 S1) as (R2 & L2 & S2).
  { apply try_read_gts_complete; auto. right. unfold wire_pending. discriminate. }
  rewrite R2. cbn [obind].
  destruct (read_step try_read_pending bs _ _ _ (pending_address b) L2 S2) as (R3 & L3 & S3).
  { now apply try_read_pending_complete. }
  rewrite R3. cbn [obind]. rewrite W, !app_length. cbn [List.length]. destruct b. reflexivity.
Qed.

Lemma wire_beacon_length r b : beacon_ok b -> (4 <= List.length (wire_beacon r b) <= 96)%nat.
Proof.
  intros (Hs & Hg & Hp). unfold wire_beacon. rewrite !app_length, wire_gts_length, wire_pending_length by assumption.
  cbn [wire_superframe List.length]. destruct Hg as (Hc & _). destruct Hp as (Ha & Hb & _).
  destruct (Nat.eqb_spec (gts_slot_count (guaranteed_time_slot_info b)) 0); lia.
Qed.

Lemma beacon_fate bs :
  ((beacon_need bs <= List.length bs)%nat /\ exists b, try_read_beacon bs = Ok (b, beacon_need bs)) \/
  ((List.length bs < beacon_need bs)%nat /\ try_read_beacon bs = Err Incomplete).
Proof.
  unfold try_read_beacon. rewrite read_with_eq by lia. cbn [skipn].
  rewrite try_read_superframe_eq. unfold beacon_need.
  destruct bs as [|x [|y r]]; try (right; cbn; split; [lia|reflexivity]).
  cbn [obind]. change (0 + 2)%nat with 2%nat. rewrite read_with_eq by (cbn; lia). cbn [skipn].
  pose proof (gts_fate r) as F. destruct r as [|b r]; [rewrite F; right; cbn; split; [lia|reflexivity]|].
  set (bs := x :: y :: b :: r). assert (E2 : nth_error bs 2 = Some b) by reflexivity. rewrite E2.
  assert (Lbs : List.length bs = (2 + List.length (b :: r))%nat) by reflexivity.
  clearbody bs.
  destruct F as [(E0 & L & R)|(L & g & R)]; rewrite R; cbn [obind].
  { right. split; [|reflexivity].
    destruct (nth_error bs (2 + gts_size b)) as [p|] eqn:En.
    - assert (2 + gts_size b < List.length bs)%nat by (apply nth_error_Some; congruence).
      lia.
    - lia. }
  assert (Lg : (2 + gts_size b <= List.length bs)%nat).
  { destruct L as [L|L]; [|lia]. unfold gts_size. rewrite L, Lbs. cbn. lia. }
  rewrite read_with_eq by assumption. rewrite (nth_error_skipn bs (2 + gts_size b)).
  pose proof (pending_fate (skipn (2 + gts_size b) bs)) as F.
  pose proof (skipn_length (2 + gts_size b) bs) as Ls.
  destruct (skipn (2 + gts_size b) bs) as [|c r']; cbn [nth_error].
  { rewrite F. right. split; [cbn [List.length] in Ls; lia|reflexivity]. }
  destruct F as [(L' & R')|(L' & p & R')]; rewrite R'; cbn [obind].
  - right. split; [lia|reflexivity].
  - left. split; [lia|]. eexists. reflexivity.
Qed.
