(** Reading equals ReadSpec.v. *)
From Coq Require Import List Arith NArith Bool String Lia ZArith ZifyBool ZifyN ZifyNat.
From Verif Require Import ByteCrate Types HeaderModel BeaconModel CommandModel CcmModel FrameModel
  Spec ProofLib HeaderProofs HeaderReadProofs BeaconProofs CommandProofs FrameProofs SecSpec ReadSpec.
Import ListNotations.
Open Scope N_scope.
Open Scope list_scope.

(** * Numbers *)

Lemma skipn_octet bs p : (p < List.length bs)%nat -> skipn p bs = octet bs p :: skipn (S p) bs.
Proof.
  unfold octet. revert bs; induction p as [|p IH]; intros [|x bs] H; cbn [List.length] in H; try lia.
  - reflexivity.
  - cbn [skipn nth]. rewrite IH by lia. reflexivity.
Qed.

Lemma lsb_first_eq k : forall bs p, (p + k <= List.length bs)%nat ->
  le_val (firstn k (skipn p bs)) = lsb_first bs p k.
Proof.
  induction k as [|k IH]; intros bs p H; [reflexivity|].
  rewrite skipn_octet by lia. cbn [firstn le_val lsb_first]. rewrite IH by lia. reflexivity.
Qed.

Lemma le_val_app a b : le_val (a ++ b) = le_val a + 256 ^ N.of_nat (List.length a) * le_val b.
Proof.
  induction a as [|x a IH]; cbn [app le_val List.length].
  - rewrite N.pow_0_r. lia.
  - rewrite IH, Nat2N.inj_succ, N.pow_succ_r'. lia.
Qed.

Lemma msb_first_eq k : forall bs p, (p + k <= List.length bs)%nat ->
  le_val (rev (firstn k (skipn p bs))) = msb_first bs p k.
Proof.
  induction k as [|k IH]; intros bs p H; [reflexivity|].
  rewrite skipn_octet by lia. cbn [firstn rev msb_first]. rewrite le_val_app, IH by lia.
  rewrite rev_length, firstn_length, skipn_length, Nat.min_l by lia. cbn [le_val]. lia.
Qed.

Lemma number_eq e bs p k : (p + k <= List.length bs)%nat ->
  num_val e (slice bs p (p + k)) = number e bs p k.
Proof.
  intros H. unfold slice, number, num_val. replace (p + k - p)%nat with k by lia.
  destruct e; [now apply lsb_first_eq|now apply msb_first_eq].
Qed.

Lemma read_number e n bs off : (off <= List.length bs)%nat ->
  read_with (read_num n e) bs off =
  if (off + n <=? List.length bs)%nat then Ok (number e bs off n, (off + n)%nat) else Err Incomplete.
Proof.
  intros H. rewrite read_num_at by assumption.
  destruct (Nat.leb_spec (off + n) (List.length bs)); [|reflexivity]. now rewrite number_eq.
Qed.
Lemma number_one e bs p : number e bs p 1 = octet bs p.
Proof. destruct e; cbn [number lsb_first msb_first]; [|rewrite N.pow_0_r]; lia. Qed.

Lemma lsb_skipn k : forall a bs p, lsb_first (skipn a bs) p k = lsb_first bs (a + p) k.
Proof.
  induction k as [|k IH]; intros a bs p; [reflexivity|]. cbn [lsb_first].
  rewrite octet_nth_skipn, IH. now rewrite Nat.add_succ_r.
Qed.
Lemma msb_skipn k : forall a bs p, msb_first (skipn a bs) p k = msb_first bs (a + p) k.
Proof.
  induction k as [|k IH]; intros a bs p; [reflexivity|]. cbn [msb_first].
  rewrite octet_nth_skipn, IH. now rewrite Nat.add_succ_r.
Qed.
Lemma number_skipn e a bs p k : number e (skipn a bs) p k = number e bs (a + p) k.
Proof. destruct e; [apply lsb_skipn|apply msb_skipn]. Qed.

(** * Header *)

Ltac num_at :=
  first [rewrite read_pan_at | rewrite read_short_at | rewrite read_extended_at | idtac];
  rewrite read_number by lia;
  match goal with |- context [(?x <=? ?y)%nat] =>
    destruct (Nat.leb_spec x y); cbn [obind]; try lia end.

Ltac leb_fin :=
  match goal with |- context [(?x <=? ?y)%nat] => destruct (Nat.leb_spec x y); try lia; reflexivity end.

Definition mode_n (m : AddressMode) : N :=
  match m with Mode_None => 0 | Mode_Short => 2 | Mode_Extended => 3 end.

Lemma read_destination_at m bs off : (off <= List.length bs)%nat ->
  read_destination m bs off =
  if (off + dest_size m <=? List.length bs)%nat
  then Ok (address_at (mode_n m) None bs off, (off + dest_size m)%nat) else Err Incomplete.
Proof.
  intros Ho. destruct m; cbn [read_destination dest_size mode_n address_at].
  - replace (_ <=? _)%nat with true by lia. do 2 f_equal; lia.
  - num_at; [num_at|].
    + replace (_ <=? _)%nat with true by lia. do 2 f_equal; lia.
    + replace (_ <=? _)%nat with false by lia. reflexivity.
    + replace (_ <=? _)%nat with false by lia. reflexivity.
  - num_at; [num_at|].
    + replace (_ <=? _)%nat with true by lia. do 2 f_equal; lia.
    + replace (_ <=? _)%nat with false by lia. reflexivity.
    + replace (_ <=? _)%nat with false by lia. reflexivity.
Qed.

Definition known_pan (comp : bool) (d : option Address) : option PanId :=
  match d with Some d => if comp then Some (pan_id d) else None | None => None end.

Lemma read_source_at m (comp : bool) d bs off : (off <= List.length bs)%nat ->
  (comp = true -> d <> None) ->
  read_source m comp d bs off =
  if (off + source_size m comp <=? List.length bs)%nat
  then Ok (address_at (mode_n m) (known_pan comp d) bs off, (off + source_size m comp)%nat)
  else Err Incomplete.
Proof.
  intros Ho Hd.
  assert (Ek : comp = false -> known_pan comp d = None) by (intros ->; destruct d; reflexivity).
  destruct m; cbn [read_source source_size mode_n].
  - replace (_ <=? _)%nat with true by lia. unfold address_at.
    destruct (known_pan comp d); do 2 f_equal; lia.
  - destruct comp.
    + destruct d as [d|]; [|now specialize (Hd eq_refl)]. cbn [unwrap obind known_pan address_at].
      num_at; reflexivity.
    + rewrite Ek by reflexivity. cbn [address_at]. num_at; [num_at|].
      * replace (_ <=? _)%nat with true by lia. do 2 f_equal; lia.
      * replace (_ <=? _)%nat with false by lia. reflexivity.
      * replace (_ <=? _)%nat with false by lia. reflexivity.
  - destruct comp.
    + destruct d as [d|]; [|now specialize (Hd eq_refl)]. cbn [unwrap obind known_pan address_at].
      num_at; reflexivity.
    + rewrite Ek by reflexivity. cbn [address_at]. num_at; [num_at|].
      * replace (_ <=? _)%nat with true by lia. do 2 f_equal; lia.
      * replace (_ <=? _)%nat with false by lia. reflexivity.
      * replace (_ <=? _)%nat with false by lia. reflexivity.
Qed.

Lemma level_of_code_inv l : level_of_code (level_code l) = l.
Proof. destruct l; reflexivity. Qed.
Lemma key_mode_of_code_inv l : key_mode_of_code (key_mode_code l) = l.
Proof. destruct l; reflexivity. Qed.
Lemma version_of_code_inv l : version_of_code (version_code l) = l.
Proof. destruct l; reflexivity. Qed.

Lemma try_read_aux_at c bs :
  try_read_aux c bs =
  match bs with
  | [] => Err Incomplete
  | b :: _ => if (aux_need b <=? List.length bs)%nat
              then Ok (aux_at (native c) bs 0, aux_need b) else Err Incomplete
  end.
Proof.
  unfold try_read_aux. rewrite read_with_eq by lia. cbn [skipn]. rewrite try_read_control_eq.
  destruct bs as [|b r]; [reflexivity|].
  destruct (control_from_some b) as [s Es]. rewrite Es. cbn [obind Nat.add].
  set (bs := b :: r). assert (Hl : (1 <= List.length bs)%nat) by (cbn; lia).
  assert (Ec : control (aux_at (native c) bs 0) = s /\
               aux_need b = match key_id_mode s with KIM_None => 5 | KIM_KeyIndex => 6
                            | KIM_KeySource4 => 10 | KIM_KeySource8 => 14 end%nat).
  { unfold control_from in Es. unfold aux_at, aux_need, bs, octet. cbn [nth control]. unfold field.
    destruct (security_level_from_bits _) as [l|] eqn:El; [|discriminate].
    destruct (key_id_mode_from_bits _) as [m|] eqn:Em; [|discriminate]. injection Es as <-.
    apply level_from_inv in El. apply key_mode_from_inv in Em. rewrite El, Em.
    rewrite level_of_code_inv, key_mode_of_code_inv. split; [reflexivity|]. destruct m; reflexivity. }
  destruct Ec as [Ec En]. rewrite En.
  assert (Ea : aux_at (native c) bs 0 =
    {| control := s; frame_counter := number LE bs 1 4;
       key_identifier := key_at (native c) (key_id_mode s) bs 5 |}).
  { rewrite <- Ec. reflexivity. }
  rewrite Ea. clear Ec Ea En Es. clearbody bs. num_at.
  2:{ replace (_ <=? _)%nat with false; [reflexivity|]. symmetry. apply Nat.leb_gt. destruct (key_id_mode s); lia. }
  destruct (key_id_mode s); cbn [obind key_at].
  - replace (_ <=? _)%nat with true by lia. reflexivity.
  - num_at; rewrite ?number_one; leb_fin.
  - num_at; [num_at|]; rewrite ?number_one; leb_fin.
  - num_at; [num_at|]; rewrite ?number_one; leb_fin.
Qed.

Lemma mode_n_from x m : lift_decode (address_mode_from_bits x) = Ok m -> x = mode_n m.
Proof. intros H. apply mode_from_inv in H. subst x. destruct m; reflexivity. Qed.

Lemma key_at_skipn ko m n bs p : key_at ko m (skipn n bs) p = key_at ko m bs (n + p).
Proof.
  unfold key_at. rewrite !octet_nth_skipn, !number_skipn, !Nat.add_assoc. reflexivity.
Qed.
Lemma aux_at_skipn ko n bs : aux_at ko (skipn n bs) 0 = aux_at ko bs n.
Proof.
  unfold aux_at. rewrite octet_nth_skipn, Nat.add_0_r, number_skipn, key_at_skipn. reflexivity.
Qed.

Lemma bit_lt x : x < 2 -> (0 <? x) = (x =? 1).
Proof. intros. lia. Qed.

Lemma try_read_header_at c bs :
  try_read_header c bs =
  match header_verdict bs with
  | Some e => Err e
  | None => Ok (header_at (native c) bs, header_need bs)
  end.
Proof.
  pose proof (try_read_header_fate c bs) as F.
  destruct (header_verdict bs) as [e|] eqn:V; [exact F|]. destruct F as [h F]. rewrite F.
  do 2 f_equal.
  rewrite try_read_header_eq in F. unfold header_verdict in V.
  destruct (Nat.ltb_spec (List.length bs) 3) as [|Hl]; [discriminate|].
  rewrite input_word_eq in F by lia. unfold header_need in F. unfold header_at.
  set (w := input_word bs) in *. clearbody w.
  unfold header_body in F. cbv zeta in V |- *.
  change (w / 2 ^ 0 mod 2 ^ 3) with (field w 0 3) in F. change (w / 2 ^ 12 mod 2 ^ 2) with (field w 12 2) in F.
  change (w / 2 ^ 10 mod 2 ^ 2) with (field w 10 2) in F. change (w / 2 ^ 14 mod 2 ^ 2) with (field w 14 2) in F.
  change (w / 2 ^ 6 mod 2 ^ 1) with (field w 6 1) in F. change (w / 2 ^ 3 mod 2 ^ 1) with (field w 3 1) in F.
  change (w / 2 ^ 4 mod 2 ^ 1) with (field w 4 1) in F. change (w / 2 ^ 5 mod 2 ^ 1) with (field w 5 1) in F.
  change (w / 2 ^ 8 mod 2 ^ 1) with (field w 8 1) in F. change (w / 2 ^ 9 mod 2 ^ 1) with (field w 9 1) in F.
  rewrite !bit_lt in F by apply (field_lt w _ 1).
  unfold mhr_need in *. unfold bit.
  inv_bind F. rename a into v. rename E into Ev.
  inv_bind F. rename a into t. rename E into Et.
  inv_bind F. rename a into dm. rename E into Ed.
  inv_bind F. rename a into sm. rename E into Es.
  assert (Ev' : version_of_code (field w 12 2) = v).
  { destruct (frame_version_from_bits (field w 12 2)) as [v'|] eqn:X; [|discriminate].
    injection Ev as ->. apply version_from_inv in X. rewrite X. apply version_of_code_inv. }
  assert (Et' : type_of_code (field w 0 3) = t).
  { destruct (frame_type_from_bits (field w 0 3)) as [v'|] eqn:X; [|discriminate].
    injection Et as ->. apply type_from_inv in X. rewrite X. apply type_of_code_inv. }
  destruct (code_mode_size _ _ Ed) as [Sd _]. destruct (code_mode_size _ _ Es) as [_ Ss].
  specialize (Ss (field w 6 1 =? 1)). rewrite <- Sd, <- Ss in *.
  apply mode_n_from in Ed. apply mode_n_from in Es.
  rewrite Ev', Et'. rewrite Ed, Es in V |- *. clear Ev Et Ev' Et' Ed Es Sd Ss.
  revert F V. generalize (field w 6 1 =? 1), (field w 3 1 =? 1). intros comp sec F V.
  rewrite read_number in F by lia. replace (2 + 1 <=? List.length bs)%nat with true in F by lia.
  cbn [obind] in F. rewrite number_one in F. change (2 + 1)%nat with 3%nat in F.
  rewrite read_destination_at in F by lia.
  destruct (Nat.leb_spec (3 + dest_size dm) (List.length bs)) as [L2|]; [|discriminate]. cbn [obind] in F.
  set (dst := address_at (mode_n dm) None bs 3) in *.
  assert (Hd : comp = true -> dst <> None).
  { intros -> E. rewrite E in F. discriminate. }
  inv_bind F. clear E.
  rewrite read_source_at in F by assumption.
  destruct (Nat.leb_spec (3 + dest_size dm + source_size sm comp) (List.length bs)) as [L3|]; [|discriminate].
  cbn [obind] in F.
  assert (Edm : (match mode_n dm with 2%N => 4 | 3%N => 10 | _ => 0 end)%nat = dest_size dm) by (destruct dm; reflexivity).
  rewrite Edm. fold (known_pan comp dst).
  set (n := (3 + dest_size dm + source_size sm comp)%nat) in *.
  destruct sec.
  - rewrite read_with_eq in F by assumption. rewrite try_read_aux_at in F.
    destruct (skipn n bs) as [|b r] eqn:Ek; [discriminate|].
    destruct (_ <=? _)%nat; [|discriminate]. cbn [obind] in F. injection F as <- _.
    rewrite <- Ek, aux_at_skipn. reflexivity.
  - cbn [obind] in F. injection F as <- _. reflexivity.
Qed.

(** * Beacon *)

Lemma superframe_at_eq a b r : superframe_of a b = superframe_at (a :: b :: r) 0.
Proof.
  unfold superframe_of, superframe_at, octet, bit, field. cbn [Nat.add nth].
  change (2 ^ 0) with 1. rewrite !N.div_1_r. change (2 ^ 1) with 2. change (2 ^ 4) with 16.
  f_equal.
Qed.

Lemma read_loop_at z rd (Hrd : forall x, rd x = read_num z LE x) (d : N) :
  forall k bs off pre post,
  (off + z * k <= List.length bs)%nat ->
  read_loop rd bs off (pre ++ repeat d k ++ post) (List.length pre) k
  = Ok (pre ++ map (fun i => number LE bs (off + z * i) z) (List.seq 0 k) ++ post, (off + z * k)%nat).
Proof.
  induction k as [|k IH]; intros bs off pre post Hl.
  - cbn. now rewrite Nat.mul_0_r, Nat.add_0_r.
  - cbn [read_loop repeat]. rewrite (read_with_ext rd (read_num z LE)), read_number by (assumption || lia).
    replace (_ <=? _)%nat with true by lia. cbn [obind app]. rewrite set_index_mid. cbn [obind].
    specialize (IH bs (off + z)%nat (pre ++ [number LE bs off z]) post).
    rewrite app_length, Nat.add_1_r, <- app_assoc in IH. cbn [app] in IH. rewrite IH by lia.
    f_equal. f_equal; [|lia]. rewrite <- app_assoc. cbn [app List.seq map]. f_equal.
    rewrite Nat.mul_0_r, Nat.add_0_r. do 2 f_equal.
    rewrite <- seq_shift, map_map. apply map_ext. intros i. f_equal. lia.
Qed.

Definition slot_with (bs : list N) (off : nat) (mask : N) (i : nat) : GtsDescriptor :=
  {| gts_short_address := number LE bs (off + 3 * i) 2;
     gts_starting_slot := octet bs (off + 3 * i + 2) mod 16;
     gts_length := octet bs (off + 3 * i + 2) / 16;
     gts_direction := if bit mask (N.of_nat i) then Transmit else Receive |}.

Lemma read_slots_at : forall k bs off pre post mask,
  (off + 3 * k <= List.length bs)%nat ->
  read_slots bs off (pre ++ repeat GtsDescriptor_new k ++ post) (List.length pre) k mask
  = Ok (pre ++ map (slot_with bs off mask) (List.seq 0 k) ++ post, (off + 3 * k)%nat).
Proof.
  induction k as [|k IH]; intros bs off pre post mask Hl.
  - cbn. now rewrite Nat.add_0_r.
  - cbn [read_slots repeat]. rewrite read_with_eq by lia.
    rewrite try_read_gts_descriptor_eq.
    rewrite (skipn_octet bs off), (skipn_octet bs (S off)), (skipn_octet bs (S (S off))) by lia.
    cbn [obind app]. rewrite set_index_mid. cbn [obind].
    match goal with |- context [set_direction ?s ?d] => set (s' := set_direction s d) end.
    assert (Es : s' = slot_with bs off mask 0).
    { unfold s', set_direction, slot_with. cbn [gts_short_address gts_starting_slot gts_length].
      rewrite Nat.mul_0_r, Nat.add_0_r. cbn [number lsb_first]. f_equal.
      - lia.
      - do 2 f_equal. lia.
      - do 2 f_equal. lia.
      - change 1 with (N.ones 1) at 1. rewrite N.land_ones. unfold bit, field.
        cbn [N.of_nat]. rewrite N.pow_0_r, N.div_1_r. reflexivity. }
    clearbody s'. subst s'.
    specialize (IH bs (off + 3)%nat (pre ++ [slot_with bs off mask 0]) post (N.shiftr mask 1)).
    rewrite app_length, Nat.add_1_r, <- app_assoc in IH. cbn [app] in IH. rewrite IH by lia.
    f_equal. f_equal; [|lia]. rewrite <- app_assoc. cbn [app List.seq map]. f_equal. f_equal. f_equal.
    rewrite <- seq_shift, map_map. apply map_ext. intros i. unfold slot_with.
    replace (off + 3 * S i)%nat with (off + 3 + 3 * i)%nat by lia. f_equal.
    unfold bit, field. rewrite N.shiftr_div_pow2, N.div_div by (apply N.pow_nonzero; discriminate).
    rewrite <- N.pow_add_r, Nat2N.inj_succ, <- N.add_1_l. reflexivity.
Qed.

Lemma octet_cons0 b r : octet (b :: r) 0 = b.
Proof. reflexivity. Qed.

Lemma low3 b : field b 0 3 = b mod 8.
Proof. unfold field. change (2 ^ 0) with 1. now rewrite N.div_1_r. Qed.
Lemma low4 b : field b 0 4 = b mod 16.
Proof. unfold field. change (2 ^ 0) with 1. now rewrite N.div_1_r. Qed.
Lemma bit_eq b i : bit b i = (b / 2 ^ i mod 2 =? 1).
Proof. reflexivity. Qed.

Lemma gts_at_eq bs g n : try_read_gts_information bs = Ok (g, n) -> g = gts_at bs 0.
Proof.
  destruct bs as [|b r]; [discriminate|]. rewrite try_read_gts_unfold. cbv zeta. intros H.
  unfold gts_at. rewrite octet_cons0, low3, bit_eq.
  destruct (N.eqb_spec (b mod 8) 0) as [E0|E0].
  - injection H as <- _. rewrite E0. reflexivity.
  - destruct (Nat.ltb_spec (List.length (b :: r)) (3 + 3 * N.to_nat (b mod 8))) as [|Hl]; [discriminate|].
    pose proof (read_slots_at (N.to_nat (b mod 8)) (b :: r) 2 []
                  (repeat GtsDescriptor_new (7 - N.to_nat (b mod 8))) (octet r 0) ltac:(lia)) as R.
    cbn [app] in R. change (List.length (@nil GtsDescriptor)) with 0%nat in R.
    rewrite <- repeat_split in R by lia. rewrite R in H. cbn [obind] in H. injection H as <- _.
    reflexivity.
Qed.

Lemma gts_at_skipn bs n : gts_at (skipn n bs) 0 = gts_at bs n.
Proof.
  unfold gts_at. rewrite octet_nth_skipn, Nat.add_0_r. f_equal. f_equal. apply map_ext. intros i.
  unfold slot_at. rewrite number_skipn, !octet_nth_skipn, !Nat.add_assoc, Nat.add_0_r. reflexivity.
Qed.

Lemma pending_at_eq bs p n : try_read_pending bs = Ok (p, n) -> p = pending_at bs 0.
Proof.
  destruct bs as [|b r]; [discriminate|]. rewrite try_read_pending_unfold. cbv zeta. intros H.
  destruct (Nat.ltb_spec (List.length (b :: r)) (pending_size b)) as [|Hl]; [discriminate|].
  unfold pending_size in Hl.
  unfold pending_at. rewrite octet_cons0, low3. change (field b 4 3) with (b / 16 mod 8).
  pose proof (read_loop_at 2 try_read_short try_read_short_eq short_broadcast
      (N.to_nat (b mod 8)) (b :: r) 1 [] (repeat short_broadcast (7 - N.to_nat (b mod 8))) ltac:(lia)) as R.
  cbn [app] in R. change (List.length (@nil N)) with 0%nat in R. rewrite <- repeat_split in R by lia.
  pose proof (read_loop_at 8 try_read_extended try_read_extended_eq extended_broadcast
      (N.to_nat (b / 16 mod 8)) (b :: r) (1 + 2 * N.to_nat (b mod 8)) []
      (repeat extended_broadcast (7 - N.to_nat (b / 16 mod 8))) ltac:(lia)) as R'.
  cbn [app] in R'. change (List.length (@nil N)) with 0%nat in R'. rewrite <- repeat_split in R' by lia.
  unfold ShortAddress, ExtendedAddress in *. rewrite R in H. cbn [obind] in H.
  rewrite R' in H. cbn [obind] in H. injection H as <- _. reflexivity.
Qed.

Lemma pending_at_skipn bs n : pending_at (skipn n bs) 0 = pending_at bs n.
Proof.
  unfold pending_at. rewrite octet_nth_skipn, Nat.add_0_r. f_equal; f_equal; apply map_ext; intros i;
  rewrite number_skipn, !Nat.add_assoc, Nat.add_0_r; reflexivity.
Qed.

Lemma try_read_beacon_at bs :
  try_read_beacon bs =
  if (List.length bs <? beacon_need bs)%nat then Err Incomplete else Ok (beacon_at bs, beacon_need bs).
Proof.
  destruct (beacon_fate bs) as [(L & b & R)|(L & R)]; rewrite R.
  2:{ replace (_ <? _)%nat with true by lia. reflexivity. }
  replace (_ <? _)%nat with false by lia. do 2 f_equal.
  unfold try_read_beacon in R. inv_bind R. destruct a as [s o1]. inv_bind R. destruct a as [g o2].
  inv_bind R. destruct a as [p o3]. injection R as <- _.
  apply read_with_inv in E. destruct E as (_ & n1 & -> & E). cbn [Nat.add skipn] in *.
  apply read_with_inv in E0. destruct E0 as (L1 & n2 & -> & E0).
  apply read_with_inv in E1. destruct E1 as (L2 & n3 & -> & E1).
  rewrite try_read_superframe_eq in E. destruct bs as [|x [|y r]] eqn:Ebs; try discriminate.
  apply Ok_inj in E. destruct E as [<- <-]. rewrite (superframe_at_eq x y r).
  apply gts_at_eq in E0 as Eg. rewrite gts_at_skipn in Eg.
  pose proof (gts_fate (skipn 2 (x :: y :: r))) as F. cbn [skipn] in F, E0.
  destruct r as [|z r]; [congruence|]. destruct F as [(_ & _ & F)|(_ & g' & F)]; [congruence|].
  assert (n2 = gts_size z) by congruence. subst n2.
  apply pending_at_eq in E1. rewrite pending_at_skipn in E1.
  unfold beacon_at. rewrite Eg, E1. reflexivity.
Qed.

(** * Commands *)

Lemma capability_at b : capability_from b =
  {| full_function_device := bit b 1; mains_power := bit b 2; idle_receive := bit b 3;
     frame_protection := bit b 6; allocate_address := bit b 7 |}.
Proof.
  unfold capability_from. change CAP_FFD with (2 ^ 1). change CAP_MAINS_POWER with (2 ^ 2).
  change CAP_IDLE_RECEIVE with (2 ^ 3). change CAP_FRAME_PROTECTION with (2 ^ 6).
  change CAP_ALLOCATE_ADDRESS with (2 ^ 7). rewrite !land_bit, !bit_eq. reflexivity.
Qed.
Lemma gtsc_at b : gtsc_from b =
  {| gtsc_count := field b 0 4; gtsc_receive_only := bit b 4; gtsc_allocation := bit b 5 |}.
Proof.
  unfold gtsc_from. change GTSC_RECEIVE_ONLY with (2 ^ 4). change GTSC_ALLOCATION with (2 ^ 5).
  rewrite land_15, !land_bit, !bit_eq, low4. reflexivity.
Qed.
Lemma number_two bs p : number LE bs p 2 = octet bs p + 256 * octet bs (S p).
Proof. cbn [number lsb_first]. lia. Qed.

Lemma try_read_command_at bs : octets bs ->
  try_read_command bs =
  match command_verdict bs with
  | Some e => Err e
  | None => Ok (command_at bs, command_size bs)
  end.
Proof.
  intros Hb. pose proof (try_read_command_fate bs Hb) as F.
  destruct (command_verdict bs) as [e|]; [exact F|]. destruct F as [cmd F]. rewrite F.
  do 2 f_equal. rewrite try_read_command_eq in F. unfold command_of in F.
  destruct bs as [|id r]; [discriminate|].
  destruct (command_id_optional_from id) as [ci|] eqn:Eid; [|discriminate].
  apply command_id_inv in Eid. subst id.
  unfold command_at. rewrite octet_cons0. rewrite !number_two.
  destruct ci; cbn [command_id_u8]; try (apply Ok_inj in F; destruct F as [<- _]; reflexivity).
  - destruct r as [|b r]; [discriminate|]. apply Ok_inj in F; destruct F as [<- _]. rewrite capability_at. reflexivity.
  - destruct r as [|a [|b [|s r]]]; try discriminate.
    destruct (association_status_optional_from s) as [st|] eqn:Es; [|discriminate].
    apply status_inv in Es. subst s. apply Ok_inj in F; destruct F as [<- _]. unfold octet. cbn [nth].
    f_equal. destruct st; reflexivity.
  - destruct r as [|b r]; [discriminate|].
    destruct (disassociation_reason_optional_from b) as [x|] eqn:Es; [|discriminate].
    apply reason_inv in Es. subst b. apply Ok_inj in F; destruct F as [<- _]. unfold octet. cbn [nth].
    f_equal. destruct x; reflexivity.
  - destruct r as [|a [|b [|c' [|d [|e [|f [|g r]]]]]]]; try discriminate.
    destruct r as [|p r]; apply Ok_inj in F; destruct F as [<- _]; reflexivity.
  - destruct r as [|b r]; [discriminate|]. apply Ok_inj in F; destruct F as [<- _]. rewrite gtsc_at. reflexivity.
Qed.

(** * Content and frames *)

Lemma try_read_content_at h bs : octets bs ->
  try_read_content h bs =
  match content_verdict (frame_type h) bs with
  | Some e => Err e
  | None => Ok (content_at (frame_type h) bs, content_size (frame_type h) bs)
  end.
Proof.
  intros Hb. rewrite try_read_content_eq. unfold content_verdict, content_at, content_size.
  destruct (frame_type h); try reflexivity.
  - rewrite try_read_beacon_at. destruct (_ <? _)%nat; reflexivity.
  - rewrite try_read_command_at by assumption. destruct (command_verdict bs); reflexivity.
Qed.

Lemma header_need_len bs : header_verdict bs = None -> (header_need bs <= List.length bs)%nat.
Proof.
  intros V. unfold header_verdict in V.
  repeat match type of V with (if ?x then _ else _) = _ => destruct x eqn:?; try discriminate end.
  lia.
Qed.

Lemma header_at_type ko bs : frame_type (header_at ko bs) = type_of_code (field (input_word bs) 0 3).
Proof. reflexivity. Qed.
Lemma header_at_security ko bs :
  has_security (header_at ko bs) = (field (input_word bs) 3 1 =? 1).
Proof. unfold has_security, header_at, bit. cbn [auxiliary_security_header]. destruct (_ =? 1); reflexivity. Qed.

Lemma try_read_frame_at c m bs : octets bs -> cfg_ok c ->
  try_read_frame c m bs = read_outcome (overflow_checks c) (native c) m bs.
Proof.
  intros Hb Hc. pose proof (frame_read_fate c m bs Hb Hc) as F.
  unfold read_outcome. destruct (frame_verdict (overflow_checks c) m bs) as [n|e|] eqn:V; try exact F.
  destruct F as [f F]. rewrite F. do 2 f_equal.
  rewrite try_read_frame_eq in F by assumption. rewrite try_read_header_at in F.
  destruct (header_verdict bs) as [|] eqn:Vh; [discriminate|].
  rewrite try_read_content_at in F by now apply octets_skipn.
  unfold frame_at, front_at.
  set (h := header_at (native c) bs) in *. set (r := skipn (header_need bs) bs) in *.
  destruct (content_verdict (frame_type h) r) as [|] eqn:Vc; [discriminate|].
  destruct (has_security h); [discriminate|]. unfold frame_rest in F.
  pose proof (header_need_len bs Vh) as Lh.
  assert (Lk : (content_size (frame_type h) r <= List.length r)%nat).
  { apply (try_read_content_len h r (content_at (frame_type h) r)); [now apply octets_skipn|].
    rewrite try_read_content_at by now apply octets_skipn. now rewrite Vc. }
  assert (Lr : List.length r = (List.length bs - header_need bs)%nat) by apply skipn_length.
  set (k := (header_need bs + content_size (frame_type h) r)%nat) in *.
  assert (Lkb : (k <= List.length bs)%nat) by (unfold k; lia). clearbody k.
  destruct m; [injection F as <- _; reflexivity|].
  rewrite skipn_length in F. destruct (Nat.ltb_spec (List.length bs - k) 2) as [|L2].
  { destruct (overflow_checks c); discriminate. }
  injection F as <- _. rewrite !octet_nth_skipn.
  replace (k + (List.length bs - k - 2))%nat with (List.length bs - 2)%nat by lia.
  replace (k + (List.length bs - k - 1))%nat with (List.length bs - 2 + 1)%nat by lia.
  replace (List.length bs - k - 2)%nat with (List.length bs - 2 - k)%nat by lia. reflexivity.
Qed.
