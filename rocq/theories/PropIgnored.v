(** Property C80: exactly which bits of a frame the reader ignores. *)
From Coq Require Import List Arith NArith ZArith Bool String Lia ZifyBool ZifyNat ZifyN.
From Verif Require Import ByteCrate Types HeaderModel BeaconModel CommandModel CcmModel FrameModel
  Spec ProofLib HeaderProofs HeaderReadProofs BeaconProofs CommandProofs FrameProofs RepoTests
  PropHeader PropContent PropFrame.
Import ListNotations.
Open Scope N_scope.
Open Scope list_scope.
Ltac Zify.zify_post_hook ::= Z.div_mod_to_equations.

(** * Specification *)

(** The reserved bits of octet [i] of the frame [bs], as a mask. They are: bit 7 of the frame
    control field; in a beacon bit 5 of the second superframe octet, bits 3-6 of the GTS
    specification, the bits of the GTS directions octet beyond the number of slots, bits 3 and
    7 of the pending address specification; in a command bits 0, 4 and 5 of the capability
    information and bits 6 and 7 of the GTS characteristics. *)
Definition reserved_bits (bs : list N) (i : nat) : N :=
  let n := header_need bs in
  let g := octet bs (n + 2) in
  if (i =? 0)%nat then 2 ^ 7
  else match type_of_code (field (input_word bs) 0 3) with
       | Beacon_t =>
           if (i =? n + 1)%nat then 2 ^ 5
           else if (i =? n + 2)%nat then 2 ^ 3 + 2 ^ 4 + 2 ^ 5 + 2 ^ 6
           else if (i =? n + 3)%nat && negb (g mod 8 =? 0) then 2 ^ 8 - 2 ^ (g mod 8)
           else if (i =? n + 2 + gts_size g)%nat then 2 ^ 3 + 2 ^ 7
           else 0
       | MacCommand_t =>
           if (i =? n + 1)%nat
           then match octet bs n with
                | 1 => 2 ^ 0 + 2 ^ 4 + 2 ^ 5
                | 9 => 2 ^ 6 + 2 ^ 7
                | _ => 0
                end
           else 0
       | _ => 0
       end.

(** Equally long, and every octet agrees in all bits outside its mask. *)
Definition agree_outside (mask : nat -> N) (xs ys : list N) : Prop :=
  List.length xs = List.length ys /\
  forall i, (i < List.length xs)%nat ->
    N.ldiff (octet xs i) (mask i) = N.ldiff (octet ys i) (mask i).

(** [bs] with bit [b] of octet [i] inverted. *)
Definition flip_bit (i : nat) (b : N) (bs : list N) : list N :=
  firstn i bs ++ match skipn i bs with [] => [] | x :: r => N.lxor x (2 ^ b) :: r end.

(** * Lists *)

Lemma agree_nil mask ys : agree_outside mask [] ys <-> ys = [].
Proof.
  split.
  - intros [L _]. destruct ys; [reflexivity|discriminate].
  - intros ->. split; [reflexivity|]. cbn. lia.
Qed.
Lemma agree_cons mask x xs ys : agree_outside mask (x :: xs) ys <->
  exists y ys', ys = y :: ys' /\ N.ldiff x (mask 0%nat) = N.ldiff y (mask 0%nat) /\
    agree_outside (fun i => mask (S i)) xs ys'.
Proof.
  split.
  - intros [L A]. destruct ys as [|y ys']; [discriminate|]. exists y, ys'. split; [reflexivity|]. split.
    + apply (A 0%nat). cbn. lia.
    + split; [cbn in L; lia|]. intros i Hi. apply (A (S i)). cbn. lia.
  - intros (y & ys' & -> & H0 & L & A). split; [cbn; lia|]. intros [|i] Hi; [exact H0|]. apply A. cbn in Hi. lia.
Qed.
Lemma agree_app mask xs : forall mask' xs' ys, (forall i, mask' i = mask (List.length xs + i)%nat) ->
  agree_outside mask (xs ++ xs') ys <->
  exists a b, ys = a ++ b /\ agree_outside mask xs a /\ agree_outside mask' xs' b.
Proof.
  intros mask' xs' ys Hm. split.
  - intros [L A]. exists (firstn (List.length xs) ys), (skipn (List.length xs) ys).
    rewrite app_length in L. split; [now rewrite firstn_skipn|].
    assert (L1 : List.length (firstn (List.length xs) ys) = List.length xs) by (rewrite firstn_length; lia).
    split; split.
    + now rewrite L1.
    + intros i Hi. specialize (A i). rewrite app_length in A.
      assert (E1 : octet (xs ++ xs') i = octet xs i) by (unfold octet; now rewrite app_nth1).
      assert (E2 : octet ys i = octet (firstn (List.length xs) ys) i).
      { rewrite <- (firstn_skipn (List.length xs) ys) at 1. unfold octet. rewrite app_nth1; [reflexivity|lia]. }
      rewrite <- E1, <- E2. apply A. lia.
    + rewrite skipn_length. lia.
    + intros i Hi. specialize (A (List.length xs + i)%nat). rewrite app_length in A.
      rewrite Hm, octet_nth_skipn. rewrite <- A by lia. f_equal. unfold octet.
      rewrite app_nth2 by lia. f_equal. lia.
  - intros (a & b & -> & [La Aa] & [Lb Ab]). split; [rewrite !app_length; lia|].
    intros i Hi. rewrite app_length in Hi. unfold octet in *.
    destruct (Nat.lt_ge_cases i (List.length xs)).
    + rewrite !app_nth1 by lia. now apply Aa.
    + rewrite !app_nth2 by lia. specialize (Ab (i - List.length xs)%nat).
      rewrite Hm in Ab. replace (List.length xs + (i - List.length xs))%nat with i in Ab by lia.
      rewrite <- La. apply Ab. lia.
Qed.
Lemma agree_same mask xs : forall ys, (forall i, (i < List.length xs)%nat -> mask i = 0) ->
  agree_outside mask xs ys <-> ys = xs.
Proof.
  revert mask. induction xs as [|x xs IH]; intros mask ys Hm; [apply agree_nil|].
  rewrite agree_cons. split.
  - intros (y & ys' & -> & H0 & A). rewrite (Hm 0%nat) in H0 by (cbn; lia). rewrite !N.ldiff_0_r in H0.
    apply IH in A; [congruence|]. intros i Hi. apply Hm. cbn. lia.
  - intros ->. exists x, xs. split; [reflexivity|]. split; [reflexivity|]. apply IH; [|reflexivity].
    intros i Hi. apply Hm. cbn. lia.
Qed.

(** * Octets *)

Definition below (n : nat) : list N := map N.of_nat (List.seq 0 n).
Lemma in_below n x : x < N.of_nat n -> In x (below n).
Proof. intros H. unfold below. apply in_map_iff. exists (N.to_nat x). split; [lia|]. apply in_seq. lia. Qed.
Lemma sweep n (P : N -> bool) : forallb P (below n) = true -> forall x, x < N.of_nat n -> P x = true.
Proof. intros H x Hx. rewrite forallb_forall in H. now apply H, in_below. Qed.
Definition bools : list bool := [false; true].
Lemma in_bools b : In b bools.
Proof. destruct b; cbn; auto. Qed.
Lemma exists_in {A} (l : list A) (P : A -> bool) : existsb P l = true -> exists x, In x l /\ P x = true.
Proof. apply existsb_exists. Qed.

(** Generic step: [e] is the encoding with free part [r] from [l]. *)
Lemma octet_iff {A} (l : list A) (e : A -> N) mask r : In r l ->
  forallb (fun y => Bool.eqb (N.ldiff (e r) mask =? N.ldiff y mask) (existsb (fun r' => y =? e r') l)) (below 256) = true ->
  forall y, y < 256 -> (N.ldiff (e r) mask = N.ldiff y mask <-> exists r', In r' l /\ y = e r').
Proof.
  intros _ H y Hy. pose proof (sweep 256 _ H y Hy) as S. apply eqb_prop in S.
  rewrite <- N.eqb_eq, S, existsb_exists. split; intros (r' & ? & E); exists r'; (split; [assumption|]); now apply N.eqb_eq.
Qed.

Lemma control_octet a r y : a < 128 -> y < 256 ->
  (N.ldiff (a + 128 * flag r) 128 = N.ldiff y 128 <-> exists r', y = a + 128 * flag r').
Proof.
  intros Ha Hy.
  assert (X : forall a, a < 128 -> forallb (fun r => forallb (fun y => Bool.eqb (N.ldiff (a + 128 * flag r) 128 =? N.ldiff y 128)
     (existsb (fun r' => y =? a + 128 * flag r') bools)) (below 256)) bools = true).
  { clear. intros a Ha. revert a Ha. refine (sweep 128 _ _). vm_compute. reflexivity. }
  specialize (X a Ha). rewrite forallb_forall in X. specialize (X r (in_bools r)).
  rewrite (octet_iff bools (fun r => a + 128 * flag r) 128 r (in_bools r) X y Hy).
  split; intros (r' & H); exists r'; [now destruct H|split; [apply in_bools|exact H]].
Qed.
Lemma superframe_octet a b r y : a < 32 -> b < 4 -> y < 256 ->
  (N.ldiff (a + 32 * flag r + 64 * b) 32 = N.ldiff y 32 <-> exists r', y = a + 32 * flag r' + 64 * b).
Proof.
  intros Ha Hb Hy.
  assert (X : forall a, a < 32 -> forallb (fun b => forallb (fun r => forallb (fun y => Bool.eqb (N.ldiff (a + 32 * flag r + 64 * b) 32 =? N.ldiff y 32)
     (existsb (fun r' => y =? a + 32 * flag r' + 64 * b) bools)) (below 256)) bools) (below 4) = true).
  { clear. intros a Ha. revert a Ha. refine (sweep 32 _ _). vm_compute. reflexivity. }
  specialize (X a Ha). rewrite forallb_forall in X. specialize (X b (in_below 4 b Hb)).
  rewrite forallb_forall in X. specialize (X r (in_bools r)).
  rewrite (octet_iff bools (fun r => a + 32 * flag r + 64 * b) 32 r (in_bools r) X y Hy).
  split; intros (r' & H); exists r'; [now destruct H|split; [apply in_bools|exact H]].
Qed.
Lemma gts_octet k p r y : k < 8 -> r < 16 -> y < 256 ->
  (N.ldiff (k + 8 * r + 128 * flag p) 120 = N.ldiff y 120 <-> exists r', r' < 16 /\ y = k + 8 * r' + 128 * flag p).
Proof.
  intros Hk Hr Hy.
  assert (X : forall a, a < 8 -> forallb (fun p => forallb (fun r => forallb (fun y => Bool.eqb (N.ldiff (a + 8 * r + 128 * flag p) 120 =? N.ldiff y 120)
     (existsb (fun r' => y =? a + 8 * r' + 128 * flag p) (below 16))) (below 256)) (below 16)) bools = true).
  { clear. intros a Ha. revert a Ha. refine (sweep 8 _ _). vm_compute. reflexivity. }
  specialize (X k Hk). rewrite forallb_forall in X. specialize (X p (in_bools p)).
  rewrite forallb_forall in X. specialize (X r (in_below 16 r Hr)).
  rewrite (octet_iff (below 16) (fun r => k + 8 * r + 128 * flag p) 120 r (in_below 16 r Hr) X y Hy).
  split; intros (r' & H1 & H2); exists r'; (split; [|exact H2]).
  - unfold below in H1. apply in_map_iff in H1. destruct H1 as (j & <- & Hj). apply in_seq in Hj. lia.
  - now apply (in_below 16).
Qed.
Lemma pending_octet s e r3 r7 y : s < 8 -> e < 8 -> y < 256 ->
  (N.ldiff (s + 8 * flag r3 + 16 * e + 128 * flag r7) 136 = N.ldiff y 136 <->
   exists a b, y = s + 8 * flag a + 16 * e + 128 * flag b).
Proof.
  intros Hs He Hy. pose (l := list_prod bools bools).
  assert (Hl : forall a b, In (a, b) l) by (intros a b; apply in_prod; apply in_bools).
  assert (X : forall a, a < 8 -> forallb (fun e => forallb (fun r => forallb (fun y => Bool.eqb (N.ldiff (a + 8 * flag (fst r) + 16 * e + 128 * flag (snd r)) 136 =? N.ldiff y 136)
     (existsb (fun r' => y =? a + 8 * flag (fst r') + 16 * e + 128 * flag (snd r')) l)) (below 256)) l) (below 8) = true).
  { clear. intros a Ha. revert a Ha. refine (sweep 8 _ _). vm_compute. reflexivity. }
  specialize (X s Hs). rewrite forallb_forall in X. specialize (X e (in_below 8 e He)).
  rewrite forallb_forall in X. specialize (X (r3, r7) (Hl r3 r7)).
  rewrite (octet_iff l (fun r => s + 8 * flag (fst r) + 16 * e + 128 * flag (snd r)) 136 (r3, r7) (Hl r3 r7) X y Hy).
  split; [intros ([a b] & _ & H); now exists a, b|intros (a & b & H); exists (a, b); split; [apply Hl|exact H]].
Qed.
Lemma gtsc_octet k r6 r7 y : k < 64 -> y < 256 ->
  (N.ldiff (k + 64 * flag r6 + 128 * flag r7) 192 = N.ldiff y 192 <->
   exists a b, y = k + 64 * flag a + 128 * flag b).
Proof.
  intros Hs Hy. pose (l := list_prod bools bools).
  assert (Hl : forall a b, In (a, b) l) by (intros a b; apply in_prod; apply in_bools).
  assert (X : forall a, a < 64 -> forallb (fun r => forallb (fun y => Bool.eqb (N.ldiff (a + 64 * flag (fst r) + 128 * flag (snd r)) 192 =? N.ldiff y 192)
     (existsb (fun r' => y =? a + 64 * flag (fst r') + 128 * flag (snd r')) l)) (below 256)) l = true).
  { clear. intros a Ha. revert a Ha. refine (sweep 64 _ _). vm_compute. reflexivity. }
  specialize (X k Hs). rewrite forallb_forall in X. specialize (X (r6, r7) (Hl r6 r7)).
  rewrite (octet_iff l (fun r => k + 64 * flag (fst r) + 128 * flag (snd r)) 192 (r6, r7) (Hl r6 r7) X y Hy).
  split; [intros ([a b] & _ & H); now exists a, b|intros (a & b & H); exists (a, b); split; [apply Hl|exact H]].
Qed.
Lemma capability_octet i r0 r4 r5 y : y < 256 ->
  (N.ldiff (wire_capability r0 r4 r5 i) 49 = N.ldiff y 49 <-> exists a b d, y = wire_capability a b d i).
Proof.
  intros Hy. pose (l := list_prod (list_prod bools bools) bools).
  assert (Hl : forall a b d, In (a, b, d) l) by (intros a b d; repeat apply in_prod; apply in_bools).
  pose (e := fun r : bool * bool * bool => let '(a, b, d) := r in wire_capability a b d i).
  assert (X : forallb (fun y => Bool.eqb (N.ldiff (e (r0, r4, r5)) 49 =? N.ldiff y 49)
     (existsb (fun r' => y =? e r') l)) (below 256) = true).
  { unfold e. clear. destruct i as [[] [] [] [] []], r0, r4, r5; vm_compute; reflexivity. }
  pose proof (octet_iff l e 49 (r0, r4, r5) (Hl r0 r4 r5) X y Hy) as O. cbn [e] in O. rewrite O.
  split; [intros ([[a b] d] & _ & H); now exists a, b, d|intros (a & b & d & H); exists (a, b, d); split; [apply Hl|exact H]].
Qed.

Lemma direction_split l rest : direction_octet l rest = direction_octet l 0 + 2 ^ N.of_nat (List.length l) * rest.
Proof.
  induction l as [|d l IH]; cbn [direction_octet List.length].
  - change (2 ^ N.of_nat 0) with 1. lia.
  - rewrite IH, Nat2N.inj_succ, N.pow_succ_r'. lia.
Qed.
Lemma direction_octet_iff l rd y : (1 <= List.length l <= 7)%nat -> rd < 2 ^ (8 - N.of_nat (List.length l)) -> y < 256 ->
  (N.ldiff (direction_octet l rd) (2 ^ 8 - 2 ^ N.of_nat (List.length l)) = N.ldiff y (2 ^ 8 - 2 ^ N.of_nat (List.length l)) <->
   exists r, r < 2 ^ (8 - N.of_nat (List.length l)) /\ y = direction_octet l r).
Proof.
  intros Hl Hr Hy.
  assert (D : direction_octet l rd < 256).
  { pose proof (direction_octet_lt l rd (8 - N.of_nat (List.length l)) Hr) as D.
    match type of D with _ < 2 ^ ?x => replace x with 8 in D by lia end. exact D. }
  assert (D0 : direction_octet l 0 < 2 ^ N.of_nat (List.length l)).
  { pose proof (direction_octet_lt l 0 0 eq_refl) as D0. now rewrite N.add_0_l in D0. }
  assert (M : forall k x, 1 <= k <= 7 -> x < 256 -> N.ldiff x (2 ^ 8 - 2 ^ k) = x mod 2 ^ k).
  { intros k x Hk Hx.
    assert (S : forall x, x < 256 -> forallb (fun k => (k =? 0) || (N.ldiff x (2 ^ 8 - 2 ^ k) =? x mod 2 ^ k)) (below 8) = true).
    { refine (sweep 256 _ _). vm_compute. reflexivity. }
    specialize (S x Hx). rewrite forallb_forall in S. specialize (S k (in_below 8 k ltac:(lia))). lia. }
  rewrite !M by lia. rewrite direction_split in D |- *.
  set (k := N.of_nat (List.length l)) in *. set (d := direction_octet l 0) in *.
  assert (Hp : 2 ^ k <> 0) by (apply N.pow_nonzero; discriminate).
  rewrite N.add_mod, N.mul_comm, N.mod_mul, N.add_0_r, !N.mod_mod, N.mod_small by assumption.
  assert (P8 : 2 ^ k * 2 ^ (8 - k) = 256) by (rewrite <- N.pow_add_r; replace (k + (8 - k)) with 8 by lia; reflexivity).
  split.
  - intros E. exists (y / 2 ^ k). split.
    + apply N.div_lt_upper_bound; [assumption|]. now rewrite P8.
    + rewrite direction_split. fold k d. rewrite E. rewrite N.add_comm. apply N.div_mod'.
  - intros (r & Hr' & ->). rewrite direction_split. fold k d.
    now rewrite N.add_mod, N.mul_comm, N.mod_mul, N.add_0_r, !N.mod_mod, N.mod_small.
Qed.

(** * Parts of a frame *)

Lemma control_word_split h : exists a b, a < 128 /\ forall r, control_word r h = a + 128 * flag r + 256 * b.
Proof.
  exists (type_code (frame_type h) + 8 * flag (is_some (auxiliary_security_header h)) + 16 * flag (frame_pending h)
          + 32 * flag (ack_request h) + 64 * flag (pan_id_compress h)),
         (flag (seq_no_suppress h) + 2 * flag (ie_present h) + 4 * addr_mode_code (destination h)
          + 16 * version_code (version h) + 64 * addr_mode_code (source h)).
  assert (type_code (frame_type h) < 8) by (destruct (frame_type h); reflexivity).
  assert (F : forall b, flag b < 2) by (intros []; reflexivity).
  pose proof (F (is_some (auxiliary_security_header h))). pose proof (F (frame_pending h)).
  pose proof (F (ack_request h)). pose proof (F (pan_id_compress h)).
  split; [lia|]. intros r. unfold control_word.
  change (2 ^ 3) with 8; change (2 ^ 4) with 16; change (2 ^ 5) with 32; change (2 ^ 6) with 64;
  change (2 ^ 7) with 128; change (2 ^ 8) with 256; change (2 ^ 9) with 512; change (2 ^ 10) with 1024;
  change (2 ^ 12) with 4096; change (2 ^ 14) with 16384. lia.
Qed.
Lemma wire_header_shape h : exists a tail, a < 128 /\ forall r, wire_header LE LE r 0 h = (a + 128 * flag r) :: tail.
Proof.
  destruct (control_word_split h) as (a & b & Ha & E).
  exists a. eexists. split; [exact Ha|]. intros r. unfold wire_header. rewrite E, !le_S.
  assert (F : flag r < 2) by (destruct r; reflexivity).
  replace ((a + 128 * flag r + 256 * b) mod 256) with (a + 128 * flag r) by lia.
  replace ((a + 128 * flag r + 256 * b) / 256) with b by lia. cbn [List.app]. reflexivity.
Qed.
Lemma agree_header mask h r ys : octets ys -> mask 0%nat = 128 ->
  (forall i, (0 < i < List.length (wire_header LE LE r 0 h))%nat -> mask i = 0) ->
  agree_outside mask (wire_header LE LE r 0 h) ys <-> exists r', ys = wire_header LE LE r' 0 h.
Proof.
  intros Hy H0 Hm. destruct (wire_header_shape h) as (a & tail & Ha & E). rewrite E in Hm |- *. cbn [List.length] in Hm.
  rewrite agree_cons. split.
  - intros (y & ys' & -> & D & A). apply octets_cons in Hy. destruct Hy as [Hy _].
    rewrite H0 in D. apply (control_octet a r y Ha Hy) in D. destruct D as (r' & ->).
    apply agree_same in A; [|intros i Hi; apply Hm; lia]. exists r'. now rewrite E, A.
  - intros (r' & ->). rewrite E in Hy |- *. apply octets_cons in Hy. destruct Hy as [Hy _].
    exists (a + 128 * flag r'), tail. split; [reflexivity|]. split.
    + rewrite H0. apply (control_octet a r _ Ha Hy). now exists r'.
    + apply agree_same; [|reflexivity]. intros i Hi. apply Hm. lia.
Qed.

Lemma agree_superframe mask s r ys : octets ys -> mask 0%nat = 0 -> mask 1%nat = 32 ->
  agree_outside mask (wire_superframe r s) ys <-> exists r', ys = wire_superframe r' s.
Proof.
  intros Hy H0 H1.
  assert (W : exists x a b, a < 32 /\ b < 4 /\ forall r, wire_superframe r s = [x; a + 32 * flag r + 64 * b]).
  { unfold wire_superframe. eexists.
    exists (final_cap_slot s mod 16 + 16 * flag (battery_life_extension s)),
           (flag (pan_coordinator s) + 2 * flag (association_permit s)).
    assert (F : forall b, flag b < 2) by (intros []; reflexivity).
    pose proof (F (battery_life_extension s)). pose proof (F (pan_coordinator s)). pose proof (F (association_permit s)).
    split; [lia|]. split; [lia|]. intros q. f_equal. apply (f_equal (fun z => [z])).
    change (2 ^ 4) with 16; change (2 ^ 5) with 32; change (2 ^ 6) with 64; change (2 ^ 7) with 128. lia. }
  destruct W as (x & a & b & Ha & Hb & E). rewrite E, !agree_cons. split.
  - intros (y & ys' & -> & D & A). apply agree_cons in A. destruct A as (y2 & ys2 & -> & D2 & A). apply agree_nil in A. subst ys2.
    apply octets_cons in Hy. destruct Hy as [_ Hy]. apply octets_cons in Hy. destruct Hy as [Hy _].
    rewrite H0, !N.ldiff_0_r in D. subst y. rewrite H1 in D2. apply (superframe_octet a b r y2 Ha Hb Hy) in D2.
    destruct D2 as (r' & ->). exists r'. now rewrite E.
  - intros (r' & ->). rewrite E in Hy |- *. apply octets_cons in Hy. destruct Hy as [_ Hy]. apply octets_cons in Hy. destruct Hy as [Hy _].
    eexists _, _. split; [reflexivity|]. split; [reflexivity|]. apply agree_cons. eexists _, _. split; [reflexivity|].
    split; [|now apply agree_nil]. rewrite H1. apply (superframe_octet a b r _ Ha Hb Hy). now exists r'.
Qed.

Lemma agree_gts mask g r rd ys : gts_reachable g -> r < 16 -> rd < 2 ^ (8 - N.of_nat (gts_slot_count g)) ->
  octets ys -> mask 0%nat = 120 ->
  mask 1%nat = (if (gts_slot_count g =? 0)%nat then mask 1%nat else 2 ^ 8 - 2 ^ N.of_nat (gts_slot_count g)) ->
  (forall i, (2 <= i < List.length (wire_gts r rd g))%nat -> mask i = 0) ->
  agree_outside mask (wire_gts r rd g) ys <->
  exists r' rd', (r' < 16 /\ rd' < 2 ^ (8 - N.of_nat (gts_slot_count g))) /\ ys = wire_gts r' rd' g.
Proof.
  intros (Hc & slots & Ls & Fs & Es) Hr Hrd Hy H0 H1 Hm.
  assert (Ha : active_slots g = slots) by (unfold active_slots; rewrite Es; now apply firstn_app_exact').
  set (k := gts_slot_count g) in *. unfold wire_gts in *. fold k in Hm |- *. rewrite Ha in Hm |- *.
  change (2 ^ 3) with 8 in *. change (2 ^ 7) with 128 in *. cbn [List.app] in *.
  destruct slots as [|d l].
  - cbn in Ls. rewrite agree_cons. split.
    + intros (y & ys' & -> & D & A). apply agree_nil in A. subst ys'. apply octets_cons in Hy. destruct Hy as [Hy _].
      rewrite H0 in D. apply gts_octet in D; [|lia..]. destruct D as (r' & Hr' & ->). exists r', rd. auto.
    + intros (r' & rd' & (Hr' & _) & ->). apply octets_cons in Hy. destruct Hy as [Hy _].
      eexists _, _. split; [reflexivity|]. split; [|now apply agree_nil].
      rewrite H0. apply gts_octet; [lia..|]. now exists r'.
  - replace (k =? 0)%nat with false in H1 by (cbn in Ls; lia).
    set (sl := d :: l) in *. rewrite !agree_cons. cbn [List.length] in Hm.
    assert (Hsl : (1 <= List.length sl <= 7)%nat) by (unfold sl in *; cbn in *; lia).
    split.
    + intros (y & ys' & -> & D & A). apply agree_cons in A. destruct A as (y2 & ys2 & -> & D2 & A).
      apply agree_same in A; [|intros i Hi; apply Hm; lia]. subst ys2.
      apply octets_cons in Hy. destruct Hy as [Hy Hy2]. apply octets_cons in Hy2. destruct Hy2 as [Hy2 _].
      rewrite H0 in D. apply gts_octet in D; [|lia..]. destruct D as (r' & Hr' & ->).
      rewrite H1, <- Ls in D2. apply direction_octet_iff in D2; [|first [assumption|now rewrite Ls]..].
      destruct D2 as (rd' & Hrd' & ->). rewrite Ls in Hrd'. exists r', rd'. auto.
    + intros (r' & rd' & (Hr' & Hrd') & ->).
      apply octets_cons in Hy. destruct Hy as [Hy Hy2]. apply octets_cons in Hy2. destruct Hy2 as [Hy2 _].
      eexists _, _. split; [reflexivity|]. split.
      { rewrite H0. apply gts_octet; [lia..|]. now exists r'. }
      apply agree_cons. eexists _, _. split; [reflexivity|]. split.
      { rewrite H1, <- Ls. apply direction_octet_iff; [first [assumption|now rewrite Ls]..|]. exists rd'. rewrite Ls. auto. }
      apply agree_same; [intros i Hi; apply Hm; lia|reflexivity].
Qed.

Lemma agree_pending mask p r3 r7 ys : pending_reachable p -> octets ys -> mask 0%nat = 136 ->
  (forall i, (1 <= i < List.length (wire_pending r3 r7 p))%nat -> mask i = 0) ->
  agree_outside mask (wire_pending r3 r7 p) ys <-> exists a b, ys = wire_pending a b p.
Proof.
  intros (Hs & He & _) Hy H0 Hm. unfold wire_pending in *.
  change (2 ^ 3) with 8 in *. change (2 ^ 4) with 16 in *. change (2 ^ 7) with 128 in *. cbn [List.app List.length] in *.
  rewrite agree_cons. split.
  - intros (y & ys' & -> & D & A). apply agree_same in A; [|intros i Hi; apply Hm; lia]. subst ys'.
    apply octets_cons in Hy. destruct Hy as [Hy _]. rewrite H0 in D. apply pending_octet in D; [|lia..].
    destruct D as (a & b & ->). now exists a, b.
  - intros (a & b & ->). apply octets_cons in Hy. destruct Hy as [Hy _]. eexists _, _. split; [reflexivity|]. split.
    + rewrite H0. apply pending_octet; [lia..|]. now exists a, b.
    + apply agree_same; [intros i Hi; apply Hm; lia|reflexivity].
Qed.

Lemma agree_command mask cmd mr ys : octets ys -> mask 0%nat = 0 ->
  mask 1%nat = (match octet (wire_command mr cmd) 0 with 1 => 49 | 9 => 192 | _ => 0 end) ->
  (forall i, (2 <= i < List.length (wire_command mr cmd))%nat -> mask i = 0) ->
  agree_outside mask (wire_command mr cmd) ys <-> exists mr', ys = wire_command mr' cmd.
Proof.
  intros Hy H0 H1 Hm.
  assert (Same : (forall q, wire_command q cmd = wire_command mr cmd) -> mask 1%nat = 0 ->
    agree_outside mask (wire_command mr cmd) ys <-> exists mr', ys = wire_command mr' cmd).
  { intros E Z. rewrite agree_same.
    - split; [intros ->; now exists mr|intros (q & ->); apply E].
    - intros i Hi. destruct i as [|[|i]]; [exact H0|exact Z|]. apply Hm. lia. }
  destruct cmd as [i|a s|x| | | | |d|g]; cbn [wire_command] in *; try (apply Same; [reflexivity|exact H1]).
  - change (mask 1%nat = 49) in H1. rewrite agree_cons. split.
    + intros (y & ys' & -> & D & A). apply agree_cons in A. destruct A as (y2 & ys2 & -> & D2 & A). apply agree_nil in A. subst ys2.
      rewrite H0, !N.ldiff_0_r in D. subst y. apply octets_cons in Hy. destruct Hy as [_ Hy]. apply octets_cons in Hy. destruct Hy as [Hy _].
      rewrite H1 in D2. apply (capability_octet i _ _ _ y2 Hy) in D2. destruct D2 as (a & b & e & ->).
      now exists {| mr_a := a; mr_b := b; mr_c := e |}.
    + intros (q & ->). apply octets_cons in Hy. destruct Hy as [_ Hy]. apply octets_cons in Hy. destruct Hy as [Hy _].
      eexists _, _. split; [reflexivity|]. split; [reflexivity|]. apply agree_cons. eexists _, _. split; [reflexivity|].
      split; [|now apply agree_nil]. rewrite H1. apply (capability_octet i _ _ _ _ Hy). eauto.
  - change (mask 1%nat = 192) in H1.
    assert (W : exists k, k < 64 /\ forall p q, wire_gts_characteristics p q g = k + 64 * flag p + 128 * flag q).
    { exists (gtsc_count g mod 16 + 16 * flag (gtsc_receive_only g) + 32 * flag (gtsc_allocation g)).
      assert (F : forall b, flag b < 2) by (intros []; reflexivity).
      pose proof (F (gtsc_receive_only g)). pose proof (F (gtsc_allocation g)). split; [lia|].
      intros p q. reflexivity. }
    destruct W as (k & Hk & E). rewrite agree_cons. split.
    + intros (y & ys' & -> & D & A). apply agree_cons in A. destruct A as (y2 & ys2 & -> & D2 & A). apply agree_nil in A. subst ys2.
      rewrite H0, !N.ldiff_0_r in D. subst y. apply octets_cons in Hy. destruct Hy as [_ Hy]. apply octets_cons in Hy. destruct Hy as [Hy _].
      rewrite H1, E in D2. apply (gtsc_octet k _ _ y2 Hk Hy) in D2. destruct D2 as (a & b & ->).
      exists {| mr_a := a; mr_b := b; mr_c := false |}. now rewrite E.
    + intros (q & ->). apply octets_cons in Hy. destruct Hy as [_ Hy]. apply octets_cons in Hy. destruct Hy as [Hy _].
      eexists _, _. split; [reflexivity|]. split; [reflexivity|]. apply agree_cons. eexists _, _. split; [reflexivity|].
      split; [|now apply agree_nil]. rewrite H1, !E in *. apply (gtsc_octet k _ _ _ Hk Hy). eauto.
Qed.

Definition beacon_static (b : Beacon) (r : beacon_reserved) : Prop :=
  br_gts r < 16 /\ br_direction r < 2 ^ (8 - N.of_nat (gts_slot_count (guaranteed_time_slot_info b))).

Lemma agree_beacon mask b r ys : beacon_canonical b -> beacon_static b r -> octets ys ->
  mask 0%nat = 0 -> mask 1%nat = 32 -> mask 2%nat = 120 ->
  let k := gts_slot_count (guaranteed_time_slot_info b) in
  let q := if (k =? 0)%nat then 1%nat else (2 + 3 * k)%nat in
  ((k =? 0)%nat = false -> mask 3%nat = 2 ^ 8 - 2 ^ N.of_nat k) ->
  (forall i, (4 <= i < 2 + q)%nat -> mask i = 0) -> mask (2 + q)%nat = 136 ->
  (forall i, (2 + q < i < List.length (wire_beacon r b))%nat -> mask i = 0) ->
  agree_outside mask (wire_beacon r b) ys <-> exists r', beacon_static b r' /\ ys = wire_beacon r' b.
Proof.
  intros (_ & Hg & Hp) (R1 & R2) Hy M0 M1 M2 k q M3 M4 M5 M6.
  assert (Lg : forall a d, List.length (wire_gts a d (guaranteed_time_slot_info b)) = q) by (intros; now apply wire_gts_length).
  unfold wire_beacon in *.
  rewrite (agree_app mask (wire_superframe (br_superframe r) (superframe_spec b)) (fun i => mask (2 + i)%nat)) by reflexivity.
  assert (Sub : forall zs, octets zs -> agree_outside (fun i => mask (2 + i)%nat)
     (wire_gts (br_gts r) (br_direction r) (guaranteed_time_slot_info b)
      ++ wire_pending (br_pending3 r) (br_pending7 r) (pending_address b)) zs <->
     exists g d a e, (g < 16 /\ d < 2 ^ (8 - N.of_nat k)) /\
       zs = wire_gts g d (guaranteed_time_slot_info b) ++ wire_pending a e (pending_address b)).
  { intros zs Hz.
    rewrite (agree_app _ (wire_gts (br_gts r) (br_direction r) (guaranteed_time_slot_info b)) (fun i => mask (2 + q + i)%nat))
      by (intros i; rewrite Lg; f_equal; lia).
    assert (P : forall us, octets us -> agree_outside (fun i => mask (2 + q + i)%nat)
      (wire_pending (br_pending3 r) (br_pending7 r) (pending_address b)) us <-> exists a e, us = wire_pending a e (pending_address b)).
    { intros us Hu. apply agree_pending; [assumption..| |].
      - now rewrite Nat.add_0_r.
      - intros i Hi. apply M6. rewrite !app_length, Lg. cbn [wire_superframe List.length]. lia. }
    assert (G : forall us, octets us -> agree_outside (fun i => mask (2 + i)%nat)
      (wire_gts (br_gts r) (br_direction r) (guaranteed_time_slot_info b)) us <->
      exists g d, (g < 16 /\ d < 2 ^ (8 - N.of_nat k)) /\ us = wire_gts g d (guaranteed_time_slot_info b)).
    { intros us Hu. apply agree_gts; [assumption..| | |].
      - exact M2.
      - fold k. destruct (k =? 0)%nat eqn:K; [reflexivity|]. now apply M3.
      - intros i Hi. rewrite Lg in Hi. apply M4. lia. }
    split.
    - intros (u & v & -> & A1 & A2). apply octets_app in Hz. destruct Hz as [Hu Hv].
      apply G in A1; [|assumption]. apply P in A2; [|assumption].
      destruct A1 as (g & d & B & ->). destruct A2 as (a & e & ->). now exists g, d, a, e.
    - intros (g & d & a & e & B & ->). apply octets_app in Hz. destruct Hz as [Hu Hv].
      eexists _, _. split; [reflexivity|]. split; [apply G; eauto|apply P; eauto]. }
  assert (S : forall zs, octets zs -> agree_outside mask (wire_superframe (br_superframe r) (superframe_spec b)) zs <->
     exists s, zs = wire_superframe s (superframe_spec b)) by (intros; now apply agree_superframe).
  split.
  - intros (u & v & -> & A1 & A2). apply octets_app in Hy. destruct Hy as [Hu Hv].
    apply S in A1; [|assumption]. apply Sub in A2; [|assumption].
    destruct A1 as (s & ->). destruct A2 as (g & d & a & e & B & ->).
    exists {| br_superframe := s; br_gts := g; br_direction := d; br_pending3 := a; br_pending7 := e |}. split; [exact B|reflexivity].
  - intros (r' & B & ->). apply octets_app in Hy. destruct Hy as [Hu Hv].
    eexists _, _. split; [reflexivity|]. split; [apply S; eauto|].
    apply Sub; [assumption|]. exists (br_gts r'), (br_direction r'), (br_pending3 r'), (br_pending7 r'). split; [exact B|reflexivity].
Qed.

Lemma octet_app_r' a b i : octet (a ++ b) (List.length a + i) = octet b i.
Proof. unfold octet. rewrite app_nth2 by lia. f_equal. lia. Qed.
Lemma octet_app_l' a b i : (i < List.length a)%nat -> octet (a ++ b) i = octet a i.
Proof. intros H. unfold octet. now rewrite app_nth1. Qed.

Lemma wire_gts_first r rd g : (gts_slot_count g <= 7)%nat -> r < 16 ->
  octet (wire_gts r rd g) 0 mod 8 = N.of_nat (gts_slot_count g).
Proof.
  intros Hk Hr. unfold wire_gts, octet. cbn [List.app nth]. change (2 ^ 3) with 8. change (2 ^ 7) with 128.
  assert (flag (gts_permit g) < 2) by (destruct (gts_permit g); reflexivity). lia.
Qed.
Lemma command_id_octet mr cmd : (List.length (wire_command mr cmd) > 0)%nat.
Proof. destruct cmd; cbn; lia. Qed.

Section Ignored.
Context (c : cfg).

(** Reading a frame gives the same result for another octet string exactly if that string is
    equally long and differs from the first in reserved bits only. *)
Theorem C80_ignored_bits : forall m bs bs' f n, octets bs -> octets bs' -> cfg_ok c ->
  try_read_frame c m bs = Ok (f, n) ->
  (try_read_frame c m bs' = Ok (f, n) <-> agree_outside (reserved_bits bs) bs bs').
Proof.
  intros m bs bs' f n Hb Hb' Hc R.
  pose proof (proj1 (C19_frame_read_exact c m bs f n Hb Hc) R) as (En & HP).
  destruct HP as (Aux & HD & CC & FC & OE & FT & r7 & br & mr & RF & EB).
  assert (HH : try_read_header c bs = Ok (header f, List.length (wire_header LE LE r7 0 (header f)))).
  { apply (C03_header_decode_exact c bs (header f) _ Hb). split; [exact HD|]. split.
    - rewrite EB, app_length. lia.
    - exists r7, 0. split; [reflexivity|]. rewrite EB, firstn_app_exact. now apply wire_header_plain. }
  destruct (header_need_eq c bs _ _ Hb HH) as (HN & HT & _ & _).
  set (H := wire_header LE LE r7 0 (header f)) in *.
  set (mask := reserved_bits bs).
  assert (N3 : (3 <= List.length H)%nat).
  { unfold H, wire_header. rewrite app_length, le_length. cbn [List.app List.length]. lia. }
  assert (Mlow : forall i, (0 < i < List.length H)%nat -> mask i = 0).
  { intros i Hi. unfold mask, reserved_bits. rewrite <- HN. replace (i =? 0)%nat with false by lia.
    destruct (type_of_code _); try reflexivity.
    - repeat match goal with |- context [(i =? ?x)%nat] => replace (i =? x)%nat with false by lia end. reflexivity.
    - replace (i =? List.length H + 1)%nat with false by lia. reflexivity. }
  set (T := payload f ++ wire_footer m f) in *.
  assert (Split : agree_outside mask bs bs' <->
     exists x y z, bs' = x ++ y ++ z /\ agree_outside mask H x /\
       agree_outside (fun i => mask (List.length H + i)%nat) (wire_content br mr (content f)) y /\
       agree_outside (fun i => mask (List.length H + List.length (wire_content br mr (content f)) + i)%nat) T z).
  { rewrite EB at 1. rewrite (agree_app mask H (fun i => mask (List.length H + i)%nat)) by reflexivity.
    split.
    - intros (x & w & -> & A & B).
      apply (agree_app _ _ (fun i => mask (List.length H + List.length (wire_content br mr (content f)) + i)%nat)) in B;
        [|intros i; f_equal; lia].
      destruct B as (y & z & -> & B1 & B2). now exists x, y, z.
    - intros (x & y & z & -> & A & B1 & B2). exists x, (y ++ z). split; [reflexivity|]. split; [exact A|].
      apply (agree_app _ _ (fun i => mask (List.length H + List.length (wire_content br mr (content f)) + i)%nat));
        [intros i; f_equal; lia|]. now exists y, z. }
  assert (Parts : agree_outside mask bs bs' <->
     exists r7' br' mr', reserved_fit br' (content f) /\
       bs' = wire_header LE LE r7' 0 (header f) ++ wire_content br' mr' (content f) ++ T).
  { rewrite Split.
    assert (PH : forall x, octets x -> agree_outside mask H x <-> exists r', x = wire_header LE LE r' 0 (header f)).
    { intros x Hx. apply agree_header; [exact Hx|reflexivity|exact Mlow]. }
    assert (PC : forall y, octets y -> agree_outside (fun i => mask (List.length H + i)%nat) (wire_content br mr (content f)) y <->
       exists br' mr', reserved_fit br' (content f) /\ y = wire_content br' mr' (content f)).
    { intros y Hy. unfold frame_consistent in FC.
      destruct (content f) as [b| | |cmd| | |] eqn:Ct; cbn [wire_content content_type reserved_fit] in *;
        try (rewrite agree_nil; split; [intros ->; exists br, mr; auto|now intros (_ & _ & _ & ->)]).
      - pose proof CC as (_ & Hg & Hp). destruct RF as [RF1 RF2].
        set (k := gts_slot_count (guaranteed_time_slot_info b)) in *.
        assert (K7 : (k <= 7)%nat) by (destruct Hg as [? _]; assumption).
        set (q := if (k =? 0)%nat then 1%nat else (2 + 3 * k)%nat).
        assert (Og : octet bs (List.length H + 2) mod 8 = N.of_nat k).
        { rewrite EB, octet_app_r'. unfold wire_beacon. rewrite <- app_assoc.
          change 2%nat with (List.length (wire_superframe (br_superframe br) (superframe_spec b)) + 0)%nat.
          rewrite octet_app_r', <- app_assoc, octet_app_l'.
          - now apply wire_gts_first.
          - unfold wire_gts. cbn [List.app List.length]. lia. }
        assert (Gs : gts_size (octet bs (List.length H + 2)) = q).
        { unfold gts_size, q. rewrite Og. replace (N.of_nat k =? 0) with (k =? 0)%nat by lia. destruct (k =? 0)%nat; lia. }
        assert (Mk : forall i, mask (List.length H + i)%nat =
          if (i =? 1)%nat then 2 ^ 5 else if (i =? 2)%nat then 120
          else if (i =? 3)%nat && negb (k =? 0)%nat then 2 ^ 8 - 2 ^ N.of_nat k
          else if (i =? 2 + q)%nat then 136 else 0).
        { intros i. unfold mask, reserved_bits. rewrite <- HN, HT, <- FC, Gs, Og.
          replace (List.length H + i =? 0)%nat with false by lia.
          replace (List.length H + i =? List.length H + 1)%nat with (i =? 1)%nat by lia.
          replace (List.length H + i =? List.length H + 2)%nat with (i =? 2)%nat by lia.
          replace (List.length H + i =? List.length H + 3)%nat with (i =? 3)%nat by lia.
          replace (List.length H + i =? List.length H + 2 + q)%nat with (i =? 2 + q)%nat by lia.
          replace (N.of_nat k =? 0) with (k =? 0)%nat by lia. reflexivity. }
        rewrite (agree_beacon _ b br y CC (conj RF1 RF2) Hy); rewrite ?Mk; try reflexivity.
        + split; [intros (r' & B & ->); exists r', mr; auto|intros (r' & _ & B & ->); exists r'; auto].
        + fold k. intros ->. reflexivity.
        + fold k q. intros i Hi. rewrite Mk.
          replace (i =? 1)%nat with false by lia. replace (i =? 2)%nat with false by lia. replace (i =? 3)%nat with false by lia.
          replace (i =? 2 + q)%nat with false by lia. reflexivity.
        + fold k q. replace (2 + q =? 1)%nat with false by lia.
          replace (2 + q =? 2)%nat with false by (unfold q; destruct (k =? 0)%nat; lia).
          replace ((2 + q =? 3)%nat && negb (k =? 0)%nat) with false by (unfold q; destruct (k =? 0)%nat eqn:?; lia).
          now rewrite Nat.eqb_refl.
        + fold k q. intros i Hi. rewrite Mk. assert (1 <= q)%nat by (unfold q; destruct (k =? 0)%nat; lia).
          replace (i =? 1)%nat with false by lia. replace (i =? 2)%nat with false by lia. replace (i =? 3)%nat with false by lia.
          replace (i =? 2 + q)%nat with false by lia. reflexivity.
      - assert (Oc : octet bs (List.length H) = octet (wire_command mr cmd) 0).
        { replace (List.length H) with (List.length H + 0)%nat by lia. rewrite EB, octet_app_r'.
          apply octet_app_l'. apply command_id_octet. }
        assert (Mk : forall i, mask (List.length H + i)%nat =
          if (i =? 1)%nat then match octet (wire_command mr cmd) 0 with 1 => 49 | 9 => 192 | _ => 0 end else 0).
        { intros i. unfold mask, reserved_bits. rewrite <- HN, HT, <- FC, Oc.
          replace (List.length H + i =? 0)%nat with false by lia.
          replace (List.length H + i =? List.length H + 1)%nat with (i =? 1)%nat by lia. reflexivity. }
        rewrite agree_command; [|exact Hy|now rewrite Mk|now rewrite Mk|].
        + split; [intros (mr' & ->); exists br, mr'; auto|intros (_ & mr' & _ & ->); now exists mr'].
        + intros i Hi. rewrite Mk. now replace (i =? 1)%nat with false by lia. }
    assert (PT : forall z, agree_outside (fun i => mask (List.length H + List.length (wire_content br mr (content f)) + i)%nat) T z <-> z = T).
    { intros z. apply agree_same. intros i _. clear Split PH PC.
      unfold mask, reserved_bits. rewrite <- HN, HT, <- FC.
      replace (List.length H + List.length (wire_content br mr (content f)) + i =? 0)%nat with false by lia.
      destruct (content f) as [b| | |cmd| | |] eqn:Ct; cbn [wire_content content_type reserved_fit] in *; try reflexivity.
      - pose proof CC as (_ & Hg & Hp). destruct RF as [RF1 RF2].
        set (k := gts_slot_count (guaranteed_time_slot_info b)) in *.
        assert (K7 : (k <= 7)%nat) by (destruct Hg as [? _]; assumption).
        set (q := if (k =? 0)%nat then 1%nat else (2 + 3 * k)%nat).
        assert (Og : octet bs (List.length H + 2) mod 8 = N.of_nat k).
        { rewrite EB, octet_app_r'. unfold wire_beacon. rewrite <- app_assoc.
          change 2%nat with (List.length (wire_superframe (br_superframe br) (superframe_spec b)) + 0)%nat.
          rewrite octet_app_r', <- app_assoc, octet_app_l'.
          - now apply wire_gts_first.
          - unfold wire_gts. cbn [List.app List.length]. lia. }
        assert (Gs : gts_size (octet bs (List.length H + 2)) = q).
        { unfold gts_size, q. rewrite Og. replace (N.of_nat k =? 0) with (k =? 0)%nat by lia. destruct (k =? 0)%nat; lia. }
        rewrite Gs.
        assert (Lb : (2 + q < List.length (wire_beacon br b))%nat).
        { unfold wire_beacon. rewrite !app_length, wire_gts_length by exact Hg. fold k q.
          unfold wire_superframe, wire_pending. cbn [List.app List.length]. lia. }
        assert (Q : (1 <= q)%nat) by (unfold q; destruct (k =? 0)%nat; lia).
        repeat match goal with |- context [(?a =? ?b)%nat] => replace (a =? b)%nat with false by lia end. reflexivity.
      - replace (List.length H + List.length (wire_command mr cmd) + i =? List.length H + 1)%nat
          with (List.length (wire_command mr cmd) + i =? 1)%nat by lia.
        destruct (List.length (wire_command mr cmd) + i =? 1)%nat eqn:X; [|reflexivity].
        replace (octet bs (List.length H)) with (octet (wire_command mr cmd) 0).
        + destruct cmd; cbn [wire_command List.length List.app] in *; try reflexivity; lia.
        + symmetry. replace (List.length H) with (List.length H + 0)%nat by lia. rewrite EB, octet_app_r'.
          apply octet_app_l'. apply command_id_octet. }
    split.
    - intros (x & y & z & -> & A & B & D). apply octets_app in Hb'. destruct Hb' as [Hx Hyz]. apply octets_app in Hyz. destruct Hyz as [Hy _].
      apply PH in A; [|exact Hx]. apply PC in B; [|exact Hy]. apply PT in D.
      destruct A as (r' & ->). destruct B as (br' & mr' & F & ->). subst z. now exists r', br', mr'.
    - intros (r' & br' & mr' & F & ->). apply octets_app in Hb'. destruct Hb' as [Hx Hyz]. apply octets_app in Hyz. destruct Hyz as [Hy _].
      eexists _, _, _. split; [reflexivity|]. split; [apply PH; eauto|]. split; [apply PC; eauto|now apply PT]. }
  fold mask. split.
  - intros R'. pose proof (proj1 (C19_frame_read_exact c m bs' f n Hb' Hc) R') as (_ & (_ & _ & _ & _ & _ & _ & r' & br' & mr' & F & E)).
    apply Parts. now exists r', br', mr'.
  - intros A. apply (C19_frame_read_exact c m bs' f n Hb' Hc). split.
    + destruct A as [L _]. congruence.
    + repeat (split; [assumption|]). apply Parts in A. destruct A as (r' & br' & mr' & F & E). now exists r', br', mr'.
Qed.

Lemma flip_length i b bs : List.length (flip_bit i b bs) = List.length bs.
Proof.
  unfold flip_bit. rewrite <- (firstn_skipn i bs) at 3. rewrite !app_length. f_equal.
  now destruct (skipn i bs).
Qed.
Lemma flip_octet i b bs j : (i < List.length bs)%nat ->
  octet (flip_bit i b bs) j = if (j =? i)%nat then N.lxor (octet bs i) (2 ^ b) else octet bs j.
Proof.
  intros Hi. unfold flip_bit. assert (L : List.length (firstn i bs) = i) by (rewrite firstn_length; lia).
  destruct (skipn i bs) as [|x r] eqn:E.
  { exfalso. assert (List.length (skipn i bs) = 0%nat) by now rewrite E. rewrite skipn_length in *. lia. }
  assert (Eb : bs = firstn i bs ++ x :: r) by (rewrite <- E; now rewrite firstn_skipn).
  assert (Ei : octet bs i = x).
  { rewrite Eb. rewrite <- L at 2. replace (List.length (firstn i bs)) with (List.length (firstn i bs) + 0)%nat by lia. apply octet_app_r'. }
  rewrite Ei. rewrite Eb at 2. destruct (j =? i)%nat eqn:J.
  - assert (j = i) by lia. subst j. rewrite <- L at 2. replace (List.length (firstn i bs)) with (List.length (firstn i bs) + 0)%nat by lia. apply octet_app_r'.
  - destruct (Nat.lt_ge_cases j i).
    + rewrite !octet_app_l' by lia. reflexivity.
    + replace j with (List.length (firstn i bs) + S (j - i - 1))%nat by lia. now rewrite !octet_app_r'.
Qed.
Lemma flip_octets i b bs : octets bs -> b < 8 -> octets (flip_bit i b bs).
Proof.
  intros H Hb. unfold flip_bit. apply octets_app. split; [now apply octets_firstn|].
  apply (octets_skipn i) in H. destruct (skipn i bs) as [|x r]; [constructor|].
  apply octets_cons in H. destruct H as [Hx Hr]. apply octets_cons. split; [|exact Hr].
  assert (S : forall x, x < 256 -> forallb (fun b => N.lxor x (2 ^ b) <? 256) (below 8) = true)
    by (refine (sweep 256 _ _); vm_compute; reflexivity).
  specialize (S x Hx). rewrite forallb_forall in S. specialize (S b (in_below 8 b Hb)). now apply N.ltb_lt.
Qed.
Lemma ldiff_flip x mask b : N.ldiff x mask = N.ldiff (N.lxor x (2 ^ b)) mask <-> N.testbit mask b = true.
Proof.
  split.
  - intros E. apply (f_equal (fun z => N.testbit z b)) in E. rewrite !N.ldiff_spec, N.lxor_spec, N.pow2_bits_true in E.
    destruct (N.testbit x b), (N.testbit mask b); cbn in E; congruence.
  - intros E. apply N.bits_inj. intros j. rewrite !N.ldiff_spec, N.lxor_spec.
    destruct (N.eq_dec j b) as [->|Hn]; [rewrite E, !andb_false_r; reflexivity|].
    rewrite N.pow2_bits_false by congruence. now rewrite xorb_false_r.
Qed.

(** Inverting one bit of a readable frame leaves the result alone exactly if the bit is
    reserved. *)
Theorem C80_one_bit : forall m bs f n i b, octets bs -> cfg_ok c ->
  try_read_frame c m bs = Ok (f, n) -> (i < List.length bs)%nat -> b < 8 ->
  (try_read_frame c m (flip_bit i b bs) = Ok (f, n) <-> N.testbit (reserved_bits bs i) b = true).
Proof.
  intros m bs f n i b Hb Hc R Hi Hb8.
  rewrite (C80_ignored_bits m bs (flip_bit i b bs) f n Hb (flip_octets i b bs Hb Hb8) Hc R).
  rewrite <- (ldiff_flip (octet bs i)). split.
  - intros [_ A]. specialize (A i Hi). rewrite flip_octet, Nat.eqb_refl in A by assumption. exact A.
  - intros E. split; [now rewrite flip_length|]. intros j Hj. rewrite flip_octet by assumption.
    destruct (j =? i)%nat eqn:J; [|reflexivity]. assert (j = i) by lia. subst j. exact E.
Qed.

(** In particular no octet of header fields, addresses, payload or footer is ignored: of a frame
    that is neither a beacon nor a command only bit 7 of the first octet is. *)
Corollary C80_data_frames : forall m bs bs' f n, octets bs -> octets bs' -> cfg_ok c ->
  try_read_frame c m bs = Ok (f, n) ->
  frame_type (header f) <> Beacon_t -> frame_type (header f) <> MacCommand_t ->
  (try_read_frame c m bs' = Ok (f, n) <-> bs' = bs \/ bs' = flip_bit 0 7 bs).
Proof.
  intros m bs bs' f n Hb Hb' Hc R T1 T2.
  assert (Hh : exists h k, try_read_header c bs = Ok (h, k) /\ header f = h).
  { pose proof (proj1 (C19_frame_read_exact c m bs f n Hb Hc) R) as (En & (Aux & HD & _ & _ & _ & _ & r7 & br & mr & RF & EB)).
    exists (header f), (List.length (wire_header LE LE r7 0 (header f))). split; [|reflexivity].
    apply (C03_header_decode_exact c bs (header f) _ Hb). split; [exact HD|]. split.
    - rewrite EB, app_length. lia.
    - exists r7, 0. split; [reflexivity|]. rewrite EB, firstn_app_exact. now apply wire_header_plain. }
  destruct Hh as (h & k & Hh & Eh). destruct (header_need_eq c bs _ _ Hb Hh) as (HN & HT & _ & HV).
  assert (L3 : (3 <= List.length bs)%nat).
  { unfold header_verdict in HV. destruct (List.length bs <? 3)%nat eqn:X; [discriminate|lia]. }
  assert (M : forall i, reserved_bits bs i = if (i =? 0)%nat then 128 else 0).
  { intros i. unfold reserved_bits. destruct (i =? 0)%nat; [reflexivity|]. rewrite HT, <- Eh.
    destruct (frame_type (header f)); try reflexivity; contradiction. }
  rewrite (C80_ignored_bits m bs bs' f n Hb Hb' Hc R). split.
  - intros [L A].
    assert (A0 : N.ldiff (octet bs 0) 128 = N.ldiff (octet bs' 0) 128) by (specialize (A 0%nat ltac:(lia)); now rewrite M in A).
    assert (Ai : forall i, (0 < i < List.length bs)%nat -> octet bs' i = octet bs i).
    { intros i Hi. specialize (A i ltac:(lia)). rewrite M in A. replace (i =? 0)%nat with false in A by lia.
      rewrite !N.ldiff_0_r in A. now symmetry. }
    assert (P : octet bs' 0 = octet bs 0 \/ octet bs' 0 = N.lxor (octet bs 0) 128).
    { assert (S : forall x, x < 256 -> forallb (fun y => implb (N.ldiff x 128 =? N.ldiff y 128) ((y =? x) || (y =? N.lxor x 128))) (below 256) = true)
        by (refine (sweep 256 _ _); vm_compute; reflexivity).
      specialize (S (octet bs 0) (octets_octet bs 0 Hb)). rewrite forallb_forall in S.
      specialize (S (octet bs' 0) (in_below 256 _ (octets_octet bs' 0 Hb'))). rewrite A0, N.eqb_refl in S. cbn [implb] in S. lia. }
    assert (Ext : forall u v : list N, List.length u = List.length v ->
       (forall i, (i < List.length u)%nat -> octet u i = octet v i) -> u = v).
    { intros u v Luv Huv. apply (nth_ext u v 0 0 Luv). exact Huv. }
    destruct P as [P|P]; [left|right]; apply Ext; rewrite ?flip_length; try lia; intros i Hi.
    + destruct i; [exact P|apply Ai; lia].
    + rewrite flip_octet by lia. destruct i; [exact P|apply Ai; lia].
  - intros [->| ->]; (split; [now rewrite ?flip_length|]); intros i Hi; [reflexivity|].
    rewrite M, flip_octet by lia. destruct (i =? 0)%nat eqn:I; [|reflexivity]. assert (i = 0%nat) by lia. subst i.
    apply ldiff_flip. reflexivity.
Qed.
End Ignored.

(** * Concrete cases *)

(** A beacon with one GTS slot and one pending short address; its reserved bits. *)
Example a_beacon : let bs := [0x00; 0x80; 7; 0x34; 0x12; 0xaa; 0xbb; 0xff; 0xcf; 0x81; 1; 0x22; 0x11; 0x35; 1; 0x44; 0x33; 9; 9] in
  exists f, try_read_frame {| overflow_checks := true; native := LE; usize_bits := 64 |} Footer_None bs = Ok (f, 19%nat) /\
    map (reserved_bits bs) (List.seq 0 19)
    = [128; 0; 0; 0; 0; 0; 0; 0; 32; 120; 254; 0; 0; 0; 136; 0; 0; 0; 0].
Proof. eexists. split; vm_compute; reflexivity. Qed.
(** An association request. *)
Example a_request : let bs := [0x23; 0xc8; 7; 0x34; 0x12; 0xaa; 0xbb; 0xff; 0xff; 1; 2; 3; 4; 5; 6; 7; 8; 1; 0x80] in
  exists f, try_read_frame {| overflow_checks := true; native := LE; usize_bits := 64 |} Footer_None bs = Ok (f, 19%nat) /\
    map (reserved_bits bs) (List.seq 0 19)
    = [128; 0; 0; 0; 0; 0; 0; 0; 0; 0; 0; 0; 0; 0; 0; 0; 0; 0; 49].
Proof. eexists. split; vm_compute; reflexivity. Qed.
