(** Property C83: hashing and [==] fit together, so the crate's values can be keys of hash tables. *)
From Coq Require Import List Arith NArith ZArith Bool Lia ZifyBool ZifyNat ZifyN.
From Verif Require Import ByteCrate Types FrameModel EqModel HashModel Spec ProofLib RepoTests PropEq PropSecure.
Import ListNotations.
Open Scope N_scope.
Open Scope list_scope.

(** * Specification *)

(** What the values feed a hasher tells them apart, also when more follows (another field, another
    component of the key). *)
Definition tells_apart {A} (P : A -> Prop) (h : A -> list N) : Prop :=
  forall x y more more', P x -> P y -> h x ++ more = h y ++ more' -> x = y /\ more = more'.

(** A slice length fits an usize. *)
Definition fits_usize (c : cfg) (n : nat) : Prop := N.of_nat n < 256 ^ (usize_bits c / 8).

(** * Proofs *)

Lemma app_same_length {A} (a b r s : list A) : List.length a = List.length b -> a ++ r = b ++ s -> a = b /\ r = s.
Proof.
  revert b. induction a as [|x a IH]; intros [|y b] L H; try discriminate L; [now split|].
  cbn in H. injection H as -> H. injection L as L. destruct (IH b L H) as [-> ->]. now split.
Qed.

Section Apart.
Variable c : cfg.
Hypothesis Hc : cfg_ok c.

Lemma apart_uint size : tells_apart (fun v => v < 256 ^ N.of_nat size) (hash_uint c size).
Proof.
  intros x y r s Hx Hy H. unfold hash_uint in H. rewrite !num_bytes_spec in H.
  apply app_same_length in H; [|now rewrite !in_order_length]. destruct H as [H ->]. split; [|reflexivity].
  rewrite <- (num_val_in_order (native c) size x Hx), <- (num_val_in_order (native c) size y Hy). now rewrite H.
Qed.
Lemma apart_u8 : tells_apart u8_ok (hash_uint c 1).
Proof. exact (apart_uint 1). Qed.
Lemma apart_u16 : tells_apart u16_ok (hash_uint c 2).
Proof. exact (apart_uint 2). Qed.
Lemma apart_u32 : tells_apart u32_ok (hash_uint c 4).
Proof. exact (apart_uint 4). Qed.
Lemma apart_u64 : tells_apart u64_ok (hash_uint c 8).
Proof. exact (apart_uint 8). Qed.
Lemma word_small v : v < 2 ^ 16 -> v < 256 ^ N.of_nat (word_octets c).
Proof using Hc.
  intros H. unfold word_octets. rewrite N2Nat.id. apply N.lt_le_trans with (256 ^ 2); [exact H|].
  apply N.pow_le_mono_r; [discriminate|]. unfold cfg_ok in Hc. change 2 with (16 / 8). apply N.div_le_mono; [discriminate|exact Hc].
Qed.
Lemma apart_usize : tells_apart (fun v => v < 256 ^ (usize_bits c / 8)) (hash_usize c).
Proof.
  intros x y r s Hx Hy. apply (apart_uint (word_octets c)); unfold word_octets; rewrite N2Nat.id; assumption.
Qed.
Lemma disc x y r s : x < 2 ^ 16 -> y < 2 ^ 16 -> hash_discriminant c x ++ r = hash_discriminant c y ++ s -> x = y /\ r = s.
Proof using Hc. intros Hx Hy. apply (apart_uint (word_octets c)); now apply word_small. Qed.
Lemma disc_end x y s : x < 2 ^ 16 -> y < 2 ^ 16 -> hash_discriminant c x = hash_discriminant c y ++ s -> x = y /\ [] = s.
Proof using Hc. intros Hx Hy H. apply (disc x y [] s Hx Hy). now rewrite app_nil_r. Qed.
Lemma small_fits n : (n < 256)%nat -> N.of_nat n < 256 ^ (usize_bits c / 8).
Proof using Hc.
  intros H. pose proof (word_small (N.of_nat n)) as W. unfold word_octets in W. rewrite N2Nat.id in W. apply W.
  change (2 ^ 16) with 65536. lia.
Qed.

(** An enumeration given by its discriminants. *)
Lemma apart_enum {A} (f : A -> N) : (forall x, f x < 2 ^ 16) -> (forall x y, f x = f y -> x = y) ->
  tells_apart (fun _ => True) (fun x => hash_discriminant c (f x)).
Proof using Hc. intros B I x y r s _ _ H. apply disc in H; [|apply B..]. destruct H as [H ->]. split; [now apply I|reflexivity]. Qed.
Lemma apart_bool : tells_apart (fun _ => True) (hash_bool c).
Proof.
  intros x y r s _ _ H. unfold hash_bool in H. apply apart_u8 in H; [|destruct x; reflexivity|destruct y; reflexivity].
  destruct H as [H ->]. split; [destruct x, y; congruence|reflexivity].
Qed.
Lemma apart_option {A} (P : A -> Prop) h : tells_apart P h -> tells_apart (opt_ok P) (hash_option c h).
Proof using Hc.
  intros Hh [x|] [y|] r s Px Py H; cbn [hash_option opt_ok] in *; rewrite <- ?app_assoc in H;
    (apply disc in H; [|reflexivity..]); destruct H as [E H]; try discriminate E.
  - apply Hh in H; [|assumption..]. destruct H as [-> ->]. now split.
  - now split.
Qed.
Lemma apart_slice {A} (P : A -> Prop) h : tells_apart P h ->
  tells_apart (fun l => Forall P l /\ fits_usize c (List.length l)) (hash_slice c h).
Proof.
  intros Hh x y r s [Px Lx] [Py Ly] H. unfold hash_slice in H. rewrite <- !app_assoc in H.
  apply apart_usize in H; [|exact Lx|exact Ly]. destruct H as [L H]. apply Nat2N.inj in L. clear Lx Ly.
  revert y Py L H. induction x as [|a x IH]; intros [|b y] Py L H; try discriminate L; [now split|].
  cbn [flat_map] in H. rewrite <- !app_assoc in H. inversion Px; subst. inversion Py; subst.
  apply Hh in H; [|assumption..]. destruct H as [-> H]. injection L as L.
  destruct (IH ltac:(assumption) y ltac:(assumption) L H) as [-> ->]. now split.
Qed.

Ltac step lem H := apply lem in H; [destruct H as [? H]|try exact I..].

Lemma apart_frame_type : tells_apart (fun _ => True) (hash_frame_type c).
Proof using Hc. apply apart_enum; [intros []; reflexivity|intros [] []; (reflexivity || discriminate)]. Qed.
Lemma apart_frame_version : tells_apart (fun _ => True) (hash_frame_version c).
Proof using Hc. apply apart_enum; [intros []; reflexivity|intros [] []; (reflexivity || discriminate)]. Qed.
Lemma apart_security_level : tells_apart (fun _ => True) (hash_security_level c).
Proof using Hc. apply apart_enum; [intros []; reflexivity|intros [] []; (reflexivity || discriminate)]. Qed.
Lemma apart_key_id_mode : tells_apart (fun _ => True) (hash_key_id_mode c).
Proof using Hc. apply apart_enum; [intros []; reflexivity|intros [] []; (reflexivity || discriminate)]. Qed.
Lemma apart_direction : tells_apart (fun _ => True) (hash_direction c).
Proof using Hc. apply apart_enum; [intros []; reflexivity|intros [] []; (reflexivity || discriminate)]. Qed.
Lemma apart_status : tells_apart (fun _ => True) (hash_association_status c).
Proof using Hc. apply apart_enum; [intros []; reflexivity|intros [] []; (reflexivity || discriminate)]. Qed.
Lemma apart_reason : tells_apart (fun _ => True) (hash_disassociation_reason c).
Proof using Hc. apply apart_enum; [intros []; reflexivity|intros [] []; (reflexivity || discriminate)]. Qed.

Lemma apart_address : tells_apart address_ok (hash_address c).
Proof using Hc.
  intros [p a|p a] [q b|q b] r s [Hp Ha] [Hq Hb] H; cbn [hash_address] in H; rewrite <- !app_assoc in H;
    (apply disc in H; [|reflexivity..]); destruct H as [E H]; try discriminate E;
    step apart_u16 H; try assumption; [step apart_u16 H|step apart_u64 H]; try assumption; subst; now split.
Qed.
Lemma apart_security_control : tells_apart (fun _ => True) (hash_security_control c).
Proof using Hc.
  intros [l m] [l' m'] r s _ _ H. unfold hash_security_control in H. cbn in H. rewrite <- !app_assoc in H.
  step apart_security_level H. step apart_key_id_mode H. subst. now split.
Qed.
Lemma apart_key_source : tells_apart
  (fun k => match k with KS_Short v => u32_ok v | KS_Long v => u64_ok v end) (hash_key_source c).
Proof using Hc.
  intros [a|a] [b|b] r s Ha Hb H; cbn [hash_key_source] in H; rewrite <- !app_assoc in H;
    (apply disc in H; [|reflexivity..]); destruct H as [E H]; try discriminate E;
    [step apart_u32 H|step apart_u64 H]; try assumption; subst; now split.
Qed.
Lemma apart_key_identifier : tells_apart key_identifier_ok (hash_key_identifier c).
Proof using Hc.
  intros [k i] [k' i'] r s [Hi Hk] [Hi' Hk'] H. unfold hash_key_identifier in H. cbn in *. rewrite <- !app_assoc in H.
  step (apart_option _ _ apart_key_source) H; [|destruct k as [[|]|]; exact Hk|destruct k' as [[|]|]; exact Hk'].
  step apart_u8 H; try assumption. subst. now split.
Qed.
Lemma apart_aux : tells_apart aux_ok (hash_aux_header c).
Proof using Hc.
  intros [x f k] [x' f' k'] r s [Hf Hk] [Hf' Hk'] H. unfold hash_aux_header in H. cbn in *. rewrite <- !app_assoc in H.
  step apart_security_control H. step apart_u32 H; try assumption.
  step (apart_option _ _ apart_key_identifier) H; try assumption. subst. now split.
Qed.
Lemma apart_header : tells_apart header_ok (hash_header c).
Proof using Hc.
  intros [x1 x2 x3 x4 x5 x6 x7 x8 x9 x10 x11] [y1 y2 y3 y4 y5 y6 y7 y8 y9 y10 y11] r s
    (H8 & H9 & H10 & H11) (K8 & K9 & K10 & K11) H. unfold hash_header in H.
  cbn [frame_type frame_pending ack_request pan_id_compress seq_no_suppress ie_present version seq destination source
       auxiliary_security_header] in *. rewrite <- !app_assoc in H.
  step apart_frame_type H. do 5 step apart_bool H. step apart_frame_version H. step apart_u8 H; try assumption.
  do 2 (step (apart_option _ _ apart_address) H; try assumption).
  step (apart_option _ _ apart_aux) H; try assumption. subst. now split.
Qed.

Lemma apart_beacon_order : tells_apart (fun x => u8_ok (beacon_order_u8 x)) (hash_beacon_order c).
Proof using Hc.
  intros [a|] [b|] r s Ha Hb H; cbn [hash_beacon_order] in H; rewrite <- ?app_assoc in H;
    (apply disc in H; [|reflexivity..]); destruct H as [E H]; try discriminate E.
  - step apart_u8 H; try assumption. subst. now split.
  - now split.
Qed.
Lemma apart_superframe_order : tells_apart (fun x => u8_ok (superframe_order_u8 x)) (hash_superframe_order c).
Proof using Hc.
  intros [a|] [b|] r s Ha Hb H; cbn [hash_superframe_order] in H; rewrite <- ?app_assoc in H;
    (apply disc in H; [|reflexivity..]); destruct H as [E H]; try discriminate E.
  - step apart_u8 H; try assumption. subst. now split.
  - now split.
Qed.
Lemma apart_superframe : tells_apart superframe_ok (hash_superframe c).
Proof using Hc.
  intros [a b x d e f] [a' b' x' d' e' f'] r s (H1 & H2 & H3) (K1 & K2 & K3) H. unfold hash_superframe in H.
  cbn in *. rewrite <- !app_assoc in H.
  step apart_beacon_order H; [|destruct a; exact H1|destruct a'; exact K1].
  step apart_superframe_order H; [|destruct b; exact H2|destruct b'; exact K2].
  step apart_u8 H; try assumption. do 3 step apart_bool H. subst. now split.
Qed.
Lemma apart_gts_descriptor : tells_apart gts_descriptor_ok (hash_gts_descriptor c).
Proof using Hc.
  intros [a b x d] [a' b' x' d'] r s (H1 & H2 & H3) (K1 & K2 & K3) H. unfold hash_gts_descriptor in H.
  cbn in *. rewrite <- !app_assoc in H. unfold gts_descriptor_ok in *.
  assert (S : forall v, v < 16 -> u8_ok v) by (intros v Hv; unfold u8_ok; change (2 ^ 8) with 256; lia).
  step apart_u16 H; try assumption. do 2 (step apart_u8 H; [|now apply S..]). step apart_direction H. subst. now split.
Qed.
Lemma gts_array g : gts_reachable g -> Forall gts_descriptor_ok (gts_slots g) /\ fits_usize c (List.length (gts_slots g))
  /\ (gts_slot_count g < 256)%nat.
Proof using Hc.
  intros (H & slots & L & F & E). rewrite E. split; [|split].
  - apply Forall_app. split; [exact F|]. apply Forall_forall. intros d Hd. apply repeat_spec in Hd. subst d. repeat split; reflexivity.
  - rewrite app_length, repeat_length. apply small_fits. lia.
  - lia.
Qed.
Lemma apart_gts_information : tells_apart gts_reachable (hash_gts_information c).
Proof using Hc.
  intros x y r s Hx Hy H. apply gts_array in Hx. apply gts_array in Hy. destruct Hx as (A & B & C), Hy as (A' & B' & C').
  destruct x as [p n l], y as [p' n' l']. unfold hash_gts_information in H. cbn in *. rewrite <- !app_assoc in H.
  step apart_bool H. step apart_usize H; [|now apply small_fits..].
  step (apart_slice _ _ apart_gts_descriptor) H; [|now split..].
  assert (n = n') by lia. subst. now split.
Qed.
Lemma pending_arrays p : pending_reachable p ->
  (Forall u16_ok (short_addresses p) /\ fits_usize c (List.length (short_addresses p))) /\
  (Forall u64_ok (extended_addresses p) /\ fits_usize c (List.length (extended_addresses p))) /\
  (short_address_count p < 256)%nat /\ (extended_address_count p < 256)%nat.
Proof using Hc.
  intros (H1 & H2 & (l & L & F & E) & (m & M & G & E')). rewrite E, E'. repeat split; try lia.
  - apply Forall_app. split; [exact F|]. apply Forall_forall. intros d Hd. apply repeat_spec in Hd. subst d. reflexivity.
  - rewrite app_length, repeat_length. apply small_fits. lia.
  - apply Forall_app. split; [exact G|]. apply Forall_forall. intros d Hd. apply repeat_spec in Hd. subst d. reflexivity.
  - rewrite app_length, repeat_length. apply small_fits. lia.
Qed.
Lemma apart_pending : tells_apart pending_reachable (hash_pending c).
Proof using Hc.
  intros x y r s Hx Hy H. apply pending_arrays in Hx. apply pending_arrays in Hy.
  destruct Hx as (A & B & C & D), Hy as (A' & B' & C' & D').
  destruct x as [n l m k], y as [n' l' m' k']. unfold hash_pending in H. cbn in *. rewrite <- !app_assoc in H.
  step apart_usize H; [|now apply small_fits..]. step (apart_slice _ _ apart_u16) H; try assumption.
  step apart_usize H; [|now apply small_fits..]. step (apart_slice _ _ apart_u64) H; try assumption.
  assert (n = n') by lia. assert (m = m') by lia. subst. now split.
Qed.
Lemma apart_beacon : tells_apart beacon_ok (hash_beacon c).
Proof using Hc.
  intros [a b d] [a' b' d'] r s (H1 & H2 & H3) (K1 & K2 & K3) H. unfold hash_beacon in H. cbn in *. rewrite <- !app_assoc in H.
  step apart_superframe H; try assumption. step apart_gts_information H; try assumption.
  step apart_pending H; try assumption. subst. now split.
Qed.

Lemma apart_capability : tells_apart (fun _ => True) (hash_capability c).
Proof.
  intros [a b d e f] [a' b' d' e' f'] r s _ _ H. unfold hash_capability in H. cbn in H. rewrite <- !app_assoc in H.
  do 5 step apart_bool H. subst. now split.
Qed.
Lemma apart_command : tells_apart command_ok (hash_command c).
Proof using Hc.
  intros x y r s Hx Hy H.
  destruct x, y; cbn [hash_command] in H; rewrite <- ?app_assoc in H;
    (apply disc in H; [|reflexivity..]); destruct H as [E H]; try discriminate E; clear E; cbn [command_ok] in *;
    try (subst; now split).
  - step apart_capability H. subst. now split.
  - step apart_u16 H; try assumption. step apart_status H. subst. now split.
  - step apart_reason H. subst. now split.
  - match type of H with hash_realignment _ ?u ++ _ = hash_realignment _ ?v ++ _ => destruct u as [a b d e f], v as [a' b' d' e' f'] end.
    unfold hash_realignment in H. cbn in *. rewrite <- !app_assoc in H.
    destruct Hx as (? & ? & ? & ? & ?), Hy as (? & ? & ? & ? & ?).
    do 2 (step apart_u16 H; try assumption). step apart_u8 H; try assumption. step apart_u16 H; try assumption.
    step (apart_option _ _ apart_u8) H; try assumption. subst. now split.
  - match type of H with hash_gtsc _ ?u ++ _ = hash_gtsc _ ?v ++ _ => destruct u as [a b d], v as [a' b' d'] end.
    unfold hash_gtsc in H. cbn in *. rewrite <- !app_assoc in H.
    step apart_u8 H; try assumption. do 2 step apart_bool H. subst. now split.
Qed.
Lemma apart_content : tells_apart content_ok (hash_content c).
Proof using Hc.
  intros x y r s Hx Hy H.
  destruct x, y; cbn [hash_content] in H; rewrite <- ?app_assoc in H;
    (apply disc in H; [|reflexivity..]); destruct H as [E H]; try discriminate E; clear E; cbn [content_ok] in *;
    try (subst; now split).
  - step apart_beacon H; try assumption. subst. now split.
  - step apart_command H; try assumption. subst. now split.
Qed.
Lemma apart_frame : tells_apart (fun f => frame_ok f /\ fits_usize c (List.length (payload f))) (hash_frame c).
Proof using Hc.
  intros [h ct p [f1 f2]] [h' ct' p' [f1' f2']] r s [(H1 & H2 & H3 & H4 & H5) L] [(K1 & K2 & K3 & K4 & K5) L'] H.
  unfold hash_frame in H. cbn [header content payload footer fst snd] in *. rewrite <- !app_assoc in H.
  step apart_header H; try assumption. step apart_content H; try assumption.
  step (apart_slice _ _ apart_u8) H; [|now split..].
  step (apart_slice _ _ apart_u8) H.
  - assert (f1 = f1') by congruence. assert (f2 = f2') by congruence. subst. now split.
  - split; [repeat constructor; assumption|apply small_fits; cbn; lia].
  - split; [repeat constructor; assumption|apply small_fits; cbn; lia].
Qed.
End Apart.

(** What the Hash trait demands of keys: values that are [==] hash alike. *)
Theorem C83_equal_values_hash_alike : forall c,
  (forall x y, address_eqb x y = true -> hash_address c x = hash_address c y) /\
  (forall x y, aux_header_eqb x y = true -> hash_aux_header c x = hash_aux_header c y) /\
  (forall x y, header_eqb x y = true -> hash_header c x = hash_header c y) /\
  (forall x y, beacon_eqb x y = true -> hash_beacon c x = hash_beacon c y) /\
  (forall x y, command_eqb x y = true -> hash_command c x = hash_command c y) /\
  (forall x y, content_eqb x y = true -> hash_content c x = hash_content c y) /\
  (forall x y, frame_eqb x y = true -> hash_frame c x = hash_frame c y).
Proof.
  intros c. destruct C75_eq_decides_equality as (F & H & A & X & C & B & M).
  repeat split; intros x y E.
  - now apply A in E as ->. - now apply X in E as ->. - now apply H in E as ->. - now apply B in E as ->.
  - now apply M in E as ->. - now apply C in E as ->. - now apply F in E as ->.
Qed.

(** Values that differ are told apart by what they feed a hasher, whatever is hashed after them:
    collisions are the hasher's. PanId and ShortAddress feed two octets, ExtendedAddress eight. *)
Theorem C83_different_values_feed_differently : forall c, cfg_ok c ->
  tells_apart u16_ok (hash_uint c 2) /\ tells_apart u64_ok (hash_uint c 8) /\
  tells_apart address_ok (hash_address c) /\ tells_apart aux_ok (hash_aux_header c) /\
  tells_apart header_ok (hash_header c) /\ tells_apart beacon_ok (hash_beacon c) /\
  tells_apart command_ok (hash_command c) /\ tells_apart content_ok (hash_content c) /\
  tells_apart (fun f => frame_ok f /\ fits_usize c (List.length (payload f))) (hash_frame c).
Proof.
  intros c Hc.
  split; [exact (apart_u16 c)|]. split; [exact (apart_u64 c)|]. split; [exact (apart_address c Hc)|].
  split; [exact (apart_aux c Hc)|]. split; [exact (apart_header c Hc)|]. split; [exact (apart_beacon c Hc)|].
  split; [exact (apart_command c Hc)|]. split; [exact (apart_content c Hc)|]. exact (apart_frame c Hc).
Qed.

(** So, for frames a program can hold, hashing the same octets and being [==] are the same; and a
    pair of addresses as a key is as good as one. *)
Corollary C83_hash_iff_equal : forall c f g, cfg_ok c -> frame_ok f -> frame_ok g ->
  fits_usize c (List.length (payload f)) -> fits_usize c (List.length (payload g)) ->
  (hash_frame c f = hash_frame c g <-> frame_eqb f g = true).
Proof.
  intros c f g Hc Hf Hg Lf Lg. split.
  - intros H. apply (proj1 C75_eq_decides_equality).
    apply (apart_frame c Hc f g [] []); [now split|now split|]. now rewrite !app_nil_r.
  - apply (C83_equal_values_hash_alike c).
Qed.
Corollary C83_address_pairs : forall c a b a' b', cfg_ok c ->
  address_ok a -> address_ok b -> address_ok a' -> address_ok b' ->
  (hash_address c a ++ hash_address c b = hash_address c a' ++ hash_address c b' <->
   address_eqb a a' = true /\ address_eqb b b' = true).
Proof.
  intros c a b a' b' Hc Ha Hb Ha' Hb'. pose proof (proj1 (proj2 (proj2 C75_eq_decides_equality))) as A.
  rewrite !A. split.
  - intros H. apply (apart_address c Hc) in H; [|assumption..]. destruct H as [-> H]. split; [reflexivity|].
    apply (apart_address c Hc b b' [] []); [assumption..|]. now rewrite !app_nil_r.
  - now intros [-> ->].
Qed.

(** Concrete: what an address and a frame feed a hasher on a 64-bit host, and on one with 16-bit
    words and the other byte order. *)
Definition small_host : cfg := {| overflow_checks := true; native := BE; usize_bits := 16 |}.
Example some_hashes :
  cfg_ok host /\ cfg_ok small_host /\ frame_ok doc_frame /\ fits_usize host (List.length (payload doc_frame)) /\
  hash_address host (Short 0x1234 0x5678) = [0;0;0;0;0;0;0;0; 0x34;0x12; 0x78;0x56] /\
  hash_address small_host (Extended 0x1234 0x0102030405060708) = [0;1; 0x12;0x34; 1;2;3;4;5;6;7;8] /\
  hash_address small_host (Short 0x1234 0x5678) <> hash_address small_host (Short 0x1234 0x5679) /\
  List.length (hash_frame host doc_frame) = 166%nat.
Proof.
  split; [discriminate|]. split; [discriminate|]. split; [exact doc_frame_ok|].
  vm_compute. repeat split. discriminate.
Qed.
