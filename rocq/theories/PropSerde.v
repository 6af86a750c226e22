(** C93: what serde (feature "serde") makes of addresses. *)
From Coq Require Import List Arith NArith ZArith Bool String Lia ZifyBool ZifyN.
From Verif Require Import ByteCrate Types Spec HeaderModel SerdeModel.
Import ListNotations.
Open Scope N_scope.
Open Scope list_scope.

(** Specification: a format that keeps what it was given shows it again like this. It may keep
    integers with or without sign, newtypes with or without their wrapping (or as a sequence), the
    variant by number or by name, and it may let a sequence go on. *)
Inductive shows : sval -> datum -> Prop :=
| shows_u16 v : v < 2 ^ 16 -> shows (S_u16 v) (D_unsigned v)
| shows_u16_signed v : v < 2 ^ 16 -> shows (S_u16 v) (D_signed (Z.of_N v))
| shows_u64 v : v < 2 ^ 64 -> shows (S_u64 v) (D_unsigned v)
| shows_u64_signed v : v < 2 ^ 64 -> shows (S_u64 v) (D_signed (Z.of_N v))
| shows_newtype n x d : shows x d -> shows (S_newtype n x) (D_newtype d)
| shows_newtype_seq n x d more : shows x d -> shows (S_newtype n x) (D_seq (d :: more))
| shows_variant e i v xs id ds more :
    id = D_unsigned i \/ id = D_str v \/ id = D_bytes v ->
    all_shown xs ds -> shows (S_tuple_variant e i v xs) (D_enum id (ds ++ more))
with all_shown : list sval -> list datum -> Prop :=
| shown_nil : all_shown [] []
| shown_cons x xs d ds : shows x d -> all_shown xs ds -> all_shown (x :: xs) (d :: ds).

Lemma uint_shown bits n v d : (bits = 16 /\ n = S_u16 v) \/ (bits = 64 /\ n = S_u64 v) ->
  (deserialize_uint bits d = inl v /\ v < 2 ^ bits <-> shows n d).
Proof.
  intros B. split.
  - intros [H L]. destruct d; cbn [deserialize_uint] in H; try discriminate.
    + destruct (v0 <? 2 ^ bits) eqn:R; inversion H; subst.
      destruct B as [[-> ->] | [-> ->]]; constructor; lia.
    + destruct ((0 <=? v0) && (v0 <? 2 ^ Z.of_N bits))%Z eqn:R; inversion H; subst.
      assert (E : D_signed v0 = D_signed (Z.of_N (Z.to_N v0))) by (f_equal; lia). rewrite E.
      destruct B as [[-> ->] | [-> ->]]; constructor; lia.
  - intros H. destruct B as [[-> ->] | [-> ->]]; inversion H; subst; (split; [|lia]); cbn [deserialize_uint];
      repeat match goal with |- context [if ?b then _ else _] => replace b with true by lia end;
      rewrite ?N2Z.id; reflexivity.
Qed.

Lemma deserialize_uint_range bits d v : deserialize_uint bits d = inl v -> v < 2 ^ bits.
Proof.
  destruct d; cbn [deserialize_uint]; try discriminate.
  - destruct (v0 <? 2 ^ bits) eqn:R; intros E; inversion E; subst. lia.
  - destruct ((0 <=? v0) && (v0 <? 2 ^ Z.of_N bits))%Z eqn:R; intros E; inversion E; subst.
    assert (Z.of_N (Z.to_N v0) < Z.of_N (2 ^ bits))%Z; [|lia].
    rewrite N2Z.inj_pow, Z2N.id by lia. change (Z.of_N 2) with 2%Z. lia.
Qed.

Lemma newtype_shown bits n name v d : (bits = 16 /\ n = S_u16 v) \/ (bits = 64 /\ n = S_u64 v) ->
  (deserialize_newtype bits d = inl v <-> shows (S_newtype name n) d).
Proof.
  intros B. split.
  - intros H. destruct d; cbn [deserialize_newtype] in H; try discriminate.
    + constructor. apply (uint_shown bits n v d B). split; [exact H|].
      exact (deserialize_uint_range _ _ _ H).
    + destruct ds as [|x r]; [discriminate|]. constructor. apply (uint_shown bits n v x B).
      split; [exact H|]. exact (deserialize_uint_range _ _ _ H).
  - intros H. inversion H; subst; cbn [deserialize_newtype]; now apply (uint_shown bits n v _ B).
Qed.

(** ** The newtypes *)

(** Deserializing a PanId, ShortAddress or ExtendedAddress gives a value exactly from what shows
    the serialization of that value. *)
Theorem C93_newtypes_exact : forall v d,
  (deserialize_pan_id d = inl v <-> shows (serialize_pan_id v) d) /\
  (deserialize_short d = inl v <-> shows (serialize_short v) d) /\
  (deserialize_extended d = inl v <-> shows (serialize_extended v) d).
Proof. intros v d. repeat split; apply newtype_shown; auto. Qed.

Lemma pair_shown {A} (second : datum -> dres A) (ser : A -> sval) p a ds :
  (forall y, second y = inl a <-> shows (ser a) y) ->
  deserialize_pair second ds = inl (p, a) <->
  exists sh more, ds = sh ++ more /\ all_shown [serialize_pan_id p; ser a] sh.
Proof.
  intros S2. split.
  - unfold deserialize_pair. destruct ds as [|x [|y r]]; try discriminate.
    + destruct (deserialize_pan_id x); discriminate.
    + destruct (deserialize_pan_id x) as [q|] eqn:X; [|discriminate].
      destruct (second y) as [b|] eqn:Y; [|discriminate]. intros E. inversion E; subst.
      exists [x; y], r. split; [reflexivity|]. repeat constructor.
      * now apply (C93_newtypes_exact p x).
      * now apply S2.
  - intros (sh & more & -> & H). inversion H as [|? ? x ? Hx H']; subst.
    inversion H' as [|? ? y ? Hy H'']; subst. inversion H''; subst. cbn [app deserialize_pair].
    apply (C93_newtypes_exact p x) in Hx. apply S2 in Hy. now rewrite Hx, Hy.
Qed.

Lemma variant_shown d (x : bool) :
  deserialize_variant d = inl x <->
  d = D_unsigned (if x then 1 else 0) \/ d = D_str (if x then "Extended" else "Short")
  \/ d = D_bytes (if x then "Extended" else "Short").
Proof.
  split.
  - destruct d; cbn [deserialize_variant]; try discriminate.
    + destruct (v =? 0) eqn:E0; [|destruct (v =? 1) eqn:E1; [|discriminate]]; intros E; inversion E; left;
        f_equal; lia.
    + destruct (String.eqb s "Short") eqn:E0; [|destruct (String.eqb s "Extended") eqn:E1; [|discriminate]];
        intros E; inversion E; right; left; f_equal; now apply String.eqb_eq.
    + destruct (String.eqb s "Short") eqn:E0; [|destruct (String.eqb s "Extended") eqn:E1; [|discriminate]];
        intros E; inversion E; right; right; f_equal; now apply String.eqb_eq.
  - destruct x; intros [-> | [-> | ->]]; reflexivity.
Qed.

(** ** Addresses *)

(** Deserializing gives an address exactly from what shows the serialization of that address. *)
Theorem C93_address_exact : forall a d,
  deserialize_address d = inl a <-> shows (serialize_address a) d.
Proof.
  intros a d. split.
  - destruct d as [| | | | | |id fields|]; cbn [deserialize_address]; try discriminate.
    destruct (deserialize_variant id) as [x|] eqn:V; [|discriminate]. apply variant_shown in V.
    destruct x.
    + destruct (deserialize_pair deserialize_extended fields) as [[p e]|] eqn:P; [|discriminate].
      intros E. inversion E; subst. apply (pair_shown _ serialize_extended) in P.
      * destruct P as (sh & more & -> & H). now constructor.
      * intros y. apply C93_newtypes_exact.
    + destruct (deserialize_pair deserialize_short fields) as [[p e]|] eqn:P; [|discriminate].
      intros E. inversion E; subst. apply (pair_shown _ serialize_short) in P.
      * destruct P as (sh & more & -> & H). now constructor.
      * intros y. apply C93_newtypes_exact.
  - intros H. destruct a as [p s|p e]; cbn [serialize_address] in H; inversion H; subst; clear H;
      cbn [deserialize_address].
    + erewrite (proj2 (variant_shown id false)) by assumption.
      erewrite (proj2 (pair_shown _ serialize_short p s _ (fun y => proj1 (proj2 (C93_newtypes_exact s y)))));
        [reflexivity|eauto].
    + erewrite (proj2 (variant_shown id true)) by assumption.
      erewrite (proj2 (pair_shown _ serialize_extended p e _ (fun y => proj2 (proj2 (C93_newtypes_exact e y)))));
        [reflexivity|eauto].
Qed.

(** Every address comes back, from every format that shows it; what comes back from anything is
    a proper address; and nothing shows two addresses. *)
Theorem C93_round_trip : forall a d, shows (serialize_address a) d -> deserialize_address d = inl a.
Proof. intros a d. apply C93_address_exact. Qed.

Theorem C93_only_addresses : forall a d, deserialize_address d = inl a -> address_ok a.
Proof.
  intros a d H. apply C93_address_exact in H.
  destruct a as [p x|p x]; cbn [serialize_address] in H; inversion H; subst; clear H;
    match goal with H : all_shown _ _ |- _ => inversion H as [|? ? u ? Hu H']; subst; clear H end;
    inversion H' as [|? ? w ? Hw H'']; subst; clear H';
    unfold serialize_pan_id, serialize_short, serialize_extended in *;
    inversion Hu as [| | | |? ? ? U|? ? ? ? U|]; subst; inversion U; subst;
    inversion Hw as [| | | |? ? ? W|? ? ? ? W|]; subst; inversion W; subst; split; assumption.
Qed.

Theorem C93_nothing_shows_two_addresses : forall a b d,
  shows (serialize_address a) d -> shows (serialize_address b) d -> a = b.
Proof.
  intros a b d A B. apply C93_address_exact in A. apply C93_address_exact in B. congruence.
Qed.

(** Every proper address is shown by something: by a text format (names, newtypes wrapped), and by
    a binary one (numbers, signed or not). *)
Theorem C93_every_address_is_shown : forall a, address_ok a ->
  let v := match a with Short _ x | Extended _ x => x end in
  shows (serialize_address a)
    (D_enum (D_str (match a with Short _ _ => "Short" | _ => "Extended" end))
            [D_newtype (D_unsigned (pan_id a)); D_newtype (D_unsigned v)]) /\
  shows (serialize_address a)
    (D_enum (D_unsigned (match a with Short _ _ => 0 | _ => 1 end))
            [D_newtype (D_signed (Z.of_N (pan_id a))); D_newtype (D_signed (Z.of_N v))]).
Proof.
  intros a O v.
  assert (S : forall id, deserialize_variant id = inl (match a with Short _ _ => false | _ => true end) ->
    forall n m, shows (S_u16 (pan_id a)) n ->
    shows (match a with Short _ x => S_u16 x | Extended _ x => S_u64 x end) m ->
    shows (serialize_address a) (D_enum id [D_newtype n; D_newtype m])).
  { intros id V n m Hn Hm. rewrite <- (app_nil_r [D_newtype n; D_newtype m]). apply variant_shown in V.
    destruct a; cbn [serialize_address]; constructor; auto; repeat (constructor; auto). }
  destruct a as [p x|p x]; destruct O as [O1 O2]; cbn [pan_id] in *;
    (split; apply S; [reflexivity| | |reflexivity| |]; constructor; assumption).
Qed.

(** What can be said of errors: a wrong variant is named before the fields are looked at, a missing
    field is reported with its position, and a number that does not fit is refused, not cut. *)
Example errors_by_kind :
  let nt v := D_newtype (D_unsigned v) in
  deserialize_address (D_enum (D_unsigned 2) []) = inr InvalidValue /\
  deserialize_address (D_enum (D_str "short") [nt 1; nt 2]) = inr UnknownVariant /\
  deserialize_address (D_enum (D_str "Short") [nt 1]) = inr (InvalidLength 1) /\
  deserialize_address (D_enum (D_str "Short") [nt 1; nt 0x10000]) = inr InvalidValue /\
  deserialize_address (D_enum (D_str "Short") [nt 1; D_newtype (D_signed (-1))]) = inr InvalidValue /\
  deserialize_address (D_enum (D_bytes "Extended") [nt 1; nt 0x10000]) = inl (Extended 1 0x10000) /\
  deserialize_address (D_enum (D_unsigned 0) [D_seq [D_signed 7]; nt 0xffff]) = inl (Short 7 0xffff) /\
  deserialize_address (D_seq [nt 1; nt 2]) = inr InvalidType /\
  deserialize_pan_id (D_unsigned 7) = inr InvalidType.
Proof. repeat split. Qed.

Print Assumptions C93_newtypes_exact.
Print Assumptions C93_address_exact.
Print Assumptions C93_round_trip.
Print Assumptions C93_only_addresses.
Print Assumptions C93_nothing_shows_two_addresses.
Print Assumptions C93_every_address_is_shown.
