(** Property C85: what a write shows besides the protected payload. How a write with a security
    context ends, what it does to the context, how many octets it produces and all octets before
    the payload are functions of the header, the content and the length of the payload; the payload
    octets themselves have no influence. The length of the payload is visible. *)
From Coq Require Import List Arith NArith ZArith Bool String Lia ZifyBool ZifyNat ZifyN.
From Verif Require Import ByteCrate Types HeaderModel BeaconModel CommandModel CcmModel FrameModel
  Spec SecSpec ProofLib HeaderProofs HeaderReadProofs BeaconProofs CommandProofs FrameProofs CcmProofs
  SecureProofs RepoTests Aes128 AesProofs HistorySpec PropHeader PropContent PropFrame PropSecure PropReceive PropHistory.
Import ListNotations.
Open Scope N_scope.
Open Scope list_scope.
Ltac Zify.zify_post_hook ::= Z.div_mod_to_equations.

(** * Specification *)

(** Frames with the same header and content, and payloads of the same length. *)
Definition same_shape (f g : Frame) : Prop :=
  header f = header g /\ content f = content g /\ List.length (payload f) = List.length (payload g).

(** Octets before the payload, and tag octets. *)
Definition front_len (f : Frame) : nat :=
  (header_len (header f) + List.length (wire_content br_zero mr_zero (content f)))%nat.
Definition trailer_len (f : Frame) : nat :=
  match auxiliary_security_header (header f) with
  | Some a => tag_len (security_level (control a))
  | None => 0
  end%nat.

(** Two buffers of one length that agree everywhere but on the octets [i], ..., [j] - 1. *)
Definition differ_only_in (i j : nat) (x y : list N) : Prop :=
  List.length x = List.length y /\
  forall k, (k < i)%nat \/ (j <= k)%nat -> nth k x 0 = nth k y 0.

(** Sequences of writes of frames of the same shapes into the same buffers. *)
Definition same_shapes : list call -> list call -> Prop :=
  Forall2 (fun x y => c_mode x = c_mode y /\ c_buffer x = c_buffer y /\ same_shape (c_frame x) (c_frame y)).

(** What an observer who cannot see into payloads and tags notices about a write: counters, result,
    and the octets in front of the payload. *)
Definition public (e : sent) : N * bres nat * N * list N :=
  (s_before e, s_result e, s_after e, firstn (front_len (s_frame e)) (s_buffer e)).

(** * Proofs *)

Lemma differ_refl i j x : differ_only_in i j x x.
Proof. split; reflexivity. Qed.

Lemma differ_app i j (pre x y post : list N) : i = List.length pre -> List.length x = List.length y ->
  (List.length pre + List.length x <= j)%nat -> differ_only_in i j (pre ++ x ++ post) (pre ++ y ++ post).
Proof.
  intros -> L Hj. split; [rewrite !app_length; lia|]. intros k [Hk|Hk].
  - now rewrite !app_nth1 by lia.
  - rewrite !(app_nth2 pre) by lia. rewrite !app_nth2 by lia. now rewrite L.
Qed.

Lemma header_len_sent fc h : compression_ok h = true -> header_len (header_sent fc h) = header_len h.
Proof.
  intros _. unfold header_len, mhr_len, dest_len, source_len, header_sent. cbn [destination source pan_id_compress auxiliary_security_header].
  destruct (destination h) as [[]|], (source h) as [[]|], (pan_id_compress h), (auxiliary_security_header h); reflexivity.
Qed.

Lemma nth_firstn_lt {A} (l : list A) n i d : (i < n)%nat -> nth i (firstn n l) d = nth i l d.
Proof.
  revert n i. induction l as [|x l IH]; intros [|n] [|i] H; try reflexivity; try lia. cbn. apply IH. lia.
Qed.

Section Shows.
Context {K : Type} (c : cfg) (E : block_cipher K).
Hypothesis HE : cipher_ok E.

Lemma front_length fc f : compression_ok (header f) = true ->
  List.length (wire_front (native c) fc f) = front_len f.
Proof.
  intros Hc. unfold wire_front, front_len. now rewrite app_length, wire_header_length, header_len_sent.
Qed.

(** What [secure_frame] does to frames of one shape. *)
Lemma secure_shapes f g sc a tl : octets (payload f) -> octets (payload g) -> u32_ok (sc_frame_counter sc) ->
  auxiliary_security_header (header f) = Some a -> compression_ok (header f) = true -> same_shape f g ->
  exists r sc' x y post, secure_frame c E f sc Footer_None tl = (r, (sc', x ++ post)) /\
    secure_frame c E g sc Footer_None tl = (r, (sc', y ++ post)) /\ List.length x = List.length y /\
    (List.length x <= List.length (payload f) + tag_len (security_level (control a)))%nat /\
    (List.length x + List.length post = List.length tl)%nat /\ r <> Err SecurityNotEnabled.
Proof.
  intros Of Og Hfc Ha Hc (Eh & Ec & El).
  pose proof (secure_frame_eq c E HE f sc a tl Of Hfc Ha Hc) as S1.
  pose proof (secure_frame_eq c E HE g sc a tl Og Hfc ltac:(congruence) ltac:(congruence)) as S2.
  assert (Ee : length_estimate g a = length_estimate f a) by (unfold length_estimate; rewrite Eh, El; reflexivity).
  unfold tail_plan in S1, S2. rewrite <- Eh, Ee in S2.
  assert (Fin : forall st used tb1 tb2, List.length tb1 = List.length tb2 ->
    (List.length tb1 <= List.length (payload f) + tag_len (security_level (control a)))%nat ->
    st <> Err SecurityNotEnabled -> (tb1 = [] /\ tb2 = [] \/ (List.length (payload f) <= List.length tb1)%nat) ->
    (if (List.length tb1 <=? List.length tl)%nat
     then secure_frame c E f sc Footer_None tl = (sec_result st (List.length tb1), (ctx_after used sc, tb1 ++ skipn (List.length tb1) tl))
     else exists k, (k <= List.length tl)%nat /\
       k = (if List.length (payload f) <=? List.length tl then List.length (payload f) else 0)%nat /\
       secure_frame c E f sc Footer_None tl = (Err (WriteError Incomplete),
          (ctx_after (used && (List.length (payload f) <=? List.length tl)%nat) sc, firstn k tb1 ++ skipn k tl))) ->
    (if (List.length tb2 <=? List.length tl)%nat
     then secure_frame c E g sc Footer_None tl = (sec_result st (List.length tb2), (ctx_after used sc, tb2 ++ skipn (List.length tb2) tl))
     else exists k, (k <= List.length tl)%nat /\
       k = (if List.length (payload g) <=? List.length tl then List.length (payload g) else 0)%nat /\
       secure_frame c E g sc Footer_None tl = (Err (WriteError Incomplete),
          (ctx_after (used && (List.length (payload g) <=? List.length tl)%nat) sc, firstn k tb2 ++ skipn k tl))) ->
    exists r sc' x y post, secure_frame c E f sc Footer_None tl = (r, (sc', x ++ post)) /\
    secure_frame c E g sc Footer_None tl = (r, (sc', y ++ post)) /\ List.length x = List.length y /\
    (List.length x <= List.length (payload f) + tag_len (security_level (control a)))%nat /\
    (List.length x + List.length post = List.length tl)%nat /\ r <> Err SecurityNotEnabled).
  { intros st used tb1 tb2 L B Ns Sh T1 T2. rewrite <- El in T2. rewrite <- L in T2.
    destruct (Nat.leb_spec (List.length tb1) (List.length tl)) as [Lt|Lt].
    - do 5 eexists. split; [exact T1|]. split; [exact T2|]. split; [exact L|]. split; [exact B|].
      split; [rewrite skipn_length; lia|]. destruct st; cbn [sec_result]; congruence.
    - destruct T1 as (k & Hk & Ek & T1). destruct T2 as (k2 & _ & Ek2 & T2). rewrite <- Ek in Ek2. rewrite Ek2 in T2. clear Ek2 k2.
      do 5 eexists. split; [exact T1|]. split; [exact T2|]. rewrite !firstn_length.
      assert (k <= List.length tb1)%nat.
      { destruct Sh as [[-> ->]|Sh]; [cbn in Lt; lia|]. clear - Ek Sh. destruct (_ <=? _)%nat in Ek; lia. }
      split; [lia|]. split; [lia|]. split; [rewrite skipn_length; lia|]. discriminate. }
  destruct (negb (is_data (header f))).
  { apply (Fin (Err NotImplemented) false [] []); auto; try discriminate. cbn. lia. }
  destruct (127 <? length_estimate f a)%nat.
  { apply (Fin (Err FrameTooLong) false [] []); auto; try discriminate. cbn. lia. }
  destruct (level_is_none _).
  { apply (Fin (Ok tt) false (payload f) (payload g)); auto; try discriminate. lia. }
  destruct (_ =? _).
  { apply (Fin (Err CounterError) false (payload f) (payload g)); auto; try discriminate. lia. }
  destruct (sc_key_provider _ _ _ _) as [[x key]|].
  2:{ apply (Fin (Err UnavailableKey) true (payload f) (payload g)); auto; try discriminate. lia. }
  destruct (level_is_enc _).
  { apply (Fin (Err NotImplemented) true (payload f) (payload g)); auto; try discriminate. lia. }
  refine (Fin (Ok tt) true _ _ _ _ _ (or_intror _) S1 S2); try discriminate;
    rewrite ?app_length, ?secured_payload_length, ?secured_tag_length; lia.
Qed.

(** ** One write *)
Theorem C85_payload_octets_have_no_influence : forall f g m sc buf, frame_ok f -> frame_ok g ->
  u32_ok (sc_frame_counter sc) -> same_shape f g ->
  let w := try_write_frame c E f (ser_ctx m sc) buf in
  let v := try_write_frame c E g (ser_ctx m sc) buf in
  fst w = fst v /\ fst (snd w) = fst (snd v) /\
  differ_only_in (front_len f) (front_len f + List.length (payload f) + trailer_len f) (snd (snd w)) (snd (snd v)).
Proof using HE.
  intros f g m sc buf Hf Hg Hfc Sh. cbv zeta.
  destruct Hf as (Hh & Hct & Hp & _). destruct Hg as (_ & _ & Hq & _).
  pose proof (runs_front c f sc Hh Hct buf 0%nat ltac:(lia)) as [R1 R2]. cbn [firstn app] in R1, R2.
  unfold try_write_frame. cbn [ser_ctx security_ctx footer_mode].
  pose proof Sh as (Eh & Ect & El). rewrite <- Eh, <- Ect.
  assert (Triv : forall r x (b : list N), fst (A := bres nat) (r, (x, b)) = fst (r, (x, b)) /\
     fst (snd (r, (x, b))) = fst (A := FrameSerDesContext K) (snd (r, (x, b))) /\
     differ_only_in (front_len f) (front_len f + List.length (payload f) + trailer_len f) (snd (snd (r, (x, b)))) (snd (snd (r, (x, b)))))
    by (intros; split; [reflexivity|]; split; [reflexivity|]; apply differ_refl).
  destruct (compression_ok (header f)) eqn:Ec.
  2:{ destruct (Nat.leb_spec (List.length (le 2 (control_word false (header_sent (sc_frame_counter sc) (header f))) ++ [seq (header f)]))
                (List.length buf)) as [L|L].
      - destruct (R1 L) as (o & _ & ->). apply Triv.
      - destruct (R2 L) as (k & o & _ & ->). apply Triv. }
  pose proof (front_length (sc_frame_counter sc) f Ec) as Lf.
  set (front := wire_front (native c) (sc_frame_counter sc) f) in *.
  destruct (Nat.leb_spec (List.length front) (List.length buf)) as [L|L].
  2:{ destruct (R2 L) as (k & o & _ & ->). apply Triv. }
  destruct (R1 L) as (o & Ho & ->). rewrite (Ho eq_refl). cbn [Nat.add].
  replace (List.length front <=? List.length (front ++ skipn (List.length front) buf))%nat with true
    by (symmetry; apply Nat.leb_le; rewrite app_length; lia).
  rewrite firstn_app_exact, skipn_app_exact.
  set (tl := skipn (List.length front) buf).
  destruct m.
  2:{ cbn [secure_frame]. apply Triv. }
  destruct (auxiliary_security_header (header f)) as [a|] eqn:Ea.
  - destruct (secure_shapes f g sc a tl Hp Hq Hfc Ea Ec Sh) as (r & sc' & x & y & post & -> & -> & Lxy & Lx & _ & Hr).
    assert (D : differ_only_in (front_len f) (front_len f + List.length (payload f) + trailer_len f)
                  (front ++ x ++ post) (front ++ y ++ post)).
    { apply differ_app; [now rewrite Lf|exact Lxy|]. unfold trailer_len. rewrite Ea, Lf. lia. }
    destruct r as [n|e|]; cbn [footer_mode]; [rewrite !write_tail_secured|destruct e; try congruence|]; cbn [fst snd];
      (split; [reflexivity|]; split; [reflexivity|exact D]).
  - unfold secure_frame, has_security. rewrite <- Eh, Ea.
    assert (W : forall p, write_with (write_slice p) (front ++ tl, List.length front)
      = if (List.length tl <? List.length p)%nat then (Err Incomplete, (front ++ tl, List.length front))
        else (Ok tt, (front ++ p ++ skipn (List.length p) tl, (List.length front + List.length p)%nat))).
    { intros p. unfold write_with, write_slice. rewrite app_length, skipn_app_exact, firstn_app_exact.
      replace (List.length front + List.length tl <? List.length front)%nat with false by (symmetry; apply Nat.ltb_ge; lia).
      now destruct (_ <? _)%nat. }
    unfold write_tail. cbn [ser_ctx footer_mode]. unfold wseq, wbind. rewrite !W, <- El.
    destruct (_ <? _)%nat; cbn [fst snd wret]; [split; [reflexivity|]; split; [reflexivity|apply differ_refl]|].
    split; [reflexivity|]. split; [reflexivity|].
    apply differ_app; [now rewrite Lf|exact El|]. rewrite Lf. lia.
Qed.

(** ** The length of the payload *)

(** What a successful write returns gives the length of the payload away. *)
Theorem C85_payload_length_is_visible : forall f m sc buf n r, frame_ok f -> u32_ok (sc_frame_counter sc) ->
  try_write_frame c E f (ser_ctx m sc) buf = (Ok n, r) ->
  n = (front_len f + List.length (payload f) + trailer_len f)%nat.
Proof using HE.
  intros f m sc buf n [ctx' buf'] Hf Hfc W.
  destruct (write_inv c E HE f m sc buf _ _ _ Hf Hfc W) as (bs & st & u & P & [(L & R & _)|(_ & R & _)]); [|discriminate].
  destruct st as [[]|e|]; try discriminate. cbn [result_of] in R. injection R as ->.
  destruct (plan_ok c E f m sc bs u P) as (Hc & _ & Q). apply compression_ok_iff in Hc.
  unfold trailer_len. destruct (auxiliary_security_header (header f)) as [a|].
  - destruct Q as (_ & _ & Q). destruct (level_is_none _) eqn:El.
    + destruct Q as [-> _]. rewrite app_length, front_length by exact Hc. destruct (security_level (control a)); try discriminate. cbn. lia.
    + destruct Q as (_ & _ & _ & eui & key & _ & ->).
      rewrite !app_length, front_length, secured_payload_length, secured_tag_length by exact Hc. lia.
  - destruct Q as [-> _]. rewrite app_length, front_length by exact Hc. lia.
Qed.

(** ** Any sequence of writes *)

(** Two programs that write frames of the same shapes, from contexts in the same state, cannot be
    told apart by results, lengths, counters, or anything in front of the payloads; their contexts
    end in the same state. *)
Theorem C85_histories_of_one_shape : forall calls1 calls2 sc, calls_ok calls1 -> calls_ok calls2 ->
  u32_ok (sc_frame_counter sc) -> same_shapes calls1 calls2 ->
  map public (fst (send_all c E sc calls1)) = map public (fst (send_all c E sc calls2)) /\
  snd (send_all c E sc calls1) = snd (send_all c E sc calls2).
Proof using HE.
  intros calls1 calls2 sc O1 O2 Hfc Sh. revert sc Hfc. unfold same_shapes in Sh. induction Sh as [|x y xs ys (Em & Eb & S) Sh IH]; intros sc Hfc.
  - split; reflexivity.
  - apply Forall_cons_iff in O1, O2. destruct O1 as [Ox O1]. destruct O2 as [Oy O2].
    cbn [send_all]. rewrite <- Em, <- Eb.
    pose proof (C85_payload_octets_have_no_influence (c_frame x) (c_frame y) (c_mode x) sc (c_buffer x) Ox Oy Hfc S) as P.
    cbv zeta in P.
    destruct (try_write_frame c E (c_frame x) (ser_ctx (c_mode x) sc) (c_buffer x)) as [r1 [ctx1 b1]] eqn:W1.
    destruct (try_write_frame c E (c_frame y) (ser_ctx (c_mode x) sc) (c_buffer x)) as [r2 [ctx2 b2]].
    cbn [fst snd] in P. destruct P as (<- & <- & Lb & D).
    set (sc1 := match security_ctx ctx1 with Some s => s | None => sc end).
    assert (U : u32_ok (sc_frame_counter sc1)).
    { destruct (write_context c E HE (c_frame x) (c_mode x) sc (c_buffer x) Ox Hfc) as (n & En & Un & _).
      rewrite W1 in En. cbn [fst snd] in En. unfold sc1. rewrite En. exact Un. }
    destruct (IH O1 O2 sc1 U) as [I1 I2].
    destruct (send_all c E sc1 xs) as [l1 e1]. destruct (send_all c E sc1 ys) as [l2 e2]. cbn [fst snd map] in *.
    split; [|exact I2]. f_equal; [|exact I1]. unfold public, s_frame. cbn [s_before s_result s_after s_buffer s_call].
    f_equal. unfold front_len. destruct S as (<- & <- & _).
    fold (front_len (c_frame x)).
    apply nth_ext with (d := 0) (d' := 0); [rewrite !firstn_length, Lb; reflexivity|].
    intros i Hi. rewrite firstn_length in Hi. rewrite !nth_firstn_lt by lia. apply D. lia.
Qed.
End Shows.

(** * Concrete case: two frames that differ in the payload only, sent by the same sender. The
    buffers differ in the three payload octets and the eight tag octets and nowhere else. *)
Definition one : Frame := level_frame SL_ENCMIC64 false [1; 2; 3].
Definition other : Frame := level_frame SL_ENCMIC64 false [200; 0; 3].
Definition a_call (f : Frame) (n : nat) : call := {| c_mode := Footer_None; c_frame := f; c_buffer := repeat 0xEE n |}.
Definition calls_one : list call := [a_call one 64; a_call one 30; a_call one 36; a_call other 64].
Definition calls_other : list call := [a_call other 64; a_call one 30; a_call other 36; a_call one 64].
Definition differing (x y : list N) : list nat :=
  filter (fun i => negb (octet x i =? octet y i)) (List.seq 0 (List.length x)).
Example shapes :
  same_shape one other /\ front_len one = 29%nat /\ trailer_len one = 8%nat /\
  frame_ok one /\ frame_ok other /\ calls_ok calls_one /\ calls_ok calls_other /\ same_shapes calls_one calls_other /\
  (let w f := try_write_frame host aes_cipher f (aes_ctx 1 41) (repeat 0xEE 64) in
   fst (w one) = Ok 40%nat /\ fst (w other) = Ok 40%nat /\
   differing (snd (snd (w one))) (snd (snd (w other))) = [29; 30; 32; 33; 34; 35; 36; 37; 38; 39]%nat) /\
  map (fun e => (s_before e, s_result e, s_after e)) (fst (send_all host aes_cipher (SecurityContext_new 1 41 static_key_lookup) calls_other))
  = [(41, Ok 40%nat, 42); (42, Err Incomplete, 42); (42, Err Incomplete, 43); (43, Ok 40%nat, 44)].
Proof.
  split; [repeat split|]. split; [reflexivity|]. split; [reflexivity|].
  split; [apply level_frame_ok; repeat constructor|]. split; [apply level_frame_ok; repeat constructor|].
  split; [repeat constructor; apply level_frame_ok; repeat constructor|].
  split; [repeat constructor; apply level_frame_ok; repeat constructor|].
  split; [repeat constructor|]. split; [vm_compute; auto|]. vm_compute. reflexivity.
Qed.

Print Assumptions C85_payload_octets_have_no_influence.
Print Assumptions C85_payload_length_is_visible.
Print Assumptions C85_histories_of_one_shape.
Print Assumptions shapes.
