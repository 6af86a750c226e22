(** Property C86: confidentiality of the mode of operation. Whatever has been put on the air at the
    encrypting levels fits any other payloads of the same lengths: for the same octets, counters,
    results and contexts there is a block cipher under which they carry the other payloads. So
    nothing can be concluded about protected payloads, beyond their lengths, except by using that
    the cipher is a particular one (or is invertible). *)
From Coq Require Import List Arith NArith ZArith Bool String Lia ZifyBool ZifyNat ZifyN Sorted.
From Verif Require Import ByteCrate Types HeaderModel BeaconModel CommandModel CcmModel FrameModel
  Spec SecSpec ProofLib HeaderProofs HeaderReadProofs BeaconProofs CommandProofs FrameProofs CcmProofs
  SecureProofs RepoTests Aes128 AesProofs HistorySpec PropHeader PropContent PropFrame PropSecure PropReceive PropHistory
  PropNetwork PropKeys PropCipher PropShows PropCorrupt.
Import ListNotations.
Open Scope N_scope.
Open Scope list_scope.
Ltac Zify.zify_post_hook ::= Z.div_mod_to_equations.

(** * Specification *)

Definition frame_level (f : Frame) : SecurityLevel :=
  match auxiliary_security_header (header f) with
  | Some a => security_level (control a)
  | None => SL_None
  end.

(** The same writes, but for the octets of payloads that are to be encrypted. *)
Definition other_secrets (x y : call) : Prop :=
  c_mode x = c_mode y /\ c_buffer x = c_buffer y /\ same_shape (c_frame x) (c_frame y) /\
  (encrypting (frame_level (c_frame x)) = false -> payload (c_frame x) = payload (c_frame y)).

(** All that is observable of a write by whoever hears the frame and sees the sender's counter. *)
Definition observed (e : sent) : N * bres nat * N * list N :=
  (s_before e, s_result e, s_after e, s_bytes e).

(** A sender: its context, what it writes, and what it might have written instead. *)
Record story K := { st_ctx : SecurityContext K; st_calls : list call; st_others : list call }.
Arguments st_ctx {K}. Arguments st_calls {K}. Arguments st_others {K}.
Definition story_ok {K} (s : story K) : Prop :=
  u64_ok (sc_euid (st_ctx s)) /\ u32_ok (sc_frame_counter (st_ctx s)) /\
  calls_ok (st_calls s) /\ calls_ok (st_others s) /\ Forall2 other_secrets (st_calls s) (st_others s).

(** * The other cipher *)

(** A frame: its nonce and level, the payload it is to carry, ciphertext and tag on the air. *)
Record entry := { n_nonce : list N; n_level : SecurityLevel; n_p : list N; n_q : list N; n_t : list N }.
Definition n_blocks (n : entry) : list N :=
  if encrypting (n_level n) then ccm_blocks (tag_len (n_level n)) (n_nonce n) [] (n_p n)
  else ccm_blocks (tag_len (n_level n)) (n_nonce n) (n_p n) [].

Definition book_ok (n : entry) : Prop :=
  List.length (n_nonce n) = 13%nat /\ octets (n_nonce n) /\
  authenticated (n_level n) = true /\ N.of_nat (List.length (n_p n)) < 2 ^ 16 - 2 ^ 8 /\
  octets (n_p n) /\ octets (n_q n) /\ octets (n_t n) /\
  List.length (n_q n) = List.length (n_p n) /\ List.length (n_t n) = tag_len (n_level n) /\
  (encrypting (n_level n) = false -> n_q n = n_p n).

(** The first MAC block. *)
Definition b0_flags (n : entry) : N :=
  64 * flag (negb (encrypting (n_level n)) && negb (List.length (n_p n) =? 0)%nat)
  + 8 * ((N.of_nat (tag_len (n_level n)) - 2) / 2) + 1.
Definition b0_len (n : entry) : nat := if encrypting (n_level n) then List.length (n_p n) else 0%nat.

Lemma blocks_shape n : exists rest, n_blocks n = ([b0_flags n] ++ n_nonce n ++ be 2 (N.of_nat (b0_len n))) ++ rest.
Proof.
  unfold n_blocks, ccm_blocks, b0_flags, b0_len. destruct (encrypting (n_level n)); cbn [negb andb List.length Nat.eqb].
  - eexists. rewrite <- !app_assoc. reflexivity.
  - eexists. rewrite <- !app_assoc. reflexivity.
Qed.
Lemma flags_range n : book_ok n -> 5 < b0_flags n /\ b0_flags n < 128.
Proof.
  intros (_ & _ & Au & _). unfold b0_flags. destruct (n_level n); try discriminate Au; cbn [tag_len encrypting negb andb];
    try (destruct (Nat.eqb (List.length (n_p n)) 0)); cbn; lia.
Qed.
Lemma first_block n : book_ok n -> firstn 16 (n_blocks n) = [b0_flags n] ++ n_nonce n ++ be 2 (N.of_nat (b0_len n)).
Proof.
  intros (L & _). destruct (blocks_shape n) as [rest ->]. apply firstn_app_exact'.
  rewrite !app_length, L, be_length. reflexivity.
Qed.
Lemma nonce_in n : book_ok n -> forall x rest, firstn 13 (skipn 1 ([x] ++ n_nonce n ++ rest)) = n_nonce n.
Proof.
  intros (L & _) x rest. change (skipn 1 ([x] ++ n_nonce n ++ rest)) with (n_nonce n ++ rest). now apply firstn_app_exact'.
Qed.
Lemma octets_blocks n : book_ok n -> octets (n_blocks n).
Proof.
  intros (_ & On & Au & _ & Op & _). assert (2 <= tag_len (n_level n) <= 16)%nat by (destruct (n_level n); try discriminate Au; cbn; lia).
  unfold n_blocks. destruct (encrypting _); apply octets_ccm_blocks; try assumption; constructor.
Qed.
Lemma blocks_count n : book_ok n -> (1 <= List.length (n_blocks n) / 16 < 5000)%nat.
Proof.
  intros (Ln & _ & _ & L & _). assert (L' := L). change (2 ^ 16 - 2 ^ 8) with 65280 in L'.
  unfold n_blocks. destruct (encrypting _).
  - rewrite length_ccm_enc by exact Ln. lia.
  - rewrite length_ccm_mic by assumption. destruct (_ =? _)%nat; lia.
Qed.

(** A second chain of MAC blocks [w_blocks] for the nonce of the entry [w_entry], which leaves the
    chain of that entry at block number [w_at] and ends in [w_mac]; [w_in] is the input of the
    cipher there. (Used for forged frames, PropForge.v.) *)
Record twist := { w_entry : entry; w_at : nat; w_type : N; w_in : list N; w_blocks : list N; w_mac : nat -> N }.

Lemma octet_lt bs i : octets bs -> octet bs i < 256.
Proof.
  intros H. unfold octet. destruct (Nat.lt_ge_cases i (List.length bs)) as [L|L].
  - unfold octets in H. rewrite Forall_forall in H. apply H. now apply nth_In.
  - rewrite nth_overflow by lia. reflexivity.
Qed.
Lemma lxor_lt a b : a < 256 -> b < 256 -> N.lxor a b < 256.
Proof. intros. now apply (lxor_octet a b). Qed.

Definition tagged (x : N) (nonce : list N) (j : nat) : list N := [x] ++ nonce ++ le 2 (N.of_nat j).

Section Other.
Context {K : Type} (fail : K -> list N -> list N -> list N) (book : list entry) (tw : option twist).

Definition lookup (nonce : list N) : option entry := find (fun n => same_octets (n_nonce n) nonce) book.

(** The input of the cipher for MAC block j > 0 of an entry. *)
Definition mark (n : entry) (j : nat) : list N :=
  tagged (match tw with
          | Some w => if same_octets (n_nonce n) (n_nonce (w_entry w)) && (j =? w_at w)%nat then w_type w else 0
          | None => 0
          end) (n_nonce n) j.
Definition next (n : entry) (j : nat) (u : nat) : N :=
  if (S j <? List.length (n_blocks n) / 16)%nat
  then N.lxor (octet (mark n (S j)) u) (octet (n_blocks n) (16 * S j + u))
  else 0.
Definition stream (n : entry) (i : nat) (u : nat) : N :=
  match i with
  | O => octet (n_t n) u
  | S k => N.lxor (octet (n_q n) (16 * k + u)) (octet (n_p n) (16 * k + u))
  end.
Definition honest (b : list N) (u : nat) : N :=
  match lookup (firstn 13 (skipn 1 b)) with
  | None => 0
  | Some n =>
      if octet b 0 =? 1 then stream n (N.to_nat (num_val BE (firstn 2 (skipn 14 b)))) u
      else if (octet b 0 =? 0) || (128 <=? octet b 0) then next n (N.to_nat (le_val (firstn 2 (skipn 14 b)))) u
      else next n 0 u
  end.
Definition tnext (w : twist) (j : nat) (u : nat) : N :=
  if (S j <? List.length (w_blocks w) / 16)%nat
  then N.lxor (octet (tagged 5 (n_nonce (w_entry w)) (S j)) u) (octet (w_blocks w) (16 * S j + u))
  else w_mac w u.
Definition answer (b : list N) (u : nat) : N :=
  match tw with
  | Some w =>
      if same_octets b (w_in w) then tnext w (w_at w) u
      else if octet b 0 =? 5 then tnext w (N.to_nat (le_val (firstn 2 (skipn 14 b)))) u
      else honest b u
  | None => honest b u
  end.
Definition other : block_cipher K :=
  {| encrypt_block := fun _ b => map (fun u => answer b u mod 256) (List.seq 0 16); on_auth_failure := fail |}.

Lemma other_ok : (forall k nonce b, List.length (fail k nonce b) = List.length b) -> cipher_ok other.
Proof using Type.
  intros F. split; [|exact F]. intros k b _ _. cbn [other encrypt_block]. split.
  - now rewrite map_length, seq_length.
  - apply Forall_forall. intros x Hx. apply in_map_iff in Hx. destruct Hx as (u & <- & _).
    now apply N.mod_lt.
Qed.

Lemma octet_other k b u : (u < 16)%nat -> octet (encrypt_block other k b) u = answer b u mod 256.
Proof using Type. intros H. cbn [other encrypt_block]. now rewrite octet_nth_map. Qed.

(** The inputs an entry needs. *)
Definition legit (n : entry) (b : list N) : Prop :=
  (exists i, b = stream_input (n_nonce n) i) \/ b = firstn 16 (n_blocks n) \/ exists j, b = mark n j.
Definition twist_ok : Prop :=
  forall w, tw = Some w -> 128 <= w_type w < 256 /\ forall n b, In n book -> legit n b -> b <> w_in w.

Section One.
Context (n : entry) (k : K).
Hypothesis Htw : twist_ok.
Hypothesis Hin : In n book.
Hypothesis Hn : book_ok n.
Hypothesis Hl : lookup (n_nonce n) = Some n.

Lemma answer_honest b u : legit n b -> octet b 0 <> 5 -> answer b u = honest b u.
Proof using All.
  intros L H5. unfold answer. destruct tw as [w|] eqn:Ew; [|reflexivity].
  destruct (Htw w Ew) as [_ D]. specialize (D n b Hin L). unfold same_octets.
  destruct (list_eq_dec N.eq_dec b (w_in w)) as [X|_]; [contradiction|].
  replace (octet b 0 =? 5) with false by (symmetry; now apply N.eqb_neq). reflexivity.
Qed.

(** Blocks that carry the nonce find the entry. *)
Lemma tail_in (x : N) rest : List.length rest = 2%nat -> firstn 2 (skipn 14 ([x] ++ n_nonce n ++ rest)) = rest.
Proof using All.
  destruct Hn as (L & _). intros Lr. change (skipn 14 ([x] ++ n_nonce n ++ rest)) with (skipn 13 (n_nonce n ++ rest)).
  rewrite skipn_app_exact' by (symmetry; exact L). apply firstn_all2. lia.
Qed.

(** Key stream. *)
Lemma stream_answer i u : (u < 16)%nat -> N.of_nat i < 2 ^ 16 ->
  octet (key_stream other k (n_nonce n) i) u = stream n i u.
Proof using All.
  intros Hu Hi. unfold key_stream. rewrite octet_other by exact Hu.
  rewrite answer_honest; [|left; exists i; reflexivity|change (octet ([1] ++ _) 0) with 1; discriminate].
  unfold honest. rewrite (nonce_in n Hn), Hl, tail_in by apply be_length.
  change (be 2 (N.of_nat i)) with (in_order BE 2 (N.of_nat i)).
  rewrite num_val_in_order by exact Hi. rewrite Nat2N.id.
  change (octet ([1] ++ _) 0 =? 1) with true. cbv match.
  apply N.mod_small. destruct Hn as (_ & _ & _ & _ & Op & Oq & Ot & _). destruct i as [|i]; cbn [stream].
  - now apply octet_lt.
  - apply lxor_lt; now apply octet_lt.
Qed.

(** CBC-MAC. *)
Lemma octets_mark j : octets (mark n j).
Proof using All.
  destruct Hn as (_ & On & _). unfold mark, tagged. apply octets_app. split.
  - constructor; [|constructor]. destruct tw as [w|] eqn:Ew; [|reflexivity]. destruct (Htw w Ew) as [T _]. destruct (_ && _); lia.
  - apply octets_app. split; [exact On|]. apply (octets_in_order LE).
Qed.

Lemma next_lt j u : next n j u < 256.
Proof using All.
  unfold next. destruct (_ <? _)%nat; [|reflexivity]. apply lxor_lt; apply octet_lt; [apply octets_mark|apply (octets_blocks n Hn)].
Qed.

Lemma answer_first u : (u < 16)%nat ->
  answer (xor_at (octet (repeat 0 16)) (octet (n_blocks n)) 16) u = next n 0 u.
Proof using All.
  intros Hu. pose proof (flags_range n Hn) as F.
  replace (xor_at (octet (repeat 0 16)) (octet (n_blocks n)) 16) with (firstn 16 (n_blocks n)).
  - rewrite answer_honest; [|right; left; reflexivity|rewrite (first_block n Hn); change (octet ([(b0_flags n)] ++ _) 0) with (b0_flags n); lia].
    rewrite (first_block n Hn). unfold honest. rewrite (nonce_in n Hn), Hl.
    change (octet ([(b0_flags n)] ++ _) 0) with (b0_flags n).
    replace ((b0_flags n) =? 1) with false by (symmetry; apply N.eqb_neq; lia).
    replace ((b0_flags n) =? 0) with false by (symmetry; apply N.eqb_neq; lia).
    replace (128 <=? (b0_flags n)) with false by (symmetry; apply N.leb_gt; lia). reflexivity.
  - pose proof (blocks_count n Hn) as BC.
    apply list_octets_ext; rewrite firstn_length_le by lia.
    + unfold xor_at. now rewrite map_length, seq_length.
    + intros i Hi. rewrite octet_xor_at by lia.
      replace (octet (repeat 0 16) i) with 0 by (unfold octet; now rewrite nth_repeat). rewrite N.lxor_0_l.
      unfold octet. now apply nth_firstn_lt.
Qed.

Lemma mark_type j : octet (mark n j) 0 = 0 \/ 128 <= octet (mark n j) 0.
Proof using All.
  unfold mark, tagged. destruct tw as [w|] eqn:Ew; [|now left].
  destruct (Htw w Ew) as [[T _] _]. cbn [app octet nth]. unfold octet. cbn [nth]. destruct (_ && _); [now right|now left].
Qed.

Lemma answer_mark j u : (j < 5000)%nat -> answer (mark n j) u = next n j u.
Proof using All.
  intros Hj. pose proof (mark_type j) as T.
  rewrite answer_honest; [|right; right; exists j; reflexivity|lia].
  unfold honest. replace (octet (mark n j) 0 =? 1) with false by (symmetry; apply N.eqb_neq; lia).
  replace ((octet (mark n j) 0 =? 0) || (128 <=? octet (mark n j) 0)) with true by (symmetry; apply orb_true_iff; rewrite N.eqb_eq, N.leb_le; exact T).
  unfold mark, tagged. rewrite (nonce_in n Hn), Hl, tail_in by apply le_length.
  rewrite le_val_small by (change (256 ^ N.of_nat 2) with 65536; lia). now rewrite Nat2N.id.
Qed.

Lemma mark_length j : List.length (mark n j) = 16%nat.
Proof using All. destruct Hn as (L & _). unfold mark, tagged. now rewrite !app_length, le_length, L. Qed.

Lemma mac_steps j : (j < List.length (n_blocks n) / 16)%nat -> forall u, (u < 16)%nat ->
  octet (cbc_mac other k (n_blocks n) (S j)) u = next n j u.
Proof using All.
  pose proof (blocks_count n Hn) as BC.
  induction j as [|j IH]; intros Hj u Hu.
  - cbn [cbc_mac]. rewrite octet_other by exact Hu. change (16 * 0)%nat with 0%nat. cbn [skipn].
    rewrite answer_first by exact Hu. apply N.mod_small, next_lt.
  - cbn [cbc_mac]. rewrite octet_other by exact Hu.
    replace (xor_at _ _ 16) with (mark n (S j)).
    + rewrite answer_mark by lia. apply N.mod_small, next_lt.
    + apply list_octets_ext; rewrite mark_length.
      * unfold xor_at. now rewrite map_length, seq_length.
      * intros i Hi. rewrite octet_xor_at by exact Hi. fold (cbc_mac other k (n_blocks n)).
        specialize (IH ltac:(lia) i Hi). cbn [cbc_mac] in IH. rewrite IH, octet_skipn.
        unfold next. apply Nat.ltb_lt in Hj. rewrite Hj. rewrite N.lxor_assoc, N.lxor_nilpotent. symmetry. apply N.lxor_0_r.
Qed.

Definition spec_tag (E : block_cipher K) (l : SecurityLevel) (nonce p : list N) : list N :=
  match l with
  | SL_None | SL_ENC => []
  | SL_MIC32 | SL_MIC64 | SL_MIC128 => ccm_tag E k (tag_len l) nonce p []
  | SL_ENCMIC32 | SL_ENCMIC64 | SL_ENCMIC128 => ccm_tag E k (tag_len l) nonce [] p
  end.
Definition spec_payload (E : block_cipher K) (l : SecurityLevel) (nonce p : list N) : list N :=
  match l with
  | SL_ENCMIC32 | SL_ENCMIC64 | SL_ENCMIC128 => ccm_cipher E k nonce p
  | _ => p
  end.

Lemma fits_tag : spec_tag other (n_level n) (n_nonce n) (n_p n) = n_t n.
Proof using All.
  destruct Hn as (_ & _ & Au & _ & _ & _ & Ot & _ & Lt & _).
  assert (T : (tag_len (n_level n) <= 16)%nat) by (destruct (n_level n); cbn; lia).
  assert (G : xor_at (octet (cbc_mac other k (n_blocks n) (List.length (n_blocks n) / 16)))
                (octet (key_stream other k (n_nonce n) 0)) (tag_len (n_level n)) = n_t n).
  { apply list_octets_ext; [unfold xor_at; rewrite map_length, seq_length; now rewrite Lt|].
    intros i Hi. assert (Hi' : (i < tag_len (n_level n))%nat) by (unfold xor_at in Hi; rewrite map_length, seq_length in Hi; exact Hi).
    rewrite octet_xor_at by exact Hi'. rewrite stream_answer by lia. cbn [stream].
    pose proof (blocks_count n Hn) as BC. destruct (List.length (n_blocks n) / 16)%nat as [|m] eqn:Em; [lia|].
    rewrite mac_steps by lia. unfold next. rewrite Em. replace (S m <? S m)%nat with false by (symmetry; apply Nat.ltb_ge; lia).
    apply N.lxor_0_l. }
  unfold n_blocks in G. unfold spec_tag, ccm_tag. destruct (n_level n); try discriminate Au; exact G.
Qed.

Lemma fits_cipher : ccm_cipher other k (n_nonce n) (n_p n) = n_q n.
Proof using All.
  destruct Hn as (_ & _ & Au & Lp & _ & Oq & _ & Lq & _ & Hq).
  apply list_octets_ext; unfold ccm_cipher, xor_at; rewrite map_length, seq_length; [now rewrite Lq|].
  intros i Hi.
  match goal with |- octet (map ?f _) _ = _ => rewrite (octet_nth_map f) by exact Hi end. cbv beta.
  change (2 ^ 16 - 2 ^ 8) with 65280 in Lp.
  rewrite stream_answer by (change (2 ^ 16) with 65536; lia). cbn [stream Nat.add].
  replace (16 * (i / 16) + i mod 16)%nat with i by lia.
  rewrite (N.lxor_comm (octet (n_q n) i)), <- N.lxor_assoc, N.lxor_nilpotent. apply N.lxor_0_l.
Qed.

Lemma fits_payload : spec_payload other (n_level n) (n_nonce n) (n_p n) = n_q n.
Proof using All.
  destruct Hn as (_ & _ & Au & _ & _ & _ & _ & _ & _ & Hq).
  unfold spec_payload. destruct (n_level n); try discriminate Au; first [exact fits_cipher|symmetry; apply Hq; reflexivity].
Qed.
End One.
End Other.

Lemma secured_tag_spec {K} (E : block_cipher K) key l eui fc p :
  secured_tag E key l eui fc p = spec_tag key E l (mac_nonce eui fc l) p.
Proof. destruct l; reflexivity. Qed.
Lemma secured_payload_spec {K} (E : block_cipher K) key l eui fc p :
  secured_payload E key l eui fc p = spec_payload key E l (mac_nonce eui fc l) p.
Proof. destruct l; reflexivity. Qed.

(** * Histories *)

Lemma find_unique (book : list entry) n : (forall m, In m book -> n_nonce m = n_nonce n -> m = n) -> In n book ->
  lookup book (n_nonce n) = Some n.
Proof.
  intros U I. unfold lookup. destruct (find _ book) as [m|] eqn:F.
  - apply find_some in F. destruct F as [Im X]. f_equal. apply U; [exact Im|]. now apply same_octets_eq.
  - exfalso. apply (find_none _ _ F) in I. rewrite (proj2 (same_octets_eq _ _)) in I by reflexivity. discriminate.
Qed.

Section Secret.
Context {K : Type} (c : cfg) (E1 E2 : block_cipher K).
Hypothesis HE1 : cipher_ok E1.
Hypothesis HE2 : cipher_ok E2.

(** What one frame carries under one cipher, it would carry under the other. *)
Definition fits (sc : SecurityContext K) (fc : N) (f g : Frame) : Prop :=
  forall a eui key, auxiliary_security_header (header f) = Some a ->
    authenticated (security_level (control a)) = true ->
    sc_key_provider sc DstAddrMode (key_identifier a) (destination (header f)) = Some (eui, key) ->
    secured_payload E2 key (security_level (control a)) (sc_euid sc) fc (payload g)
      = secured_payload E1 key (security_level (control a)) (sc_euid sc) fc (payload f) /\
    secured_tag E2 key (security_level (control a)) (sc_euid sc) fc (payload g)
      = secured_tag E1 key (security_level (control a)) (sc_euid sc) fc (payload f).

Lemma plans m sc f g : same_shape f g ->
  (encrypting (frame_level f) = false -> payload f = payload g) ->
  let p1 := write_plan E1 (native c) m sc f in
  let p2 := write_plan E2 (native c) m sc g in
  snd (fst p1) = snd (fst p2) /\ snd p1 = snd p2 /\ List.length (fst (fst p1)) = List.length (fst (fst p2)) /\
  (snd (fst p1) = Ok tt -> fits sc (sc_frame_counter sc) f g -> fst (fst p1) = fst (fst p2)).
Proof using Type.
  intros (Eh & Ec & El) Hp. cbv zeta. unfold write_plan, wire_front, length_estimate. rewrite <- Eh, <- Ec, <- El.
  assert (Q : level_is_none (frame_level f) = true -> payload f = payload g) by (intros X; apply Hp; destruct (frame_level f); first [discriminate X|reflexivity]).
  unfold frame_level in Hp, Q.
  destruct (_ && negb _); [repeat split; reflexivity|].
  destruct m; [|repeat split; reflexivity].
  destruct (auxiliary_security_header (header f)) as [a|] eqn:Ea.
  2:{ rewrite Hp by reflexivity. repeat split; reflexivity. }
  destruct (negb (is_data _)); [repeat split; reflexivity|].
  destruct (127 <? _)%nat; [repeat split; reflexivity|].
  destruct (level_is_none _) eqn:En.
  { rewrite Q by reflexivity. repeat split; reflexivity. }
  destruct (_ =? _).
  { cbn [fst snd]. split; [reflexivity|]. split; [reflexivity|]. rewrite !app_length, El. split; [reflexivity|discriminate]. }
  destruct (sc_key_provider _ _ _ _) as [[eui key]|] eqn:Ek.
  2:{ cbn [fst snd]. split; [reflexivity|]. split; [reflexivity|]. rewrite !app_length, El. split; [reflexivity|discriminate]. }
  destruct (level_is_enc _) eqn:Ee.
  { cbn [fst snd]. split; [reflexivity|]. split; [reflexivity|]. rewrite !app_length, El. split; [reflexivity|discriminate]. }
  cbn [fst snd]. split; [reflexivity|]. split; [reflexivity|].
  rewrite !app_length, !secured_payload_length, !secured_tag_length, El. split; [reflexivity|].
  intros _ F. destruct (F a eui key) as [-> ->]; [exact Ea| |exact Ek|reflexivity].
  destruct (security_level (control a)); first [discriminate En|discriminate Ee|reflexivity].
Qed.

Lemma one_write m sc f g buf : frame_ok f -> frame_ok g -> u32_ok (sc_frame_counter sc) -> same_shape f g ->
  (encrypting (frame_level f) = false -> payload f = payload g) ->
  let w := try_write_frame c E1 f (ser_ctx m sc) buf in
  let v := try_write_frame c E2 g (ser_ctx m sc) buf in
  fst w = fst v /\ fst (snd w) = fst (snd v) /\
  ((exists n, fst w = Ok n) -> fits sc (sc_frame_counter sc) f g ->
   match fst w with Ok n => firstn n (snd (snd w)) | _ => [] end = match fst v with Ok n => firstn n (snd (snd v)) | _ => [] end).
Proof using HE1 HE2.
  intros Hf Hg Hfc Sh Hp. cbv zeta.
  destruct (try_write_frame c E1 f (ser_ctx m sc) buf) as [r1 [x1 b1]] eqn:W1.
  destruct (try_write_frame c E2 g (ser_ctx m sc) buf) as [r2 [x2 b2]] eqn:W2.
  destruct (write_inv c E1 HE1 f m sc buf _ _ _ Hf Hfc W1) as (bs1 & st1 & u1 & P1 & A1).
  destruct (write_inv c E2 HE2 g m sc buf _ _ _ Hg Hfc W2) as (bs2 & st2 & u2 & P2 & A2).
  destruct (plans m sc f g Sh Hp) as (X1 & X2 & X3 & X4). rewrite P1, P2 in X1, X2, X3, X4. cbn [fst snd] in X1, X2, X3, X4 |- *.
  subst st2 u2. assert (Fr : wire_front (native c) (sc_frame_counter sc) f = wire_front (native c) (sc_frame_counter sc) g).
  { destruct Sh as (Y1 & Y2 & _). unfold wire_front. now rewrite Y1, Y2. }
  destruct Sh as (_ & _ & El).
  destruct A1 as [A1|A1], A2 as [A2|A2].
  - destruct A1 as (L1 & -> & -> & ->). destruct A2 as (L2 & -> & -> & ->).
    rewrite <- X3. split; [reflexivity|]. split; [reflexivity|]. intros [n R] F.
    destruct st1 as [[]|e|]; try discriminate R. cbn [result_of] in *. rewrite X3, firstn_app_exact, <- X3, firstn_app_exact. now apply X4.
  - lia.
  - lia.
  - destruct A1 as (L1 & -> & -> & _). destruct A2 as (L2 & -> & -> & _). rewrite Fr, El.
    split; [reflexivity|]. split; [reflexivity|]. intros [n R]. discriminate R.
Qed.

Lemma histories calls1 : forall calls2 sc, Forall2 other_secrets calls1 calls2 -> calls_ok calls1 -> calls_ok calls2 ->
  u32_ok (sc_frame_counter sc) ->
  (forall e y, In (e, y) (combine (fst (send_all c E1 sc calls1)) calls2) -> secured e = true ->
     fits sc (s_before e) (s_frame e) (c_frame y)) ->
  map observed (fst (send_all c E1 sc calls1)) = map observed (fst (send_all c E2 sc calls2)) /\
  snd (send_all c E1 sc calls1) = snd (send_all c E2 sc calls2).
Proof using HE1 HE2.
  induction calls1 as [|x rest IH]; intros calls2 sc F O1 O2 Hfc G; inversion F as [|? y ? rest2 Hxy Fr]; subst.
  { split; reflexivity. }
  inversion O1 as [|? ? Hx Hr]; subst. inversion O2 as [|? ? Hy Hr2]; subst.
  destruct Hxy as (Em & Eb & Sh & Hp). cbn [send_all] in G |- *. rewrite <- Em, <- Eb.
  pose proof (one_write (c_mode x) sc (c_frame x) (c_frame y) (c_buffer x) Hx Hy Hfc Sh Hp) as W. cbv zeta in W.
  pose proof (write_context c E1 HE1 (c_frame x) (c_mode x) sc (c_buffer x) Hx Hfc) as C1.
  destruct (try_write_frame c E1 (c_frame x) (ser_ctx (c_mode x) sc) (c_buffer x)) as [r1 [k1 b1]].
  destruct (try_write_frame c E2 (c_frame y) (ser_ctx (c_mode x) sc) (c_buffer x)) as [r2 [k2 b2]].
  cbn [fst snd] in W, C1. destruct C1 as (n & -> & Hn & _). destruct W as (<- & <- & W).
  cbn [ser_ctx security_ctx] in G |- *.
  specialize (IH rest2 (at_counter sc n) Fr Hr Hr2 Hn).
  destruct (send_all c E1 (at_counter sc n) rest) as [log1 s1].
  destruct (send_all c E2 (at_counter sc n) rest2) as [log2 s2]. cbn [fst snd] in IH, G |- *.
  destruct IH as [IH1 IH2].
  { intros e z I S. exact (G e z (or_intror I) S). }
  split; [|exact IH2]. cbn [map]. rewrite IH1. f_equal. unfold observed, s_bytes. cbn [s_before s_result s_after s_buffer].
  f_equal. destruct (match r1 with Ok _ => true | _ => false end) eqn:R.
  2:{ destruct r1; first [discriminate R|reflexivity]. }
  apply W; [destruct r1; first [discriminate R|eauto]|].
  intros a eui key Ea Au. apply (G _ _ (or_introl eq_refl)); [|exact Ea|exact Au].
  unfold secured. cbn [s_result s_frame s_call]. unfold s_frame. cbn [s_call]. rewrite Ea. destruct r1; first [exact Au|discriminate R].
Qed.
End Secret.

Section Theorems.
Context {K : Type} (c : cfg) (E1 : block_cipher K).
Hypothesis HE1 : cipher_ok E1.

Definition entry_of (sc : SecurityContext K) (p : sent * call) : list entry :=
  let '(e, y) := p in
  if secured e then
    match auxiliary_security_header (header (s_frame e)) with
    | Some a =>
        match sc_key_provider sc DstAddrMode (key_identifier a) (destination (header (s_frame e))) with
        | Some (_, key) =>
            [{| n_nonce := mac_nonce (sc_euid sc) (s_before e) (level_of e); n_level := level_of e; n_p := payload (c_frame y);
                n_q := secured_payload E1 key (level_of e) (sc_euid sc) (s_before e) (payload (s_frame e));
                n_t := secured_tag E1 key (level_of e) (sc_euid sc) (s_before e) (payload (s_frame e)) |}]
        | None => []
        end
    | None => []
    end
  else [].
Definition pairs (s : story K) : list (sent * call) :=
  combine (fst (send_all c E1 (st_ctx s) (st_calls s))) (st_others s).
Definition book_of (stories : list (story K)) : list entry :=
  flat_map (fun s => flat_map (entry_of (st_ctx s)) (pairs s)) stories.

Lemma entry_facts sc p n : In n (entry_of sc p) -> secured (fst p) = true /\
  n_nonce n = mac_nonce (sc_euid sc) (s_before (fst p)) (level_of (fst p)).
Proof using Type.
  destruct p as [e y]. unfold entry_of. cbn [fst]. destruct (secured e); [|intros []].
  destruct (auxiliary_security_header _) as [a|]; [|intros []]. destruct (sc_key_provider _ _ _ _) as [[x key]|]; [|intros []].
  intros [<-|[]]. repeat split.
Qed.
Lemma entry_single sc p m n : In n (entry_of sc p) -> In m (entry_of sc p) -> m = n.
Proof using Type.
  destruct p as [e y]. unfold entry_of. destruct (secured e); [|intros []].
  destruct (auxiliary_security_header _) as [a|]; [|intros []]. destruct (sc_key_provider _ _ _ _) as [[x key]|]; [|intros []].
  intros [<-|[]] [<-|[]]. reflexivity.
Qed.

Lemma in_combine_l' {A B} (l : list A) (m : list B) p : In p (combine l m) -> In (fst p) l.
Proof using Type. destruct p as [a b]. apply in_combine_l. Qed.

Lemma combine_unique (l : list sent) : forall (m : list call) p q,
  StronglySorted (fun e1 e2 => s_after e1 <= s_before e2) l ->
  (forall e, In e l -> secured e = true -> s_after e = s_before e + 1) ->
  In p (combine l m) -> In q (combine l m) -> secured (fst p) = true -> secured (fst q) = true ->
  s_before (fst p) = s_before (fst q) -> p = q.
Proof using Type.
  induction l as [|e l IH]; intros [|y m] p q S A Ip Iq Sp Sq Eb; try contradiction.
  inversion S as [|? ? Sl F]; subst. rewrite Forall_forall in F.
  cbn [combine] in Ip, Iq. destruct Ip as [<-|Ip], Iq as [<-|Iq].
  - reflexivity.
  - exfalso. pose proof (F _ (in_combine_l' _ _ _ Iq)). pose proof (A e (or_introl eq_refl) Sp). cbn [fst] in *. lia.
  - exfalso. pose proof (F _ (in_combine_l' _ _ _ Ip)). pose proof (A e (or_introl eq_refl) Sq). cbn [fst] in *. lia.
  - apply (IH m); auto. intros e' I. apply A. now right.
Qed.

Lemma nodup_same {A B} (f : A -> B) (l : list A) x y : NoDup (map f l) -> In x l -> In y l -> f x = f y -> x = y.
Proof using Type.
  induction l as [|z l IH]; intros N Ix Iy E; [destruct Ix|]. cbn [map] in N. inversion N as [|? ? Nz Nl]; subst.
  destruct Ix as [->|Ix], Iy as [->|Iy]; auto.
  - exfalso. apply Nz. rewrite E. now apply in_map.
  - exfalso. apply Nz. rewrite <- E. now apply in_map.
Qed.

Lemma forall2_combine {A B} (R : A -> B -> Prop) (l : list A) (m : list B) a b : Forall2 R l m -> In (a, b) (combine l m) -> R a b.
Proof using Type.
  intros F. induction F as [|x y l m Hxy F IH]; [intros []|]. cbn [combine]. intros [I|I]; [congruence|auto].
Qed.
Lemma in_combine_map {A B C} (f : A -> C) (l : list A) (m : list B) a b : In (a, b) (combine l m) -> In (f a, b) (combine (map f l) m).
Proof using Type.
  revert m. induction l as [|x l IH]; intros [|y m]; try contradiction. cbn [combine map]. intros [I|I]; [left; congruence|right; auto].
Qed.

(** Facts about a secured frame of a story and its alternative. *)
Lemma pair_facts s e y : story_ok s -> In (e, y) (pairs s) -> secured e = true ->
  u32_ok (s_before e) /\ other_secrets (s_call e) y /\ frame_ok (c_frame y) /\ frame_ok (s_frame e) /\
  (List.length (payload (s_frame e)) <= 127)%nat /\ s_after e = s_before e + 1.
Proof using HE1.
  intros (U64 & U32 & O1 & O2 & F2) I Se. unfold pairs in I.
  destruct (send_all c E1 (st_ctx s) (st_calls s)) as [log sc'] eqn:Es. cbn [fst] in I.
  pose proof (in_combine_l _ _ _ _ I) as Ie.
  destruct (send_all_inv c E1 HE1 _ _ _ _ O1 U32 Es) as (Ws & Mc & _). rewrite Forall_forall in Ws.
  destruct (Ws e Ie) as (Oe & Ub & _ & W).
  destruct (C29_secured_frame_uses_its_counter c E1 HE1 _ _ _ _ e O1 U32 Es Ie Se) as (A1 & _ & a & _ & _ & Ha & _).
  split; [exact Ub|]. split.
  { apply (forall2_combine _ _ _ _ _ F2). rewrite <- Mc. now apply in_combine_map. }
  split.
  { unfold calls_ok in O2. rewrite Forall_forall in O2. apply O2. exact (in_combine_r _ _ _ _ I). }
  split; [exact Oe|]. split; [|exact A1].
  destruct (s_result e) as [r|r|] eqn:R; [|unfold secured in Se; rewrite R in Se; discriminate Se..].
  destruct (write_ok_inv c E1 HE1 _ _ (at_counter (st_ctx s) (s_before e)) _ _ _ _ Oe Ub W) as (bs & u & P & _). apply plan_ok in P.
  rewrite Ha in P. destruct P as (_ & _ & _ & P & _). unfold length_estimate in P. lia.
Qed.

Lemma book_entries stories : Forall story_ok stories -> NoDup (map (fun s => sc_euid (st_ctx s)) stories) ->
  (forall n, In n (book_of stories) -> book_ok n) /\
  (forall m n, In m (book_of stories) -> In n (book_of stories) -> n_nonce m = n_nonce n -> m = n).
Proof using HE1.
  intros Ok Nd. rewrite Forall_forall in Ok. split.
  - intros n I. unfold book_of in I. apply in_flat_map in I. destruct I as (s & Is & I).
    apply in_flat_map in I. destruct I as ([e y] & Ip & I).
    destruct (entry_facts _ _ _ I) as (Se & _). cbn [fst] in Se.
    destruct (pair_facts s e y (Ok s Is) Ip Se) as (_ & (_ & _ & (_ & _ & El) & Hp) & (_ & _ & Op & _) & (_ & _ & Oq & _) & Lp & _).
    fold (s_frame e) in El, Hp. unfold entry_of in I. rewrite Se in I. unfold frame_level in Hp. fold (level_of e) in Hp.
    assert (Au : authenticated (level_of e) = true).
    { unfold secured, level_of in *. destruct (s_result e); [|discriminate Se..]. destruct (auxiliary_security_header _); [exact Se|discriminate Se]. }
    destruct (auxiliary_security_header _) as [a|]; [|destruct I]. destruct (sc_key_provider _ _ _ _) as [[x key]|]; [|destruct I].
    destruct I as [<-|[]]. unfold book_ok. cbn [n_nonce n_level n_p n_q n_t].
    split; [apply mac_nonce_length|]. split; [apply octets_mac_nonce|]. split; [exact Au|].
    split; [change (2 ^ 16 - 2 ^ 8) with 65280; lia|].
    split; [exact Op|]. split; [now apply octets_secured_payload|]. split; [now apply octets_secured_tag|].
    split; [rewrite secured_payload_length; exact El|]. split; [apply secured_tag_length|].
    intros X. rewrite <- (Hp X). destruct (level_of e); first [discriminate X|reflexivity].
  - intros m n Im Inn Eq. unfold book_of in Im, Inn. apply in_flat_map in Im, Inn.
    destruct Im as (s1 & Is1 & Im), Inn as (s2 & Is2 & Inn). apply in_flat_map in Im, Inn.
    destruct Im as ([e1 y1] & Ip1 & Im), Inn as ([e2 y2] & Ip2 & Inn).
    destruct (entry_facts _ _ _ Im) as (Se1 & Q1), (entry_facts _ _ _ Inn) as (Se2 & Q2). cbn [fst] in *.
    rewrite Q1, Q2 in Eq.
    destruct (pair_facts _ _ _ (Ok _ Is1) Ip1 Se1) as (B1 & _), (pair_facts _ _ _ (Ok _ Is2) Ip2 Se2) as (B2 & _).
    destruct (Ok _ Is1) as (W1 & _). pose proof (Ok _ Is2) as (W2 & _).
    destruct (C29_nonce_injective _ _ _ _ _ _ W1 W2 B1 B2 Eq) as (X1 & X2 & _).
    assert (s1 = s2) by (apply (nodup_same _ _ _ _ Nd Is1 Is2); exact X1). subst s2.
    assert (P : (e1, y1) = (e2, y2)).
    { unfold pairs in Ip1, Ip2. destruct (Ok _ Is1) as (_ & U32 & O1 & _).
      destruct (send_all c E1 (st_ctx s1) (st_calls s1)) as [log sc'] eqn:Es. cbn [fst] in Ip1, Ip2.
      destruct (send_all_inv c E1 HE1 _ _ _ _ O1 U32 Es) as (_ & _ & _ & Srt).
      apply (combine_unique log (st_others s1)); try assumption.
      intros e' Ie' Se'. now apply (C29_secured_frame_uses_its_counter c E1 HE1 _ _ _ _ e' O1 U32 Es Ie' Se'). }
    rewrite <- P in Inn. exact (entry_single _ _ _ _ Inn Im).
Qed.

(** A cipher that does for every entry what the entry says explains the stories. *)
Lemma book_explains stories E2 : Forall story_ok stories -> cipher_ok E2 ->
  (forall n key, In n (book_of stories) ->
     spec_payload key E2 (n_level n) (n_nonce n) (n_p n) = n_q n /\ spec_tag key E2 (n_level n) (n_nonce n) (n_p n) = n_t n) ->
  Forall (fun s =>
      map observed (fst (send_all c E2 (st_ctx s) (st_others s))) = map observed (fst (send_all c E1 (st_ctx s) (st_calls s))) /\
      snd (send_all c E2 (st_ctx s) (st_others s)) = snd (send_all c E1 (st_ctx s) (st_calls s))) stories.
Proof using HE1.
  intros Ok HE2 X. rewrite Forall_forall in Ok. apply Forall_forall. intros s Is. pose proof (Ok s Is) as (U64 & U32 & O1 & O2 & F2).
  cut (map observed (fst (send_all c E1 (st_ctx s) (st_calls s))) = map observed (fst (send_all c E2 (st_ctx s) (st_others s))) /\
       snd (send_all c E1 (st_ctx s) (st_calls s)) = snd (send_all c E2 (st_ctx s) (st_others s))).
  { intros [Y Z]. split; symmetry; assumption. }
  apply (histories c E1 E2 HE1 HE2); try assumption.
  intros e y I Se a x key Ha Au Hk.
  assert (Le : level_of e = security_level (control a)) by (unfold level_of; now rewrite Ha).
  set (en := {| n_nonce := mac_nonce (sc_euid (st_ctx s)) (s_before e) (level_of e); n_level := level_of e; n_p := payload (c_frame y);
                n_q := secured_payload E1 key (level_of e) (sc_euid (st_ctx s)) (s_before e) (payload (s_frame e));
                n_t := secured_tag E1 key (level_of e) (sc_euid (st_ctx s)) (s_before e) (payload (s_frame e)) |}).
  assert (In2 : In en (book_of stories)).
  { unfold book_of. apply in_flat_map. exists s. split; [exact Is|]. apply in_flat_map. exists (e, y). split; [exact I|].
    unfold entry_of. rewrite Se, Ha, Hk. left. reflexivity. }
  destruct (X en key In2) as [P T]. rewrite <- Le. rewrite secured_payload_spec, (secured_tag_spec E2).
  split; [exact P|exact T].
Qed.

(** Whatever was sent fits any other secrets of the same lengths: by any number of senders with
    different addresses, any number of frames each. *)
Theorem C86_any_secrets_fit : forall stories : list (story K), Forall story_ok stories ->
  NoDup (map (fun s => sc_euid (st_ctx s)) stories) ->
  exists E2 : block_cipher K, cipher_ok E2 /\
    (forall k nonce b, on_auth_failure E2 k nonce b = on_auth_failure E1 k nonce b) /\
    Forall (fun s =>
      map observed (fst (send_all c E2 (st_ctx s) (st_others s))) = map observed (fst (send_all c E1 (st_ctx s) (st_calls s))) /\
      snd (send_all c E2 (st_ctx s) (st_others s)) = snd (send_all c E1 (st_ctx s) (st_calls s))) stories.
Proof using HE1.
  intros stories Ok Nd. destruct (book_entries stories Ok Nd) as [Bk Un].
  set (E2 := other (on_auth_failure E1) (book_of stories) None).
  assert (HE2 : cipher_ok E2) by exact (other_ok (on_auth_failure E1) (book_of stories) None (proj2 HE1)).
  exists E2. split; [exact HE2|]. split; [reflexivity|]. apply book_explains; try assumption.
  intros n key I.
  assert (Tw : twist_ok (book_of stories) None) by (intros w X; discriminate X).
  assert (Lk : lookup (book_of stories) (n_nonce n) = Some n) by (apply find_unique; [intros m Im; now apply Un|exact I]).
  split; [exact (fits_payload (on_auth_failure E1) (book_of stories) None n key Tw I (Bk n I) Lk)|
          exact (fits_tag (on_auth_failure E1) (book_of stories) None n key Tw I (Bk n I) Lk)].
Qed.

(** One sender. *)
Corollary C86_one_sender : forall sc calls others, u64_ok (sc_euid sc) -> u32_ok (sc_frame_counter sc) ->
  calls_ok calls -> calls_ok others -> Forall2 other_secrets calls others ->
  exists E2 : block_cipher K, cipher_ok E2 /\
    map observed (fst (send_all c E2 sc others)) = map observed (fst (send_all c E1 sc calls)).
Proof using HE1.
  intros sc calls others U64 U32 O1 O2 F.
  destruct (C86_any_secrets_fit [{| st_ctx := sc; st_calls := calls; st_others := others |}]) as (E2 & H2 & _ & A).
  - constructor; [|constructor]. repeat split; assumption.
  - constructor; [intros []|constructor].
  - exists E2. split; [exact H2|]. inversion A as [|? ? [X _] _]; subst. exact X.
Qed.
End Theorems.

(** * What it depends on *)

(** A sender that starts twice from the same counter: no other cipher explains two different
    payloads where the ciphertexts are equal. *)
Definition c86_ctx (fc : N) : SecurityContext (list N) := SecurityContext_new 1 fc static_key_lookup.
Definition c86_call (l : SecurityLevel) (p : list N) : call :=
  {| c_mode := Footer_None; c_frame := level_frame l false p; c_buffer := repeat 0 127 |}.
Definition twice : list (story (list N)) :=
  [{| st_ctx := c86_ctx 41; st_calls := [c86_call SL_ENCMIC32 [1; 2; 3]]; st_others := [c86_call SL_ENCMIC32 [4; 5; 6]] |};
   {| st_ctx := c86_ctx 41; st_calls := [c86_call SL_ENCMIC32 [1; 2; 3]]; st_others := [c86_call SL_ENCMIC32 [7; 8; 9]] |}].

Lemma other_level_frames l p q : encrypting l = true -> List.length p = List.length q ->
  other_secrets (c86_call l p) (c86_call l q).
Proof.
  intros El L. split; [reflexivity|]. split; [reflexivity|]. split; [repeat split; exact L|].
  cbn. rewrite El. discriminate.
Qed.

Lemma c86_call_ok l p : octets p -> frame_ok (c_frame (c86_call l p)).
Proof. apply level_frame_ok. Qed.

(** What such a call leaves on the air. *)
Lemma c86_sent (E : block_cipher (list N)) fc l p : cipher_ok E -> octets p -> fc < last_counter -> authenticated l = true ->
  (List.length p <= 64)%nat ->
  exists e, fst (send_all host E (c86_ctx fc) [c86_call l p]) = [e] /\
    s_bytes e = wire_front LE fc (level_frame l false p)
      ++ secured_payload E (repeat 0 16) l 1 fc p ++ secured_tag E (repeat 0 16) l 1 fc p.
Proof.
  intros HE Op Hfc Au Lp. cbn [send_all c86_call c_frame c_mode c_buffer].
  assert (T : (tag_len l <= 16)%nat) by (destruct l; cbn; lia).
  assert (Fr : List.length (wire_front LE fc (level_frame l false p)) = 29%nat) by (destruct l; reflexivity).
  assert (U : u32_ok fc) by (unfold u32_ok, last_counter in *; lia).
  destruct (C27_secured_write_succeeds host E HE (level_frame l false p) (c86_ctx fc)
    (AuxiliarySecurityHeader_new (SecurityControl_new l) (Some {| key_source := None; key_index := 3 |})) 2 (repeat 0 16) (repeat 0 127))
    as (n & buf & W).
  - now apply level_frame_ok.
  - reflexivity.
  - exact Au.
  - reflexivity.
  - unfold compression_allowed. intros X. discriminate X.
  - exact Hfc.
  - unfold length_estimate. cbn [payload level_frame header]. cbn. lia.
  - reflexivity.
  - rewrite repeat_length. change (native host) with LE. cbn [c86_ctx SecurityContext_new sc_frame_counter]. rewrite Fr. cbn [payload level_frame]. cbn. lia.
  - destruct (C27_secured_frame_layout host E HE (level_frame l false p) Footer_None (c86_ctx fc)
      (AuxiliarySecurityHeader_new (SecurityControl_new l) (Some {| key_source := None; key_index := 3 |})) (repeat 0 127) n (ser_ctx Footer_None (advanced (c86_ctx fc))) buf)
      as (x & key & Hk & B & _).
    + now apply level_frame_ok.
    + exact U.
    + reflexivity.
    + exact Au.
    + exact W.
    + rewrite W. eexists. split; [reflexivity|]. unfold s_bytes. cbn [s_result s_buffer]. rewrite B.
      injection Hk as <- <-. rewrite app_assoc. reflexivity.
Qed.

Theorem C86_reused_counters_refuted : exists stories : list (story (list N)), Forall story_ok stories /\
  ~ exists E2, cipher_ok E2 /\
    Forall (fun s => map observed (fst (send_all host E2 (st_ctx s) (st_others s)))
                   = map observed (fst (send_all host aes_cipher (st_ctx s) (st_calls s)))) stories.
Proof.
  exists twice. split.
  - repeat constructor; cbn [twice st_ctx st_calls st_others]; try (apply c86_call_ok; repeat constructor);
      try (apply other_level_frames; reflexivity).
  - intros (E2 & HE2 & F). inversion F as [|? ? F1 Fr]; subst. inversion Fr as [|? ? F2 _]; subst.
    cbn [st_ctx st_calls st_others] in F1, F2. rewrite <- F1 in F2. clear F F1 Fr.
    destruct (c86_sent E2 41 SL_ENCMIC32 [4; 5; 6] HE2) as (e1 & L1 & B1); [repeat constructor|reflexivity|reflexivity|cbn; lia|].
    destruct (c86_sent E2 41 SL_ENCMIC32 [7; 8; 9] HE2) as (e2 & L2 & B2); [repeat constructor|reflexivity|reflexivity|cbn; lia|].
    rewrite L1, L2 in F2. cbn [map] in F2. unfold observed in F2. injection F2 as _ _ _ F2. rewrite B1, B2 in F2.
    change (wire_front LE 41 (level_frame SL_ENCMIC32 false [7; 8; 9])) with (wire_front LE 41 (level_frame SL_ENCMIC32 false [4; 5; 6])) in F2.
    apply app_inv_head in F2. apply (f_equal (firstn 3)) in F2.
    rewrite !firstn_app_exact' in F2 by (rewrite secured_payload_length; reflexivity).
    apply (f_equal (secured_payload E2 (repeat 0 16) SL_ENCMIC32 1 41)) in F2. rewrite !secured_payload_involutive in F2. discriminate F2.
Qed.

(** Of a cipher that is a permutation under every key something can be concluded: two blocks of one
    payload whose ciphertexts are equal are not equal. *)
Definition stream_text : list N :=
  key_stream aes_cipher (repeat 0 16) (mac_nonce 1 41 SL_ENCMIC32) 1
  ++ key_stream aes_cipher (repeat 0 16) (mac_nonce 1 41 SL_ENCMIC32) 2.
Definition permuted : story (list N) :=
  {| st_ctx := c86_ctx 41; st_calls := [c86_call SL_ENCMIC32 stream_text]; st_others := [c86_call SL_ENCMIC32 (repeat 0 32)] |}.

Theorem C86_permutations_refuted : cipher_ok aes_cipher /\ permuting aes_cipher /\ story_ok permuted /\
  ~ exists E2, cipher_ok E2 /\ permuting E2 /\
    map observed (fst (send_all host E2 (st_ctx permuted) (st_others permuted)))
    = map observed (fst (send_all host aes_cipher (st_ctx permuted) (st_calls permuted))).
Proof.
  assert (Os : forallb (fun x => x <? 256) stream_text = true) by (vm_compute; reflexivity).
  assert (O : octets stream_text).
  { apply Forall_forall. intros x Hx. apply N.ltb_lt. rewrite forallb_forall in Os. exact (Os x Hx). }
  assert (Ls : List.length stream_text = 32%nat) by (vm_compute; reflexivity).
  assert (Z : secured_payload aes_cipher (repeat 0 16) SL_ENCMIC32 1 41 stream_text = repeat 0 32) by (vm_compute; reflexivity).
  split; [exact aes_cipher_ok|]. split; [exact C78_aes_is_permuting|]. split.
  - split; [reflexivity|]. split; [reflexivity|]. cbn [permuted st_calls st_others].
    split; [constructor; [apply c86_call_ok; exact O|constructor]|].
    split; [constructor; [apply c86_call_ok, octets_repeat0|constructor]|].
    constructor; [|constructor]. apply other_level_frames; [reflexivity|]. rewrite Ls. reflexivity.
  - intros (E2 & HE2 & HP & F). cbn [permuted st_ctx st_calls st_others] in F.
    destruct (c86_sent E2 41 SL_ENCMIC32 (repeat 0 32) HE2) as (e2 & L2 & B2); [apply octets_repeat0|reflexivity|reflexivity|cbn; lia|].
    destruct (c86_sent aes_cipher 41 SL_ENCMIC32 stream_text aes_cipher_ok O) as (e1 & L1 & B1); [reflexivity|reflexivity|rewrite Ls; lia|].
    rewrite L1, L2 in F. cbn [map] in F. unfold observed in F. injection F as _ _ _ F. rewrite B1, B2 in F. rewrite Z in F.
    change (wire_front LE 41 (level_frame SL_ENCMIC32 false stream_text)) with (wire_front LE 41 (level_frame SL_ENCMIC32 false (repeat 0 32))) in F.
    apply app_inv_head in F. apply (f_equal (firstn 32)) in F.
    rewrite (firstn_app_exact' 32 (repeat 0 32)) in F by reflexivity.
    rewrite firstn_app_exact' in F by (rewrite secured_payload_length; reflexivity).
    assert (Zs : forall i, (i < 2)%nat -> key_stream E2 (repeat 0 16) (mac_nonce 1 41 SL_ENCMIC32) (1 + i) = repeat 0 16).
    { intros i Hi.
      assert (Lk : List.length (key_stream E2 (repeat 0 16) (mac_nonce 1 41 SL_ENCMIC32) (1 + i)) = 16%nat).
      { apply HE2; [reflexivity|]. apply octets_app. split; [repeat constructor|]. apply octets_app. split; [apply octets_mac_nonce|apply (octets_in_order BE)]. }
      apply list_octets_ext; [rewrite Lk; reflexivity|]. rewrite Lk. intros u Hu.
      apply (f_equal (fun x => octet x (16 * i + u))) in F. cbn [secured_payload] in F. unfold ccm_cipher in F.
      rewrite repeat_length in F. rewrite octet_xor_at in F by lia.
      replace (1 + (16 * i + u) / 16)%nat with (1 + i)%nat in F by lia. replace ((16 * i + u) mod 16)%nat with u in F by lia.
      replace (octet (repeat 0 32) (16 * i + u)) with 0 in F by (unfold octet; now rewrite nth_repeat).
      rewrite N.lxor_0_l in F. rewrite F. unfold octet. now rewrite nth_repeat. }
    assert (X : [1] ++ mac_nonce 1 41 SL_ENCMIC32 ++ be 2 (N.of_nat 1) = [1] ++ mac_nonce 1 41 SL_ENCMIC32 ++ be 2 (N.of_nat 2)).
    { apply (HP (repeat 0 16)); [reflexivity| |reflexivity| |].
      - apply octets_app. split; [repeat constructor|]. apply octets_app. split; [apply octets_mac_nonce|apply (octets_in_order BE)].
      - apply octets_app. split; [repeat constructor|]. apply octets_app. split; [apply octets_mac_nonce|apply (octets_in_order BE)].
      - pose proof (Zs 0%nat ltac:(lia)) as Z0. pose proof (Zs 1%nat ltac:(lia)) as Z1. unfold key_stream in Z0, Z1.
        cbn [Nat.add] in Z0, Z1. now rewrite Z0, Z1. }
    vm_compute in X. discriminate X.
Qed.

(** * Concrete case: two senders; frames with encryption, with a MIC only, one that is refused. *)
Definition first_sender : story (list N) :=
  {| st_ctx := c86_ctx 41;
     st_calls := [c86_call SL_ENCMIC64 [1; 2; 3]; c86_call SL_MIC32 [7; 7]; c86_call SL_ENC [8]; c86_call SL_ENCMIC128 (repeat 9 40)];
     st_others := [c86_call SL_ENCMIC64 [200; 0; 0]; c86_call SL_MIC32 [7; 7]; c86_call SL_ENC [8]; c86_call SL_ENCMIC128 (map N.of_nat (List.seq 0 40))] |}.
Definition second_sender : story (list N) :=
  {| st_ctx := SecurityContext_new 7 41 static_key_lookup;
     st_calls := [c86_call SL_ENCMIC64 [1; 2; 3]; c86_call SL_ENCMIC32 []];
     st_others := [c86_call SL_ENCMIC64 [3; 2; 1]; c86_call SL_ENCMIC32 []] |}.

Example two_senders : cipher_ok aes_cipher /\ Forall story_ok [first_sender; second_sender] /\
  NoDup (map (fun s => sc_euid (st_ctx s)) [first_sender; second_sender]) /\
  map (fun e => (s_before e, s_result e, s_after e)) (fst (send_all host aes_cipher (st_ctx first_sender) (st_calls first_sender)))
  = [(41, Ok 40%nat, 42); (42, Ok 35%nat, 43); (43, Err (BadInput "NotImplemented"), 44); (44, Ok 85%nat, 45)] /\
  map (fun e => (s_before e, s_result e, s_after e)) (fst (send_all host aes_cipher (st_ctx second_sender) (st_calls second_sender)))
  = [(41, Ok 40%nat, 42); (42, Ok 33%nat, 43)] /\
  (* AES itself is not the cipher that explains the other payloads *)
  map observed (fst (send_all host aes_cipher (st_ctx second_sender) (st_others second_sender)))
  <> map observed (fst (send_all host aes_cipher (st_ctx second_sender) (st_calls second_sender))).
Proof.
  split; [exact aes_cipher_ok|]. split.
  - assert (O : forall p, forallb (fun x => x <? 256) p = true -> octets p).
    { intros p Hp. apply Forall_forall. intros x Hx. apply N.ltb_lt. rewrite forallb_forall in Hp. exact (Hp x Hx). }
    assert (S : forall l p, encrypting l = false -> other_secrets (c86_call l p) (c86_call l p)).
    { intros l p _. split; [reflexivity|]. split; [reflexivity|]. split; [repeat split|]. reflexivity. }
    repeat constructor; cbn [first_sender second_sender st_ctx st_calls st_others];
      try (apply c86_call_ok, O; vm_compute; reflexivity);
      first [apply other_level_frames; reflexivity|apply S; reflexivity].
  - split; [repeat constructor; cbn; intuition discriminate|].
    split; [vm_compute; reflexivity|]. split; [vm_compute; reflexivity|].
    vm_compute. discriminate.
Qed.

Print Assumptions C86_any_secrets_fit.
Print Assumptions C86_one_sender.
Print Assumptions C86_reused_counters_refuted.
Print Assumptions C86_permutations_refuted.
Print Assumptions two_senders.
