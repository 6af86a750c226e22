(** Property C87: forged frames. Whatever was heard, it does not decide whether a frame that nobody
    sent will be accepted: some cipher that explains every frame heard accepts it, another refuses
    it. So no combination of overheard frames (cutting and pasting, changing a payload along with
    its tag, moving a payload to another counter, level or sender) is sure to be accepted, or to be
    refused, unless one uses that the cipher is a particular one. *)
From Coq Require Import List Arith NArith ZArith Bool String Lia ZifyBool ZifyNat ZifyN Sorted.
From Verif Require Import ByteCrate Types HeaderModel BeaconModel CommandModel CcmModel FrameModel
  Spec SecSpec ProofLib HeaderProofs HeaderReadProofs BeaconProofs CommandProofs FrameProofs CcmProofs
  SecureProofs RepoTests Aes128 AesProofs HistorySpec PropHeader PropContent PropFrame PropSecure PropReceive PropHistory
  PropNetwork PropKeys PropCipher PropShows PropCorrupt PropSecret.
Import ListNotations.
Open Scope N_scope.
Open Scope list_scope.
Ltac Zify.zify_post_hook ::= Z.div_mod_to_equations.

(** * Specification *)

(** One of the senders sent, under this address, counter and level, this protected payload. *)
Definition was_sent {K} (c : cfg) (E : block_cipher K) (stories : list (story K)) (eui fc : N) (l : SecurityLevel)
    (q : list N) : Prop :=
  exists s e t, In s stories /\ In e (fst (send_all c E (st_ctx s) (st_calls s))) /\ secured e = true /\
    sc_euid (st_ctx s) = eui /\ s_before e = fc /\ level_of e = l /\
    s_bytes e = wire_front (native c) fc (s_frame e) ++ q ++ t /\ List.length t = tag_len l.

(** A cipher explains what was heard: the same observations of every sender, its secrets being the
    alternative ones (which may be the real ones). *)
Definition explains {K} (c : cfg) (E E2 : block_cipher K) (stories : list (story K)) : Prop :=
  cipher_ok E2 /\ (forall k nonce b, on_auth_failure E2 k nonce b = on_auth_failure E k nonce b) /\
  Forall (fun s => map observed (fst (send_all c E2 (st_ctx s) (st_others s)))
                 = map observed (fst (send_all c E (st_ctx s) (st_calls s)))) stories.

(** * Proofs *)

Lemma first_difference (A B : list N) i : (i < List.length A)%nat -> (i < List.length B)%nat -> octet A i <> octet B i ->
  exists j, (j <= i)%nat /\ octet A j <> octet B j /\ forall k, (k < j)%nat -> octet A k = octet B k.
Proof.
  revert i. induction i as [i IH] using lt_wf_ind. intros La Lb D.
  destruct (forallb (fun k => octet A k =? octet B k) (List.seq 0 i)) eqn:F.
  - exists i. split; [lia|]. split; [exact D|]. intros k Hk. rewrite forallb_forall in F. apply N.eqb_eq, F, in_seq. lia.
  - assert (X : exists k, (k < i)%nat /\ octet A k <> octet B k).
    { clear - F. assert (G : forall s, forallb (fun k => octet A k =? octet B k) s = false -> exists k, In k s /\ octet A k <> octet B k).
      { induction s as [|x s IHs]; [discriminate|]. cbn [forallb]. destruct (N.eqb_spec (octet A x) (octet B x)) as [|n]; cbn [andb].
        - intros H. destruct (IHs H) as (k & I & D). exists k. split; [now right|exact D].
        - intros _. exists x. split; [now left|exact n]. }
      destruct (G _ F) as (k & I & D). apply in_seq in I. exists k. split; [lia|exact D]. }
    destruct X as (k & Hk & Dk). destruct (IH k Hk ltac:(lia) ltac:(lia) Dk) as (j & Lj & Dj & Mj).
    exists j. split; [lia|]. now split.
Qed.

Lemma lists_differ (A B : list N) : List.length A = List.length B -> A <> B ->
  exists i, (i < List.length A)%nat /\ octet A i <> octet B i.
Proof.
  intros L D. destruct (forallb (fun k => octet A k =? octet B k) (List.seq 0 (List.length A))) eqn:F.
  - exfalso. apply D. apply list_octets_ext; [exact L|]. intros i Hi. rewrite forallb_forall in F. apply N.eqb_eq, F, in_seq. lia.
  - revert F. generalize (List.length A) as n. induction n as [|n IH]; [discriminate|].
    rewrite seq_S, forallb_app. cbn [forallb Nat.add]. rewrite andb_true_r. intros F. apply andb_false_iff in F. destruct F as [F|F].
    + destruct (IH F) as (i & Hi & Di). exists i. split; [lia|exact Di].
    + exists n. split; [lia|]. now apply N.eqb_neq.
Qed.

Lemma pad16_octet x i : (i < List.length x)%nat -> octet (pad16 x) i = octet x i.
Proof. intros H. unfold pad16, octet. now rewrite app_nth1. Qed.

Lemma octet_app_r (A B : list N) i : octet (A ++ B) (List.length A + i) = octet B i.
Proof. unfold octet. rewrite app_nth2 by lia. f_equal. lia. Qed.
Lemma octet_app_r' (A B : list N) n i : n = List.length A -> octet (A ++ B) (n + i) = octet B i.
Proof. intros ->. apply octet_app_r. Qed.

Lemma be2_differ x y : x < 65536 -> y < 65536 -> x <> y -> be 2 x <> be 2 y.
Proof. intros Hx Hy D E. apply D. now apply be2_injective. Qed.

(** MAC blocks of different payloads differ in a block both have. *)
Lemma blocks_diverge m n : book_ok m -> book_ok n -> n_nonce m = n_nonce n -> n_level m = n_level n -> n_p m <> n_p n ->
  exists i, (i < List.length (n_blocks m))%nat /\ (i < List.length (n_blocks n))%nat /\
    octet (n_blocks m) i <> octet (n_blocks n) i.
Proof.
  intros Hm Hn En El D. destruct Hm as (Lm & _ & Au & Bm & _). destruct Hn as (Ln & _ & _ & Bn & _).
  assert (Bm' := Bm). assert (Bn' := Bn). change (2 ^ 16 - 2 ^ 8) with 65280 in Bm', Bn'.
  unfold n_blocks. rewrite <- El, <- En. set (nonce := n_nonce m) in *. set (t := tag_len (n_level m)).
  destruct (encrypting (n_level m)) eqn:Ee.
  - unfold ccm_blocks. cbn [List.length Nat.eqb negb]. set (fl := 64 * flag false + _ + 1). cbn [app].
    destruct (Nat.eq_dec (List.length (n_p m)) (List.length (n_p n))) as [L|L].
    + destruct (lists_differ (n_p m) (n_p n) L D) as (i & Hi & Di). rewrite <- L.
      set (pre := fl :: nonce ++ be 2 (N.of_nat (List.length (n_p m)))).
      assert (Lpre : List.length pre = 16%nat) by (unfold pre; cbn [List.length]; rewrite app_length, be_length, Lm; reflexivity).
      replace (fl :: nonce ++ be 2 (N.of_nat (List.length (n_p m))) ++ pad16 (n_p m)) with (pre ++ pad16 (n_p m)) by (unfold pre; cbn [app]; now rewrite <- app_assoc).
      replace (fl :: nonce ++ be 2 (N.of_nat (List.length (n_p m))) ++ pad16 (n_p n)) with (pre ++ pad16 (n_p n)) by (unfold pre; cbn [app]; now rewrite <- app_assoc).
      exists (16 + i)%nat. rewrite !app_length, Lpre. unfold pad16 at 1 2. rewrite !app_length.
      split; [lia|]. split; [lia|]. rewrite !octet_app_r' by (symmetry; exact Lpre). rewrite !pad16_octet by lia. exact Di.
    + destruct (lists_differ (be 2 (N.of_nat (List.length (n_p m)))) (be 2 (N.of_nat (List.length (n_p n))))) as (i & Hi & Di);
        [now rewrite !be_length|apply be2_differ; lia|]. rewrite be_length in Hi.
      exists (14 + i)%nat. cbn [List.length]. rewrite !app_length, !be_length, Lm. split; [lia|]. split; [lia|].
      change (fl :: nonce ++ ?x) with ([fl] ++ nonce ++ x). 
      replace ([fl] ++ nonce ++ be 2 (N.of_nat (List.length (n_p m))) ++ pad16 (n_p m)) with (([fl] ++ nonce) ++ be 2 (N.of_nat (List.length (n_p m))) ++ pad16 (n_p m)) by (now rewrite <- app_assoc).
      replace ([fl] ++ nonce ++ be 2 (N.of_nat (List.length (n_p n))) ++ pad16 (n_p n)) with (([fl] ++ nonce) ++ be 2 (N.of_nat (List.length (n_p n))) ++ pad16 (n_p n)) by (now rewrite <- app_assoc).
      rewrite !octet_app_r' by (rewrite app_length, Lm; reflexivity).
      unfold octet in *. rewrite !app_nth1 by (rewrite be_length; lia). exact Di.
  - unfold ccm_blocks. replace (pad16 []) with (@nil N) by reflexivity. rewrite !app_nil_r.
    change (N.of_nat (List.length (@nil N))) with 0.
    assert (Aad : forall p : list N, N.of_nat (List.length p) < 2 ^ 16 - 2 ^ 8 -> aad_length (N.of_nat (List.length p)) = be 2 (N.of_nat (List.length p))).
    { intros p Hp. unfold aad_length. apply N.ltb_lt in Hp. now rewrite Hp. }
    destruct (Nat.eq_dec (List.length (n_p m)) 0) as [Zm|Zm]; destruct (Nat.eq_dec (List.length (n_p n)) 0) as [Zn|Zn].
    + exfalso. apply D. apply length_zero_iff_nil in Zm, Zn. congruence.
    + exists 0%nat. cbn [app List.length]. split; [lia|]. split; [lia|]. cbn [octet nth]. unfold octet. cbn [nth].
      rewrite Zm. apply Nat.eqb_neq in Zn. rewrite Zn. cbn [Nat.eqb negb flag]. lia.
    + exists 0%nat. cbn [app List.length]. split; [lia|]. split; [lia|]. unfold octet. cbn [nth].
      rewrite Zn. apply Nat.eqb_neq in Zm. rewrite Zm. cbn [Nat.eqb negb flag]. lia.
    + pose proof Zm as Zm'. pose proof Zn as Zn'. apply Nat.eqb_neq in Zm', Zn'. rewrite Zm', Zn'.
      replace (match n_p m with [] => [] | _ :: _ => pad16 (aad_length (N.of_nat (List.length (n_p m))) ++ n_p m) end)
        with (pad16 (be 2 (N.of_nat (List.length (n_p m))) ++ n_p m)) by (rewrite <- (Aad _ Bm); destruct (n_p m); [contradiction Zm; reflexivity|reflexivity]).
      replace (match n_p n with [] => [] | _ :: _ => pad16 (aad_length (N.of_nat (List.length (n_p n))) ++ n_p n) end)
        with (pad16 (be 2 (N.of_nat (List.length (n_p n))) ++ n_p n)) by (rewrite <- (Aad _ Bn); destruct (n_p n); [contradiction Zn; reflexivity|reflexivity]).
      set (xm := be 2 (N.of_nat (List.length (n_p m))) ++ n_p m). set (xn := be 2 (N.of_nat (List.length (n_p n))) ++ n_p n).
      assert (Dx : exists i, (i < List.length xm)%nat /\ (i < List.length xn)%nat /\ octet xm i <> octet xn i).
      { unfold xm, xn. rewrite !app_length, !be_length. destruct (Nat.eq_dec (List.length (n_p m)) (List.length (n_p n))) as [L|L].
        - destruct (lists_differ (n_p m) (n_p n) L D) as (i & Hi & Di). exists (2 + i)%nat. split; [lia|]. split; [lia|].
          rewrite !octet_app_r' by (rewrite be_length; reflexivity). exact Di.
        - destruct (lists_differ (be 2 (N.of_nat (List.length (n_p m)))) (be 2 (N.of_nat (List.length (n_p n))))) as (i & Hi & Di);
            [now rewrite !be_length|apply be2_differ; lia|]. rewrite be_length in Hi. exists i. split; [lia|]. split; [lia|].
          unfold octet in *. rewrite !app_nth1 by (rewrite be_length; lia). exact Di. }
      destruct Dx as (i & Im & In_ & Di). cbn [negb]. set (fl := 64 * flag true + _ + 1).
      set (pre := [fl] ++ nonce ++ be 2 0).
      assert (Lpre : List.length pre = 16%nat) by (unfold pre; rewrite !app_length, be_length, Lm; reflexivity).
      replace ([fl] ++ nonce ++ be 2 0 ++ pad16 xm) with (pre ++ pad16 xm) by (unfold pre; now rewrite <- !app_assoc).
      replace ([fl] ++ nonce ++ be 2 0 ++ pad16 xn) with (pre ++ pad16 xn) by (unfold pre; now rewrite <- !app_assoc).
      exists (16 + i)%nat. rewrite !app_length, Lpre. unfold pad16 at 1 2. rewrite !app_length.
      split; [lia|]. split; [lia|]. rewrite !octet_app_r' by (symmetry; exact Lpre). rewrite !pad16_octet by lia. exact Di.
Qed.

Lemma lxor_solve a b p : p = N.lxor a (N.lxor b p) -> a = b.
Proof.
  intros H. rewrite <- N.lxor_assoc in H. apply (f_equal (fun x => N.lxor x p)) in H.
  rewrite N.lxor_assoc, !N.lxor_nilpotent, N.lxor_0_r in H. symmetry in H. now apply N.lxor_eq.
Qed.

(** The type octet that keeps the input at the fork apart from all others. *)
Definition fork_type (d : N) : N := if d <? 128 then 128 else N.lxor 4 d.
Lemma fork_type_range d : d < 256 -> 128 <= fork_type d < 256 /\
  (128 <= N.lxor (fork_type d) d \/ N.lxor (fork_type d) d = 4).
Proof.
  intros H. pose proof (octet_sweep (fun d => (128 <=? fork_type d) && (fork_type d <? 256) &&
    ((128 <=? N.lxor (fork_type d) d) || (N.lxor (fork_type d) d =? 4))) ltac:(vm_compute; reflexivity) d H) as X.
  apply andb_true_iff in X. destruct X as [X Z]. apply andb_true_iff in X. destruct X as [X Y].
  apply N.leb_le in X. apply N.ltb_lt in Y. apply orb_true_iff in Z. rewrite N.leb_le, N.eqb_eq in Z. auto.
Qed.

(** A chain agrees with another up to the first block in which they differ. *)
Lemma mac_prefix {K} (E : block_cipher K) k A B J : (forall i, (i < 16 * J)%nat -> octet A i = octet B i) ->
  forall j, (j <= J)%nat -> cbc_mac E k A j = cbc_mac E k B j.
Proof.
  intros H. induction j as [|j IH]; [reflexivity|]. intros L. cbn [cbc_mac]. rewrite IH by lia. f_equal.
  apply xor_at_ext. intros i Hi. split; [reflexivity|]. rewrite !octet_skipn. apply H. lia.
Qed.

Section Fork.
Context {K : Type} (fail : K -> list N -> list N -> list N) (book : list entry) (A : entry) (q t : list N).
Hypothesis Bk : forall n, In n book -> book_ok n.
Hypothesis Un : forall m n, In m book -> In n book -> n_nonce m = n_nonce n -> m = n.
Hypothesis HA : In A book.
Hypothesis Hq : q <> n_q A.
Hypothesis Oq : octets q.
Hypothesis Lq : N.of_nat (List.length q) < 2 ^ 16 - 2 ^ 8.
Hypothesis Ot : octets t.
Hypothesis Lt : List.length t = tag_len (n_level A).

(** What the forged ciphertext decrypts to. *)
Definition fp : list N :=
  if encrypting (n_level A) then xor_at (octet q) (fun i => N.lxor (octet (n_q A) i) (octet (n_p A) i)) (List.length q) else q.
Definition F : entry := {| n_nonce := n_nonce A; n_level := n_level A; n_p := fp; n_q := q; n_t := t |}.

Lemma fp_length : List.length fp = List.length q.
Proof using All. unfold fp. destruct (encrypting _); [|reflexivity]. unfold xor_at. now rewrite map_length, seq_length. Qed.
Lemma fp_differs : n_p A <> fp.
Proof using All.
  destruct (Bk A HA) as (_ & _ & _ & _ & _ & _ & _ & La & _ & Ha). intros D. unfold fp in D. destruct (encrypting (n_level A)) eqn:Ee.
  - apply Hq. assert (L : List.length q = List.length (n_q A)).
    { rewrite La, D. unfold xor_at. now rewrite map_length, seq_length. }
    apply list_octets_ext; [exact L|]. intros i Hi.
    apply (f_equal (fun x => octet x i)) in D. rewrite octet_xor_at in D by exact Hi.
    exact (lxor_solve _ _ _ D).
  - apply Hq. rewrite Ha by reflexivity. now symmetry.
Qed.
Lemma F_ok : book_ok F.
Proof using All.
  destruct (Bk A HA) as (Ln & On & Au & La & Op & Oqa & Ota & Lqa & _). unfold book_ok, F. cbn [n_nonce n_level n_p n_q n_t].
  rewrite fp_length. split; [exact Ln|]. split; [exact On|]. split; [exact Au|]. split; [exact Lq|]. split.
  { unfold fp. destruct (encrypting _); [|exact Oq]. apply Forall_forall. intros x Hx. unfold xor_at in Hx. apply in_map_iff in Hx.
    destruct Hx as (i & <- & _). apply lxor_octet; [now apply octet_lt|]. apply lxor_octet; now apply octet_lt. }
  split; [exact Oq|]. split; [exact Ot|]. split; [reflexivity|]. split; [exact Lt|].
  intros X. unfold fp. now rewrite X.
Qed.

Lemma fork_exists : exists J, (J < List.length (n_blocks A) / 16)%nat /\ (J < List.length (n_blocks F) / 16)%nat /\
  (forall i, (i < 16 * J)%nat -> octet (n_blocks A) i = octet (n_blocks F) i) /\
  exists u, (u < 16)%nat /\ octet (n_blocks A) (16 * J + u) <> octet (n_blocks F) (16 * J + u).
Proof using All.
  destruct (blocks_diverge A F (Bk A HA) F_ok eq_refl eq_refl fp_differs) as (i & I1 & I2 & D).
  destruct (first_difference _ _ i I1 I2 D) as (j & Lj & Dj & Mj).
  assert (W : forall n, book_ok n -> exists m, List.length (n_blocks n) = (m * 16)%nat).
  { intros n (Ln & _). unfold n_blocks. destruct (encrypting _); unfold ccm_blocks.
    - rewrite !app_length, Ln, be_length. destruct (pad16_whole (n_p n)) as [m ->]. exists (1 + m)%nat. cbn [List.length]. lia.
    - rewrite !app_length, Ln, be_length. destruct (n_p n) as [|x p].
      + exists 1%nat. reflexivity.
      + destruct (pad16_whole (aad_length (N.of_nat (List.length (x :: p))) ++ x :: p)) as [m ->]. exists (1 + m)%nat.
        replace (List.length (pad16 [])) with 0%nat by reflexivity. cbn [List.length]. lia. }
  destruct (W A (Bk A HA)) as [ma Wa]. destruct (W F F_ok) as [mf Wf].
  exists (j / 16)%nat. split; [lia|]. split; [lia|]. split; [intros k Hk; apply Mj; lia|].
  exists (j mod 16)%nat. split; [lia|]. replace (16 * (j / 16) + j mod 16)%nat with j by lia. exact Dj.
Qed.

Definition fork_byte (J : nat) : N := N.lxor (octet (n_blocks A) (16 * J)) (octet (n_blocks F) (16 * J)).
Definition fork_in (J : nat) : list N :=
  match J with
  | O => firstn 16 (n_blocks F)
  | S _ => xor_at (fun u => N.lxor (octet (tagged (fork_type (fork_byte J)) (n_nonce A) J) u) (octet (n_blocks A) (16 * J + u)))
                  (fun u => octet (n_blocks F) (16 * J + u)) 16
  end.
Definition fork (J : nat) : twist :=
  {| w_entry := A; w_at := J; w_type := fork_type (fork_byte J); w_in := fork_in J; w_blocks := n_blocks F;
     w_mac := fun u => N.lxor (octet t u) (octet (n_t A) u) |}.

Lemma fork_byte_lt J : fork_byte J < 256.
Proof using All. unfold fork_byte. apply lxor_octet; apply octet_lt; apply octets_blocks; first [exact F_ok|exact (Bk A HA)]. Qed.

Lemma fork_in_S J : J <> 0%nat -> fork_in J =
  xor_at (fun u => N.lxor (octet (tagged (fork_type (fork_byte J)) (n_nonce A) J) u) (octet (n_blocks A) (16 * J + u)))
         (fun u => octet (n_blocks F) (16 * J + u)) 16.
Proof using Type. destruct J; [contradiction|reflexivity]. Qed.

Section AtJ.
Context (J : nat).
Hypothesis J1 : (J < List.length (n_blocks A) / 16)%nat.
Hypothesis J2 : (J < List.length (n_blocks F) / 16)%nat.
Hypothesis Jp : forall i, (i < 16 * J)%nat -> octet (n_blocks A) i = octet (n_blocks F) i.
Hypothesis Jd : exists u, (u < 16)%nat /\ octet (n_blocks A) (16 * J + u) <> octet (n_blocks F) (16 * J + u).

Lemma fork_in_type : J <> 0%nat -> 128 <= octet (fork_in J) 0 \/ octet (fork_in J) 0 = 4.
Proof using All.
  intros HJ. pose proof (fork_type_range _ (fork_byte_lt J)) as [_ R].
  assert (X : octet (fork_in J) 0 = N.lxor (fork_type (fork_byte J)) (fork_byte J)); [|rewrite X; exact R].
  rewrite (fork_in_S J HJ). rewrite octet_xor_at by lia.
  replace (octet (tagged (fork_type (fork_byte J)) (n_nonce A) J) 0) with (fork_type (fork_byte J)) by reflexivity.
  rewrite !Nat.add_0_r. rewrite N.lxor_assoc. reflexivity.
Qed.

Lemma b0_octet n : book_ok n -> octet (firstn 16 (n_blocks n)) 0 = b0_flags n.
Proof using Type. intros H. destruct (blocks_shape n) as [rest ->]. reflexivity. Qed.

Lemma fork_twist_ok : twist_ok book (Some (fork J)).
Proof using All.
  intros w Ew. injection Ew as <-. pose proof (fork_type_range _ (fork_byte_lt J)) as [R _].
  split; [exact R|]. intros n b Hn Hb. cbn [fork w_in].
  pose proof (Bk n Hn) as Okn. pose proof (flags_range n Okn) as Fl. pose proof (flags_range F F_ok) as FF.
  assert (Kind : octet b 0 = 1 \/ (b = firstn 16 (n_blocks n) /\ octet b 0 = b0_flags n) \/
     exists j, b = mark (Some (fork J)) n j /\ (octet b 0 = 0 \/ n = A /\ j = J /\ octet b 0 = fork_type (fork_byte J))).
  { destruct Hb as [[i ->]|[->|[j ->]]].
    - now left.
    - right; left. split; [reflexivity|]. now apply b0_octet.
    - right; right. exists j. split; [reflexivity|]. unfold mark. cbn [fork w_entry w_at w_type].
      destruct (same_octets (n_nonce n) (n_nonce A) && (j =? J)%nat) eqn:Eb.
      + right. apply andb_true_iff in Eb. destruct Eb as [X Y]. apply same_octets_eq in X. apply Nat.eqb_eq in Y.
        split; [exact (Un n A Hn HA X)|]. split; [exact Y|reflexivity].
      + left. reflexivity. }
  intros ->. destruct (Nat.eq_dec J 0) as [J0|J0].
  - assert (Fi : fork_in J = firstn 16 (n_blocks F)) by (rewrite J0; reflexivity).
    rewrite Fi in Kind. rewrite (b0_octet F F_ok) in Kind.
    destruct Kind as [X|[[X _]|[j [X [Y|(_ & _ & Y)]]]]]; [lia| |lia|lia].
    assert (N1 : n_nonce n = n_nonce A).
    { apply (f_equal (fun x => firstn 13 (skipn 1 x))) in X. rewrite (first_block F F_ok), (first_block n Okn) in X.
      rewrite (nonce_in F F_ok), (nonce_in n Okn) in X. now symmetry. }
    assert (n = A) by exact (Un n A Hn HA N1). subst n.
    destruct Jd as (u & Hu & Du). apply Du. rewrite J0. cbn [Nat.mul Nat.add].
    apply (f_equal (fun x => octet x u)) in X. unfold octet in X |- *. rewrite !nth_firstn_lt in X by lia. now symmetry.
  - pose proof (fork_in_type J0) as T.
    destruct Kind as [X|[[_ X]|[j [X [Y|(-> & -> & Y)]]]]]; [lia|lia|lia|].
    destruct Jd as (u & Hu & Du). apply Du. apply (f_equal (fun x => octet x u)) in X.
    assert (Fu : octet (fork_in J) u = N.lxor (N.lxor (octet (tagged (fork_type (fork_byte J)) (n_nonce A) J) u) (octet (n_blocks A) (16 * J + u)))
                  (octet (n_blocks F) (16 * J + u))).
    { rewrite (fork_in_S J J0). now rewrite octet_xor_at. }
    rewrite Fu in X. unfold mark in X. cbn [fork w_entry w_at w_type] in X.
    rewrite (proj2 (same_octets_eq (n_nonce A) (n_nonce A))), Nat.eqb_refl in X by reflexivity. cbn [andb] in X.
    rewrite N.lxor_assoc in X. apply (f_equal (N.lxor (octet (tagged (fork_type (fork_byte J)) (n_nonce A) J) u))) in X.
    rewrite <- N.lxor_assoc, N.lxor_nilpotent, N.lxor_0_l in X. now apply N.lxor_eq.
Qed.

Section Under.
Context (k : K).
Notation E := (other fail book (Some (fork J))).

Lemma A_lookup : lookup book (n_nonce A) = Some A.
Proof using All. apply find_unique; [intros m Im; now apply Un|exact HA]. Qed.

Lemma A_stream i u : (u < 16)%nat -> N.of_nat i < 2 ^ 16 -> octet (key_stream E k (n_nonce A) i) u = stream A i u.
Proof using All. exact (stream_answer fail book (Some (fork J)) A k fork_twist_ok HA (Bk A HA) A_lookup i u). Qed.

(** The input at the fork. *)
Lemma fork_input : xor_at (octet (cbc_mac E k (n_blocks F) J)) (octet (skipn (16 * J) (n_blocks F))) 16 = fork_in J.
Proof using All.
  rewrite <- (mac_prefix E k (n_blocks A) (n_blocks F) J Jp J ltac:(lia)).
  pose proof (blocks_count F F_ok) as CF.
  destruct (Nat.eq_dec J 0) as [J0|J0].
  - replace (fork_in J) with (firstn 16 (n_blocks F)) by (rewrite J0; reflexivity).
    replace (cbc_mac E k (n_blocks A) J) with (repeat 0 16) by (rewrite J0 at 2; reflexivity).
    replace (16 * J)%nat with 0%nat by lia. cbn [skipn].
    apply list_octets_ext; unfold xor_at; rewrite map_length, seq_length.
    + rewrite firstn_length_le; [reflexivity|lia].
    + intros i Hi. rewrite octet_nth_map by exact Hi.
      replace (octet (repeat 0 16) i) with 0 by (unfold octet; now rewrite nth_repeat). rewrite N.lxor_0_l.
      unfold octet. symmetry. now apply nth_firstn_lt.
  - rewrite (fork_in_S J J0). apply xor_at_ext. intros u Hu. split; [|apply octet_skipn].
    destruct (Nat.eq_dec (S (Nat.pred J)) J) as [EJ|X]; [|lia].
    replace (cbc_mac E k (n_blocks A) J) with (cbc_mac E k (n_blocks A) (S (Nat.pred J))) by (f_equal; exact EJ).
    rewrite (mac_steps fail book (Some (fork J)) A k fork_twist_ok HA (Bk A HA) A_lookup (Nat.pred J) ltac:(lia) u Hu).
    unfold next. rewrite EJ. replace (J <? List.length (n_blocks A) / 16)%nat with true by (symmetry; apply Nat.ltb_lt; lia).
    unfold mark. cbn [fork w_entry w_at w_type].
    rewrite (proj2 (same_octets_eq (n_nonce A) (n_nonce A))), Nat.eqb_refl by reflexivity. reflexivity.
Qed.

Lemma tnext_lt j u : tnext (fork J) j u < 256.
Proof using All.
  unfold tnext. cbn [fork w_entry w_blocks w_mac]. destruct (Bk A HA) as (_ & On & _ & _ & _ & _ & Ota & _).
  destruct (_ <? _)%nat; apply lxor_octet; apply octet_lt; try assumption.
  - unfold tagged. apply octets_app. split; [repeat constructor|]. apply octets_app. split; [exact On|apply (octets_in_order LE)].
  - apply octets_blocks, F_ok.
Qed.

Lemma fork_in_5 : octet (fork_in J) 0 <> 5.
Proof using All.
  destruct (Nat.eq_dec J 0) as [J0|J0].
  - replace (fork_in J) with (firstn 16 (n_blocks F)) by (rewrite J0; reflexivity). rewrite (b0_octet F F_ok). pose proof (flags_range F F_ok). lia.
  - pose proof (fork_in_type J0). lia.
Qed.

Lemma forged_steps j : (J <= j)%nat -> (j < List.length (n_blocks F) / 16)%nat -> forall u, (u < 16)%nat ->
  octet (cbc_mac E k (n_blocks F) (S j)) u = tnext (fork J) j u.
Proof using All.
  pose proof (blocks_count F F_ok) as CF. destruct (Bk A HA) as (Ln & _).
  induction j as [|j IH]; intros Lj Hj u Hu.
  - assert (J = 0%nat) as J0 by lia.
    replace (cbc_mac E k (n_blocks F) 1) with (cbc_mac E k (n_blocks F) (S J)) by (f_equal; lia).
    change (cbc_mac E k (n_blocks F) (S J)) with (encrypt_block E k (xor_at (octet (cbc_mac E k (n_blocks F) J)) (octet (skipn (16 * J) (n_blocks F))) 16)).
    rewrite octet_other by exact Hu. rewrite fork_input.
    unfold answer. cbn [fork w_in w_at]. rewrite (proj2 (same_octets_eq (fork_in J) (fork_in J))) by reflexivity.
    replace (tnext (fork J) 0 u) with (tnext (fork J) J u) by (f_equal; exact J0). apply N.mod_small, tnext_lt.
  - destruct (Nat.eq_dec J (S j)) as [JE|JN].
    + change (cbc_mac E k (n_blocks F) (S (S j))) with (encrypt_block E k (xor_at (octet (cbc_mac E k (n_blocks F) (S j))) (octet (skipn (16 * S j) (n_blocks F))) 16)).
      rewrite <- JE. rewrite octet_other by exact Hu. rewrite fork_input.
      unfold answer. cbn [fork w_in w_at]. rewrite (proj2 (same_octets_eq (fork_in J) (fork_in J))) by reflexivity.
      apply N.mod_small, tnext_lt.
    + specialize (IH ltac:(lia) ltac:(lia)).
      change (cbc_mac E k (n_blocks F) (S (S j))) with (encrypt_block E k (xor_at (octet (cbc_mac E k (n_blocks F) (S j))) (octet (skipn (16 * S j) (n_blocks F))) 16)).
      rewrite octet_other by exact Hu.
      replace (xor_at (octet (cbc_mac E k (n_blocks F) (S j))) (octet (skipn (16 * S j) (n_blocks F))) 16) with (tagged 5 (n_nonce A) (S j)).
      * unfold answer. cbn [fork w_in w_at].
        replace (same_octets (tagged 5 (n_nonce A) (S j)) (fork_in J)) with false.
        2:{ symmetry. apply not_true_is_false. rewrite same_octets_eq. intros X. apply fork_in_5. rewrite <- X. reflexivity. }
        change (octet (tagged 5 (n_nonce A) (S j)) 0 =? 5) with true. cbv match.
        replace (firstn 2 (skipn 14 (tagged 5 (n_nonce A) (S j)))) with (le 2 (N.of_nat (S j))).
        2:{ unfold tagged. change (skipn 14 ([5] ++ ?x)) with (skipn 13 x). rewrite skipn_app_exact' by (symmetry; exact Ln). reflexivity. }
        rewrite le_val_small by (change (256 ^ N.of_nat 2) with 65536; lia). rewrite Nat2N.id. apply N.mod_small, tnext_lt.
      * apply list_octets_ext.
        -- unfold xor_at. rewrite map_length, seq_length. unfold tagged. rewrite !app_length, le_length, Ln. reflexivity.
        -- unfold tagged at 1. rewrite !app_length, le_length, Ln. cbn [List.length]. intros i Hi. rewrite octet_xor_at by lia.
           rewrite IH by lia. rewrite octet_skipn. unfold tnext. cbn [fork w_entry w_blocks].
           replace (S j <? List.length (n_blocks F) / 16)%nat with true by (symmetry; apply Nat.ltb_lt; lia).
           rewrite N.lxor_assoc, N.lxor_nilpotent. symmetry. apply N.lxor_0_r.
Qed.

Lemma forged_tag : spec_tag k E (n_level A) (n_nonce A) fp = t.
Proof using All.
  destruct (Bk A HA) as (_ & _ & Au & _). assert (T : (tag_len (n_level A) <= 16)%nat) by (destruct (n_level A); cbn; lia).
  assert (G : xor_at (octet (cbc_mac E k (n_blocks F) (List.length (n_blocks F) / 16)))
                (octet (key_stream E k (n_nonce A) 0)) (tag_len (n_level A)) = t).
  { apply list_octets_ext; [unfold xor_at; rewrite map_length, seq_length; now rewrite Lt|].
    intros i Hi. assert (Hi' : (i < tag_len (n_level A))%nat) by (unfold xor_at in Hi; rewrite map_length, seq_length in Hi; exact Hi).
    rewrite octet_xor_at by exact Hi'. rewrite A_stream by lia. cbn [stream].
    destruct (Nat.eq_dec (S (Nat.pred (List.length (n_blocks F) / 16))) (List.length (n_blocks F) / 16)) as [Em|X]; [|lia].
    replace (cbc_mac E k (n_blocks F) (List.length (n_blocks F) / 16)) with (cbc_mac E k (n_blocks F) (S (Nat.pred (List.length (n_blocks F) / 16)))) by (f_equal; exact Em).
    rewrite forged_steps by lia. unfold tnext. cbn [fork w_blocks w_mac]. rewrite Em.
    rewrite Nat.ltb_irrefl.
    rewrite N.lxor_assoc, N.lxor_nilpotent. apply N.lxor_0_r. }
  unfold n_blocks in G. cbn [F n_nonce n_level n_p] in G. unfold spec_tag, ccm_tag. destruct (n_level A); try discriminate Au; exact G.
Qed.

Lemma forged_payload : spec_payload k E (n_level A) (n_nonce A) fp = q.
Proof using All.
  destruct (Bk A HA) as (_ & _ & Au & _). assert (Lq' := Lq). change (2 ^ 16 - 2 ^ 8) with 65280 in Lq'.
  assert (X : encrypting (n_level A) = true -> ccm_cipher E k (n_nonce A) fp = q).
  { intros Ee. apply list_octets_ext; unfold ccm_cipher, xor_at; rewrite map_length, seq_length; [apply fp_length|].
    rewrite fp_length. intros i Hi. match goal with |- octet (map ?f _) _ = _ => rewrite (octet_nth_map f) by exact Hi end. cbv beta.
    rewrite A_stream by (change (2 ^ 16) with 65536; lia). cbn [stream Nat.add].
    replace (16 * (i / 16) + i mod 16)%nat with i by lia. unfold fp. rewrite Ee. rewrite octet_xor_at by exact Hi.
    rewrite N.lxor_assoc, N.lxor_nilpotent. apply N.lxor_0_r. }
  unfold spec_payload. destruct (n_level A) eqn:El; try discriminate Au; first [apply X; reflexivity|unfold fp; rewrite El; reflexivity].
Qed.
End Under.
End AtJ.

(** A cipher that does what the book says and gives the forged frame the tag [t]. *)
Lemma forged : exists tw, forall k, let E := other fail book (Some tw) in
  (forall n, In n book -> spec_payload k E (n_level n) (n_nonce n) (n_p n) = n_q n /\ spec_tag k E (n_level n) (n_nonce n) (n_p n) = n_t n) /\
  spec_payload k E (n_level A) (n_nonce A) fp = q /\ spec_tag k E (n_level A) (n_nonce A) fp = t.
Proof using All.
  destruct fork_exists as (J & J1 & J2 & Jp & Jd). exists (fork J). intros k E.
  pose proof (fork_twist_ok J J1 J2 Jp Jd) as Tw. split; [|split].
  - intros n I. assert (Lk : lookup book (n_nonce n) = Some n) by (apply find_unique; [intros m Im; now apply Un|exact I]).
    split; [exact (fits_payload fail book (Some (fork J)) n k Tw I (Bk n I) Lk)|
            exact (fits_tag fail book (Some (fork J)) n k Tw I (Bk n I) Lk)].
  - now apply forged_payload.
  - now apply forged_tag.
Qed.
End Fork.

Section Theorems.
Context {K D : Type} (c : cfg) (E1 : block_cipher K).
Hypothesis HE1 : cipher_ok E1.

Lemma entry_was_sent stories n eui fc l : Forall story_ok stories -> In n (book_of c E1 stories) ->
  n_nonce n = mac_nonce eui fc l -> u64_ok eui -> u32_ok fc -> n_level n = l /\ was_sent c E1 stories eui fc l (n_q n).
Proof using HE1.
  intros Ok I En U64 U32. rewrite Forall_forall in Ok. unfold book_of in I. apply in_flat_map in I. destruct I as (s & Is & I).
  apply in_flat_map in I. destruct I as ([e y] & Ip & I).
  destruct (entry_facts E1 _ _ _ I) as (Se & Q). cbn [fst] in Se, Q.
  destruct (pair_facts c E1 HE1 s e y (Ok s Is) Ip Se) as (B & _).
  destruct (Ok s Is) as (W & V & O1 & _). rewrite Q in En.
  destruct (C29_nonce_injective _ _ _ _ _ _ W U64 B U32 En) as (X1 & X2 & X3).
  unfold pairs in Ip. destruct (send_all c E1 (st_ctx s) (st_calls s)) as [log sc'] eqn:Es. cbn [fst] in Ip.
  pose proof (in_combine_l _ _ _ _ Ip) as Ie.
  destruct (C29_secured_frame_uses_its_counter c E1 HE1 _ _ _ _ e O1 V Es Ie Se) as (_ & _ & a & x & key & Ha & Hk & Bs).
  unfold entry_of in I. rewrite Se, Ha, Hk in I. destruct I as [<-|[]]. cbn [n_level n_q]. split; [exact X3|].
  exists s, e, (secured_tag E1 key (level_of e) (sc_euid (st_ctx s)) (s_before e) (payload (s_frame e))).
  split; [exact Is|]. split; [rewrite Es; exact Ie|]. split; [exact Se|]. split; [exact X1|]. split; [exact X2|]. split; [exact X3|].
  split; [rewrite Bs, <- X2; reflexivity|]. rewrite <- X3. apply secured_tag_length.
Qed.

(** For a protected payload that was not sent under this address, counter and level every tag is
    the right one under some cipher that explains what was heard. *)
Lemma any_tag stories eui fc l q t : Forall story_ok stories -> NoDup (map (fun s => sc_euid (st_ctx s)) stories) ->
  u64_ok eui -> u32_ok fc -> authenticated l = true -> octets q -> N.of_nat (List.length q) < 2 ^ 16 - 2 ^ 8 ->
  octets t -> List.length t = tag_len l -> ~ was_sent c E1 stories eui fc l q ->
  exists E2, explains c E1 E2 stories /\
    exists p, forall key, secured_payload E2 key l eui fc p = q /\ secured_tag E2 key l eui fc p = t.
Proof using HE1.
  intros Ok Nd U64 U32 Au Oq Lq Ot Lt Ns. destruct (book_entries c E1 HE1 stories Ok Nd) as [Bk Un].
  set (nonce := mac_nonce eui fc l).
  set (d := match q with [] => [0] | _ => [] end).
  set (dummy := {| n_nonce := nonce; n_level := l; n_p := d; n_q := d; n_t := repeat 0 (tag_len l) |}).
  assert (X : exists book A, incl (book_of c E1 stories) book /\ (forall n, In n book -> book_ok n) /\
    (forall m n, In m book -> In n book -> n_nonce m = n_nonce n -> m = n) /\
    In A book /\ n_nonce A = nonce /\ n_level A = l /\ q <> n_q A).
  { destruct (find (fun n => same_octets (n_nonce n) nonce) (book_of c E1 stories)) as [A|] eqn:Fi.
    - apply find_some in Fi. destruct Fi as [IA EA]. apply same_octets_eq in EA.
      destruct (entry_was_sent stories A eui fc l Ok IA EA U64 U32) as [El Ws].
      exists (book_of c E1 stories), A. split; [apply incl_refl|]. repeat (split; [assumption|]).
      intros ->. now apply Ns.
    - exists (dummy :: book_of c E1 stories), dummy. split; [now apply incl_tl, incl_refl|].
      assert (Nn : forall n, In n (book_of c E1 stories) -> n_nonce n <> nonce).
      { intros n I X. apply (find_none _ _ Fi) in I. rewrite (proj2 (same_octets_eq _ _) X) in I. discriminate I. }
      split; [|split; [|split; [now left|split; [reflexivity|split; [reflexivity|]]]]].
      + intros n [<-|I]; [|now apply Bk]. unfold book_ok, dummy, d. cbn [n_nonce n_level n_p n_q n_t].
        split; [apply mac_nonce_length|]. split; [apply octets_mac_nonce|]. split; [exact Au|].
        split; [destruct q; reflexivity|].
        assert (Od : octets (match q with [] => [0] | _ :: _ => [] end)) by (destruct q; repeat constructor).
        split; [exact Od|]. split; [exact Od|]. split; [apply octets_repeat0|]. split; [reflexivity|]. split; [apply repeat_length|reflexivity].
      + intros m n [<-|Im] [<-|In_] E; [reflexivity| | |now apply Un].
        * exfalso. apply (Nn n In_). now symmetry.
        * exfalso. now apply (Nn m Im).
      + unfold dummy, d. cbn [n_q]. destruct q; discriminate. }
  destruct X as (book & A & Inc & Bk' & Un' & IA & EA & El & Dq).
  destruct (forged (on_auth_failure E1) book A q t Bk' Un' IA Dq Oq Lq Ot ltac:(rewrite El; exact Lt)) as (tw & G).
  set (E2 := other (on_auth_failure E1) book (Some tw)) in *.
  assert (HE2 : cipher_ok E2) by exact (other_ok (on_auth_failure E1) book (Some tw) (proj2 HE1)).
  exists E2. split.
  - split; [exact HE2|]. split; [reflexivity|].
    assert (Y := book_explains c E1 HE1 stories E2 Ok HE2). cbv zeta in G.
    eapply Forall_impl; [|apply Y; intros n key I; exact (proj1 (G key) n (Inc n I))]. cbv beta. intros s [P _]. exact P.
  - exists (fp A q). intros key. destruct (G key) as (_ & P & T). rewrite El, EA in P, T. cbv zeta in P, T.
    rewrite secured_payload_spec, secured_tag_spec. now split.
Qed.

(** What the receiver does with a frame that reaches the verification of its tag. *)
Lemma verification (E : block_cipher K) bs ctx (dl : DeviceLookup D) ds sc h n a eui key d put q t : cipher_ok E -> octets bs -> cfg_ok c ->
  security_ctx ctx = Some sc -> footer_mode ctx = Footer_None ->
  try_read_header c bs = Ok (h, n) -> admitted sc dl ds h a eui key d put ->
  skipn n bs = q ++ t -> List.length t = tag_len (security_level (control a)) ->
  N.of_nat (List.length q) < 2 ^ 16 - 2 ^ 8 -> frame_counter a <> last_counter ->
  fst (try_read_and_unsecure c E bs ctx dl ds)
  = let p := secured_payload E key (security_level (control a)) eui (frame_counter a) q in
    if same_octets (secured_tag E key (security_level (control a)) eui (frame_counter a) p) t
    then Ok ({| header := h; content := FC_Data; payload := p; footer := (0, 0) |},
             (List.length bs - tag_len (security_level (control a)))%nat)
    else Err TransformationError.
Proof using Type.
  intros HE Ob Hc Hs Hm Hh Ad Sk Lt Lq Nl. rewrite (C64_receive_exact c E HE) by assumption.
  rewrite Hh. pose proof Ad as (Ha & Hd & _). unfold try_read_content. rewrite Hd, Ha, Hs, Hm.
  rewrite Nat.add_0_r, Sk, (admitted_receive E _ _ _ _ _ _ _ _ _ _ _ Ad). cbv zeta.
  rewrite app_length, Lt. replace (_ <? _)%nat with false by (symmetry; apply Nat.ltb_ge; lia).
  replace (List.length q + tag_len (security_level (control a)) - tag_len (security_level (control a)))%nat with (List.length q) by lia.
  rewrite firstn_app_exact, skipn_app_exact.
  replace (2 ^ 16 <=? N.of_nat (List.length q)) with false by (symmetry; apply N.leb_gt; change (2 ^ 16 - 2 ^ 8) with 65280 in Lq; change (2 ^ 16) with 65536; lia).
  rewrite andb_false_r. cbn [negb]. rewrite andb_true_r.
  apply N.eqb_neq in Nl. rewrite Nl. destruct (same_octets _ _); reflexivity.
Qed.

(** Whether a frame that nobody sent is accepted is not decided by what was heard. *)
Theorem C87_forgery_undecided : forall stories bs ctx (dl : DeviceLookup D) ds sc h n a eui key d put q t,
  Forall story_ok stories -> NoDup (map (fun s => sc_euid (st_ctx s)) stories) ->
  octets bs -> cfg_ok c -> security_ctx ctx = Some sc -> footer_mode ctx = Footer_None ->
  try_read_header c bs = Ok (h, n) -> admitted sc dl ds h a eui key d put -> u64_ok eui ->
  let l := security_level (control a) in
  skipn n bs = q ++ t -> List.length t = tag_len l -> N.of_nat (List.length q) < 2 ^ 16 - 2 ^ 8 ->
  frame_counter a < last_counter ->
  ~ was_sent c E1 stories eui (frame_counter a) l q ->
  (exists E2 p, explains c E1 E2 stories /\ fst (try_read_and_unsecure c E2 bs ctx dl ds)
     = Ok ({| header := h; content := FC_Data; payload := p; footer := (0, 0) |}, (List.length bs - tag_len l)%nat)) /\
  (exists E3, explains c E1 E3 stories /\ fst (try_read_and_unsecure c E3 bs ctx dl ds) = Err TransformationError).
Proof using HE1.
  intros stories bs ctx dl ds sc h n a eui key d put q t Ok Nd Ob Hc Hs Hm Hh Ad U64 l Sk Lt Lq Fc Ns.
  assert (U32 : u32_ok (frame_counter a)) by (unfold u32_ok, last_counter in *; lia).
  assert (Au : authenticated l = true) by (destruct Ad as (_ & _ & _ & X & _); exact X).
  assert (Oqt : octets (q ++ t)) by (rewrite <- Sk; now apply octets_skipn).
  apply octets_app in Oqt. destruct Oqt as [Oq Ot].
  assert (Nl : frame_counter a <> last_counter) by lia.
  split.
  - destruct (any_tag stories eui (frame_counter a) l q t Ok Nd U64 U32 Au Oq Lq Ot Lt Ns) as (E2 & Ex & p & P).
    destruct (P key) as [P1 P2]. exists E2, p. split; [exact Ex|].
    rewrite (verification E2 bs ctx dl ds sc h n a eui key d put q t (proj1 Ex) Ob Hc Hs Hm Hh Ad Sk Lt Lq Nl). cbv zeta.
    fold l. rewrite <- P1. rewrite secured_payload_involutive, P2.
    rewrite (proj2 (same_octets_eq t t) eq_refl). reflexivity.
  - assert (T0 : exists t', octets t' /\ List.length t' = tag_len l /\ t' <> t).
    { destruct t as [|x t]; [destruct l; first [discriminate Au|discriminate Lt]|].
      exists ((if x =? 0 then 1 else 0) :: t). apply octets_cons in Ot. destruct Ot as [Ox Ot].
      split; [apply octets_cons; split; [destruct (x =? 0); reflexivity|exact Ot]|]. split; [exact Lt|].
      destruct (N.eqb_spec x 0); congruence. }
    destruct T0 as (t' & Ot' & Lt' & Dt).
    destruct (any_tag stories eui (frame_counter a) l q t' Ok Nd U64 U32 Au Oq Lq Ot' Lt' Ns) as (E3 & Ex & p & P).
    destruct (P key) as [P1 P2]. exists E3. split; [exact Ex|].
    rewrite (verification E3 bs ctx dl ds sc h n a eui key d put q t (proj1 Ex) Ob Hc Hs Hm Hh Ad Sk Lt Lq Nl). cbv zeta.
    fold l. rewrite <- P1. rewrite secured_payload_involutive, P2.
    destruct (same_octets t' t) eqn:X; [|reflexivity]. apply same_octets_eq in X. contradiction.
Qed.

(** Under every cipher that explains what was heard, a protected payload that was sent is accepted
    with the tag it was sent with, as whatever its sender is then said to have sent, and with no
    other tag. *)
Theorem C87_sent_payload_decided : forall stories s i e y a0 x key q t E2, Forall story_ok stories -> In s stories ->
  nth_error (fst (send_all c E1 (st_ctx s) (st_calls s))) i = Some e -> nth_error (st_others s) i = Some y ->
  secured e = true -> auxiliary_security_header (header (s_frame e)) = Some a0 ->
  sc_key_provider (st_ctx s) DstAddrMode (key_identifier a0) (destination (header (s_frame e))) = Some (x, key) ->
  s_bytes e = wire_front (native c) (s_before e) (s_frame e) ++ q ++ t -> List.length t = tag_len (level_of e) ->
  explains c E1 E2 stories ->
  forall bs ctx (dl : DeviceLookup D) ds sc h n a d put t', octets bs -> cfg_ok c ->
  security_ctx ctx = Some sc -> footer_mode ctx = Footer_None ->
  try_read_header c bs = Ok (h, n) -> admitted sc dl ds h a (sc_euid (st_ctx s)) key d put ->
  frame_counter a = s_before e -> security_level (control a) = level_of e ->
  skipn n bs = q ++ t' -> List.length t' = tag_len (level_of e) ->
  (t' = t -> fst (try_read_and_unsecure c E2 bs ctx dl ds)
     = Ok ({| header := h; content := FC_Data; payload := payload (c_frame y); footer := (0, 0) |},
           (List.length bs - tag_len (level_of e))%nat)) /\
  (t' <> t -> fst (try_read_and_unsecure c E2 bs ctx dl ds) = Err TransformationError).
Proof using HE1.
  intros stories s i e y a0 x key q t E2 Oks Is Ni Ny Se Ha0 Hk Eb Lt (HE2 & _ & Ex) bs ctx dl ds sc h n a d put t'
    Ob Hc Hs Hm Hh Ad Fc Lv Sk Lt'.
  rewrite Forall_forall in Oks, Ex. pose proof (Oks s Is) as Os. specialize (Ex s Is). pose proof Os as (U64 & U32 & O1 & O2 & F2).
  assert (Iey : In (e, y) (pairs c E1 s)).
  { unfold pairs. revert Ni Ny. generalize (fst (send_all c E1 (st_ctx s) (st_calls s))) as l, (st_others s) as m. clear.
    induction i as [|i IH]; intros [|e0 l] [|y0 m]; try discriminate.
    - cbn. intros [= ->] [= ->]. now left.
    - cbn. intros A B. right. now apply IH. }
  destruct (pair_facts c E1 HE1 s e y Os Iey Se) as (Ub & Sec & Oy & Oe & Lp & _).
  destruct (send_all c E1 (st_ctx s) (st_calls s)) as [log sc1] eqn:S1. cbn [fst] in Ni, Ex.
  pose proof (nth_error_In _ _ Ni) as Ie.
  destruct (C29_secured_frame_uses_its_counter c E1 HE1 _ _ _ _ e O1 U32 S1 Ie Se) as (_ & Lc & _).
  destruct (send_all c E2 (st_ctx s) (st_others s)) as [log2 sc2] eqn:S2. cbn [fst] in Ex.
  assert (X : nth_error (map observed log2) i = Some (observed e)) by (rewrite Ex, nth_error_map, Ni; reflexivity).
  rewrite nth_error_map in X. destruct (nth_error log2 i) as [e2|] eqn:N2; [|discriminate X]. cbn [option_map] in X.
  injection X as B1 B2 B3 B4.
  pose proof (nth_error_In _ _ N2) as I2.
  destruct (send_all_inv c E2 HE2 _ _ _ _ O2 U32 S2) as (_ & Mc & _).
  assert (Cy : s_call e2 = y).
  { assert (Z : nth_error (map s_call log2) i = Some (s_call e2)) by (rewrite nth_error_map, N2; reflexivity).
    rewrite Mc, Ny in Z. congruence. }
  destruct Sec as (_ & _ & (Eh & Ec & El) & _). fold (s_frame e) in Eh, Ec, El. rewrite <- Cy in Eh, Ec, El. fold (s_frame e2) in Eh, Ec, El.
  assert (Se2 : secured e2 = true) by (unfold secured in *; rewrite <- Eh, B2; exact Se).
  assert (Le : level_of e2 = level_of e) by (unfold level_of; now rewrite Eh).
  destruct (C29_secured_frame_uses_its_counter c E2 HE2 _ _ _ _ e2 O2 U32 S2 I2 Se2) as (_ & _ & a2 & x2 & key2 & Ha2 & Hk2 & Bs2).
  rewrite <- Eh in Ha2, Hk2. rewrite Ha0 in Ha2. injection Ha2 as <-. rewrite Hk in Hk2. injection Hk2 as <- <-.
  rewrite B4, Eb, B1, Le in Bs2.
  assert (Fr : wire_front (native c) (s_before e) (s_frame e2) = wire_front (native c) (s_before e) (s_frame e)) by (unfold wire_front; now rewrite Eh, Ec).
  rewrite Fr in Bs2. apply app_inv_head in Bs2.
  assert (P2 : payload (s_frame e2) = payload (c_frame y)) by (unfold s_frame; now rewrite Cy). rewrite P2 in Bs2, El.
  assert (Lq : List.length q = List.length (secured_payload E2 key (level_of e) (sc_euid (st_ctx s)) (s_before e) (payload (c_frame y)))).
  { apply (f_equal (@List.length N)) in Bs2. rewrite !app_length, secured_tag_length in Bs2. lia. }
  pose proof (f_equal (firstn (List.length q)) Bs2) as Q. rewrite firstn_app_exact in Q. rewrite Lq, firstn_app_exact in Q.
  pose proof (f_equal (skipn (List.length q)) Bs2) as T. rewrite skipn_app_exact in T. rewrite Lq, skipn_app_exact in T.
  assert (Lq' : List.length q = List.length (payload (s_frame e))) by (rewrite Lq, secured_payload_length, El; reflexivity).
  assert (V : fst (try_read_and_unsecure c E2 bs ctx dl ds)
    = if same_octets t t' then Ok ({| header := h; content := FC_Data; payload := payload (c_frame y); footer := (0, 0) |},
             (List.length bs - tag_len (level_of e))%nat) else Err TransformationError).
  { rewrite (verification E2 bs ctx dl ds sc h n a (sc_euid (st_ctx s)) key d put q t' HE2 Ob Hc Hs Hm Hh Ad Sk
               ltac:(rewrite Lv; exact Lt') ltac:(rewrite Lq'; change (2 ^ 16 - 2 ^ 8) with 65280; lia) ltac:(rewrite Fc; lia)).
    cbv zeta. rewrite Lv, Fc. rewrite Q, secured_payload_involutive, <- T. reflexivity. }
  rewrite V. destruct (same_octets t t') eqn:Sm.
  - split; [reflexivity|]. intros Z. apply same_octets_eq in Sm. congruence.
  - split; [|reflexivity]. intros ->. rewrite (proj2 (same_octets_eq t t) eq_refl) in Sm. discriminate Sm.
Qed.
End Theorems.

(** * A concrete case *)

(** One frame with a four octet tag was heard; the forger changes a payload octet, or claims a
    counter that was not used. *)
Definition c87_story : story (list N) :=
  {| st_ctx := c86_ctx 41; st_calls := [c86_call SL_MIC32 [1; 2; 3]]; st_others := [c86_call SL_MIC32 [1; 2; 3]] |}.
Definition c87_heard : list N :=
  match fst (send_all host aes_cipher (st_ctx c87_story) (st_calls c87_story)) with [e] => s_bytes e | _ => [] end.
(** The heard frame with its first payload octet changed. *)
Definition c87_forged : list N := firstn 29 c87_heard ++ [9; 2; 3] ++ skipn 32 c87_heard.

Lemma c87_story_ok : Forall story_ok [c87_story] /\ NoDup (map (fun s => sc_euid (st_ctx s)) [c87_story]).
Proof.
  split.
  - constructor; [|constructor]. split; [reflexivity|]. split; [reflexivity|].
    cbn [c87_story st_calls st_others]. assert (O : octets [1; 2; 3]) by (repeat constructor).
    split; [constructor; [apply c86_call_ok; exact O|constructor]|]. split; [constructor; [apply c86_call_ok; exact O|constructor]|].
    constructor; [|constructor]. split; [reflexivity|]. split; [reflexivity|]. split; [repeat split|]. reflexivity.
  - cbn. constructor; [intros []|constructor].
Qed.

Lemma c87_front : map (fun e => (s_before e, level_of e, s_bytes e)) (fst (send_all host aes_cipher (st_ctx c87_story) (st_calls c87_story)))
  = [(41, SL_MIC32, c87_heard)].
Proof. vm_compute. reflexivity. Qed.

Definition c87_header : Header :=
  header_sent 41 (header (level_frame SL_MIC32 false [])).
Lemma c87_reads : try_read_header host c87_forged = Ok (c87_header, 29%nat).
Proof. vm_compute. reflexivity. Qed.
Lemma c87_octet : nth (List.length c87_heard - 7) c87_heard 0 = 1.
Proof. vm_compute. reflexivity. Qed.

Lemma c87_not_sent : ~ was_sent host aes_cipher [c87_story] 1 41 SL_MIC32 [9; 2; 3].
Proof.
  intros (s & e & t & [<-|[]] & Ie & Se & _ & _ & _ & Eb & Lt). pose proof c87_octet as Oc.
  apply (in_map (fun e => (s_before e, level_of e, s_bytes e))) in Ie. rewrite c87_front in Ie. destruct Ie as [Ie|[]].
  revert Ie Oc. generalize c87_heard as heard. intros heard Ie Oc.
  assert (X : s_bytes e = heard) by congruence. rewrite <- X, Eb in Oc. rewrite !app_length, Lt in Oc. cbn [tag_len List.length] in Oc.
  replace (_ + (3 + 4) - 7)%nat with (List.length (wire_front (native host) 41 (s_frame e))) in Oc by lia.
  rewrite app_nth2, Nat.sub_diag in Oc by lia. discriminate Oc.
Qed.

Lemma c87_octets : octets c87_forged.
Proof.
  apply Forall_forall. intros y Hy. apply N.ltb_lt. assert (X : forallb (fun y => y <? 256) c87_forged = true) by (vm_compute; reflexivity).
  rewrite forallb_forall in X. exact (X y Hy).
Qed.
Lemma c87_rest : skipn 29 c87_forged = [9; 2; 3] ++ skipn 32 c87_heard /\ List.length (skipn 32 c87_heard) = 4%nat /\
  (List.length c87_forged - 4 = 32)%nat.
Proof. vm_compute. repeat split. Qed.

(** The forged frame reaches the verification of its tag, its payload was not sent; AES with the
    key in use refuses it, another cipher that explains the frame heard accepts it. *)
Lemma c87_accepted : exists E2 f, explains host aes_cipher E2 [c87_story] /\
    fst (try_read_and_unsecure host E2 c87_forged (aes_ctx 2 0) basic_dev_lookup (dev 0)) = Ok (f, 32%nat).
Proof.
  destruct c87_story_ok as [Ok Nd]. destruct c87_rest as (R1 & R2 & R3).
  pose proof c87_octets as O. pose proof c87_reads as Rd.
  revert R1 R2 R3 O Rd. generalize c87_forged as bs, (skipn 32 c87_heard) as t. intros bs t R1 R2 R3 O Rd.
  destruct (C87_forgery_undecided host aes_cipher aes_cipher_ok [c87_story] bs (aes_ctx 2 0) basic_dev_lookup (dev 0)
    (SecurityContext_new 2 0 static_key_lookup) c87_header 29%nat
    {| control := {| security_level := SL_MIC32; key_id_mode := KIM_KeyIndex |}; frame_counter := 41;
       key_identifier := Some {| key_source := None; key_index := 3 |} |}
    1 (repeat 0 16) (dev 0) (fun d => d) [9; 2; 3] t Ok Nd O) as [(E2 & p & Ex & R) _].
  - vm_compute. discriminate.
  - reflexivity.
  - reflexivity.
  - exact Rd.
  - split; [reflexivity|]. split; [reflexivity|]. split; [discriminate|]. split; [reflexivity|]. split; [reflexivity|].
    split; [eexists; split; reflexivity|]. split; discriminate.
  - reflexivity.
  - exact R1.
  - exact R2.
  - reflexivity.
  - reflexivity.
  - exact c87_not_sent.
  - exists E2, {| header := c87_header; content := FC_Data; payload := p; footer := (0, 0) |}. split; [exact Ex|].
    rewrite R. cbn [control security_level tag_len]. rewrite R3. reflexivity.
Qed.

Example c87_case : c87_forged <> c87_heard /\
  fst (try_read_and_unsecure host aes_cipher c87_forged (aes_ctx 2 0) basic_dev_lookup (dev 0)) = Err TransformationError /\
  (exists f, fst (try_read_and_unsecure host aes_cipher c87_heard (aes_ctx 2 0) basic_dev_lookup (dev 0)) = Ok (f, 32%nat)) /\
  exists E2 f, explains host aes_cipher E2 [c87_story] /\
    fst (try_read_and_unsecure host E2 c87_forged (aes_ctx 2 0) basic_dev_lookup (dev 0)) = Ok (f, 32%nat).
Proof.
  split; [vm_compute; discriminate|]. split; [vm_compute; reflexivity|]. split; [vm_compute; eexists; reflexivity|].
  exact c87_accepted.
Qed.

(** The frame heard is accepted under every cipher that explains it, and refused with any other tag. *)
Lemma c87_heard_facts : exists e, nth_error (fst (send_all host aes_cipher (st_ctx c87_story) (st_calls c87_story))) 0 = Some e /\
  secured e = true /\ s_frame e = level_frame SL_MIC32 false [1; 2; 3] /\ s_before e = 41 /\ s_bytes e = c87_heard.
Proof. vm_compute. eexists. repeat split. Qed.
Lemma c87_heard_split : c87_heard = wire_front LE 41 (level_frame SL_MIC32 false [1; 2; 3]) ++ [1; 2; 3] ++ skipn 32 c87_heard /\
  firstn 29 c87_heard = wire_front LE 41 (level_frame SL_MIC32 false [1; 2; 3]).
Proof. vm_compute. split; reflexivity. Qed.

Example c87_heard_case : forall E2 t', explains host aes_cipher E2 [c87_story] -> octets t' -> List.length t' = 4%nat ->
  let r := fst (try_read_and_unsecure host E2 (firstn 29 c87_heard ++ [1; 2; 3] ++ t') (aes_ctx 2 0) basic_dev_lookup (dev 0)) in
  (t' = skipn 32 c87_heard -> r = Ok ({| header := c87_header; content := FC_Data; payload := [1; 2; 3]; footer := (0, 0) |}, 32%nat)) /\
  (t' <> skipn 32 c87_heard -> r = Err TransformationError).
Proof.
  intros E2 t' Ex Ot Lt. destruct c87_story_ok as [Oks Nd]. destruct c87_heard_facts as (e & Ne & Se & Fe & Be & By).
  destruct c87_heard_split as [Sp Sf]. destruct c87_rest as (_ & R2 & _). rewrite Sf. rewrite Sp in By. clear Sp Sf.
  revert By R2. generalize (skipn 32 c87_heard) as t. intros t By R2.
  set (bs := wire_front LE 41 (level_frame SL_MIC32 false [1; 2; 3]) ++ [1; 2; 3] ++ t').
  assert (Hh : try_read_header host bs = Ok (c87_header, 29%nat)).
  { unfold bs, wire_front. cbn [content level_frame wire_content]. rewrite app_nil_r.
    apply (try_read_header_complete host false 0 c87_header); [reflexivity|].
    apply header_sent_decoded; [|reflexivity|reflexivity]. repeat split. }
  assert (Hk : skipn 29 bs = [1; 2; 3] ++ t') by reflexivity.
  assert (Hl : List.length bs = 36%nat) by (cbn; rewrite Lt; reflexivity).
  assert (Ob : octets bs).
  { unfold bs. apply octets_app. split; [|apply octets_app; split; [repeat constructor|exact Ot]].
    apply Forall_forall. intros y Hy. apply N.ltb_lt.
    assert (X : forallb (fun y => y <? 256) (wire_front LE 41 (level_frame SL_MIC32 false [1; 2; 3])) = true) by (vm_compute; reflexivity).
    rewrite forallb_forall in X. exact (X y Hy). }
  clearbody bs. cbv zeta.
  assert (Le : level_of e = SL_MIC32) by (unfold level_of; rewrite Fe; reflexivity).
  pose proof (C87_sent_payload_decided (D := DeviceDescriptor) host aes_cipher aes_cipher_ok [c87_story] c87_story 0%nat e (c86_call SL_MIC32 [1; 2; 3])
    (AuxiliarySecurityHeader_new (SecurityControl_new SL_MIC32) (Some {| key_source := None; key_index := 3 |})) 2 (repeat 0 16)
    [1; 2; 3] t E2 Oks (or_introl eq_refl) Ne eq_refl Se) as X. rewrite Fe, Be, Le in X.
  specialize (X eq_refl eq_refl By R2 Ex bs (aes_ctx 2 0) basic_dev_lookup (dev 0) (SecurityContext_new 2 0 static_key_lookup)
    c87_header 29%nat {| control := {| security_level := SL_MIC32; key_id_mode := KIM_KeyIndex |}; frame_counter := 41;
       key_identifier := Some {| key_source := None; key_index := 3 |} |} (dev 0) (fun d => d) t' Ob
    ltac:(vm_compute; discriminate) eq_refl eq_refl Hh).
  rewrite Hl in X. apply X; [|reflexivity|reflexivity|exact Hk|exact Lt].
  split; [reflexivity|]. split; [reflexivity|]. split; [discriminate|]. split; [reflexivity|]. split; [reflexivity|].
  split; [eexists; split; reflexivity|]. split; discriminate.
Qed.

Print Assumptions C87_forgery_undecided.
Print Assumptions C87_sent_payload_decided.
Print Assumptions c87_case.
Print Assumptions c87_heard_case.
