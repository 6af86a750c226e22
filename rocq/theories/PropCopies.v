(** C96: copies of a security context. *)
From Coq Require Import List Arith NArith ZArith Bool String Lia ZifyBool ZifyNat ZifyN Sorting.Sorted.
From Verif Require Import ByteCrate Types HeaderModel BeaconModel CommandModel CcmModel FrameModel
  Spec SecSpec HistorySpec RestartSpec ProofLib HeaderProofs HeaderReadProofs BeaconProofs CommandProofs FrameProofs CcmProofs
  SecureProofs RepoTests Aes128 AesProofs PropHeader PropContent PropFrame PropSecure PropReceive PropHistory
  PropRestart PropNetwork.
Import ListNotations.
Open Scope N_scope.
Open Scope list_scope.
Ltac Zify.zify_post_hook ::= Z.div_mod_to_equations.

(** SecurityContext derives Clone and Copy (mac/frame/security/mod.rs:252-267): field by field, the
    phantom data having no content. The key provider's own Clone is the application's; a provider is a
    function here, so its copy is the same function. *)
Definition context_clone {K} (sc : SecurityContext K) : SecurityContext K :=
  {| sc_euid := sc_euid sc; sc_frame_counter := sc_frame_counter sc; sc_key_provider := sc_key_provider sc |}.

(** * An application with any number of copies (specification) *)

(** It starts with one security context, number 0. It may copy one of its contexts (the copy gets the
    next number), write a frame with one, or read with one. *)
Inductive deed :=
| Copies (i : nat)
| Writes (i : nat) (x : call)
| Reads (i : nat) (m : FooterMode) (bs : list N).

Definition put_at {A} (l : list A) (i : nat) (x : A) : list A :=
  firstn i l ++ match skipn i l with [] => [] | _ :: r => x :: r end.

(** What came of it: each write with the number of its context, and the result of each read. *)
Record done := { d_writes : list (nat * sent); d_reads : list (outcome SecurityError (Frame * nat)) }.

Section Pool.
Context {K D : Type} (c : cfg) (E : block_cipher K) (dl : DeviceLookup D).

(** The context a call left. *)
Definition left_in (sc : SecurityContext K) (ctx : FrameSerDesContext K) : SecurityContext K :=
  match security_ctx ctx with Some s => s | None => sc end.

Fixpoint act (pool : list (SecurityContext K)) (ds : D) (deeds : list deed) : done * (list (SecurityContext K) * D) :=
  match deeds with
  | [] => ({| d_writes := []; d_reads := [] |}, (pool, ds))
  | Copies i :: rest =>
      match nth_error pool i with
      | Some sc => act (pool ++ [context_clone sc]) ds rest
      | None => act pool ds rest
      end
  | Writes i x :: rest =>
      match nth_error pool i with
      | Some sc =>
          let '(r, (ctx, buf)) := try_write_frame c E (c_frame x) (ser_ctx (c_mode x) sc) (c_buffer x) in
          let sc1 := left_in sc ctx in
          let '(d, s) := act (put_at pool i sc1) ds rest in
          ({| d_writes := (i, {| s_call := x; s_before := sc_frame_counter sc; s_result := r;
                                 s_after := sc_frame_counter sc1; s_buffer := buf |}) :: d_writes d;
              d_reads := d_reads d |}, s)
      | None => act pool ds rest
      end
  | Reads i m bs :: rest =>
      match nth_error pool i with
      | Some sc =>
          let '(r, (_, ctx, ds1)) := try_read_and_unsecure c E bs (ser_ctx m sc) dl ds in
          let '(d, s) := act (put_at pool i (left_in sc ctx)) ds1 rest in
          ({| d_writes := d_writes d; d_reads := r :: d_reads d |}, s)
      | None => act pool ds rest
      end
  end.

(** The calls that write with context number 0. *)
Definition own_calls (deeds : list deed) : list call :=
  flat_map (fun x => match x with Writes 0 y => [y] | _ => [] end) deeds.
(** All writing is done with context number 0. *)
Definition one_writer (deeds : list deed) : Prop :=
  Forall (fun x => match x with Writes i _ => i = 0%nat | _ => True end) deeds.
(** The receptions, as though all were made with the context [sc]. [n] is the number of contexts there
    are: a read with a context that does not exist is no read. *)
Fixpoint as_arrivals (sc : SecurityContext K) (n : nat) (deeds : list deed) : list (arrival K) :=
  match deeds with
  | [] => []
  | Copies i :: rest => as_arrivals sc (if (i <? n)%nat then S n else n) rest
  | Writes _ _ :: rest => as_arrivals sc n rest
  | Reads i m bs :: rest =>
      if (i <? n)%nat then {| a_ctx := ser_ctx m sc; a_bytes := bs |} :: as_arrivals sc n rest
      else as_arrivals sc n rest
  end.

Definition inputs_ok (deeds : list deed) : Prop :=
  Forall (fun x => match x with
                   | Copies _ => True
                   | Writes _ y => frame_ok (c_frame y)
                   | Reads _ _ bs => octets bs
                   end) deeds.

End Pool.

(** * Proofs *)

Lemma put_at_length {A} (l : list A) i x : List.length (put_at l i x) = List.length l.
Proof.
  unfold put_at. transitivity (List.length (firstn i l ++ skipn i l)); [|now rewrite firstn_skipn].
  rewrite !app_length. now destruct (skipn i l).
Qed.

Lemma put_at_Forall {A} (P : A -> Prop) l i x : Forall P l -> P x -> Forall P (put_at l i x).
Proof.
  intros H Hx. unfold put_at. rewrite <- (firstn_skipn i l) in H. apply Forall_app in H. destruct H as [H1 H2].
  apply Forall_app. split; [exact H1|]. destruct (skipn i l); [constructor|]. inversion H2; subst. now constructor.
Qed.

Section Proofs.
Context {K D : Type} (c : cfg) (E : block_cipher K).
Hypothesis HE : cipher_ok E.
Variable dl : DeviceLookup D.

(** Reading does not look at the counter or the EUI-64 of the context. *)
Lemma reading_ignores bs m sc1 sc2 ds : octets bs -> cfg_ok c -> sc_key_provider sc1 = sc_key_provider sc2 ->
  let r1 := try_read_and_unsecure c E bs (ser_ctx m sc1) dl ds in
  let r2 := try_read_and_unsecure c E bs (ser_ctx m sc2) dl ds in
  fst r1 = fst r2 /\ snd (snd r1) = snd (snd r2) /\ snd (fst (snd r1)) = ser_ctx m sc1.
Proof.
  intros Hb Hc Hk. cbv zeta. rewrite !(C64_receive_exact c E HE) by assumption.
  destruct (try_read_header c bs) as [[h n]|e|]; [|cbn; auto|cbn; auto].
  destruct (try_read_content h (skipn n bs)) as [[ct k]|e|]; [|cbn; auto|cbn; auto].
  destruct (auxiliary_security_header h) as [a|]; [|cbn; auto].
  cbn [security_ctx footer_mode ser_ctx]. destruct m; [|cbn; auto].
  assert (X : receive E (overflow_checks c) sc1 dl ds h a (skipn (n + k) bs)
            = receive E (overflow_checks c) sc2 dl ds h a (skipn (n + k) bs)) by (unfold receive; now rewrite Hk).
  rewrite X. clear X. destruct (receive E (overflow_checks c) sc2 dl ds h a (skipn (n + k) bs)) as [[r rest] ds']. cbn. auto.
Qed.

Definition like (sc : SecurityContext K) (x : SecurityContext K) : Prop :=
  exists n, x = at_counter sc n /\ u32_ok n.

(** Whatever is copied and written, with whatever context: what reading returns, and what becomes of the
    device store, is what the original context, untouched, would have given for the same octets. *)
Lemma act_reads sc deeds : forall pool ds d pool' ds', cfg_ok c -> inputs_ok deeds ->
  Forall (like sc) pool -> act c E dl pool ds deeds = (d, (pool', ds')) ->
  (d_reads d, ds') =
  (map r_result (fst (receive_all c E dl ds (as_arrivals sc (List.length pool) deeds))),
   snd (receive_all c E dl ds (as_arrivals sc (List.length pool) deeds))).
Proof.
  induction deeds as [|x rest IH]; intros pool ds d pool' ds' Hc Ho HP H.
  - cbn in H. injection H as <- <- <-. reflexivity.
  - inversion Ho as [|? ? Hx Hr]; subst. destruct x as [i|i x|i m bs]; cbn [act] in H; cbn [as_arrivals].
    + destruct (nth_error pool i) as [s|] eqn:Hi.
      * assert (L : (i < List.length pool)%nat) by (apply nth_error_Some; congruence).
        replace (i <? List.length pool)%nat with true by (symmetry; now apply Nat.ltb_lt).
        assert (P : like sc s) by (rewrite Forall_forall in HP; apply HP; eapply nth_error_In; exact Hi).
        specialize (IH (pool ++ [context_clone s]) ds d pool' ds' Hc Hr).
        rewrite app_length, Nat.add_1_r in IH. apply IH; [|exact H].
        apply Forall_app. split; [exact HP|]. constructor; [|constructor]. now destruct s.
      * apply nth_error_None in Hi. replace (i <? List.length pool)%nat with false by (symmetry; now apply Nat.ltb_ge).
        now apply (IH pool ds d pool' ds').
    + destruct (nth_error pool i) as [s|] eqn:Hi; [|now apply (IH pool ds d pool' ds')].
      assert (P : like sc s) by (rewrite Forall_forall in HP; apply HP; eapply nth_error_In; exact Hi).
      destruct P as (n & -> & Hn).
      destruct (write_context c E HE (c_frame x) (c_mode x) (at_counter sc n) (c_buffer x) Hx Hn) as (n2 & Ec & Hn2 & _).
      destruct (try_write_frame c E (c_frame x) (ser_ctx (c_mode x) (at_counter sc n)) (c_buffer x)) as [r [ctx buf]].
      cbn [fst snd] in Ec. subst ctx. cbn [left_in ser_ctx security_ctx] in H.
      destruct (act c E dl (put_at pool i (at_counter (at_counter sc n) n2)) ds rest) as [d2 [pool2 ds2]] eqn:A.
      injection H as <- <- <-. cbn [d_reads].
      specialize (IH _ _ _ _ _ Hc Hr (put_at_Forall _ pool i _ HP (ex_intro _ n2 (conj eq_refl Hn2))) A).
      now rewrite put_at_length in IH.
    + destruct (nth_error pool i) as [s|] eqn:Hi.
      * assert (L : (i < List.length pool)%nat) by (apply nth_error_Some; congruence).
        replace (i <? List.length pool)%nat with true by (symmetry; now apply Nat.ltb_lt).
        assert (P : like sc s) by (rewrite Forall_forall in HP; apply HP; eapply nth_error_In; exact Hi).
        pose proof P as (n & -> & Hn).
        destruct (reading_ignores bs m (at_counter sc n) sc ds Hx Hc eq_refl) as (E1 & E2 & E3).
        cbn [receive_all a_bytes a_ctx].
        destruct (try_read_and_unsecure c E bs (ser_ctx m (at_counter sc n)) dl ds) as [r [[b ctx] ds1]].
        destruct (try_read_and_unsecure c E bs (ser_ctx m sc) dl ds) as [r' [[b' ctx'] ds1']].
        cbn [fst snd] in E1, E2, E3. subst r' ds1' ctx.
        cbn [left_in ser_ctx security_ctx] in H.
        destruct (act c E dl (put_at pool i (at_counter sc n)) ds1 rest) as [d2 [pool2 ds2]] eqn:A.
        injection H as <- <- <-. cbn [d_reads].
        specialize (IH _ _ _ _ _ Hc Hr (put_at_Forall _ pool i _ HP P) A).
        rewrite put_at_length in IH.
        destruct (receive_all c E dl ds1 (as_arrivals sc (List.length pool) rest)) as [log ds3].
        cbn [fst snd map r_result] in *. injection IH as -> ->. reflexivity.
      * apply nth_error_None in Hi. replace (i <? List.length pool)%nat with false by (symmetry; now apply Nat.ltb_ge).
        now apply (IH pool ds d pool' ds').
Qed.

Lemma act_writes deeds : forall sc tl ds d pool' ds', cfg_ok c -> inputs_ok deeds -> one_writer deeds ->
  u32_ok (sc_frame_counter sc) -> Forall (like sc) tl ->
  act c E dl (sc :: tl) ds deeds = (d, (pool', ds')) ->
  map snd (d_writes d) = fst (send_all c E sc (own_calls deeds)) /\
  hd sc pool' = snd (send_all c E sc (own_calls deeds)).
Proof.
  induction deeds as [|x rest IH]; intros sc tl ds d pool' ds' Hc Ho Hw Hfc HP H.
  - cbn in H. injection H as <- <- <-. auto.
  - inversion Ho as [|? ? Hx Hr]; subst. inversion Hw as [|? ? Hwx Hwr]; subst.
    assert (HPP : Forall (like sc) (sc :: tl)).
    { constructor; [|exact HP]. exists (sc_frame_counter sc). now rewrite at_counter_same. }
    destruct x as [i|i x|i m bs]; cbn [act] in H.
    + change (own_calls (Copies i :: rest)) with (own_calls rest).
      destruct (nth_error (sc :: tl) i) as [s|] eqn:Hi; [|now apply (IH sc tl ds d pool' ds')].
      assert (P : like sc s) by (rewrite Forall_forall in HPP; apply HPP; eapply nth_error_In; exact Hi).
      apply (IH sc (tl ++ [context_clone s]) ds d pool' ds'); try assumption.
      apply Forall_app. split; [exact HP|]. constructor; [|constructor]. now destruct s.
    + cbn in Hwx. subst i. cbn [nth_error] in H.
      change (own_calls (Writes 0 x :: rest)) with (x :: own_calls rest). cbn [send_all].
      destruct (write_context c E HE (c_frame x) (c_mode x) sc (c_buffer x) Hx Hfc) as (n2 & Ec & Hn2 & _).
      destruct (try_write_frame c E (c_frame x) (ser_ctx (c_mode x) sc) (c_buffer x)) as [r [ctx buf]].
      cbn [fst snd] in Ec. subst ctx. cbn [left_in ser_ctx security_ctx put_at firstn skipn app] in H |- *.
      destruct (act c E dl (at_counter sc n2 :: tl) ds rest) as [d2 [pool2 ds2]] eqn:A.
      injection H as <- <- <-. cbn [d_writes map snd].
      destruct (IH (at_counter sc n2) tl ds d2 pool2 ds2 Hc Hr Hwr Hn2) as [I1 I2]; [|exact A|].
      { eapply Forall_impl; [|exact HP]. intros y (n & -> & Hn). exists n. auto. }
      destruct (send_all c E (at_counter sc n2) (own_calls rest)) as [log sc2]. cbn [fst snd] in *.
      rewrite I1. split; [reflexivity|]. rewrite <- I2.
      destruct pool2; [|reflexivity]. exfalso.
      assert (L : forall dd pool ds d p ds', act c E dl pool ds dd = (d, (p, ds')) -> (List.length pool <= List.length p)%nat).
      { clear. induction dd as [|x dd IH]; intros pool ds d p ds' H; cbn [act] in H; [injection H as <- <- <-; lia|].
        destruct x as [i|i x|i m bs]; destruct (nth_error pool i) as [s|]; try (now apply (IH _ _ _ _ _ H)).
        - apply IH in H. rewrite app_length in H. lia.
        - destruct (try_write_frame _ _ _ _ _) as [? [? ?]].
          destruct (act c E dl (put_at pool i _) ds dd) as [d3 [p3 ds3]] eqn:A. injection H as <- <- <-.
          apply IH in A. now rewrite put_at_length in A.
        - destruct (try_read_and_unsecure _ _ _ _ _ _) as [? [[? ?] ?]].
          destruct (act c E dl (put_at pool i _) _ dd) as [d3 [p3 ds3]] eqn:A. injection H as <- <- <-.
          apply IH in A. now rewrite put_at_length in A. }
      apply L in A. cbn in A. lia.
    + change (own_calls (Reads i m bs :: rest)) with (own_calls rest).
      destruct (nth_error (sc :: tl) i) as [s|] eqn:Hi; [|now apply (IH sc tl ds d pool' ds')].
      assert (P : like sc s) by (rewrite Forall_forall in HPP; apply HPP; eapply nth_error_In; exact Hi).
      destruct (reading_ignores bs m s s ds Hx Hc eq_refl) as (_ & _ & E3).
      destruct (try_read_and_unsecure c E bs (ser_ctx m s) dl ds) as [r [[b ctx] ds1]].
      cbn [fst snd] in E3. subst ctx. cbn [left_in ser_ctx security_ctx] in H.
      destruct i as [|i].
      * cbn [nth_error] in Hi. injection Hi as <-. cbn [put_at firstn skipn app] in H.
        destruct (act c E dl (sc :: tl) ds1 rest) as [d2 [pool2 ds2]] eqn:A. injection H as <- <- <-.
        cbn [d_writes]. now apply (IH sc tl ds1 d2 pool2 ds2).
      * change (put_at (sc :: tl) (S i) s) with (sc :: put_at tl i s) in H.
        destruct (act c E dl (sc :: put_at tl i s) ds1 rest) as [d2 [pool2 ds2]] eqn:A. injection H as <- <- <-.
        cbn [d_writes]. apply (IH sc (put_at tl i s) ds1 d2 pool2 ds2); try assumption.
        now apply put_at_Forall.
Qed.

(** ** C96 Copies of a security context *)

(** Copies are as good as the original for reading. *)
Theorem C96_copies_read_like_the_original : forall sc deeds ds d pool' ds',
  cfg_ok c -> inputs_ok deeds -> u32_ok (sc_frame_counter sc) ->
  act c E dl [sc] ds deeds = (d, (pool', ds')) ->
  let '(log, ds2) := receive_all c E dl ds (as_arrivals sc 1 deeds) in
  d_reads d = map r_result log /\ ds' = ds2.
Proof.
  intros sc deeds ds d pool' ds' Hc Ho Hfc H.
  pose proof (act_reads sc deeds [sc] ds d pool' ds' Hc Ho) as X.
  cbn [List.length] in X. destruct (receive_all c E dl ds (as_arrivals sc 1 deeds)) as [log ds2].
  cbn [fst snd] in X. assert (Y : (d_reads d, ds') = (map r_result log, ds2)).
  { apply X; [|exact H]. constructor; [|constructor]. exists (sc_frame_counter sc). now rewrite at_counter_same. }
  injection Y as -> ->. auto.
Qed.

(** As long as only one of the contexts writes, copies and reading change nothing for it: it writes what
    it would have written alone, and no nonce is used twice. *)
Theorem C96_one_writer : forall sc deeds ds d pool' ds',
  cfg_ok c -> inputs_ok deeds -> one_writer deeds -> u64_ok (sc_euid sc) -> u32_ok (sc_frame_counter sc) ->
  act c E dl [sc] ds deeds = (d, (pool', ds')) ->
  (map snd (d_writes d), hd sc pool') = send_all c E sc (own_calls deeds) /\
  NoDup (nonces sc (map snd (d_writes d))).
Proof.
  intros sc deeds ds d pool' ds' Hc Ho Hw He Hfc H.
  destruct (act_writes deeds sc [] ds d pool' ds' Hc Ho Hw Hfc (Forall_nil _) H) as [E1 E2].
  destruct (send_all c E sc (own_calls deeds)) as [log sc2] eqn:S. cbn [fst snd] in *.
  split; [congruence|]. rewrite E1.
  apply (C29_nonces_distinct c E HE sc (own_calls deeds) log sc2); try assumption.
  unfold calls_ok. apply Forall_forall. intros x Hx. unfold own_calls in Hx. apply in_flat_map in Hx.
  destruct Hx as (y & Hy & Hx). unfold inputs_ok in Ho. rewrite Forall_forall in Ho. specialize (Ho y Hy).
  destruct y as [i|i z|i m bs]; [destruct Hx| |destruct Hx]. destruct i; [|destruct Hx].
  destruct Hx as [<-|[]]. exact Ho.
Qed.

(** The counters a context uses up are consecutive, from the one it was made with. *)
Theorem C96_counters_consecutive : forall calls sc log sc', calls_ok calls ->
  u32_ok (sc_frame_counter sc) -> send_all c E sc calls = (log, sc') ->
  map s_before (filter used log)
  = map (fun k => sc_frame_counter sc + N.of_nat k) (List.seq 0 (List.length (filter used log))) /\
  sc_frame_counter sc' = sc_frame_counter sc + N.of_nat (List.length (filter used log)).
Proof.
  induction calls as [|x rest IH]; intros sc log sc' Hc Hfc H.
  - cbn in H. injection H as <- <-. cbn. split; [reflexivity|lia].
  - cbn [send_all] in H. inversion Hc as [|? ? Hx Hr]; subst.
    destruct (write_context c E HE (c_frame x) (c_mode x) sc (c_buffer x) Hx Hfc) as (n & Ec & Hn & Hstep).
    destruct (try_write_frame c E (c_frame x) (ser_ctx (c_mode x) sc) (c_buffer x)) as [r [ctx buf]].
    cbn [fst snd] in Ec. subst ctx. cbn [ser_ctx security_ctx] in H.
    destruct (send_all c E (at_counter sc n) rest) as [log2 sc2] eqn:S. injection H as <- <-.
    destruct (IH (at_counter sc n) log2 sc2 Hr Hn S) as [I1 I2]. cbn [at_counter sc_frame_counter] in *.
    cbn [filter].
    match goal with |- context [used ?e] => assert (U : used e = (sc_frame_counter sc <? n)) by reflexivity; rewrite U end.
    destruct Hstep as [->|[-> _]].
    + rewrite N.ltb_irrefl. split; [exact I1|exact I2].
    + replace (sc_frame_counter sc <? sc_frame_counter sc + 1) with true by (symmetry; apply N.ltb_lt; lia).
      cbn [map s_before List.length List.seq]. rewrite N.add_0_r. split.
      * f_equal. rewrite I1, <- seq_shift, map_map. apply map_ext. intros k. lia.
      * rewrite I2. lia.
Qed.

(** Two copies that both write - each in any way, frames of their own - use the same counters, one after
    the other: the k-th encryption of the one has the nonce of the k-th of the other, unless their levels
    differ. *)
Theorem C96_two_writers_share_nonces : forall sc calls1 calls2 log1 log2 sc1 sc2 k e1 e2,
  calls_ok calls1 -> calls_ok calls2 -> u64_ok (sc_euid sc) -> u32_ok (sc_frame_counter sc) ->
  send_all c E sc calls1 = (log1, sc1) -> send_all c E (context_clone sc) calls2 = (log2, sc2) ->
  nth_error (filter used log1) k = Some e1 -> nth_error (filter used log2) k = Some e2 ->
  s_before e1 = s_before e2 /\
  (nth_error (nonces sc log1) k = nth_error (nonces sc log2) k <-> level_of e1 = level_of e2).
Proof.
  intros sc calls1 calls2 log1 log2 sc1 sc2 k e1 e2 Hc1 Hc2 He Hfc S1 S2 H1 H2.
  replace (context_clone sc) with sc in S2 by now destruct sc.
  destruct (C96_counters_consecutive calls1 sc log1 sc1 Hc1 Hfc S1) as [A1 _].
  destruct (C96_counters_consecutive calls2 sc log2 sc2 Hc2 Hfc S2) as [A2 _].
  assert (B : forall log e, map s_before (filter used log)
      = map (fun k => sc_frame_counter sc + N.of_nat k) (List.seq 0 (List.length (filter used log))) ->
      nth_error (filter used log) k = Some e -> s_before e = sc_frame_counter sc + N.of_nat k).
  { intros log e A H. assert (L : (k < List.length (filter used log))%nat) by (apply nth_error_Some; congruence).
    apply (map_nth_error s_before) in H. rewrite A in H.
    rewrite (map_nth_error _ k (List.seq 0 (List.length (filter used log))) (d := k)) in H; [now injection H|].
    rewrite (nth_error_nth' _ 0%nat) by now rewrite seq_length. now rewrite seq_nth. }
  pose proof (B log1 e1 A1 H1) as F1. pose proof (B log2 e2 A2 H2) as F2.
  split; [congruence|].
  unfold nonces. rewrite (map_nth_error _ _ _ H1), (map_nth_error _ _ _ H2).
  destruct (send_all_inv c E HE calls1 sc log1 sc1 Hc1 Hfc S1) as (I1 & _).
  assert (U : u32_ok (s_before e1)).
  { rewrite Forall_forall in I1. apply nth_error_In in H1. apply filter_In in H1. apply (I1 e1). tauto. }
  assert (U2 : u32_ok (s_before e2)) by congruence.
  split; intros X.
  - assert (Y : mac_nonce (sc_euid sc) (s_before e1) (level_of e1) = mac_nonce (sc_euid sc) (s_before e2) (level_of e2)).
    { apply (f_equal (fun o => match o with Some v => v | None => [] end)) in X. exact X. }
    apply C29_nonce_injective in Y; tauto.
  - rewrite F1, F2, X. reflexivity.
Qed.

(** Copies that are given counters of their own - such that the ranges they use do not meet - are safe,
    in whatever order they write. (C59 is the case of one after the other.) *)
Theorem C96_disjoint_ranges_are_safe : forall sc lives, u64_ok (sc_euid sc) ->
  Forall (fun l => calls_ok (l_calls l) /\ u32_ok (l_start l)) lives ->
  ForallOrdPairs (fun a b => d_end a <= l_start (d_life b) \/ d_end b <= l_start (d_life a))
    (map (live c E sc) lives) ->
  NoDup (flat_map (fun d => nonces sc (d_log d)) (map (live c E sc) lives)).
Proof.
  intros sc lives He. induction lives as [|l lives IH]; intros Ho R; [constructor|].
  inversion Ho as [|? ? [Hc Hf] Ho']; subst. cbn [map] in R. inversion R as [|? ? R2 R1]; subst.
  cbn [map flat_map]. apply NoDup_app.
  - unfold live. destruct (send_all c E (at_counter sc (l_start l)) (l_calls l)) as [log sc'] eqn:S. cbn [d_log].
    exact (C29_nonces_distinct c E HE (at_counter sc (l_start l)) (l_calls l) log sc' Hc He Hf S).
  - now apply IH.
  - intros x Hx Hy. apply in_flat_map in Hy. destruct Hy as (d & Hd & Hy).
    rewrite Forall_forall in R2. specialize (R2 d Hd).
    apply in_map_iff in Hd. destruct Hd as (l2 & <- & Hl2).
    rewrite Forall_forall in Ho'. destruct (Ho' l2 Hl2) as [Hc2 Hf2].
    unfold live in *.
    destruct (send_all c E (at_counter sc (l_start l)) (l_calls l)) as [log sc'] eqn:S.
    destruct (send_all c E (at_counter sc (l_start l2)) (l_calls l2)) as [log2 sc2'] eqn:S2.
    cbn [d_log d_end d_life] in *.
    destruct (nonces_in c E HE (at_counter sc (l_start l)) (l_calls l) log sc' x Hc Hf S Hx) as (n & lv & -> & Hn1 & Hn2).
    destruct (nonces_in c E HE (at_counter sc (l_start l2)) (l_calls l2) log2 sc2' _ Hc2 Hf2 S2 Hy) as (n2 & lv2 & Ex & Hn3 & Hn4).
    cbn [at_counter sc_euid sc_frame_counter] in *.
    apply C29_nonce_injective in Ex; try assumption. destruct Ex as (_ & En & _). lia.
Qed.

End Proofs.

(** ** Concrete cases *)

(** A copy reads a frame while the original writes; later a copy of the advanced original reads the frame
    again (refused: the store has moved on). *)
Definition busy (x : FrameSerDesContext (list N)) : list deed :=
  [Copies 0; Reads 1 Footer_None doc_bytes; Writes 0 (at_level SL_ENCMIC64 true [1; 2] 80);
   Copies 0; Reads 2 Footer_None doc_bytes; Writes 0 (at_level SL_MIC32 true [3] 80); Copies 9; Reads 7 Footer_None [1]].
Definition doc_sc : SecurityContext (list N) := SecurityContext_new 0x08 7 static_key_lookup.

Example busy_application :
  inputs_ok (busy (aes_ctx 8 7)) /\ one_writer (busy (aes_ctx 8 7)) /\
  let '(d, (pool, ds)) := act host aes_cipher basic_dev_lookup [doc_sc] (dev 0) (busy (aes_ctx 8 7)) in
  (map fst (d_writes d), map (fun e => (s_before e, s_after e)) (map snd (d_writes d)),
   map (fun r => match r with Ok (f, _) => Some (payload f) | _ => None end) (d_reads d),
   map sc_frame_counter pool, dev_frame_counter ds)
  = ([0; 0]%nat, [(7, 8); (8, 9)], [Some [0; 1; 2; 3; 4]; None], [9; 7; 8], 1).
Proof.
  split; [repeat constructor|]. split; [repeat constructor|]. vm_compute. reflexivity.
Qed.

(** Exclusive or, octet by octet. *)
Definition xored (a b : list N) : list N := map (fun p => N.lxor (fst p) (snd p)) (combine a b).

(** Two copies that both write: the two frames are encrypted with one nonce, and the exclusive or of what
    goes out is that of the payloads. *)
Theorem C96_two_writers_refuted : exists (sc : SecurityContext (list N)) deeds d s,
  u64_ok (sc_euid sc) /\ inputs_ok deeds /\
  act host aes_cipher basic_dev_lookup [sc] (dev 0) deeds = (d, s) /\
  ~ NoDup (nonces sc (map snd (d_writes d))) /\
  match map snd (d_writes d) with
  | [e1; e2] =>
      s_frame e1 <> s_frame e2 /\
      xored (firstn 3 (skipn (List.length (s_bytes e1) - 7) (s_bytes e1)))
                (firstn 3 (skipn (List.length (s_bytes e2) - 7) (s_bytes e2)))
      = xored (payload (s_frame e1)) (payload (s_frame e2))
  | _ => False
  end.
Proof.
  exists doc_sc, [Copies 0; Writes 0 (at_level SL_ENCMIC32 true [1; 2; 3] 80); Writes 1 (at_level SL_ENCMIC32 true [9; 9; 9] 80)].
  do 2 eexists. split; [reflexivity|]. split; [repeat constructor|]. split; [apply surjective_pairing|].
  match goal with |- context [d_writes ?d] => remember d as r eqn:Er end. vm_compute in Er.
  split.
  - intros H. remember (nonces doc_sc _) as l eqn:El in H. rewrite Er in El. vm_compute in El. subst l.
    inversion H as [|? ? Hn _]; subst. apply Hn. now left.
  - rewrite Er. split; [intros X; apply (f_equal payload) in X; vm_compute in X; discriminate|]. vm_compute. reflexivity.
Qed.

(** Two copies with ranges of their own, used in turn. *)
Example two_ranges :
  map (fun d => (l_start (d_life d), d_end d))
    (map (live host aes_cipher doc_sc)
       [{| l_start := 1000; l_calls := [at_level SL_ENCMIC32 true [1; 2; 3] 80] |};
        {| l_start := 0; l_calls := [at_level SL_ENCMIC32 true [1; 2; 3] 80; at_level SL_MIC32 true [1; 2; 3] 80] |}])
  = [(1000, 1001); (0, 2)].
Proof. vm_compute. reflexivity. Qed.

Print Assumptions C96_copies_read_like_the_original.
Print Assumptions C96_one_writer.
Print Assumptions C96_counters_consecutive.
Print Assumptions C96_two_writers_share_nonces.
Print Assumptions C96_disjoint_ranges_are_safe.
Print Assumptions C96_two_writers_refuted.
