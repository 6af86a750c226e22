(** Where a write into a short buffer stops: the sizes of the fields each writer writes
    (HeaderModel.v, BeaconModel.v, CommandModel.v, FrameModel.v against WriteSpec.v). The octets
    of the fields are already known (HeaderProofs.v, BeaconProofs.v, CommandProofs.v). *)
From Coq Require Import List Arith NArith ZArith Bool String Lia ZifyBool ZifyNat ZifyN.
From Verif Require Import ByteCrate Types HeaderModel BeaconModel CommandModel CcmModel FrameModel
  Spec SecSpec WriteSpec ProofLib HeaderProofs HeaderReadProofs BeaconProofs CommandProofs
  FrameProofs CcmProofs SecureProofs.
Import ListNotations.
Open Scope N_scope.
Open Scope list_scope.

Notation len := (@List.length N).

(** * [whole] *)

Lemma whole_le ss : forall n, (whole n ss <= n)%nat.
Proof.
  induction ss as [|s ss IH]; intros n; cbn [whole]; [lia|].
  destruct (Nat.leb_spec s n); [|lia]. specialize (IH (n - s)%nat). lia.
Qed.
Lemma whole_le_sum ss : forall n, (whole n ss <= list_sum ss)%nat.
Proof.
  induction ss as [|s ss IH]; intros n; cbn [whole]; [lia|].
  change (list_sum (s :: ss)) with (s + list_sum ss)%nat.
  destruct (Nat.leb_spec s n); [|lia]. specialize (IH (n - s)%nat). lia.
Qed.
Lemma whole_all ss : forall n, (list_sum ss <= n)%nat -> whole n ss = list_sum ss.
Proof.
  induction ss as [|s ss IH]; intros n H; cbn [whole]; [reflexivity|].
  change (list_sum (s :: ss)) with (s + list_sum ss)%nat in *.
  replace (s <=? n)%nat with true by (symmetry; apply Nat.leb_le; lia). rewrite IH; lia.
Qed.
Lemma whole_app_fit a b n : (list_sum a <= n)%nat ->
  whole n (a ++ b) = (list_sum a + whole (n - list_sum a) b)%nat.
Proof.
  revert n. induction a as [|s a IH]; intros n H; cbn [app whole].
  - cbn [list_sum fold_right]. now rewrite Nat.sub_0_r.
  - change (list_sum (s :: a)) with (s + list_sum a)%nat in *.
    replace (s <=? n)%nat with true by (symmetry; apply Nat.leb_le; lia).
    rewrite IH by lia. rewrite <- Nat.sub_add_distr. lia.
Qed.
Lemma whole_app_short a b n : (n < list_sum a)%nat -> whole n (a ++ b) = whole n a.
Proof.
  revert n. induction a as [|s a IH]; intros n H; cbn [app whole].
  - cbn in H. lia.
  - change (list_sum (s :: a)) with (s + list_sum a)%nat in *.
    destruct (Nat.leb_spec s n); [|reflexivity]. rewrite IH by lia. reflexivity.
Qed.

(** * Writers of fields of given sizes *)

(** [w] writes some octets in fields of sizes [ss], each of them entirely or not at all, and
    ends with [st] once all of them are written. *)
Definition fields (w : writer) (ss : list nat) (st : bres unit) : Prop :=
  exists bs, len bs = list_sum ss /\
  forall buf,
    w buf = if (list_sum ss <=? len buf)%nat
            then (result_of st (list_sum ss), bs ++ skipn (list_sum ss) buf)
            else (Err Incomplete, firstn (whole (len buf) ss) bs ++ skipn (whole (len buf) ss) buf).

(** The same for a writer body started at some offset. *)
Definition lays (m : wm unit) (ss : list nat) (st : bres unit) : Prop :=
  exists bs, len bs = list_sum ss /\
  forall buf off, (off <= len buf)%nat ->
    exists off', (st = Ok tt -> (off + list_sum ss <= len buf)%nat -> off' = (off + list_sum ss)%nat) /\
    m (buf, off) =
      if (off + list_sum ss <=? len buf)%nat
      then (st, (firstn off buf ++ bs ++ skipn (off + list_sum ss) buf, off'))
      else (Err Incomplete,
            (let k := whole (len buf - off) ss in
             firstn off buf ++ firstn k bs ++ skipn (off + k) buf, off')).

Lemma lays_end (st : bres unit) (m : wm unit) : (forall s, m s = (st, s)) -> lays m [] st.
Proof.
  intros H. exists []. split; [reflexivity|]. intros buf off Ho. exists off.
  cbn [list_sum fold_right]. rewrite Nat.add_0_r. split; [reflexivity|].
  replace (off <=? len buf)%nat with true by (symmetry; apply Nat.leb_le; lia).
  rewrite H. cbn [app]. now rewrite firstn_skipn.
Qed.
Lemma lays_ret : lays (wret tt) [] (Ok tt).
Proof. now apply lays_end. Qed.
Lemma lays_err e : lays (werr e) [] (Err e).
Proof. now apply lays_end. Qed.

Lemma lays_write w ss st : fields w ss st -> lays (write_with w) ss st.
Proof.
  intros (bs & L & Hw). exists bs. split; [exact L|]. intros buf off Ho. unfold write_with.
  replace (List.length buf <? off)%nat with false by (symmetry; apply Nat.ltb_ge; lia).
  rewrite Hw, skipn_length.
  destruct (Nat.leb_spec (off + list_sum ss) (len buf)) as [H|H].
  - replace (list_sum ss <=? len buf - off)%nat with true by (symmetry; apply Nat.leb_le; lia).
    rewrite skipn_skipn'. destruct st as [[]|e|]; cbn [result_of]; eexists;
      (split; [intros He; try discriminate He; reflexivity|reflexivity]).
  - replace (list_sum ss <=? len buf - off)%nat with false by (symmetry; apply Nat.leb_gt; lia).
    rewrite skipn_skipn'. exists off. split; [intros _ X; lia|reflexivity].
Qed.

Lemma list_sum_app' a b : list_sum (a ++ b) = (list_sum a + list_sum b)%nat.
Proof. apply list_sum_app. Qed.

Lemma lays_seq m k a b st : lays m a (Ok tt) -> lays k b st -> lays (m >> k) (a ++ b) st.
Proof.
  intros (x & Lx & Hm) (y & Ly & Hk). exists (x ++ y). rewrite app_length, list_sum_app'.
  split; [lia|]. intros buf off Ho. unfold wseq, wbind.
  destruct (Hm buf off Ho) as (o1 & E1 & ->).
  destruct (Nat.leb_spec (off + list_sum a) (len buf)) as [H|H].
  - rewrite E1 by (reflexivity || assumption).
    set (buf1 := firstn off buf ++ x ++ skipn (off + list_sum a) buf).
    assert (L1 : len buf1 = len buf).
    { unfold buf1. rewrite !app_length, firstn_length, skipn_length. lia. }
    assert (F1 : firstn (off + list_sum a) buf1 = firstn off buf ++ x).
    { unfold buf1. rewrite app_assoc. apply firstn_app_exact'.
      rewrite app_length, firstn_length. lia. }
    assert (S1 : forall n, skipn (off + list_sum a + n) buf1 = skipn (off + list_sum a + n) buf).
    { intros n. rewrite <- (skipn_skipn' n (off + list_sum a) buf1).
      rewrite <- (skipn_skipn' n (off + list_sum a) buf). f_equal.
      unfold buf1. rewrite app_assoc. apply skipn_app_exact'.
      rewrite app_length, firstn_length. lia. }
    destruct (Hk buf1 (off + list_sum a)%nat ltac:(lia)) as (o2 & E2 & ->). exists o2.
    rewrite L1 in *. rewrite Nat.add_assoc. split; [exact E2|].
    destruct (Nat.leb_spec (off + list_sum a + list_sum b) (len buf)) as [H2|H2].
    + rewrite F1, S1, <- !app_assoc. reflexivity.
    + rewrite F1. rewrite whole_app_fit by lia. cbv zeta.
      rewrite <- Nat.sub_add_distr. rewrite <- Lx at 4. rewrite firstn_app_2, S1, Nat.add_assoc, <- !app_assoc.
      reflexivity.
  - exists o1. split; [intros _ X; lia|].
    replace (off + (list_sum a + list_sum b) <=? len buf)%nat with false by (symmetry; apply Nat.leb_gt; lia).
    rewrite whole_app_short by lia. cbv zeta.
    rewrite (firstn_app _ x y).
    pose proof (whole_le_sum a (len buf - off)) as W.
    replace (_ - len x)%nat with 0%nat by lia. cbn [firstn]. now rewrite app_nil_r.
Qed.

Lemma lays_seq_fail m k a st : st <> Ok tt -> lays m a st -> lays (m >> k) a st.
Proof.
  intros Hst (x & Lx & Hm). exists x. split; [exact Lx|]. intros buf off Ho. unfold wseq, wbind.
  destruct (Hm buf off Ho) as (o1 & E1 & ->). exists o1. split; [exact E1|].
  destruct (_ <=? _)%nat; [|reflexivity]. destruct st as [[]|e|]; [contradiction|reflexivity|reflexivity].
Qed.

Lemma fields_body m ss st : lays m ss st -> fields (try_write_body m) ss st.
Proof.
  intros (bs & L & Hm). exists bs. split; [exact L|]. intros buf. unfold try_write_body.
  destruct (Hm buf 0%nat ltac:(lia)) as (o & Ho & ->). cbn [Nat.add firstn app]. rewrite Nat.sub_0_r.
  destruct (Nat.leb_spec (list_sum ss) (len buf)) as [H|H]; [|reflexivity].
  destruct st as [[]|e|]; cbn [result_of]; [rewrite Ho by (reflexivity || assumption)|..]; reflexivity.
Qed.

Lemma fields_slice data : fields (write_slice data) [len data] (Ok tt).
Proof.
  exists data. cbn [list_sum fold_right whole]. rewrite Nat.add_0_r. split; [reflexivity|].
  intros buf. unfold write_slice. rewrite Nat.ltb_antisym.
  destruct (len data <=? len buf)%nat; reflexivity.
Qed.
Lemma fields_num n e v : fields (write_num n e v) [n] (Ok tt).
Proof.
  exists (in_order e n v). cbn [list_sum fold_right whole]. rewrite Nat.add_0_r, in_order_length.
  split; [reflexivity|]. intros buf. unfold write_num. rewrite num_bytes_spec, Nat.ltb_antisym.
  destruct (n <=? len buf)%nat; reflexivity.
Qed.
Lemma lays_num n e v : lays (write_with (write_num n e v)) [n] (Ok tt).
Proof. apply lays_write, fields_num. Qed.
Lemma lays_u8 v : lays (write_with (write_u8 v)) [1%nat] (Ok tt).
Proof. apply lays_num. Qed.
Lemma lays_eq m a b st : lays m a st -> a = b -> lays m b st.
Proof. now intros H <-. Qed.
Lemma lays_seq_nil m k b st : lays m [] (Ok tt) -> lays k b st -> lays (m >> k) b st.
Proof. intros Hm Hk. apply (lays_seq m k [] b); assumption. Qed.

(** * Header *)

Lemma fields_pan p : fields (try_write_pan_id p) [2%nat] (Ok tt).
Proof. apply fields_body, lays_num. Qed.
Lemma fields_short p : fields (try_write_short p) [2%nat] (Ok tt).
Proof. apply fields_body, lays_num. Qed.
Lemma fields_extended p : fields (try_write_extended p) [8%nat] (Ok tt).
Proof. apply fields_body, lays_num. Qed.
Lemma fields_address a : fields (try_write_address a Enc_Normal) (address_fields true a) (Ok tt).
Proof.
  unfold try_write_address, address_fields. apply fields_body.
  destruct a; apply lays_seq; apply lays_write; auto using fields_pan, fields_short, fields_extended.
Qed.
Lemma fields_address_c a : fields (try_write_address a Enc_Compressed) (address_fields false a) (Ok tt).
Proof.
  unfold try_write_address, address_fields. apply fields_body.
  destruct a; apply lays_write; auto using fields_short, fields_extended.
Qed.

Lemma fields_aux c a fc : fields (try_write_aux c a fc) (aux_fields a) (Ok tt).
Proof.
  unfold try_write_aux, aux_fields. apply fields_body.
  apply (lays_seq _ _ [1%nat]); [apply lays_write, fields_body, lays_u8|].
  apply (lays_seq _ _ [4%nat]); [apply lays_num|].
  destruct (key_identifier a) as [k|]; [|apply lays_ret].
  apply lays_write, fields_body, lays_seq; [|apply lays_u8].
  destruct (key_source k) as [[v|v]|]; try apply lays_ret; apply lays_num.
Qed.

(** The fields a header write reaches, and how it ends. *)
Definition header_end (h : Header) (sc : bool) : list nat * bres unit :=
  if compression_ok h then
    match auxiliary_security_header h with
    | None => (header_fields h, Ok tt)
    | Some a =>
      if sc then (header_fields h, Ok tt)
      else ([2; 1]%nat
            ++ match destination h with None => [] | Some a => address_fields true a end
            ++ match source h with None => [] | Some a => address_fields (negb (pan_id_compress h)) a end,
            Err (BadInput "MissingSecurityCtx"))
    end
  else ([2; 1]%nat, Err (BadInput "DisallowedPanIdCompress")).

Lemma fields_header {K} c h (sc : option (SecurityContext K)) :
  fields (try_write_header c h sc) (fst (header_end h (is_some sc))) (snd (header_end h (is_some sc))).
Proof.
  unfold try_write_header, header_end. apply fields_body.
  replace ((match destination h with None => true | Some _ => false end
            || match source h with None => true | Some _ => false end) && pan_id_compress h)
    with (negb (compression_ok h))
    by (unfold compression_ok; destruct (destination h), (source h), (pan_id_compress h); reflexivity).
  destruct (compression_ok h) eqn:Hc; cbn [negb].
  - assert (RA : lays
      (match destination h with
       | Some d => write_with (try_write_address d Enc_Normal)
       | None => wret tt end)
      (match destination h with None => [] | Some a => address_fields true a end) (Ok tt)).
    { destruct (destination h); [apply lays_write, fields_address|apply lays_ret]. }
    assert (RB : lays
      (match source h, pan_id_compress h with
       | Some s, true => write_with (try_write_address s Enc_Compressed)
       | Some s, false => write_with (try_write_address s Enc_Normal)
       | None, true => wpanic
       | None, false => wret tt
       end)
      (match source h with None => [] | Some a => address_fields (negb (pan_id_compress h)) a end) (Ok tt)).
    { unfold compression_ok in Hc.
      destruct (source h), (pan_id_compress h), (destination h); cbn in Hc; try discriminate;
        try apply lays_ret; apply lays_write; cbn [negb]; auto using fields_address, fields_address_c. }
    assert (Hpre : forall k bs st, lays k bs st ->
      lays (write_with (write_num 2 LE (frame_control_raw h)) >>
            write_with (write_u8 (seq h)) >> wret tt >>
            match destination h with
            | Some d => write_with (try_write_address d Enc_Normal)
            | None => wret tt end >>
            match source h, pan_id_compress h with
            | Some s, true => write_with (try_write_address s Enc_Compressed)
            | Some s, false => write_with (try_write_address s Enc_Normal)
            | None, true => wpanic
            | None, false => wret tt
            end >> k)
        ([2; 1]%nat ++ match destination h with None => [] | Some a => address_fields true a end
           ++ match source h with None => [] | Some a => address_fields (negb (pan_id_compress h)) a end
           ++ bs) st).
    { intros k bs st Hk.
      apply (lays_seq _ _ [2%nat]); [apply lays_num|]. apply (lays_seq _ _ [1%nat]); [apply lays_u8|].
      apply lays_seq_nil; [apply lays_ret|]. apply lays_seq; [exact RA|].
      apply lays_seq; [exact RB|exact Hk]. }
    unfold has_security, header_fields. destruct (auxiliary_security_header h) as [a|] eqn:Ea.
    + destruct sc as [sc|]; cbn [andb fst snd is_some].
      * apply Hpre. apply lays_write, fields_aux.
      * eapply lays_eq; [apply Hpre, lays_err|now rewrite app_nil_r].
    + cbn [andb fst snd]. apply Hpre, lays_ret.
  - cbn [fst snd]. apply (lays_seq _ _ [2%nat]); [apply lays_num|].
    apply (lays_seq _ _ [1%nat] []); [apply lays_u8|].
    apply lays_seq_fail; [discriminate|apply lays_err].
Qed.

(** * Content *)

Lemma lays_lift {A} (r : bres A) (v : A) (f : A -> wm unit) ss st :
  r = Ok v -> lays (f v) ss st -> lays (wbind (wlift r) f) ss st.
Proof. intros -> (bs & L & R). exists bs. split; [exact L|]. exact R. Qed.

Lemma lays_loop {A} (wr : A -> writer) (W : A -> list nat) l : forall pre post,
  (forall x, fields (wr x) (W x) (Ok tt)) ->
  lays (write_loop wr (pre ++ l ++ post) (List.length pre) (List.length l)) (flat_map W l) (Ok tt).
Proof.
  induction l as [|x l IH]; intros pre post H; [apply lays_ret|].
  cbn [List.length write_loop flat_map].
  apply (lays_lift _ x); [cbn [app]; now rewrite index_mid|].
  apply lays_seq; [now apply lays_write|].
  specialize (IH (pre ++ [x]) post H). rewrite app_length, Nat.add_1_r in IH.
  rewrite <- app_assoc in IH. exact IH.
Qed.

Lemma fields_gts_descriptor d : fields (try_write_gts_descriptor d) [2; 1]%nat (Ok tt).
Proof.
  apply fields_body, (lays_seq _ _ [2%nat] [1%nat]); [apply lays_write, fields_short|apply lays_u8].
Qed.

Lemma fields_beacon b : beacon_ok b -> fields (try_write_beacon b) (beacon_fields b) (Ok tt).
Proof.
  intros (_ & (Hc & slots & Hl & Hs & Eg) & Hp). unfold try_write_beacon, beacon_fields. apply fields_body.
  apply (lays_seq _ _ [1; 1]%nat).
  { apply lays_write, fields_body, (lays_seq _ _ [1%nat] [1%nat]); apply lays_u8. }
  set (g := guaranteed_time_slot_info b) in *.
  rewrite app_assoc. apply lays_seq.
  - apply lays_write, fields_body. rewrite (active_reachable g slots Hl Eg), Eg.
    replace (gts_slot_count g <=? 7)%nat with true by lia.
    apply lays_seq_nil; [apply lays_ret|]. apply (lays_seq _ _ [1%nat]); [apply lays_u8|].
    destruct slots as [|d slots].
    + cbn [List.length] in Hl. rewrite <- Hl. apply lays_ret.
    + replace (0 <? gts_slot_count g)%nat with true by (cbn [List.length] in Hl; lia).
      rewrite <- Hl.
      eapply lays_lift.
      * apply (direction_loop_eq (d :: slots) [] _ 0 0); [lia|cbn; lia].
      * apply (lays_seq _ _ [1%nat]); [apply lays_u8|].
        apply (lays_loop _ (fun _ => [2; 1]%nat) (d :: slots) []).
        intros x. apply fields_gts_descriptor.
  - apply lays_write, fields_body.
    destruct Hp as (Hs' & He & (ls & Ls & Fs & Es) & (lx & Lx & Fx & Ex)).
    set (p := pending_address b) in *. unfold shorts_of, extendeds_of.
    rewrite Es, Ex, !firstn_app_exact' by (symmetry; assumption).
    replace (short_address_count p <=? 7)%nat with true by lia.
    replace (extended_address_count p <=? 7)%nat with true by lia.
    apply lays_seq_nil; [apply lays_ret|]. apply lays_seq_nil; [apply lays_ret|].
    apply (lays_seq _ _ [1%nat]); [apply lays_u8|].
    assert (M : forall n (l : list N), map (fun _ => n) l = flat_map (fun _ => [n : nat]) l)
      by (induction l; cbn; congruence).
    unfold ShortAddress, ExtendedAddress in *. rewrite !M.
    apply lays_seq.
    + rewrite <- Ls. apply (lays_loop _ (fun _ => [2%nat]) ls []). exact fields_short.
    + rewrite <- Lx. apply (lays_loop _ (fun _ => [8%nat]) lx []). exact fields_extended.
Qed.

Lemma fields_command c : fields (try_write_command c) (command_fields c) (Ok tt).
Proof.
  unfold try_write_command, command_fields. apply fields_body.
  destruct c; try apply lays_u8;
    (apply (lays_seq _ _ [1%nat]); [apply lays_u8|]); try apply lays_u8.
  - apply (lays_seq _ _ [2%nat]); [apply lays_write, fields_short|apply lays_u8].
  - apply lays_write, fields_body.
    apply (lays_seq _ _ [2%nat]); [apply lays_write, fields_pan|].
    apply (lays_seq _ _ [2%nat]); [apply lays_write, fields_short|].
    apply (lays_seq _ _ [1%nat]); [apply lays_u8|].
    apply (lays_seq _ _ [2%nat]); [apply lays_write, fields_short|].
    destruct (cr_channel_page d); [apply lays_u8|apply lays_ret].
Qed.

Lemma fields_content ct : content_ok ct -> fields (try_write_content ct) (content_fields ct) (Ok tt).
Proof.
  intros H. unfold try_write_content. apply fields_body.
  destruct ct; cbn [content_fields]; try apply lays_ret; apply lays_write.
  - now apply fields_beacon. - apply fields_command.
Qed.

(** * Putting sizes and octets together *)

Lemma same_writes (x y : list N) :
  (forall buf, (len x + len y < len buf)%nat ->
     x ++ skipn (len x) buf = y ++ skipn (len y) buf) -> x = y.
Proof.
  assert (D : forall a b : list N, (len a < len b)%nat ->
    (forall buf, (len a + len b < len buf)%nat -> a ++ skipn (len a) buf = b ++ skipn (len b) buf) -> False).
  { intros a b L H.
    assert (N0 : forall v, v = nth (len a) b 7).
    { intros v. specialize (H (repeat v (len a + len b + 1))).
      rewrite repeat_length in H. specialize (H ltac:(lia)).
      apply (f_equal (fun l => nth (len a) l 7)) in H.
      rewrite app_nth2, Nat.sub_diag in H by lia. rewrite (app_nth1 b) in H by lia.
      rewrite <- H. replace (len a + len b + 1)%nat with (len a + (len b + 1))%nat by lia.
      rewrite repeat_app, skipn_app_exact' by (now rewrite repeat_length).
      rewrite Nat.add_1_r. reflexivity. }
    pose proof (N0 0) as Z0. rewrite <- (N0 1) in Z0. discriminate Z0. }
  intros H. destruct (Nat.lt_trichotomy (len x) (len y)) as [L|[L|L]].
  - destruct (D x y L H).
  - specialize (H (repeat 0 (len x + len y + 1))). rewrite repeat_length in H. specialize (H ltac:(lia)).
    apply (f_equal (firstn (len x))) in H. rewrite firstn_app_exact in H. rewrite L, firstn_app_exact in H.
    exact H.
  - destruct (D y x L). intros buf Hb. symmetry. apply H. lia.
Qed.

(** The run of a writer body from the start of a buffer, exactly. *)
Lemma exact_runs m ss bs st st' : lays m ss st' -> runs m bs st ->
  len bs = list_sum ss /\ st' = st /\
  forall buf,
  exists off', (st = Ok tt -> (len bs <= len buf)%nat -> off' = len bs) /\
  m (buf, 0%nat) =
    if (len bs <=? len buf)%nat
    then (st, (bs ++ skipn (len bs) buf, off'))
    else (Err Incomplete, (firstn (whole (len buf) ss) bs ++ skipn (whole (len buf) ss) buf, off')).
Proof.
  intros (x & Lx & Hm) Hr.
  assert (B : forall buf, (len x + len bs < len buf)%nat ->
    st' = st /\ x ++ skipn (len x) buf = bs ++ skipn (len bs) buf).
  { intros buf L. destruct (Hm buf 0%nat ltac:(lia)) as (o1 & _ & E1).
    destruct (Hr buf 0%nat ltac:(lia)) as [R1 _]. destruct (R1 ltac:(lia)) as (o2 & _ & E2).
    rewrite E1 in E2. cbn [Nat.add firstn app] in E2.
    replace (list_sum ss <=? len buf)%nat with true in E2 by (symmetry; apply Nat.leb_le; lia).
    rewrite <- Lx in E2. injection E2 as X Y _. split; [exact X|exact Y]. }
  assert (x = bs) by (apply same_writes; intros buf L; apply (B buf L)). subst x.
  assert (st' = st).
  { apply (B (repeat 0 (len bs + len bs + 1))). rewrite repeat_length. lia. }
  subst st'. split; [exact Lx|]. split; [reflexivity|]. intros buf.
  destruct (Hm buf 0%nat ltac:(lia)) as (o & Ho & ->). exists o. rewrite Lx. split; [exact Ho|].
  cbn [Nat.add firstn app]. rewrite Nat.sub_0_r. reflexivity.
Qed.

Lemma exact_emits w ss bs st st' : fields w ss st' -> emits w bs st ->
  len bs = list_sum ss /\
  forall buf, w buf =
    if (len bs <=? len buf)%nat
    then (result_of st (len bs), bs ++ skipn (len bs) buf)
    else (Err Incomplete, firstn (whole (len buf) ss) bs ++ skipn (whole (len buf) ss) buf).
Proof.
  intros (x & Lx & Hw) He.
  assert (B : forall buf, (len x + len bs < len buf)%nat ->
    result_of st' (len x) = result_of st (len bs) /\ x ++ skipn (len x) buf = bs ++ skipn (len bs) buf).
  { intros buf L. pose proof (Hw buf) as E1. destruct (He buf) as [E2 _].
    rewrite E2 in E1 by lia.
    replace (list_sum ss <=? len buf)%nat with true in E1 by (symmetry; apply Nat.leb_le; lia).
    rewrite <- Lx in E1. injection E1 as X Y. split; symmetry; [exact X|exact Y]. }
  assert (x = bs) by (apply same_writes; intros buf L; apply (B buf L)). subst x.
  assert (R : result_of st' (len bs) = result_of st (len bs)).
  { apply (B (repeat 0 (len bs + len bs + 1))). rewrite repeat_length. lia. }
  split; [exact Lx|]. intros buf. rewrite Hw, <- Lx, R. reflexivity.
Qed.

Lemma triple_inj {A B C} (a x : A) (b y : B) (d z : C) : (a, b, d) = (x, y, z) -> a = x /\ b = y /\ d = z.
Proof. intros H. injection H as -> -> ->. auto. Qed.

Section Write.
Context {K : Type} (c : cfg) (E : block_cipher K).

(** The fields a write without security context reaches. *)
Lemma fields_plain f m : frame_ok f ->
  let '(ss, st) := header_end (header f) false in
  fields (plain_writer (K := K) c f m)
    (match st with Ok _ => ss ++ content_fields (content f) ++ [len (payload f)]
                           ++ match m with Footer_None => [] | Footer_Explicit => [2%nat] end
                 | _ => ss end) st.
Proof.
  intros (_ & Hc & _). pose proof (fields_header c (header f) (None (A := SecurityContext K))) as FH.
  cbn [is_some] in FH. destruct (header_end (header f) false) as [ss st]. cbn [fst snd] in FH.
  apply lays_write in FH. apply fields_body.
  destruct st as [[]|e|].
  - apply lays_seq; [exact FH|]. apply lays_seq; [apply lays_write; now apply fields_content|].
    apply lays_seq; [apply lays_write, fields_slice|].
    destruct m; [apply lays_ret|]. apply lays_write, (fields_slice [_; _]).
  - apply lays_seq_fail; [discriminate|exact FH].
  - apply lays_seq_fail; [discriminate|exact FH].
Qed.

Lemma plain_program_plan f m : plain_program (K := K) c f m = plain_plan m f.
Proof.
  unfold plain_program, header_program, plain_plan. rewrite compression_ok_plan.
  destruct (compression_ok (header f)) eqn:Ec; cbn [negb]; [|reflexivity].
  destruct (auxiliary_security_header (header f)) as [a|] eqn:Ea; [reflexivity|].
  f_equal. unfold wire_frame. rewrite wire_sent_mhr, Ea by assumption. now rewrite app_nil_r.
Qed.

Lemma whole_prefix n ss rest : (n < list_sum ss)%nat -> whole n ss = whole n (ss ++ rest).
Proof. intros H. symmetry. now apply whole_app_short. Qed.

(** Writing without a security context, exactly. *)
Lemma try_write_plain_exact f m buf : frame_ok f ->
  try_write_frame c E f (plain_ctx m) buf = write_outcome E (native c) f (plain_ctx m) buf.
Proof.
  intros Hok. rewrite try_write_plain.
  pose proof (fields_plain f m Hok) as F. pose proof (emits_plain c (K := K) f m Hok) as EM.
  rewrite plain_program_plan in EM.
  unfold write_outcome, any_plan. cbn [plain_ctx security_ctx footer_mode is_some].
  destruct (header_end (header f) false) as [ss st0] eqn:EH.
  destruct (plain_plan m f) as [bs st] eqn:EP. cbn [fst snd] in EM.
  destruct (exact_emits _ _ _ _ _ F EM) as [L ->].
  cbn [andb].
  destruct (Nat.leb_spec (len bs) (len buf)) as [H|H].
  { cbn [fst snd]. destruct st; reflexivity. }
  cbn [fst snd].
  assert (W : exists rest, frame_fields m false f
     = (match st0 with Ok _ => ss ++ content_fields (content f) ++ [len (payload f)]
                           ++ match m with Footer_None => [] | Footer_Explicit => [2%nat] end
                 | _ => ss end) ++ rest).
  { unfold header_end in EH. unfold frame_fields.
    destruct (compression_ok (header f)).
    - destruct (auxiliary_security_header (header f)) as [a|] eqn:Ea; injection EH as <- <-.
      + eexists. unfold header_fields. rewrite Ea. cbn [app]. rewrite <- !app_assoc. reflexivity.
      + exists []. rewrite app_nil_r. reflexivity.
    - injection EH as <- <-. eexists. unfold header_fields. rewrite <- !app_assoc. reflexivity. }
  destruct W as [rest ->]. rewrite whole_app_short by lia. reflexivity.
Qed.

(** Header and content with a security context. *)
Lemma lays_front f (sc : SecurityContext K) : content_ok (content f) ->
  lays (write_with (try_write_header c (header f) (Some sc)) >>
        write_with (try_write_content (content f)))
    (if compression_ok (header f) then header_fields (header f) ++ content_fields (content f) else [2; 1]%nat)
    (if compression_ok (header f) then Ok tt else Err (BadInput "DisallowedPanIdCompress")).
Proof.
  intros Hc. pose proof (fields_header c (header f) (Some sc)) as FH.
  apply lays_write in FH. cbn [is_some] in FH. unfold header_end in FH.
  destruct (compression_ok (header f)).
  - apply lays_seq; [|apply lays_write; now apply fields_content].
    destruct (auxiliary_security_header (header f)); exact FH.
  - apply lays_seq_fail; [discriminate|exact FH].
Qed.

Context (HE : cipher_ok E).

Lemma counted_ser m (sc : SecurityContext K) : counted (ser_ctx m sc) = ser_ctx m (advanced sc).
Proof using. reflexivity. Qed.

(** Writing with a security context, exactly. *)
Lemma try_write_secured_exact f m sc buf : frame_ok f -> u32_ok (sc_frame_counter sc) ->
  try_write_frame c E f (ser_ctx m sc) buf = write_outcome E (native c) f (ser_ctx m sc) buf.
Proof using HE.
  intros Hok Hfc. pose proof (try_write_secured c E HE f m sc Hok Hfc) as W.
  unfold write_outcome, any_plan. cbn [ser_ctx security_ctx footer_mode is_some].
  change {| footer_mode := m; security_ctx := Some sc |} with (ser_ctx m sc).
  destruct (write_plan E (native c) m sc f) as [[bs st] used] eqn:EP.
  specialize (W buf). rewrite counted_ser.
  destruct Hok as (Hh & Hct & Hp & Hf).
  destruct (exact_runs _ _ _ _ _ (lays_front f sc Hct) (runs_front c f sc Hh Hct)) as (L & _ & R).
  destruct (Nat.leb_spec (len bs) (len buf)) as [H|H].
  { rewrite W. destruct st, used; reflexivity. }
  unfold write_plan in EP. rewrite compression_ok_plan in EP.
  destruct (compression_ok (header f)) eqn:Ec; cbn [negb] in EP.
  2:{ (* the header is refused after its third octet *)
      apply triple_inj in EP; destruct EP as (<- & <- & <-). cbn [andb].
      destruct (R buf) as (o & _ & X).
      set (bs := le 2 _ ++ _) in *.
      replace (len bs <=? len buf)%nat with false in X by (symmetry; apply Nat.leb_gt; exact H).
      unfold try_write_frame. cbn [ser_ctx security_ctx footer_mode]. rewrite X.
      assert (Wp : exists rest, frame_fields m true f = [2; 1]%nat ++ rest)
        by (eexists; unfold frame_fields, header_fields; rewrite <- !app_assoc; reflexivity).
      assert (Lbs : len bs = 3%nat) by (unfold bs; rewrite app_length, le_length; reflexivity).
      destruct Wp as [rest ->]. rewrite (whole_prefix _ [2; 1]%nat rest); [reflexivity|].
      change (list_sum [2; 1]%nat) with 3%nat. lia. }
  set (front := wire_front (native c) (sc_frame_counter sc) f) in *.
  destruct W as (k & K1 & K2 & K3 & W).
  assert (Up : up_to_payload f = (len front + len (payload f))%nat).
  { unfold up_to_payload. rewrite app_assoc, list_sum_app', <- L. cbn [list_sum fold_right]. lia. }
  rewrite Up.
  assert (Wp : exists rest, frame_fields m true f
     = (header_fields (header f) ++ content_fields (content f)) ++ len (payload f) :: rest /\
     (auxiliary_security_header (header f) = None \/
      exists a rest', auxiliary_security_header (header f) = Some a /\
                      rest = tag_len (security_level (control a)) :: rest')).
  { unfold frame_fields. eexists. rewrite <- !app_assoc. split; [reflexivity|].
    destruct (auxiliary_security_header (header f)) as [a|]; [right|left; reflexivity].
    exists a. eexists. split; reflexivity. }
  destruct Wp as (rest & -> & Hrest).
  destruct (Nat.le_gt_cases (len front) (len buf)) as [Hfr|Hfr].
  2:{ (* the header or the content does not fit *)
      destruct (R buf) as (o & _ & X).
      replace (len front <=? len buf)%nat with false in X by (symmetry; apply Nat.leb_gt; exact Hfr).
      unfold try_write_frame. cbn [ser_ctx security_ctx footer_mode]. rewrite X.
      rewrite <- (whole_prefix (len buf) (header_fields (header f) ++ content_fields (content f)) (len (payload f) :: rest)) by lia.
      replace (len front + len (payload f) <=? len buf)%nat with false by (symmetry; apply Nat.leb_gt; lia).
      rewrite andb_false_r.
      assert (P : exists x, bs = front ++ x).
      { repeat match type of EP with
               | context [match m with _ => _ end] => destruct m
               | context [match auxiliary_security_header (header f) with _ => _ end] =>
                   destruct (auxiliary_security_header (header f))
               | context [if ?b then _ else _] => destruct b
               | context [match sc_key_provider ?a ?b ?d ?e with _ => _ end] =>
                   destruct (sc_key_provider a b d e) as [[? ?]|]
               end;
          apply triple_inj in EP; destruct EP as (<- & _ & _); try (eexists; reflexivity); exists []; now rewrite app_nil_r. }
      destruct P as [x ->].
      pose proof (whole_le (header_fields (header f) ++ content_fields (content f)) (len buf)) as Wl.
      rewrite (firstn_app _ front x). replace (_ - len front)%nat with 0%nat by lia.
      cbn [firstn]. rewrite app_nil_r. reflexivity. }
  rewrite W. rewrite whole_app_fit by lia. rewrite <- L. cbn [whole].
  destruct (Nat.leb_spec (len front + len (payload f)) (len buf)) as [Hpf|Hpf].
  - rewrite (K2 Hpf). replace (len (payload f) <=? len buf - len front)%nat with true
      by (symmetry; apply Nat.leb_le; lia).
    assert (Z : whole (len buf - len front - len (payload f)) rest = 0%nat).
    { destruct Hrest as [Ha|(a & rest' & Ha & ->)]; rewrite Ha in EP.
      - exfalso. destruct m; apply triple_inj in EP; destruct EP as (<- & _ & _); rewrite ?app_length in H; lia.
      - cbn [whole].
        replace (tag_len (security_level (control a)) <=? len buf - len front - len (payload f))%nat with false;
          [reflexivity|symmetry; apply Nat.leb_gt].
        repeat match type of EP with
               | context [match m with _ => _ end] => destruct m
               | context [if ?b then _ else _] => destruct b
               | context [match sc_key_provider ?a ?b ?d ?e with _ => _ end] =>
                   destruct (sc_key_provider a b d e) as [[? ?]|]
               end; apply triple_inj in EP; destruct EP as (<- & _ & _); rewrite ?app_length in H; try (exfalso; lia).
        rewrite secured_payload_length, secured_tag_length in H. lia. }
    rewrite Z, Nat.add_0_r. destruct used; reflexivity.
  - replace (len (payload f) <=? len buf - len front)%nat with false
      by (symmetry; apply Nat.leb_gt; lia).
    rewrite Nat.add_0_r, (proj2 (K3 Hpf) Hfr). destruct used; reflexivity.
Qed.
End Write.
