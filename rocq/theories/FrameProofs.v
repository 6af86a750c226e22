(** Proofs about frames without security (FrameModel.v against Spec.v). *)
From Coq Require Import List Arith NArith ZArith Bool String Lia ZifyBool ZifyNat ZifyN.
From Verif Require Import ByteCrate Types HeaderModel BeaconModel CommandModel CcmModel FrameModel
  Spec ProofLib HeaderProofs HeaderReadProofs BeaconProofs CommandProofs.
Import ListNotations.
Open Scope N_scope.
Open Scope list_scope.
Ltac Zify.zify_post_hook ::= Z.div_mod_to_equations.

(** * Content *)

Lemma emits_content ct : content_ok ct ->
  emits (try_write_content ct) (wire_content br_zero mr_zero ct) (Ok tt).
Proof.
  intros H. unfold try_write_content. apply emits_body.
  destruct ct; cbn [wire_content]; try apply runs_ret; apply runs_write.
  - now apply emits_beacon.
  - now apply emits_command.
Qed.

Lemma try_read_content_eq h bs :
  try_read_content h bs =
  match frame_type h with
  | Beacon_t => match try_read_beacon bs with Ok (b, n) => Ok (FC_Beacon b, n) | Err e => Err e | Panic => Panic end
  | Data_t => Ok (FC_Data, 0%nat)
  | Acknowledgement_t => Ok (FC_Acknowledgement, 0%nat)
  | MacCommand_t => match try_read_command bs with Ok (b, n) => Ok (FC_Command b, n) | Err e => Err e | Panic => Panic end
  | Multipurpose_t => Ok (FC_Multipurpose, 0%nat)
  | FragOrFragAck_t => Ok (FC_FragOrFragAck, 0%nat)
  | Extended_t => Ok (FC_Extended, 0%nat)
  end.
Proof.
  unfold try_read_content. destruct (frame_type h); try reflexivity;
    rewrite read_with_eq by lia; cbn [skipn].
  - destruct (try_read_beacon bs) as [[b n]|e|]; reflexivity.
  - destruct (try_read_command bs) as [[b n]|e|]; reflexivity.
Qed.

Lemma try_read_content_sound h bs ct n : octets bs -> try_read_content h bs = Ok (ct, n) ->
  (n <= List.length bs)%nat /\ content_canonical ct /\ content_type ct = frame_type h /\
  (content_open_ended ct = true -> n = List.length bs) /\
  exists br mr, reserved_fit br ct /\ firstn n bs = wire_content br mr ct.
Proof.
  intros Hb H. rewrite try_read_content_eq in H.
  destruct (frame_type h) eqn:Et;
    try (apply Ok_inj in H; destruct H as [<- <-]; repeat split; auto; try lia; try discriminate;
         exists br_zero, mr_zero; split; [exact I|reflexivity]).
  - destruct (try_read_beacon bs) as [[b k]|e|] eqn:E; try discriminate.
    apply Ok_inj in H. destruct H as [<- <-].
    apply try_read_beacon_sound in E; [|assumption]. destruct E as (L & C & r & Hr & W).
    split; [assumption|]. split; [exact C|]. split; [reflexivity|]. split; [discriminate|].
    exists r, mr_zero. split; [exact Hr|exact W].
  - destruct (try_read_command bs) as [[b k]|e|] eqn:E; try discriminate.
    apply Ok_inj in H. destruct H as [<- <-].
    apply try_read_command_sound in E; [|assumption]. destruct E as (L & C & O & r & W).
    split; [assumption|]. split; [exact C|]. split; [reflexivity|]. split; [exact O|].
    exists br_zero, r. split; [exact I|exact W].
Qed.

Lemma try_read_content_complete h br mr ct tail : content_canonical ct ->
  content_type ct = frame_type h -> reserved_fit br ct ->
  (content_open_ended ct = true -> tail = []) ->
  try_read_content h (wire_content br mr ct ++ tail) = Ok (ct, List.length (wire_content br mr ct)).
Proof.
  intros Hc Ht Hr Hto. rewrite try_read_content_eq, <- Ht.
  destruct ct; cbn [content_type wire_content app]; try reflexivity.
  - now rewrite try_read_beacon_complete.
  - now rewrite try_read_command_complete.
Qed.

Lemma try_read_content_fate h bs : octets bs ->
  match content_verdict (frame_type h) bs with
  | Some e => try_read_content h bs = Err e
  | None => exists ct, try_read_content h bs = Ok (ct, content_size (frame_type h) bs)
  end.
Proof.
  intros Hb. rewrite try_read_content_eq. unfold content_verdict, content_size.
  destruct (frame_type h); try (eexists; reflexivity).
  - destruct (beacon_fate bs) as [(L & b & R)|(L & R)]; rewrite R.
    + replace (_ <? _)%nat with false by lia. eexists. reflexivity.
    + replace (_ <? _)%nat with true by lia. reflexivity.
  - pose proof (try_read_command_fate bs Hb) as F. destruct (command_verdict bs) as [e|].
    + now rewrite F.
    + destruct F as [c ->]. eexists. reflexivity.
Qed.

(** * Writing without a security context *)

Section Frames.
Context {K : Type} (c : cfg) (E : block_cipher K).

Definition plain_ctx (m : FooterMode) : FrameSerDesContext K :=
  {| footer_mode := m; security_ctx := None |}.

(** The writer of a frame when there is no security context. *)
Definition plain_writer (f : Frame) (m : FooterMode) : writer :=
  try_write_body
    (write_with (try_write_header (K := K) c (header f) None) >>
     write_with (try_write_content (content f)) >>
     write_tail f m false).

Lemma try_write_plain f m buf :
  try_write_frame c E f (plain_ctx m) buf
  = (fst (plain_writer f m buf), (plain_ctx m, snd (plain_writer f m buf))).
Proof.
  unfold try_write_frame, plain_writer, try_write_body. cbn [plain_ctx security_ctx footer_mode].
  unfold wseq, wbind.
  destruct (write_with (try_write_header c (header f) None) (buf, 0%nat)) as [[[]|e|] [b1 o1]]; try reflexivity.
  destruct (write_with (try_write_content (content f)) (b1, o1)) as [[[]|e|] [b2 o2]]; try reflexivity.
  destruct (write_tail f m false (b2, o2)) as [[[]|e|] [b3 o3]]; reflexivity.
Qed.

Lemma runs_tail f m : runs (write_tail f m false) (payload f ++ wire_footer m f) (Ok tt).
Proof.
  unfold write_tail. apply runs_seq.
  - apply runs_write, emits_slice.
  - destruct m; [apply runs_ret|]. apply runs_write, emits_slice.
Qed.

(** What the plain writer emits and how it ends. *)
Definition plain_program (f : Frame) (m : FooterMode) : list N * bres unit :=
  let '(hb, st) := header_program (K := K) c (header f) None in
  match st with
  | Ok _ => (hb ++ wire_content br_zero mr_zero (content f) ++ payload f ++ wire_footer m f, Ok tt)
  | _ => (hb, st)
  end.

Lemma emits_plain f m : frame_ok f ->
  emits (plain_writer f m) (fst (plain_program f m)) (snd (plain_program f m)).
Proof.
  intros (Hh & Hc & _). unfold plain_writer, plain_program.
  pose proof (emits_header c (header f) (None (A := SecurityContext K)) Hh) as EH.
  destruct (header_program c (header f) None) as [hb st]. cbn [fst snd] in EH.
  apply runs_write in EH. apply emits_body.
  destruct st as [[]|e|]; cbn [fst snd].
  - apply runs_seq; [exact EH|]. apply runs_seq; [|apply runs_tail].
    apply runs_write. now apply emits_content.
  - apply runs_seq_fail; [discriminate|exact EH].
  - apply runs_seq_fail; [discriminate|exact EH].
Qed.

(** * Reading *)

Definition frame_rest (m : FooterMode) (h : Header) (ct : FrameContent) (rest : list N) (len : nat)
  : bres (Frame * nat) :=
  match m with
  | Footer_None => Ok ({| header := h; content := ct; payload := rest; footer := (0, 0) |}, len)
  | Footer_Explicit =>
      if (List.length rest <? 2)%nat then if overflow_checks c then Panic else Err Incomplete
      else Ok ({| header := h; content := ct; payload := firstn (List.length rest - 2) rest;
                  footer := (octet rest (List.length rest - 2), octet rest (List.length rest - 1)) |}, len)
  end.

Lemma usize_sub_le a b : (b <= a)%nat -> usize_sub c (N.of_nat a) (N.of_nat b) = Ok (N.of_nat (a - b)).
Proof. intros H. unfold usize_sub. replace (_ <=? _) with true by lia. f_equal. lia. Qed.

Lemma read_bytes_at bs off n : (off + n <= List.length bs)%nat ->
  read_with (read_bytes (N.of_nat n)) bs off = Ok (slice bs off (off + n), (off + n)%nat).
Proof.
  intros H. rewrite read_with_eq by lia. unfold read_bytes, check_len. rewrite skipn_length.
  replace (_ <? _) with false by lia. cbn [obind]. rewrite Nat2N.id. unfold slice.
  now replace (off + n - off)%nat with n by lia.
Qed.

Lemma read_bytes_short bs off n : (off <= List.length bs)%nat -> N.of_nat (List.length bs - off) < n ->
  read_with (read_bytes n) bs off = Err Incomplete.
Proof.
  intros Ho H. rewrite read_with_eq by lia. unfold read_bytes, check_len. rewrite skipn_length.
  now replace (_ <? _) with true by lia.
Qed.

Lemma slice_end bs a : (a <= List.length bs)%nat -> slice bs a (List.length bs) = skipn a bs.
Proof. intros H. unfold slice. apply firstn_all2. rewrite skipn_length. lia. Qed.

Lemma try_read_header_len bs h n : try_read_header c bs = Ok (h, n) -> (n <= List.length bs)%nat.
Proof.
  intros H. pose proof (try_read_header_fate c bs) as F.
  destruct (header_verdict bs) as [e|] eqn:V; [congruence|].
  destruct F as [h' F]. rewrite F in H. injection H as _ <-.
  unfold header_verdict in V.
  repeat match type of V with (if ?x then _ else _) = _ => destruct x eqn:?; try discriminate end.
  lia.
Qed.
Lemma try_read_content_len h bs ct n : octets bs -> try_read_content h bs = Ok (ct, n) -> (n <= List.length bs)%nat.
Proof. intros Hb H. now apply try_read_content_sound in H. Qed.

Lemma octet_nth_skipn bs a i : octet (skipn a bs) i = octet bs (a + i).
Proof.
  unfold octet. revert bs. induction a as [|a IH]; intros bs; [reflexivity|].
  destruct bs as [|x bs]; [destruct i; reflexivity|]. cbn [skipn Nat.add nth]. apply IH.
Qed.

Lemma slice_two bs a : (a + 2 <= List.length bs)%nat -> slice bs a (a + 2) = [octet bs a; octet bs (a + 1)].
Proof.
  intros H. unfold slice. replace (a + 2 - a)%nat with 2%nat by lia.
  assert (L := skipn_length a bs). rewrite <- (Nat.add_0_r a) at 2.
  rewrite <- !octet_nth_skipn. destruct (skipn a bs) as [|x [|y r]]; cbn [List.length] in L; try lia. reflexivity.
Qed.

Lemma octets_octet bs i : octets bs -> octet bs i < 256.
Proof.
  intros H. unfold octet. destruct (Nat.lt_ge_cases i (List.length bs)) as [Hi|Hi].
  - unfold octets in H. rewrite Forall_forall in H. apply H. now apply nth_In.
  - now rewrite nth_overflow.
Qed.

Lemma try_read_frame_eq m bs : octets bs -> cfg_ok c ->
  try_read_frame c m bs =
  match try_read_header c bs with
  | Err e => Err e
  | Panic => Panic
  | Ok (h, n1) =>
      match try_read_content h (skipn n1 bs) with
      | Err e => Err e
      | Panic => Panic
      | Ok (ct, n2) =>
          if has_security h then Err (BadInput "SecurityEnabled (use Frame::try_read_and_unsecure)")
          else frame_rest m h ct (skipn (n1 + n2) bs) (List.length bs)
      end
  end.
Proof.
  intros Hb Hcfg. unfold try_read_frame. rewrite read_with_eq by lia. cbn [skipn].
  destruct (try_read_header c bs) as [[h n1]|e|] eqn:EH; try reflexivity. cbn [obind].
  pose proof (try_read_header_len bs h n1 EH) as L1. change (0 + n1)%nat with n1.
  rewrite read_with_eq by assumption.
  destruct (try_read_content h (skipn n1 bs)) as [[ct n2]|e|] eqn:EC; try reflexivity. cbn [obind].
  destruct (has_security h) eqn:Hs; [reflexivity|].
  apply try_read_content_len in EC as L2; [|now apply octets_skipn]. rewrite skipn_length in L2.
  set (o := (n1 + n2)%nat) in *. assert (Lo : (o <= List.length bs)%nat) by (unfold o; lia). clearbody o.
  unfold frame_rest. destruct m.
  - rewrite usize_sub_le by assumption. cbn [obind].
    rewrite read_bytes_at by lia. cbn [obind].
    replace (o + (List.length bs - o))%nat with (List.length bs) by lia.
    rewrite slice_end by assumption. reflexivity.
  - rewrite usize_sub_le by assumption. cbn [obind]. rewrite skipn_length.
    destruct (Nat.ltb_spec (List.length bs - o) 2) as [Hl|Hl].
    + unfold usize_sub. replace (2 <=? _) with false by lia.
      destruct (overflow_checks c); [reflexivity|]. cbn [obind].
      rewrite read_bytes_short; [reflexivity|assumption|].
      assert (2 ^ 16 <= 2 ^ usize_bits c) by (apply N.pow_le_mono_r; [discriminate|exact Hcfg]).
      change (2 ^ 16) with 65536 in *. lia.
    + change 2 with (N.of_nat 2) at 1. rewrite usize_sub_le by assumption. cbn [obind].
      rewrite read_bytes_at by lia. cbn [obind].
      rewrite read_num_at by lia.
      replace (_ <=? List.length bs)%nat with true by lia. cbn [obind num_val].
      rewrite slice_two by lia. cbn [le_val].
      set (e := (o + (List.length bs - o - 2))%nat).
      assert (He : (e + 2)%nat = List.length bs) by (unfold e; lia).
      assert (B1 := octets_octet bs e Hb). assert (B2 := octets_octet bs (e + 1) Hb).
      replace ((octet bs e + 256 * (octet bs (e + 1) + 256 * 0)) mod 256) with (octet bs e) by lia.
      replace ((octet bs e + 256 * (octet bs (e + 1) + 256 * 0)) / 256) with (octet bs (e + 1)) by lia.
      rewrite He, !octet_nth_skipn. unfold slice.
      replace (e - o)%nat with (List.length bs - o - 2)%nat by (unfold e; lia).
      replace (o + (List.length bs - o - 2))%nat with e by reflexivity.
      replace (o + (List.length bs - o - 1))%nat with (e + 1)%nat by (unfold e; lia). reflexivity.
Qed.

End Frames.

(** * What an accepted header says about the input *)

Lemma wire_header_word co ko r7 rs h bs n : (2 <= n)%nat ->
  firstn n bs = wire_header co ko r7 rs h -> input_word bs = control_word r7 h.
Proof.
  intros Hn W. unfold wire_header in W. rewrite !le_S, le_0 in W. cbn [app] in W.
  destruct n as [|[|n]]; try lia. destruct bs as [|a [|b r]]; cbn [firstn] in W; try discriminate.
  assert (Ea : a = control_word r7 h mod 256) by congruence.
  assert (Eb : b = control_word r7 h / 256 mod 256) by congruence.
  pose proof (proj1 (control_word_fields r7 h)) as B.
  unfold input_word, octet. cbn [nth]. rewrite Ea, Eb. clear -B.
  generalize dependent (control_word r7 h). intros; lia.
Qed.

Lemma type_of_code_inv t : type_of_code (type_code t) = t.
Proof. destruct t; reflexivity. Qed.

Lemma header_need_eq c bs h n : octets bs -> try_read_header c bs = Ok (h, n) ->
  n = header_need bs /\ type_of_code (field (input_word bs) 0 3) = frame_type h /\
  (field (input_word bs) 3 1 =? 1) = has_security h /\ header_verdict bs = None.
Proof.
  intros Hb E. pose proof (try_read_header_fate c bs) as F.
  destruct (header_verdict bs) as [e|] eqn:V; [congruence|]. destruct F as [h' F].
  rewrite F in E. apply Ok_inj in E. destruct E as [-> <-].
  apply try_read_header_sound in F; [|assumption]. destruct F as (Ln & Hd & r7 & rs & _ & W).
  assert (L2 : (2 <= header_need bs)%nat) by (unfold header_need, mhr_need; lia).
  rewrite (wire_header_word _ _ _ _ _ _ _ L2 W).
  pose proof (control_word_fields r7 h) as F'. cbv zeta in F'. destruct F' as (_ & T & Sx & _).
  unfold field. rewrite T, Sx, type_of_code_inv. repeat split; try reflexivity.
  unfold has_security. destruct (auxiliary_security_header h); reflexivity.
Qed.

Lemma frame_read_fate c m bs : octets bs -> cfg_ok c ->
  match frame_verdict (overflow_checks c) m bs with
  | Ok n => exists f, try_read_frame c m bs = Ok (f, n)
  | Err e => try_read_frame c m bs = Err e
  | Panic => try_read_frame c m bs = Panic
  end.
Proof.
  intros Hb Hc. rewrite try_read_frame_eq by assumption. unfold frame_verdict. cbv zeta.
  pose proof (try_read_header_fate c bs) as F.
  destruct (header_verdict bs) as [e|] eqn:V; [now rewrite F|]. destruct F as [h F]. rewrite F.
  destruct (header_need_eq c bs h _ Hb F) as (_ & -> & -> & _).
  pose proof (try_read_content_fate h (skipn (header_need bs) bs) (octets_skipn _ _ Hb)) as FC.
  destruct (content_verdict (frame_type h) (skipn (header_need bs) bs)) as [e|]; [now rewrite FC|].
  destruct FC as [ct FC]. rewrite FC. apply try_read_content_len in FC as L; [|now apply octets_skipn].
  destruct (has_security h); [reflexivity|]. unfold frame_rest. destruct m; [eexists; reflexivity|].
  rewrite <- skipn_skipn'.
  set (r := skipn (header_need bs) bs) in *. set (k := content_size (frame_type h) r) in *.
  assert (Lk : List.length (skipn k r) = (List.length r - k)%nat) by apply skipn_length.
  destruct (Nat.ltb_spec (List.length (skipn k r)) 2); destruct (Nat.ltb_spec (List.length r) (k + 2)); try lia.
  - destruct (overflow_checks c); reflexivity.
  - eexists. reflexivity.
Qed.

(** * Reading frames, exactly *)

Lemma wire_header_plain co ko r7 rs co' ko' rs' h : auxiliary_security_header h = None ->
  wire_header co ko r7 rs h = wire_header co' ko' r7 rs' h.
Proof. intros H. unfold wire_header. now rewrite H. Qed.

Lemma last_two (l : list N) : (2 <= List.length l)%nat ->
  l = firstn (List.length l - 2) l ++ [octet l (List.length l - 2); octet l (List.length l - 1)].
Proof.
  intros H. rewrite <- (firstn_skipn (List.length l - 2) l) at 1. f_equal.
  assert (L := skipn_length (List.length l - 2) l).
  replace (List.length l - (List.length l - 2))%nat with 2%nat in L by lia.
  rewrite <- (Nat.add_0_r (List.length l - 2)) at 2.
  replace (List.length l - 1)%nat with (List.length l - 2 + 1)%nat by lia.
  rewrite <- !octet_nth_skipn.
  destruct (skipn (List.length l - 2) l) as [|x [|y [|z r]]]; cbn [List.length] in L; try lia. reflexivity.
Qed.

Lemma has_security_none h : has_security h = false -> auxiliary_security_header h = None.
Proof. unfold has_security. now destruct (auxiliary_security_header h). Qed.

Lemma try_read_frame_sound c m bs f n : octets bs -> cfg_ok c ->
  try_read_frame c m bs = Ok (f, n) -> n = List.length bs /\ frame_parts m bs f.
Proof.
  intros Hb Hc E. rewrite try_read_frame_eq in E by assumption.
  destruct (try_read_header c bs) as [[h n1]|e|] eqn:EH; try discriminate.
  apply try_read_header_sound in EH; [|assumption]. destruct EH as (L1 & Hd & r7 & rs & _ & W1).
  destruct (try_read_content h (skipn n1 bs)) as [[ct n2]|e|] eqn:EC; try discriminate.
  apply try_read_content_sound in EC; [|now apply octets_skipn].
  destruct EC as (L2 & Cc & Ct & Co & br & mr & Hr & W2). rewrite skipn_length in *.
  destruct (has_security h) eqn:Hs; [discriminate|]. apply has_security_none in Hs.
  rewrite (wire_header_plain _ _ _ _ LE LE 0 h Hs) in W1.
  assert (Eb : bs = wire_header LE LE r7 0 h ++ wire_content br mr ct ++ skipn (n1 + n2) bs).
  { rewrite <- W1, <- W2, <- skipn_skipn', firstn_skipn, firstn_skipn. reflexivity. }
  unfold frame_rest in E. destruct m.
  - apply Ok_inj in E. destruct E as [<- <-]. split; [reflexivity|].
    unfold frame_parts, frame_consistent. cbn [header content payload footer wire_footer].
    repeat (split; [assumption|]). split.
    { intros O. split; [|reflexivity]. specialize (Co O). apply skipn_all2. lia. }
    split; [reflexivity|]. exists r7, br, mr. split; [assumption|]. now rewrite app_nil_r.
  - destruct (Nat.ltb_spec (List.length (skipn (n1 + n2) bs)) 2) as [L|L].
    { destruct (overflow_checks c); discriminate. }
    apply Ok_inj in E. destruct E as [<- <-]. split; [reflexivity|].
    unfold frame_parts, frame_consistent. cbn [header content payload footer wire_footer].
    repeat (split; [assumption|]). split.
    { intros O. specialize (Co O). rewrite skipn_length in L. lia. }
    split; [discriminate|]. exists r7, br, mr. split; [assumption|].
    cbn [footer fst snd]. rewrite <- last_two by assumption. exact Eb.
Qed.

Lemma try_read_frame_complete c m bs f : octets bs -> cfg_ok c -> frame_parts m bs f ->
  try_read_frame c m bs = Ok (f, List.length bs).
Proof.
  intros Hb Hc (Ha & Hd & Cc & Ct & Co & Hf & r7 & br & mr & Hr & Eb).
  rewrite try_read_frame_eq by assumption.
  assert (EH : try_read_header c bs = Ok (header f, header_len (header f))).
  { rewrite Eb. rewrite (wire_header_plain _ _ _ _ LE (native c) 0 _ Ha).
    now apply try_read_header_complete. }
  rewrite EH.
  assert (Es : skipn (header_len (header f)) bs = wire_content br mr (content f) ++ payload f ++ wire_footer m f).
  { rewrite Eb. apply skipn_app_exact'. now rewrite wire_header_length. }
  rewrite Es, try_read_content_complete; try assumption.
  2: { intros O. destruct (Co O) as [-> ->]. reflexivity. }
  replace (has_security (header f)) with false by (unfold has_security; now rewrite Ha).
  rewrite <- skipn_skipn', Es, skipn_app_exact.
  unfold frame_rest. destruct f as [h ct p [f1 f2]]. cbn [header content payload footer] in *.
  destruct m; cbn [wire_footer footer fst snd].
  - rewrite app_nil_r, Hf by reflexivity. reflexivity.
  - rewrite app_length. cbn [List.length].
    replace (List.length p + 2 <? 2)%nat with false by (symmetry; apply Nat.ltb_ge; lia).
    unfold octet. rewrite firstn_app_exact' by lia. rewrite !app_nth2 by lia.
    replace (List.length p + 2 - 2 - List.length p)%nat with 0%nat by lia.
    replace (List.length p + 2 - 1 - List.length p)%nat with 1%nat by lia. reflexivity.
Qed.

(** * Wire forms are octets *)

Lemma octets_one x : x < 256 -> octets [x].
Proof. intros H. now constructor. Qed.

Lemma octets_flat (f : N -> list N) l : (forall x, octets (f x)) -> octets (flat_map f l).
Proof. intros H. induction l as [|x l IH]; [constructor|]. cbn [flat_map]. now apply octets_app. Qed.

Lemma octets_wire_address a : octets (wire_address a).
Proof. unfold wire_address. apply octets_app. split; [apply octets_le|destruct a; apply octets_le]. Qed.
Lemma octets_wire_addr_only a : octets (wire_addr_only a).
Proof. destruct a; apply octets_le. Qed.

Lemma octets_wire_aux co ko rs a : rs < 8 -> opt_ok key_identifier_ok (key_identifier a) -> octets (wire_aux co ko rs a).
Proof.
  intros Hrs Hk. unfold wire_aux. apply octets_app. split; [|apply octets_app; split].
  - apply octets_one. pose proof (level_code_lt (security_level (control a))).
    pose proof (key_mode_code_lt (mode_of_key (key_identifier a))).
    change (2 ^ 3) with 8. change (2 ^ 5) with 32. lia.
  - apply octets_in_order.
  - destruct (key_identifier a) as [[ks ki]|]; [|constructor]. destruct Hk as [Hi _].
    unfold wire_key_identifier. cbn [key_source key_index] in *. apply octets_app. split; [|now apply octets_one].
    destruct ks as [[v|v]|]; [apply octets_in_order|apply octets_in_order|constructor].
Qed.

Lemma octets_wire_header co ko r7 rs h : rs < 8 -> header_ok h -> octets (wire_header co ko r7 rs h).
Proof.
  intros Hrs (Hs & _ & _ & Ha). unfold wire_header.
  repeat (apply octets_app; split).
  - apply octets_le.
  - now apply octets_one.
  - destruct (destination h); [apply octets_wire_address|constructor].
  - destruct (source h); [|constructor].
    destruct (pan_id_compress h); [apply octets_wire_addr_only|apply octets_wire_address].
  - destruct (auxiliary_security_header h) as [a|]; [|constructor].
    apply octets_wire_aux; [assumption|apply Ha].
Qed.

Lemma octets_wire_gts g : gts_reachable g -> octets (wire_gts 0 0 g).
Proof.
  intros (Hc & slots & Hl & Hf & Es). unfold wire_gts. apply octets_app. split.
  - apply octets_one. change (2 ^ 3) with 8. change (2 ^ 7) with 128. destruct (gts_permit g); cbn [flag]; lia.
  - rewrite (active_reachable g slots Hl Es).
    destruct slots as [|d r] eqn:E0; [constructor|]. rewrite <- E0 in *. clear E0 d r.
    apply octets_cons. split.
    + pose proof (direction_octet_lt slots 0 0 ltac:(reflexivity)) as B.
      eapply N.lt_le_trans; [exact B|]. change 256 with (2 ^ 8). apply N.pow_le_mono_r; lia.
    + clear -Hf. induction Hf as [|d r (_ & H1 & H2) Hf IH]; [constructor|].
      cbn [flat_map]. apply octets_app. split; [|exact IH]. unfold wire_gts_descriptor.
      apply octets_app. split; [apply octets_le|]. apply octets_one. change (2 ^ 4) with 16. lia.
Qed.

Lemma octets_wire_pending p : pending_reachable p -> octets (wire_pending false false p).
Proof.
  intros (H1 & H2 & _). unfold wire_pending. apply octets_app.
  split; [|apply octets_app; split; apply octets_flat; intros; apply octets_le].
  apply octets_one. cbn [flag]. lia.
Qed.

Lemma octets_wire_superframe r s : octets (wire_superframe r s).
Proof.
  unfold wire_superframe.
  assert (M : forall x, x mod 16 < 16) by (intros x; apply N.mod_lt; discriminate).
  pose proof (M (beacon_order_code (beacon_order s))). pose proof (M (superframe_order_code (superframe_order s))).
  pose proof (M (final_cap_slot s)). clear M.
  change (2 ^ 4) with 16. change (2 ^ 5) with 32. change (2 ^ 6) with 64. change (2 ^ 7) with 128.
  assert (B : forall b, flag b < 2) by apply flag_lt.
  pose proof (B r). pose proof (B (battery_life_extension s)). pose proof (B (pan_coordinator s)).
  pose proof (B (association_permit s)). clear B.
  generalize dependent (beacon_order_code (beacon_order s) mod 16).
  generalize dependent (superframe_order_code (superframe_order s) mod 16).
  generalize dependent (final_cap_slot s mod 16). intros.
  repeat constructor; lia.
Qed.

Lemma octets_wire_command cmd : command_ok cmd -> octets (wire_command mr_zero cmd).
Proof.
  intros H. destruct cmd as [i|a s|x| | | | |d|g]; cbn [wire_command app]; try (repeat constructor; fail).
  - apply octets_cons. split; [reflexivity|]. apply octets_one. apply wire_capability_lt.
  - apply octets_cons. split; [reflexivity|]. apply octets_app. split; [apply octets_le|].
    apply octets_one. destruct s; reflexivity.
  - apply octets_cons. split; [reflexivity|]. apply octets_one. destruct x; reflexivity.
  - destruct H as (_ & _ & Hc & _ & Hp). apply octets_cons. split; [reflexivity|].
    unfold wire_realignment. repeat (apply octets_app; split); try apply octets_le.
    + now apply octets_one.
    + destruct (cr_channel_page d); [now apply octets_one|constructor].
  - apply octets_cons. split; [reflexivity|]. apply octets_one.
    destruct (gtsc_wire g) as [W1 W]. rewrite W1 in W. exact W.
Qed.

Lemma octets_wire_content ct : content_ok ct -> octets (wire_content br_zero mr_zero ct).
Proof.
  intros H. destruct ct; cbn [wire_content]; try exact octets_nil.
  - destruct H as (Hs & Hg & Hp). unfold wire_beacon. cbn [br_zero br_superframe br_gts br_direction br_pending3 br_pending7].
    apply octets_app. split; [apply octets_wire_superframe|].
    apply octets_app. split; [now apply octets_wire_gts|now apply octets_wire_pending].
  - now apply octets_wire_command.
Qed.
