(** Model of src/mac/beacon.rs: the readers and writers. *)
From Coq Require Import List Arith NArith Bool String.
From Verif Require Import ByteCrate Types HeaderModel.
Import ListNotations.
Open Scope N_scope.

(** beacon.rs:98-100 *)
Definition BATTERY_LIFE_EXTENSION : N := 0x10.
Definition PAN_COORDINATOR : N := 0x40.
Definition ASSOCIATION_PERMIT : N := 0x80.

(** TryRead for SuperframeSpecification, beacon.rs:102-128 *)
Definition try_read_superframe : reader SuperframeSpecification := fun bytes =>
  _ <- check_len bytes 2 ;;
  '(byte, off) <- read_with (read_num 1 LE) bytes 0 ;;
  let beacon_order := beacon_order_from (N.land byte 0x0f) in
  let superframe_order := superframe_order_from (N.land (N.shiftr byte 4) 0x0f) in
  '(byte, off) <- read_with (read_num 1 LE) bytes off ;;
  Ok ({| beacon_order := beacon_order;
         superframe_order := superframe_order;
         final_cap_slot := N.land byte 0x0f;
         battery_life_extension :=
           N.land byte BATTERY_LIFE_EXTENSION =? BATTERY_LIFE_EXTENSION;
         pan_coordinator := N.land byte PAN_COORDINATOR =? PAN_COORDINATOR;
         association_permit := N.land byte ASSOCIATION_PERMIT =? ASSOCIATION_PERMIT |},
      off).

(** TryWrite for SuperframeSpecification, beacon.rs:130-154 *)
Definition try_write_superframe (s : SuperframeSpecification) : writer :=
  let bo := beacon_order_u8 (beacon_order s) in
  let so := superframe_order_u8 (superframe_order s) in
  let ble := if battery_life_extension s then BATTERY_LIFE_EXTENSION else 0 in
  let pc := if pan_coordinator s then PAN_COORDINATOR else 0 in
  let ap := if association_permit s then ASSOCIATION_PERMIT else 0 in
  try_write_body
    (write_with (write_u8 (N.lor (N.land bo 0x0f) (u8_shl so 4))) >>
     write_with (write_u8
       (N.lor (N.lor (N.lor (N.land (final_cap_slot s) 0x0f) ble) pc) ap))).

(** TryRead for GuaranteedTimeSlotDescriptor, beacon.rs:192-211 *)
Definition try_read_gts_descriptor : reader GtsDescriptor := fun bytes =>
  _ <- check_len bytes 3 ;;
  '(short_address, off) <- read_with try_read_short bytes 0 ;;
  '(byte, off) <- read_with (read_num 1 LE) bytes off ;;
  Ok ({| gts_short_address := short_address;
         gts_starting_slot := N.land byte 0x0f;
         gts_length := N.shiftr byte 4;
         gts_direction := Receive |}, off).

(** TryWrite for GuaranteedTimeSlotDescriptor, beacon.rs:213-220 *)
Definition try_write_gts_descriptor (d : GtsDescriptor) : writer :=
  try_write_body
    (write_with (try_write_short (gts_short_address d)) >>
     write_with (write_u8 (N.lor (gts_starting_slot d) (u8_shl (gts_length d) 4)))).

(** set_direction, beacon.rs:224-226 *)
Definition set_direction (s : GtsDescriptor) (d : Direction) : GtsDescriptor :=
  {| gts_short_address := gts_short_address s;
     gts_starting_slot := gts_starting_slot s;
     gts_length := gts_length s;
     gts_direction := d |}.

(** direction_transmit, beacon.rs:228-230 *)
Definition direction_transmit (s : GtsDescriptor) : bool :=
  match gts_direction s with Transmit => true | Receive => false end.

(** beacon.rs:233-234 *)
Definition COUNT_MASK : N := 0x07.
Definition PERMIT : N := 0x80.

(** [a[n]]: panics out of range. *)
Definition index {E A} (a : list A) (n : nat) : outcome E A :=
  match nth_error a n with Some x => Ok x | None => Panic end.

(** The direction loop, beacon.rs:272-283: iterations [n .. n+k). *)
Fixpoint direction_loop (slots : list GtsDescriptor) (n k : nat) (dir mask : N)
  : bres N :=
  match k with
  | O => Ok mask
  | S k' =>
      slot <- index slots n ;;
      let mask := if direction_transmit slot then N.lor mask dir else mask in
      direction_loop slots (S n) k' (u8_shl dir 1) mask
  end.

(** Lift a pure computation into the body of a writer. *)
Definition wlift {A} (r : bres A) : wm A := fun s => (r, s).

(** [for n in start .. start+k { bytes.write(offset, self.a[n])? }],
    beacon.rs:287-289, 428-436 *)
Fixpoint write_loop {A} (wr : A -> writer) (a : list A) (n k : nat) : wm unit :=
  match k with
  | O => wret tt
  | S k' =>
      wbind (wlift (index a n)) (fun x =>
        write_with (wr x) >> write_loop wr a (S n) k')
  end.

(** TryWrite for GuaranteedTimeSlotInformation, beacon.rs:262-293 *)
Definition try_write_gts_information (g : GtsInformation) : writer :=
  try_write_body
    ((if (gts_slot_count g <=? 7)%nat then wret tt else wpanic) >>
     write_with (write_u8
       (N.lor (N.land (as_u8 (N.of_nat (gts_slot_count g))) COUNT_MASK)
              (if gts_permit g then PERMIT else 0))) >>
     (if (0 <? gts_slot_count g)%nat then
        wbind (wlift (direction_loop (gts_slots g) 0 (gts_slot_count g) 0x01 0))
              (fun direction_mask =>
                 write_with (write_u8 direction_mask) >>
                 write_loop try_write_gts_descriptor (gts_slots g) 0 (gts_slot_count g))
      else wret tt)).

(** [a[n] = x]: panics out of range. *)
Fixpoint set_index {E A} (a : list A) (n : nat) (x : A) : outcome E (list A) :=
  match a, n with
  | [], _ => Panic
  | _ :: r, O => Ok (x :: r)
  | y :: r, S n' => r' <- set_index r n' x ;; Ok (y :: r')
  end.

(** The slot loop of GuaranteedTimeSlotInformation::try_read, beacon.rs:310-321:
    iterations [n .. n+k). *)
Fixpoint read_slots (bytes : list N) (off : nat) (slots : list GtsDescriptor)
    (n k : nat) (direction_mask : N) : bres (list GtsDescriptor * nat) :=
  match k with
  | O => Ok (slots, off)
  | S k' =>
      '(slot, off) <- read_with try_read_gts_descriptor bytes off ;;
      let direction :=
        if N.land direction_mask 1 =? 1 then Transmit else Receive in
      let slot := set_direction slot direction in
      let direction_mask := N.shiftr direction_mask 1 in
      slots <- set_index slots n slot ;;
      read_slots bytes off slots (S n) k' direction_mask
  end.

(** TryRead for GuaranteedTimeSlotInformation, beacon.rs:295-332 *)
Definition try_read_gts_information : reader GtsInformation := fun bytes =>
  '(byte, off) <- read_with (read_num 1 LE) bytes 0 ;;
  let slot_count := N.to_nat (N.land byte COUNT_MASK) in
  let permit := N.land byte PERMIT =? PERMIT in
  let slots := repeat {| gts_short_address := short_broadcast; gts_starting_slot := 0;
                         gts_length := 0; gts_direction := Receive |} 7 in
  if (0 <? slot_count)%nat then
    _ <- check_len (skipn off bytes) (2 + 3 * N.of_nat slot_count) ;;
    '(direction_mask, off) <- read_with (read_num 1 LE) bytes off ;;
    '(slots, off) <- read_slots bytes off slots 0 slot_count direction_mask ;;
    Ok ({| gts_permit := permit; gts_slot_count := slot_count; gts_slots := slots |}, off)
  else
    Ok ({| gts_permit := permit; gts_slot_count := slot_count; gts_slots := slots |}, off).

(** beacon.rs:334-335 *)
Definition SHORT_MASK : N := 0x07.
Definition EXTENDED_MASK : N := 0x70.

(** [for n in start..start+k { a[n] = bytes.read(offset)?; }], beacon.rs:396-402 *)
Fixpoint read_loop {A} (rd : reader A) (bytes : list N) (off : nat) (a : list A)
    (n k : nat) : bres (list A * nat) :=
  match k with
  | O => Ok (a, off)
  | S k' =>
      '(x, off) <- read_with rd bytes off ;;
      a <- set_index a n x ;;
      read_loop rd bytes off a (S n) k'
  end.

(** TryRead for PendingAddress, beacon.rs:386-413; mem::size_of is 2 and 8. *)
Definition try_read_pending : reader PendingAddress := fun bytes =>
  '(byte, off) <- read_with (read_num 1 LE) bytes 0 ;;
  let sl := N.to_nat (N.land byte SHORT_MASK) in
  let el := N.to_nat (N.shiftr (N.land byte EXTENDED_MASK) 4) in
  _ <- check_len (skipn off bytes) (N.of_nat sl * 2 + N.of_nat el * 8) ;;
  '(shorts, off) <- read_loop try_read_short bytes off (repeat short_broadcast 7) 0 sl ;;
  '(extendeds, off) <-
    read_loop try_read_extended bytes off (repeat extended_broadcast 7) 0 el ;;
  Ok ({| short_address_count := sl; short_addresses := shorts;
         extended_address_count := el; extended_addresses := extendeds |}, off).

(** TryWrite for PendingAddress, beacon.rs:415-439 *)
Definition try_write_pending (p : PendingAddress) : writer :=
  let sl := short_address_count p in
  let el := extended_address_count p in
  try_write_body
    ((if (sl <=? 7)%nat then wret tt else wpanic) >>
     (if (el <=? 7)%nat then wret tt else wpanic) >>
     write_with (write_u8
       (N.lor (N.land (u8_shl (as_u8 (N.of_nat el)) 4) EXTENDED_MASK)
              (N.land (as_u8 (N.of_nat sl)) SHORT_MASK))) >>
     write_loop try_write_short (short_addresses p) 0 sl >>
     write_loop try_write_extended (extended_addresses p) 0 el).

(** TryRead for Beacon, beacon.rs:453-465 *)
Definition try_read_beacon : reader Beacon := fun bytes =>
  '(s, off) <- read_with try_read_superframe bytes 0 ;;
  '(g, off) <- read_with try_read_gts_information bytes off ;;
  '(p, off) <- read_with try_read_pending bytes off ;;
  Ok ({| superframe_spec := s; guaranteed_time_slot_info := g; pending_address := p |}, off).

(** TryWrite for Beacon, beacon.rs:467-475 *)
Definition try_write_beacon (b : Beacon) : writer :=
  try_write_body
    (write_with (try_write_superframe (superframe_spec b)) >>
     write_with (try_write_gts_information (guaranteed_time_slot_info b)) >>
     write_with (try_write_pending (pending_address b))).
