(** Model of src/mac/command.rs: the readers and writers. *)
From Coq Require Import List Arith NArith Bool String.
From Verif Require Import ByteCrate Types HeaderModel.
Import ListNotations.
Open Scope N_scope.

(** TryWrite for CoordinatorRealignmentData, command.rs:143-155 *)
Definition try_write_realignment (d : CoordinatorRealignmentData) : writer :=
  try_write_body
    (write_with (try_write_pan_id (cr_pan_id d)) >>
     write_with (try_write_short (cr_coordinator_address d)) >>
     write_with (write_u8 (cr_channel d)) >>
     write_with (try_write_short (cr_device_address d)) >>
     match cr_channel_page d with
     | Some p => write_with (write_u8 p)
     | None => wret tt
     end).

(** TryRead for CoordinatorRealignmentData, command.rs:157-181 *)
Definition try_read_realignment : reader CoordinatorRealignmentData := fun bytes =>
  _ <- check_len bytes 7 ;;
  '(pan, off) <- read_with try_read_pan_id bytes 0 ;;
  '(coord, off) <- read_with try_read_short bytes off ;;
  '(chan, off) <- read_with (read_num 1 LE) bytes off ;;
  '(dev, off) <- read_with try_read_short bytes off ;;
  '(page, off) <-
    (if (off <? List.length bytes)%nat
     then '(p, off) <- read_with (read_num 1 LE) bytes off ;; Ok (Some p, off)
     else Ok (None, off)) ;;
  Ok ({| cr_pan_id := pan; cr_coordinator_address := coord; cr_channel := chan;
         cr_device_address := dev; cr_channel_page := page |}, off).

(** TryWrite for Command, command.rs:249-302 *)
Definition try_write_command (cmd : Command) : writer :=
  let id i := write_with (write_u8 (command_id_u8 i)) in
  try_write_body
    match cmd with
    | AssociationRequest capability =>
        id CI_AssociationRequest >> write_with (write_u8 (capability_u8 capability))
    | AssociationResponse address status =>
        id CI_AssociationResponse >>
        write_with (try_write_short address) >>
        write_with (write_u8 (association_status_u8 status))
    | DisassociationNotification reason =>
        id CI_DisassociationNotification >>
        write_with (write_u8 (disassociation_reason_u8 reason))
    | DataRequest => id CI_DataRequest
    | PanIdConflictNotification => id CI_PanIdConflictNotification
    | OrphanNotification => id CI_OrphanNotification
    | BeaconRequest => id CI_BeaconRequest
    | CoordinatorRealignment data =>
        id CI_CoordinatorRealignment >> write_with (try_write_realignment data)
    | GuaranteedTimeSlotRequest characteristics =>
        id CI_GuaranteedTimeSlotRequest >> write_with (write_u8 (gtsc_u8 characteristics))
    end.

(** TryRead for Command, command.rs:304-350 *)
Definition try_read_command : reader Command := fun bytes =>
  '(b, off) <- read_with (read_num 1 LE) bytes 0 ;;
  cmd <- ok_or (command_id_optional_from b) (decode_error_into InvalidValue) ;;
  match cmd with
  | CI_AssociationRequest =>
      '(b, off) <- read_with (read_num 1 LE) bytes off ;;
      Ok (AssociationRequest (capability_from b), off)
  | CI_AssociationResponse =>
      '(address, off) <- read_with try_read_short bytes off ;;
      '(b, off) <- read_with (read_num 1 LE) bytes off ;;
      status <- ok_or (association_status_optional_from b) (decode_error_into InvalidValue) ;;
      Ok (AssociationResponse address status, off)
  | CI_DisassociationNotification =>
      '(b, off) <- read_with (read_num 1 LE) bytes off ;;
      reason <- ok_or (disassociation_reason_optional_from b)
                      (decode_error_into InvalidValue) ;;
      Ok (DisassociationNotification reason, off)
  | CI_DataRequest => Ok (DataRequest, off)
  | CI_PanIdConflictNotification => Ok (PanIdConflictNotification, off)
  | CI_OrphanNotification => Ok (OrphanNotification, off)
  | CI_BeaconRequest => Ok (BeaconRequest, off)
  | CI_CoordinatorRealignment =>
      '(data, off) <- read_with try_read_realignment bytes off ;;
      Ok (CoordinatorRealignment data, off)
  | CI_GuaranteedTimeSlotRequest =>
      '(b, off) <- read_with (read_num 1 LE) bytes off ;;
      Ok (GuaranteedTimeSlotRequest (gtsc_from b), off)
  end.
