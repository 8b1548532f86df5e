(** Specification for deliveries (parts 2.6.12 to 2.6.14 and 2.7.5 of the AMQP 1.0 standard): a message is sent in one or more transfers
    of one link, between which other frames may stand. *)

From Verif Require Import Connection Wire TypeSpec CompositeSpec AllTypes CodecSpec MessageSpec FrameSpec StreamSpec ConnectionSpec BoundSpec.
Open Scope list_scope.
Open Scope Z_scope.

(** The transfers of one link: those on the channel of its session, with its handle. *)
Definition on_link (channel handle : Z) (f : amqp_frame) : list transfer_t :=
  match f with MkAmqpFrame c (FR_Transfer t) => if (c =? channel) && (transfer_handle t =? handle) then [t] else [] | _ => [] end.
Definition transfers (channel handle : Z) (fs : list amqp_frame) : list transfer_t := concat (map (on_link channel handle) fs).

(** Transfers that belong together: each but the last says that there is more. *)
Definition unfinished (t : transfer_t) : Prop := transfer_more t = true /\ transfer_aborted t = false.
Definition finished (t : transfer_t) : Prop := transfer_more t = false /\ transfer_aborted t = false.
Inductive deliveries : list transfer_t -> list message -> Prop :=
| deliveries_none : deliveries [] []
| deliveries_one pieces last m ts ms : Forall unfinished pieces -> finished last ->
    concat (map transfer_payload (pieces ++ [last])) = message_bytes m ->
    deliveries ts ms -> deliveries (pieces ++ last :: ts) (m :: ms)
| deliveries_aborted pieces last ts ms : Forall unfinished pieces -> transfer_aborted last = true ->
    deliveries ts ms -> deliveries (pieces ++ last :: ts) ms.

(** An application that receives on one link: the pieces of the delivery that is under way, and the messages delivered ([None] if one
    could not be read). *)
Definition inbox : Type := bytes * list (option message).
Definition take_transfer (md : mode) (s : inbox) (t : transfer_t) : inbox :=
  let (part, got) := s in
  let all := part ++ match transfer_body_f t with Some (TBData b) => b | _ => [] end in
  if transfer_aborted t then ([], got)
  else if transfer_more t then (all, got)
  else ([], got ++ [match message_decode md all with Ok (_, m) => Some m | _ => None end]).
Definition collect (md : mode) (channel handle : Z) (s : inbox) (x : item) : inbox * option kind :=
  (match x with
   | IAmqp (MkAmqpFrame c (FR_Transfer t)) => if (c =? channel) && (transfer_handle t =? handle) then take_transfer md s t else s
   | _ => s
   end, None).

(** An application that sends a message in pieces; the identity of the delivery is in the first transfer. *)
Definition first_transfer (handle id : Z) (tag : bytes) (more : bool) (piece : bytes) : transfer_t :=
  MkTransfer handle (Some id) (Some tag) (Some 0) None more None None false false false (Some (TBData piece)).
Definition next_transfer (handle : Z) (more : bool) (piece : bytes) : transfer_t :=
  MkTransfer handle None None None None more None None false false false (Some (TBData piece)).
Fixpoint next_transfers (handle : Z) (pieces : list bytes) : list transfer_t :=
  match pieces with
  | [] => []
  | p :: r => next_transfer handle (match r with [] => false | _ => true end) p :: next_transfers handle r
  end.
Definition in_pieces (handle id : Z) (tag : bytes) (pieces : list bytes) : list transfer_t :=
  match pieces with
  | [] => []
  | p :: r => first_transfer handle id tag (match r with [] => false | _ => true end) p :: next_transfers handle r
  end.
Definition in_frames (channel : Z) (ts : list transfer_t) : list amqp_frame := map (fun t => MkAmqpFrame channel (FR_Transfer t)) ts.

(** What an application has that received these transfers and no others: the pieces of a delivery under way, and for each delivery
    that was finished what its bytes are read as. *)
Definition read_message (md : mode) (bs : bytes) : option message := match message_decode md bs with Ok (_, m) => Some m | _ => None end.
Inductive collected (md : mode) : list transfer_t -> bytes -> list (option message) -> Prop :=
| collected_part pieces : Forall unfinished pieces -> collected md pieces (concat (map transfer_payload pieces)) []
| collected_one pieces last ts part got : Forall unfinished pieces -> finished last -> collected md ts part got ->
    collected md (pieces ++ last :: ts) part (read_message md (concat (map transfer_payload (pieces ++ [last]))) :: got)
| collected_aborted pieces last ts part got : Forall unfinished pieces -> transfer_aborted last = true -> collected md ts part got ->
    collected md (pieces ++ last :: ts) part got.

(** A message that was received, has a body, and is not too large to be sent on (C59). *)
Definition passed_on (m : message) : Prop :=
  (exists md inp r, bytes_ok inp /\ message_decode md inp = Ok (r, m)) /\ Forall section_sendable (message_sections m) /\
  (mb_data (m_body m) <> [] \/ mb_value (m_body m) <> None).
