(** One connection, several codecs (not in /repo: the contract of tokio's [Framed] whose codec is exchanged while the buffer of received
    bytes is kept, [into_parts] and [from_parts]).

    A connection begins with the codec of protocol headers (/repo/src/io.rs lines 101-145); the application then installs a new codec for
    SASL or AMQP frames (lines 14-82, [AmqpCodec::new] lines 31-38), and so on.  The application is any function that takes the item received
    and may ask for a new codec. *)

From Verif Require Export Io.
Open Scope list_scope.
Open Scope Z_scope.

Inductive kind := KHeader | KSasl | KAmqp.
(** A codec in use. *)
Inductive reader := RHeader | RSasl (st : decode_state) | RAmqp (st : decode_state).
Definition reader_new (k : kind) : reader :=
  match k with KHeader => RHeader | KSasl => RSasl amqp_codec_new | KAmqp => RAmqp amqp_codec_new end.

Inductive item := IHeader (p : protocol_id) | ISasl (f : sasl_frame) | IAmqp (f : amqp_frame).
Inductive failure := FHeader (e : pid_error) | FFrame (e : cerr) | FPanic (p : panic) | FOof.
(** What [decode] of the codec in use returns. *)
Inductive read_out := RNone | RItem (x : item) | RFail (e : failure).

Definition of_dout {T} (inj : T -> item) (o : dout T) : read_out :=
  match o with
  | DNone => RNone
  | DItem x => RItem (inj x)
  | DErr e => RFail (FFrame e)
  | DPanic p => RFail (FPanic p)
  | DOof => RFail FOof
  end.
Definition read_item (md : mode) (r : reader) (src : bytes) : reader * bytes * read_out :=
  match r with
  | RHeader =>
      let '(src', o) := protocol_id_decode src in
      (RHeader, src', match o with PNone => RNone | PItem p => RItem (IHeader p) | PErr e => RFail (FHeader e) end)
  | RSasl st => let '(st', src', o) := amqp_codec_decode sasl_frame_decode md st src in (RSasl st', src', of_dout ISasl o)
  | RAmqp st => let '(st', src', o) := amqp_codec_decode amqp_frame_decode md st src in (RAmqp st', src', of_dout IAmqp o)
  end.

(** What the application sees; a failure is the end. *)
Inductive seen := SItem (x : item) | SFail (e : failure).

Section Application.
  (** The application: its state, and what it does with an item. *)
  Context {A : Type} (step : A -> item -> A * option kind).

  Inductive connection := CLive (a : A) (r : reader) (src : bytes) | CDead.

  (** Call [decode] until [None]. *)
  Fixpoint serve (fuel : nat) (md : mode) (a : A) (r : reader) (src : bytes) : connection * list seen :=
    match fuel with
    | O => (CDead, [SFail FOof])
    | S f =>
      match read_item md r src with
      | (r', src', RNone) => (CLive a r' src', [])
      | (r', src', RItem x) =>
          let (a', k) := step a x in
          let (c, s) := serve f md a' (match k with Some k => reader_new k | None => r' end) src' in (c, SItem x :: s)
      | (_, _, RFail e) => (CDead, [SFail e])
      end
    end.

  (** Bytes arrive: they are appended to the buffer. *)
  Definition receive (md : mode) (c : connection) (chunk : bytes) : connection * list seen :=
    match c with
    | CLive a r src => serve (2 + length (src ++ chunk)) md a r (src ++ chunk)
    | CDead => (CDead, [])
    end.
  Fixpoint receive_all (md : mode) (c : connection) (chunks : list bytes) : connection * list seen :=
    match chunks with
    | [] => (c, [])
    | x :: r => let (c1, s1) := receive md c x in let (c2, s2) := receive_all md c1 r in (c2, s1 ++ s2)
    end.
End Application.
Arguments CLive {A}. Arguments CDead {A}.

(** ** Sending: each item through the codec for its kind, with the extra room the allocator gives *)
Definition send_item (slack : Z) (x : item) (b : buf) : option buf :=
  match x with
  | IHeader p => protocol_id_encode slack p b
  | ISasl f => amqp_codec_encode slack (sasl_frame_size f) (sasl_frame_enc f) b
  | IAmqp f => amqp_codec_encode slack (amqp_frame_size f) (amqp_frame_enc f) b
  end.
Fixpoint send_items (items : list (Z * item)) (b : buf) : option buf :=
  match items with
  | [] => Some b
  | (slack, x) :: r => match send_item slack x b with Some b' => send_items r b' | None => None end
  end.
