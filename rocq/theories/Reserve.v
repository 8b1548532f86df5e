(** Model of the memory asked for in advance and of the work done while decoding: the decoders of /repo/src/codec/decode.rs once
    more, each with a list of what it does, in order: the capacities it asks an allocator for and the values it begins to decode.

    In decode.rs there are four such places: lines 258-259 (HashMap), 276 (Vec), 291 (VecVariantMap) and 321 (List).  A capacity
    is a number of elements; what an element takes (the [size_of] of its type, and the spare room of a hash table) is the
    compiler's business and left out.  Also left out: memory that grows as bytes are copied (strings, binaries), which is bounded
    by the input.  That an allocation succeeds is assumed: a capacity that is refused aborts the program.

    A value is begun by a call of [decode] (codec/mod.rs lines 52-57) and for each element of an array (decode.rs line 278).
    What happens between two such calls is a bounded number of steps and the copying of bytes that are consumed: a
    [decode_with_format] inside another on the same bytes (those of [Option], [Multiple], [Descriptor], of enumerations and of
    [Variant]) does not begin a value of its own. *)

From Coq Require Import String.
From Verif Require Import Frames.
Open Scope string_scope.
Open Scope list_scope.
Open Scope Z_scope.

(** What a computation does until it returns, fails or panics, and what it comes to. *)
Inductive event : Type := Asks (n : Z) | Begins.
Definition run (A : Type) : Type := list event * res A.
Definition quiet {A} (x : res A) : run A := ([], x).
(** [with_capacity(n)] *)
Definition with_capacity (n : Z) : run unit := ([Asks n], Ok tt).
Definition begin_value : run unit := ([Begins], Ok tt).
Definition run_bind {A B} (x : run A) (f : A -> run B) : run B :=
  let (asked, r) := x in
  match r with
  | Ok a => let (more, r') := f a in (asked ++ more, r')
  | Err e => (asked, Err e)
  | Panic p => (asked, Panic p)
  | Oof => (asked, Oof)
  end.
Notation "x <~ y ;; z" := (run_bind y (fun x => z)) (at level 61, y at next level, right associativity).
Notation "' p <~ y ;; z" := (run_bind y (fun p => z)) (at level 61, p pattern, y at next level, right associativity).
Definition map_run {A B} (f : A -> B) (x : run (bytes * A)) : run (bytes * B) :=
  '(i, o) <~ x ;; quiet (Ok (i, f o)).

(** [for _ in 0..n { s = f(s)? }], as in Types.v. *)
Fixpoint run_loop_pos {S} (p : positive) (f : S -> run S) (s : S) : run S :=
  match p with
  | xH => f s
  | xO q => s1 <~ run_loop_pos q f s ;; run_loop_pos q f s1
  | xI q => s1 <~ f s ;; s2 <~ run_loop_pos q f s1 ;; run_loop_pos q f s2
  end.
Definition run_loop {S} (n : Z) (f : S -> run S) (s : S) : run S :=
  match n with
  | Zpos p => run_loop_pos p f s
  | _ => quiet (Ok s)
  end.

Definition rdec (T : Type) : Type := mode -> bytes -> Z -> run (bytes * T).
Definition run_decode {T} (d : rdec T) (md : mode) (inp : bytes) : run (bytes * T) :=
  _ <~ begin_value ;;
  '(i, fmt) <~ quiet (decode_format_code inp) ;; d md i fmt.
(** A type whose decoder asks for nothing and begins no further values. *)
Definition simple_run {T} (d : dec T) : rdec T := fun md inp fmt => quiet (d md inp fmt).

(** [HashMap<K, V>]: decode.rs lines 251-269. *)
Definition map_run_step {K V} (KO : key K) (dk : bytes -> run (bytes * K)) (dv : bytes -> run (bytes * V))
    (s : bytes * list (K * V)) : run (bytes * list (K * V)) :=
  let (map_input, m) := s in
  '(input1, k) <~ dk map_input ;;
  '(input2, v) <~ dv input1 ;;
  quiet (if k_hashable KO k then Ok (input2, hm_insert (k_eqb KO) k v m) else Panic PUnimplemented).
Definition map_rdec {K V} (KO : key K) (dk : rdec K) (dv : rdec V) : rdec (list (K * V)) := fun md inp fmt =>
  '(inp1, header) <~ quiet (decode_map_header md inp fmt) ;;
  map_input <~ quiet (slice_to inp1 (ch_size header)) ;;
  let count := ch_count header / 2 in
  _ <~ with_capacity count ;;
  '(_, m) <~ run_loop count (map_run_step KO (run_decode dk md) (run_decode dv md)) (map_input, []) ;;
  quiet (Ok (zdrop (ch_size header) inp1, m)).

(** [Vec<T>]: lines 271-284. *)
Definition vec_run_step {T} (d : bytes -> run (bytes * T)) (s : bytes * list T) : run (bytes * list T) :=
  let (inp, acc) := s in
  '(inp1, x) <~ d inp ;;
  quiet (Ok (inp1, acc ++ [x])).
Definition vec_rdec {T} (d : rdec T) : rdec (list T) := fun md inp fmt =>
  '(inp1, header) <~ quiet (decode_array_header md inp fmt) ;;
  match inp1 with
  | [] => quiet (Panic PSlice)
  | item_fmt :: inp2 =>
    _ <~ with_capacity (ch_count header) ;;
    run_loop (ch_count header) (vec_run_step (fun i => _ <~ begin_value ;; d md i item_fmt)) (inp2, [])
  end.

(** [Multiple<T>]: lines 303-316. *)
Definition multiple_rdec {T} (d : rdec T) : rdec (list T) := fun md inp fmt =>
  if (fmt =? FC_ARRAY8) || (fmt =? FC_ARRAY32) then vec_rdec d md inp fmt
  else '(i, x) <~ d md inp fmt ;; quiet (Ok (i, [x])).

(** [List]: lines 318-329. *)
Definition list_rdec {T} (d : rdec T) : rdec (list T) := fun md inp fmt =>
  '(inp1, header) <~ quiet (decode_list_header md inp fmt) ;;
  _ <~ with_capacity (ch_count header) ;;
  run_loop (ch_count header) (vec_run_step (run_decode d md)) (inp1, []).

(** [Option<T>]: lines 434-441. *)
Definition option_rdec {T} (d : rdec T) : rdec (option T) := fun md inp fmt =>
  if fmt =? FC_NULL then quiet (Ok (inp, None))
  else map_run Some (d md inp fmt).

(** [Variant]: lines 331-432.  Lists and maps (lines 412-427) and described values (lines 428-432) decode further values; all
    the other arms of the match do neither, and are those of [variant_dec_fuel]. *)
Fixpoint variant_rdec_fuel (fuel : nat) (md : mode) (inp : bytes) (fmt : Z) : run (bytes * variant) :=
  match fuel with
  | O => quiet Oof
  | S f =>
    if (fmt =? FC_LIST8) || (fmt =? FC_LIST32) then map_run VList (list_rdec (variant_rdec_fuel f) md inp fmt)
    else if (fmt =? FC_MAP8) || (fmt =? FC_MAP32) then
      map_run VMap (map_rdec variant_key (variant_rdec_fuel f) (variant_rdec_fuel f) md inp fmt)
    else if fmt =? FC_DESCRIBED then
      '(inp1, d) <~ run_decode (simple_run descriptor_dec) md inp ;;
      '(inp2, v) <~ run_decode (variant_rdec_fuel f) md inp1 ;;
      quiet (Ok (inp2, VDescribed d v))
    else quiet (variant_dec_fuel (S f) md inp fmt)
  end.
Definition variant_rdec : rdec variant := fun md inp fmt => variant_rdec_fuel (S (length inp)) md inp fmt.

(** [VecVariantMap]: lines 286-301. *)
Definition vecmap_run_step (dk : bytes -> run (bytes * str)) (dv : bytes -> run (bytes * variant))
    (s : bytes * list (str * variant)) : run (bytes * list (str * variant)) :=
  let (map_input, m) := s in
  '(input1, k) <~ dk map_input ;;
  '(input2, v) <~ dv input1 ;;
  quiet (Ok (input2, m ++ [(k, v)])).
Definition vecmap_rdec : rdec (list (str * variant)) := fun md inp fmt =>
  '(inp1, header) <~ quiet (decode_map_header md inp fmt) ;;
  map_input <~ quiet (slice_to inp1 (ch_size header)) ;;
  let count := ch_count header / 2 in
  _ <~ with_capacity count ;;
  '(_, m) <~ run_loop count (vecmap_run_step (run_decode (simple_run str_dec) md) (run_decode variant_rdec md)) (map_input, []) ;;
  quiet (Ok (zdrop (ch_size header) inp1, m)).

(** ** Composite types: the fields of a list, e.g. definitions.rs lines 1086-1133 for [Error] *)
Definition rfield_dec (R : Type) : Type := mode -> field_state -> run (field_state * R).
Definition no_fields_run : rfield_dec unit := fun md s => quiet (Ok (s, tt)).
Definition req_field_run {T R} (name : string) (d : rdec T) (r : rfield_dec R) : rfield_dec (T * R) := fun md s =>
  '(s1, x) <~ (let (inp, count) := s in
    if 0 <? count then '(in1, decoded) <~ run_decode d md inp ;; quiet (Ok ((in1, count - 1), decoded))
    else quiet (Err (ERequiredFieldOmitted name))) ;;
  '(s2, a) <~ r md s1 ;;
  quiet (Ok (s2, (x, a))).
Definition opt_field_run {T R} (d : rdec T) (r : rfield_dec R) : rfield_dec (option T * R) := fun md s =>
  '(s1, x) <~ (let (inp, count) := s in
    if 0 <? count then '(in1, decoded) <~ run_decode (option_rdec d) md inp ;; quiet (Ok ((in1, count - 1), decoded))
    else quiet (Ok (s, None))) ;;
  '(s2, a) <~ r md s1 ;;
  quiet (Ok (s2, (x, a))).
Definition def_field_run {T R} (d : rdec T) (dflt : T) (r : rfield_dec R) : rfield_dec (T * R) := fun md s =>
  '(s1, x) <~ (let (inp, count) := s in
    if 0 <? count then
      '(in1, decoded) <~ run_decode (option_rdec d) md inp ;;
      quiet (Ok ((in1, count - 1), match decoded with Some x => x | None => dflt end))
    else quiet (Ok (s, dflt))) ;;
  '(s2, a) <~ r md s1 ;;
  quiet (Ok (s2, (x, a))).

(** What follows a descriptor. *)
Definition rinner (T : Type) : Type := mode -> bytes -> run (bytes * T).
(** A list of fields, e.g. lines 1086-1133. *)
Definition fields_run {R T} (r : rfield_dec R) (make : R -> T) : rinner T := fun md inp =>
  '(s, remainder) <~ quiet (open_list md inp) ;;
  '(_, a) <~ r md s ;;
  quiet (Ok (remainder, make a)).
(** The same for [Transfer], which takes the remainder as its body: lines 2244-2374. *)
Definition transfer_run {R} (r : rfield_dec R) (make : R -> option transfer_body -> transfer_t) : rinner transfer_t := fun md inp =>
  '(s, remainder) <~ quiet (open_list md inp) ;;
  '(_, a) <~ r md s ;;
  quiet (Ok ([], make a (match remainder with [] => None | _ => Some (TBData remainder) end))).

(** Does a descriptor name a type: by number or by name. *)
Definition named (code : Z) (name : string) (d : descriptor) : bool :=
  match d with
  | DUlong val => val =? code
  | DSymbol sym => bytes_eqb (str_bytes sym) (s2b name)
  end.
(** One of several types, by descriptor, e.g. lines 38-99 ([Frame]). *)
Definition selection (T : Type) : Type := mode -> descriptor -> bytes -> run (bytes * T).
Definition none_run {T} : selection T := fun md d inp => quiet (Err (EInvalidDescriptor d)).
Definition one_of_run {T X} (code : Z) (name : string) (inj : X -> T) (inner : rinner X) (others : selection T) : selection T :=
  fun md d inp => if named code name d then map_run inj (inner md inp) else others md d inp.
Definition described_run {T} (s : selection T) : rdec T := fun md inp fmt =>
  _ <~ quiet (validate_code fmt FC_DESCRIBED) ;;
  '(inp1, d) <~ run_decode (simple_run descriptor_dec) md inp ;;
  s md d inp1.

(** ** Frames: decode.rs lines 463-477; definitions.rs lines 38-99 *)
Definition frame_run (s : selection frame) (md : mode) (inp : bytes) : run (bytes * frame) :=
  match inp with
  | [] => quiet (Ok (inp, FR_Empty))
  | _ => run_decode (described_run s) md inp
  end.
Definition amqp_frame_run (s : selection frame) (md : mode) (inp : bytes) : run (bytes * amqp_frame) :=
  '(inp1, channel_id) <~ quiet (decode_frame_header inp FRAME_TYPE_AMQP) ;;
  '(inp2, performative) <~ frame_run s md inp1 ;;
  quiet (Ok (inp2, MkAmqpFrame channel_id performative)).
Definition sasl_frame_run (d : rdec sasl_frame_body) (md : mode) (inp : bytes) : run (bytes * sasl_frame) :=
  '(inp1, _) <~ quiet (decode_frame_header inp FRAME_TYPE_SASL) ;;
  '(inp2, body) <~ run_decode d md inp1 ;;
  quiet (Ok (inp2, MkSaslFrame body)).

(** ** Messages: /repo/src/message/inmessage.rs lines 156-200 *)
Fixpoint message_run_loop (d : rdec section) (fuel : nat) (md : mode) (m : message) (inp : bytes) : run (bytes * message) :=
  match fuel with
  | O => quiet Oof
  | S f =>
    '(rest, sec) <~ run_decode d md inp ;;
    let m1 := message_add_section m sec in
    match rest with
    | [] => quiet (Ok (inp, m1))
    | _ => message_run_loop d f md m1 rest
    end
  end.
Definition message_run (d : rdec section) (md : mode) (inp : bytes) : run (bytes * message) :=
  message_run_loop d (S (length inp)) md message_default inp.
