(** Model of the template /repo/codegen/definitions.rs: the code it gives for any table of fields, of options, of items.

    The generated text is given its meaning directly: a struct is the tuple of its fields, in order, and a Rust type that a
    field names is its codec.  Not modelled: the derives, the escaping done by handlebars. *)

From Coq Require Import String.
From Verif Require Import Frames Accessors.
Open Scope string_scope.
Open Scope list_scope.
Open Scope Z_scope.

(** ** [defs.lists]: lines 282-459 *)

(** The fields of a struct (lines 285-291), by the branch that the template takes for them: [field.optional]; not optional
    with [field.default]; not optional without. *)
Inductive table : Type -> Type :=
| TNil : table unit
| TOptional {T R} (name : string) (C : codec T) (r : table R) : table (option T * R)
| TDefault {T R} (name : string) (C : codec T) (dflt : T) (r : table R) : table (T * R)
| TPlain {T R} (name : string) (C : codec T) (r : table R) : table (T * R).

(** The functions that read the fields of [self], where [get self] are the fields from some field on: lines 298-324.  All
    branches give the field, by value, by reference or as a text ([field.is_str], which is never set: C64). *)
Fixpoint accessors_type (T : Type) {R} (F : table R) : Type :=
  match F with
  | TNil => unit
  | @TOptional X _ _ _ r => accessor T (option X) * accessors_type T r
  | @TDefault X _ _ _ _ r => accessor T X * accessors_type T r
  | @TPlain X _ _ _ r => accessor T X * accessors_type T r
  end.
Fixpoint template_accessors {T R} (F : table R) : (T -> R) -> accessors_type T F :=
  match F in table R return (T -> R) -> accessors_type T F with
  | TNil => fun _ => tt
  | TOptional name _ r => fun get => (MkAccessor name (fun self => fst (get self)), template_accessors r (fun self => snd (get self)))
  | TDefault name _ _ r => fun get => (MkAccessor name (fun self => fst (get self)), template_accessors r (fun self => snd (get self)))
  | TPlain name _ r => fun get => (MkAccessor name (fun self => fst (get self)), template_accessors r (fun self => snd (get self)))
  end.
(** [list.transfer]: lines 326-330. *)
Definition template_body_accessor {T B} (get : T -> B) : accessor T B := MkAccessor "body" get.

(** [FIELD_COUNT]: line 334. *)
Fixpoint template_count {R} (F : table R) : Z :=
  match F with
  | TNil => 0
  | TOptional _ _ r => template_count r + 1
  | TDefault _ _ _ r => template_count r + 1
  | TPlain _ _ r => template_count r + 1
  end.
(** The blocks of the fields: lines 345-378.  The state is [input] and [count]. *)
Fixpoint template_fields {R} (F : table R) (md : mode) : field_state -> res (field_state * R) :=
  match F in table R return field_state -> res (field_state * R) with
  | TNil => fun s => Ok (s, tt)
  | TOptional _ C r => fun s =>                                                               (* lines 347-356 *)
      let (input, count) := s in
      '(s1, x) <- (if 0 <? count
                   then '(in1, decoded) <- decode (option_dec (c_D C)) md input ;; Ok ((in1, count - 1), decoded)
                   else Ok ((input, count), None)) ;;
      '(s2, a) <- template_fields r md s1 ;; Ok (s2, (x, a))
  | TDefault _ C dflt r => fun s =>                                                           (* lines 358-363, 367-372 *)
      let (input, count) := s in
      '(s1, x) <- (if 0 <? count
                   then '(in1, decoded) <- decode (option_dec (c_D C)) md input ;;
                        Ok ((in1, count - 1), match decoded with Some x => x | None => dflt end)
                   else Ok ((input, count), dflt)) ;;
      '(s2, a) <- template_fields r md s1 ;; Ok (s2, (x, a))
  | TPlain name C r => fun s =>                                                               (* lines 358-359, 363-370, 373-374 *)
      let (input, count) := s in
      '(s1, x) <- (if 0 <? count
                   then '(in1, decoded) <- decode (c_D C) md input ;; Ok ((in1, count - 1), decoded)
                   else Err (ERequiredFieldOmitted name)) ;;
      '(s2, a) <- template_fields r md s1 ;; Ok (s2, (x, a))
  end.
(** [decode_…_inner]: lines 337-401, without [list.transfer].  With no fields [remainder] is [&input[size..]] (line 380),
    otherwise the second half of [split_at] (line 343): the same bytes. *)
Definition template_inner {R} (F : table R) (md : mode) (input : bytes) : res (bytes * R) :=
  '(input, format) <- decode_format_code input ;;
  '(input, header) <- decode_list_header md input format ;;
  let size := ch_size header in
  _ <- check_len input size ;;
  '(_, a) <- template_fields F md (ztake size input, ch_count header) ;;
  Ok (zdrop size input, a).
(** The same with [list.transfer]: lines 383-391 put what is left in [body]. *)
Definition template_transfer_inner {R} (F : table R) (md : mode) (input : bytes) : res (bytes * (R * option transfer_body)) :=
  '(remainder, a) <- template_inner F md input ;;
  match remainder with
  | [] => Ok ([], (a, None))
  | _ => Ok ([], (a, Some (TBData remainder)))
  end.

(** [content_size]: lines 405 and 417. *)
Fixpoint template_content {R} (F : table R) : Z -> R -> Z :=
  match F in table R return Z -> R -> Z with
  | TNil => fun acc _ => acc
  | TOptional _ C r => fun acc a => template_content r (acc + e_size (c_E (option_C C)) (fst a)) (snd a)
  | TDefault _ C _ r => fun acc a => template_content r (acc + e_size (c_E C) (fst a)) (snd a)
  | TPlain _ C r => fun acc a => template_content r (acc + e_size (c_E C) (fst a)) (snd a)
  end.
(** [encoded_size_…_inner]: lines 403-413. *)
Definition template_size {R} (F : table R) (a : R) : Z :=
  let content_size := template_content F 0 a in
  (if 255 <? content_size + 1 then 12 else 6) + content_size.
Definition template_transfer_size {R} (F : table R) (v : R * option transfer_body) : Z :=
  template_size F (fst v) + match snd v with Some b => transfer_body_size b | None => 0 end.
(** Lines 428-430. *)
Fixpoint template_field_ops {R} (F : table R) : R -> list wop :=
  match F in table R return R -> list wop with
  | TNil => fun _ => []
  | TOptional _ C r => fun a => e_enc (c_E (option_C C)) (fst a) ++ template_field_ops r (snd a)
  | TDefault _ C _ r => fun a => e_enc (c_E C) (fst a) ++ template_field_ops r (snd a)
  | TPlain _ C r => fun a => e_enc (c_E C) (fst a) ++ template_field_ops r (snd a)
  end.
(** [encode_…_inner]: lines 414-436. *)
Definition template_enc (code : Z) {R} (F : table R) (a : R) : list wop :=
  let content_size := template_content F 0 a in
  descriptor_enc (DUlong code)
  ++ (if 255 <? content_size + 1
      then [put_u8 FC_LIST32; put_u32_be (content_size + 4); put_u32_be (template_count F)]
      else [put_u8 FC_LIST8; put_u8 (content_size + 1); put_u8 (template_count F)])
  ++ template_field_ops F a.
Definition template_transfer_enc (code : Z) {R} (F : table R) (v : R * option transfer_body) : list wop :=
  template_enc code F (fst v) ++ match snd v with Some b => transfer_body_enc b | None => [] end.
(** [DecodeFormatted]: lines 438-452. *)
Definition template_dec {T} (code : Z) (name : string) (inner : mode -> bytes -> res (bytes * T)) : dec T := fun md input fmt =>
  _ <- validate_code fmt FC_DESCRIBED ;;
  '(input, d) <- decode descriptor_dec md input ;;
  let is_match := match d with
                  | DUlong val => val =? code
                  | DSymbol sym => bytes_eqb (str_bytes sym) (s2b name)
                  end in
  if negb is_match then Err (EInvalidDescriptor d) else inner md input.
(** [Encode]: lines 454-458. *)
Definition template_list (code : Z) (name : string) {R} (F : table R) : codec R :=
  MkCodec (MkEnc (template_size F) (template_enc code F)) (template_dec code name (template_inner F)).
Definition template_transfer (code : Z) (name : string) {R} (F : table R) : codec (R * option transfer_body) :=
  MkCodec (MkEnc (template_transfer_size F) (template_transfer_enc code F)) (template_dec code name (template_transfer_inner F)).

(** ** [defs.described_restricted]: lines 267-280 *)
Definition template_restricted_inner {T} (C : codec T) (md : mode) (input : bytes) : res (bytes * T) := decode (c_D C) md input.
Definition template_restricted_size {T} (C : codec T) (dr : T) : Z := 3 + e_size (c_E C) dr.
Definition template_restricted_enc (code : Z) {T} (C : codec T) (dr : T) : list wop :=
  descriptor_enc (DUlong code) ++ e_enc (c_E C) dr.

(** ** [defs.provides], those with [described]: lines 137-179

    An option: its descriptor, the [_inner] functions of its type, the constructor and the match on it. *)
Record option_ty (T : Type) : Type := MkOption {
  o_X : Type;
  o_code : Z;
  o_name : string;
  o_inner : mode -> bytes -> res (bytes * o_X);
  o_size : o_X -> Z;
  o_enc : o_X -> list wop;
  o_inj : o_X -> T;
  o_match : T -> option o_X
}.
Arguments MkOption {T o_X}. Arguments o_X {T}. Arguments o_code {T}. Arguments o_name {T}. Arguments o_inner {T}. Arguments o_size {T}.
Arguments o_enc {T}. Arguments o_inj {T}. Arguments o_match {T}.
(** The arms of lines 151-153, then those of lines 154-156, then line 157. *)
Fixpoint template_ulong_arms {T} (options : list (option_ty T)) (md : mode) (input : bytes) (val : Z) : option (res (bytes * T)) :=
  match options with
  | [] => None
  | o :: r => if val =? o_code o then Some (map_res (o_inj o) (o_inner o md input)) else template_ulong_arms r md input val
  end.
Fixpoint template_symbol_arms {T} (options : list (option_ty T)) (md : mode) (input : bytes) (a : symbol) : option (res (bytes * T)) :=
  match options with
  | [] => None
  | o :: r => if sym_is a (o_name o) then Some (map_res (o_inj o) (o_inner o md input)) else template_symbol_arms r md input a
  end.
Definition template_union_dec {T} (options : list (option_ty T)) : dec T := fun md input fmt =>
  _ <- validate_code fmt FC_DESCRIBED ;;
  '(input, d) <- decode descriptor_dec md input ;;
  match match d with
        | DUlong val => template_ulong_arms options md input val
        | DSymbol a => template_symbol_arms options md input a
        end with
  | Some r => r
  | None => Err (EInvalidDescriptor d)
  end.
(** [match *self]: lines 163-176.  Every value is one of the options. *)
Fixpoint template_union_size {T} (options : list (option_ty T)) (v : T) : Z :=
  match options with
  | [] => 0
  | o :: r => match o_match o v with Some x => o_size o x | None => template_union_size r v end
  end.
Fixpoint template_union_enc {T} (options : list (option_ty T)) (v : T) : list wop :=
  match options with
  | [] => []
  | o :: r => match o_match o v with Some x => o_enc o x | None => template_union_enc r v end
  end.
Definition template_union {T} (options : list (option_ty T)) : codec T :=
  MkCodec (MkEnc (template_union_size options) (template_union_enc options)) (template_union_dec options).

(** ** [defs.enums]: lines 185-265

    The alternatives of an enumeration are numbered in order. *)
Fixpoint try_from_items {B} (eqb : B -> B -> bool) (items : list B) (i : Z) (v : B) : option Z :=
  match items with
  | [] => None
  | b :: r => if eqb v b then Some i else try_from_items eqb r (i + 1) v
  end.
Definition try_from_result (name : string) (x : option Z) : res Z :=
  match x with Some i => Ok i | None => Err (EUnknownEnumOption name) end.
Fixpoint item {B} (d : B) (items : list B) (i : Z) : B :=
  match items with
  | [] => d
  | b :: r => if i =? 0 then b else item d r (i - 1)
  end.
(** [enum.is_symbol]: lines 193-224; an item is the bytes of its text, [value_len] their number. *)
Definition template_symbol_enum (name : string) (items : list bytes) : codec Z :=
  MkCodec
    (MkEnc (fun i => zlen (item [] items i) + 2) (fun i => static_symbol_enc (item [] items i)))
    (fun md input fmt =>
       '(input, base) <- symbol_dec md input fmt ;;
       v <- try_from_result name (try_from_items bytes_eqb items 0 (str_bytes base)) ;; Ok (input, v)).
(** Otherwise: lines 226-263. *)
Definition template_value_enum (name : string) {B} (C : codec B) (eqb : B -> B -> bool) (d : B) (items : list B) : codec Z :=
  MkCodec
    (MkEnc (fun i => e_size (c_E C) (item d items i)) (fun i => e_enc (c_E C) (item d items i)))
    (fun md input fmt =>
       '(input, base) <- c_D C md input fmt ;;
       v <- try_from_result name (try_from_items eqb items 0 base) ;; Ok (input, v)).
