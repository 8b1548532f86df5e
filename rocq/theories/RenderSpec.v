(** Specification: the text that the build script writes (file RenderClaims). *)

From Coq Require Import String Permutation.
From Verif Require Import Base Codegen.
Open Scope string_scope.
Open Scope list_scope.
Open Scope Z_scope.

(** ** Texts in the definitions *)
Definition descr_texts (d : descr) : list text := [de_name d].
Definition described_texts (d : described) : list text :=
  ds_name d :: ds_ty d :: ds_provides d ++ descr_texts (ds_descriptor d) ++ flat_map (fun f => [fi_name f; fi_ty f; fi_default f]) (ds_fields d).
Definition definitions_texts (D : definitions) : list text :=
  flat_map (fun a => al_name a :: al_source a :: al_provides a) (df_aliases D) ++
  flat_map (fun e => en_name e :: en_ty e :: en_provides e ++ flat_map (fun i => [ei_name i; ei_value i]) (en_items e)) (df_enums D) ++
  flat_map described_texts (df_lists D) ++ flat_map described_texts (df_described_restricted D) ++
  flat_map (fun p => pe_name p :: flat_map (fun i => pi_ty i :: descr_texts (pi_descriptor i)) (pe_options p)) (df_provides D).
(** All of them are without the characters [cs]. *)
Definition without (cs : string) (D : definitions) : Prop := Forall (Forall (fun c => ~ In c (s2b cs))) (definitions_texts D).

(** The same definitions with the alternatives in another order (that of a hash map is unspecified). *)
Definition reordered (D D' : definitions) : Prop :=
  Permutation (df_provides D) (df_provides D') /\ df_aliases D' = df_aliases D /\ df_enums D' = df_enums D /\ df_lists D' = df_lists D /\
  df_described_restricted D' = df_described_restricted D.

(** ** Brackets: each one closed by its own kind, innermost first *)
Inductive balanced : text -> Prop :=
| bal_nil : balanced []
| bal_char c t : ~ In c (s2b "()[]{}") -> balanced t -> balanced (c :: t)
| bal_pair o c a b : In (o, c) [(40, 41); (91, 93); (123, 125)] -> balanced a -> balanced b -> balanced (o :: a ++ c :: b).

(** ** Code without its layout *)

(** Tokens: words, string literals, single other characters; blanks and [//] comments are left out. *)
Definition blank (c : Z) : bool := (c =? 32) || (c =? 10) || (c =? 13) || (c =? 9).
Definition word_char (c : Z) : bool :=
  ((48 <=? c) && (c <=? 57)) || ((65 <=? c) && (c <=? 90)) || ((97 <=? c) && (c <=? 122)) || (c =? 95).
Inductive reading := Between | Word (w : text) | Literal (w : text) | Comment.
Definition finished (r : reading) : list text := match r with Word w => [rev w] | Literal w => [rev w] | _ => [] end.
Fixpoint tokens (r : reading) (t : text) : list text :=
  match t with
  | [] => finished r
  | c :: u =>
    match r with
    | Comment => tokens (if c =? 10 then Between else Comment) u
    | Literal w => if c =? 34 then rev (c :: w) :: tokens Between u else tokens (Literal (c :: w)) u
    | _ =>
      match r, word_char c with
      | Word w, true => tokens (Word (c :: w)) u
      | _, true => tokens (Word [c]) u
      | _, false =>
        finished r ++
        (if blank c then tokens Between u
         else if c =? 34 then tokens (Literal [c]) u
         else match u with
              | 47 :: _ => if c =? 47 then tokens Comment u else [c] :: tokens Between u
              | _ => [c] :: tokens Between u
              end)
      end
    end
  end.
Definition tok (s : string) (t : text) : bool := text_eqb t (s2b s).

(** [=> { body }] is read as [=> body,] ([open] tells which braces are those of an arm). *)
Fixpoint arms (open : list bool) (after_arrow : Z) (l : list text) : list text :=
  match l with
  | [] => []
  | t :: r =>
    if tok "{" t then (if after_arrow =? 2 then arms (true :: open) 0 r else t :: arms (false :: open) 0 r)
    else if tok "}" t then
      match open with
      | true :: o => s2b "," :: arms o 0 r
      | _ :: o => t :: arms o 0 r
      | [] => t :: arms [] 0 r
      end
    else t :: arms open (if tok "=" t then 1 else if tok ">" t && (after_arrow =? 1) then 2 else 0) r
  end.
(** A comma before a closing bracket or another comma, and a semicolon before a closing brace or a comma, say nothing. *)
Fixpoint needed (l : list text) : list text :=
  match l with
  | t :: ((u :: _) as r) =>
    if tok "," t && (tok ")" u || tok "]" u || tok "}" u || tok "," u) then needed r
    else if tok ";" t && (tok "}" u || tok "," u) then needed r
    else t :: needed r
  | _ => l
  end.
(** [use ... ;] and the rest. *)
Fixpoint uses (current : option (list text)) (l : list text) : list (list text) :=
  match l with
  | [] => []
  | t :: r =>
    match current with
    | Some w => if tok ";" t then rev (t :: w) :: uses None r else uses (Some (t :: w)) r
    | None => if tok "use" t then uses (Some [t]) r else uses None r
    end
  end.
Fixpoint others (inside : bool) (l : list text) : list text :=
  match l with
  | [] => []
  | t :: r =>
    if inside then others (negb (tok ";" t)) r
    else if tok "use" t then others true r else t :: others false r
  end.
Definition code (t : text) : list text := needed (arms [] 0 (tokens Between t)).
(** The same code up to layout: what is used in any order, then the same tokens. *)
Definition same_code (a b : text) : Prop := Permutation (uses None (code a)) (uses None (code b)) /\ others false (code a) = others false (code b).

(** ** Declarations, up to blanks *)
Definition squeezed (t : text) : text := filter (fun c => negb (blank c)) t.
Definition declares (t a : text) : Prop := exists x y, squeezed t = x ++ squeezed a ++ y.
Definition alias_text (a : alias) : text := s2b "pub type " ++ al_name a ++ s2b " = " ++ al_source a ++ s2b ";".
Definition restricted_text (d : described) : text := s2b "type " ++ ds_name d ++ s2b " = " ++ ds_ty d ++ s2b ";".
Definition enum_text (e : enum) : text :=
  s2b "pub enum " ++ en_name e ++ s2b " {" ++ flat_map (fun i => ei_name i ++ s2b ", ") (en_items e) ++ s2b "}".
Definition union_text (p : provides_enum) : text :=
  s2b "pub enum " ++ pe_name p ++ s2b " {" ++ flat_map (fun i => pi_ty i ++ s2b "(" ++ pi_ty i ++ s2b "), ") (pe_options p) ++ s2b "}".
Definition field_text (f : field) : text :=
  s2b "pub " ++ fi_name f ++ s2b ": " ++ (if fi_optional f then s2b "Option<" ++ fi_ty f ++ s2b ">" else fi_ty f) ++ s2b ", ".
Definition struct_text (d : described) : text :=
  s2b "pub struct " ++ ds_name d ++ s2b " {" ++ flat_map field_text (ds_fields d) ++
  (if ds_transfer d then s2b "pub body: Option<TransferBody>, " else []) ++ s2b "}".
(** The functions that write a struct or a described restricted type begin with its descriptor ([code]: in decimal; [snake]: the name
    in snake case). *)
Definition encoder_text (param : string) (d : described) (snake code : text) : text :=
  s2b "fn encode_" ++ snake ++ s2b "_inner(" ++ s2b param ++ s2b ": &" ++ ds_name d ++ s2b ", buf: &mut BytesMut) { Descriptor::Ulong(" ++ code ++
  s2b ").encode(buf);".
(** A struct is read if its descriptor is that code or the symbol. *)
Definition match_text (d : described) (code : text) : text :=
  s2b "let is_match = match descriptor { Descriptor::Ulong(val) => val == " ++ code ++
  s2b ", Descriptor::Symbol(ref sym) => sym.as_bytes() == b""" ++ de_name (ds_descriptor d) ++ s2b """, };".
(** Field by field: the size of a struct and what is written. *)
Definition sizes_text (d : described) : text :=
  s2b "let content_size = 0 " ++ flat_map (fun f => s2b " + list." ++ fi_name f ++ s2b ".encoded_size()") (ds_fields d) ++ s2b ";".
Definition writes_text (d : described) : text :=
  s2b "::FIELD_COUNT as u8); }" ++ flat_map (fun f => s2b "list." ++ fi_name f ++ s2b ".encode(buf); ") (ds_fields d).

(** ** Functions, up to blanks ([snake]: names in snake case; numbers in decimal by [dec]) *)
Section Functions.
  Variable snake : text -> text.
  Variable dec : Z -> text.

  (** A union is read by the descriptor of each option, as a number or as a symbol; any other is refused. *)
  Definition option_read (p : provides_enum) (i : provides_item) : text :=
    s2b " => decode_" ++ snake (pi_ty i) ++ s2b "_inner(input).map(|(i, r)| (i, " ++ pe_name p ++ s2b "::" ++ pi_ty i ++ s2b "(r))), ".
  Definition union_reader (p : provides_enum) : text :=
    s2b "impl DecodeFormatted for " ++ pe_name p ++
    s2b " { fn decode_with_format(input: &[u8], fmt: u8) -> Result<(&[u8], Self), AmqpParseError> { validate_code!(fmt, codec::FORMATCODE_DESCRIBED); let (input, descriptor) = Descriptor::decode(input)?; match descriptor { " ++
    flat_map (fun i => s2b "Descriptor::Ulong(" ++ dec (de_code (pi_descriptor i)) ++ s2b ")" ++ option_read p i) (pe_options p) ++
    flat_map (fun i => s2b "Descriptor::Symbol(ref a) if a.as_str() == """ ++ de_name (pi_descriptor i) ++ s2b """" ++ option_read p i) (pe_options p) ++
    s2b "_ => Err(AmqpParseError::InvalidDescriptor(descriptor)) } } }".
  (** Its size and its bytes are those of the option it holds. *)
  Definition union_writer (p : provides_enum) : text :=
    s2b "impl Encode for " ++ pe_name p ++ s2b " { fn encoded_size(&self) -> usize { match *self { " ++
    flat_map (fun i => pe_name p ++ s2b "::" ++ pi_ty i ++ s2b "(ref v) => encoded_size_" ++ snake (pi_ty i) ++ s2b "_inner(v), ") (pe_options p) ++
    s2b "} } fn encode(&self, buf: &mut BytesMut) { match *self { " ++
    flat_map (fun i => pe_name p ++ s2b "::" ++ pi_ty i ++ s2b "(ref v) => encode_" ++ snake (pi_ty i) ++ s2b "_inner(v, buf), ") (pe_options p) ++
    s2b "} } }".

  (** An enumeration is read from its values, as symbols or as numbers; any other is refused under the name of the enumeration. *)
  Definition enum_reader (e : enum) : text :=
    s2b "impl " ++ en_name e ++ s2b " { pub fn try_from(v: " ++ (if en_is_symbol e then s2b "&Symbol" else en_ty e) ++
    s2b ") -> Result<Self, AmqpParseError> { match " ++ (if en_is_symbol e then s2b "v.as_str() { " else s2b "v { ") ++
    flat_map (fun i => (if en_is_symbol e then s2b """" ++ ei_value i ++ s2b """" else ei_value i) ++ s2b " => Ok(" ++ en_name e ++ s2b "::" ++ ei_name i ++ s2b "), ") (en_items e) ++
    s2b "_ => Err(AmqpParseError::UnknownEnumOption(""" ++ en_name e ++ s2b """)) } } }".
  Definition enum_formatted (e : enum) : text :=
    s2b "impl DecodeFormatted for " ++ en_name e ++ s2b " { fn decode_with_format(input: &[u8], fmt: u8) -> Result<(&[u8], Self), AmqpParseError> { let (input, base) = " ++
    (if en_is_symbol e then s2b "Symbol" else en_ty e) ++ s2b "::decode_with_format(input, fmt)?; Ok((input, Self::try_from(" ++
    (if en_is_symbol e then s2b "&" else []) ++ s2b "base)?)) } }".
  (** A symbol takes its length and two bytes more. *)
  Definition enum_writer (e : enum) : text :=
    s2b "impl Encode for " ++ en_name e ++ s2b " { fn encoded_size(&self) -> usize { match *self { " ++
    flat_map (fun i => en_name e ++ s2b "::" ++ ei_name i ++ s2b " => " ++
      (if en_is_symbol e then dec (ei_value_len i) ++ s2b " + 2, "
       else s2b "{ let v : " ++ en_ty e ++ s2b " = " ++ ei_value i ++ s2b "; v.encoded_size() }, ")) (en_items e) ++
    s2b "} } fn encode(&self, buf: &mut BytesMut) { match *self { " ++
    flat_map (fun i => en_name e ++ s2b "::" ++ ei_name i ++ s2b " => " ++
      (if en_is_symbol e then s2b "StaticSymbol(""" ++ ei_value i ++ s2b """).encode(buf), "
       else s2b "{ let v : " ++ en_ty e ++ s2b " = " ++ ei_value i ++ s2b "; v.encode(buf); }, ")) (en_items e) ++
    s2b "} } }".

  (** A described restricted type is read and written as the type it stands for, after its descriptor. *)
  Definition restricted_functions (d : described) : text :=
    s2b "fn decode_" ++ snake (ds_name d) ++ s2b "_inner(input: &[u8]) -> Result<(&[u8], " ++ ds_name d ++ s2b "), AmqpParseError> { " ++ ds_name d ++
    s2b "::decode(input) } fn encoded_size_" ++ snake (ds_name d) ++ s2b "_inner(dr: &" ++ ds_name d ++
    s2b ") -> usize { // descriptor size + actual size 3 + dr.encoded_size() } fn encode_" ++ snake (ds_name d) ++ s2b "_inner(dr: &" ++ ds_name d ++
    s2b ", buf: &mut BytesMut) { Descriptor::Ulong(" ++ dec (de_code (ds_descriptor d)) ++ s2b ").encode(buf); dr.encode(buf); }".

  (** How a field is read: as long as the list has elements left, else its default, if it has one. *)
  Definition field_read (f : field) : text :=
    let ty := fi_ty f in let x := fi_name f in
    if fi_optional f then
      s2b "let " ++ x ++ s2b ": Option<" ++ ty ++ s2b ">; if count > 0 { let decoded = Option::<" ++ ty ++ s2b ">::decode(input)?; input = decoded.0; " ++
      x ++ s2b " = decoded.1; count -= 1; } else { " ++ x ++ s2b " = None; } "
    else
      s2b "let " ++ x ++ s2b ": " ++ ty ++ s2b "; if count > 0 { " ++
      match fi_default f with
      | [] => s2b "let (in1, decoded) = " ++ ty ++ s2b "::decode(input)?; " ++ x ++ s2b " = decoded; "
      | v => s2b "let (in1, decoded) = Option::<" ++ ty ++ s2b ">::decode(input)?; " ++ x ++ s2b " = decoded.unwrap_or(" ++ v ++ s2b "); "
      end ++ s2b "input = in1; count -= 1; } else { " ++
      match fi_default f with
      | [] => s2b "return Err(AmqpParseError::RequiredFieldOmitted(""" ++ x ++ s2b """)) "
      | v => x ++ s2b " = " ++ v ++ s2b "; "
      end ++ s2b "} ".
  Definition struct_reader (d : described) : text :=
    s2b "fn decode_" ++ snake (ds_name d) ++ s2b "_inner(input: &[u8]) -> Result<(&[u8], " ++ ds_name d ++
    s2b "), AmqpParseError> { let (input, format) = decode_format_code(input)?; let (input, header) = decode_list_header(input, format)?; let size = header.size as usize; decode_check_len!(input, size); " ++
    match ds_fields d with
    | [] => s2b "let mut remainder = &input[size..]; "
    | fs => s2b "let (mut input, mut remainder) = input.split_at(size); let mut count = header.count; " ++ flat_map field_read fs
    end ++
    (if ds_transfer d then s2b "let body = if remainder.is_empty() { None } else { let b = Bytes::from(remainder); remainder = &[]; Some(b.into()) }; " else []) ++
    s2b "Ok((remainder, " ++ ds_name d ++ s2b " { " ++ flat_map (fun f => fi_name f ++ s2b ", ") (ds_fields d) ++ (if ds_transfer d then s2b "body " else []) ++ s2b "})) }".
  (** The size and the bytes of a struct: header, fields, payload. *)
  Definition content (d : described) : text :=
    s2b "#[allow(clippy::identity_op)] let content_size = 0 " ++ flat_map (fun f => s2b " + list." ++ fi_name f ++ s2b ".encoded_size()") (ds_fields d) ++ s2b "; ".
  Definition struct_size (d : described) : text :=
    s2b "fn encoded_size_" ++ snake (ds_name d) ++ s2b "_inner(list: &" ++ ds_name d ++ s2b ") -> usize { " ++ content d ++
    s2b "// header: 0x00 0x53 <descriptor code> format_code size count (if content_size + 1 > u8::MAX as usize { 12 } else { 6 }) + content_size " ++
    (if ds_transfer d then s2b "+ list.body.as_ref().map(|b| b.len()).unwrap_or(0) " else []) ++ s2b "}".
  Definition struct_writer (d : described) : text :=
    s2b "fn encode_" ++ snake (ds_name d) ++ s2b "_inner(list: &" ++ ds_name d ++ s2b ", buf: &mut BytesMut) { Descriptor::Ulong(" ++ dec (de_code (ds_descriptor d)) ++
    s2b ").encode(buf); " ++ content d ++
    s2b "if content_size + 1 > u8::MAX as usize { buf.put_u8(codec::FORMATCODE_LIST32); buf.put_u32_be((content_size + 4) as u32); // +4 for 4 byte count buf.put_u32_be(" ++ ds_name d ++
    s2b "::FIELD_COUNT as u32); } else { buf.put_u8(codec::FORMATCODE_LIST8); buf.put_u8((content_size + 1) as u8); buf.put_u8(" ++ ds_name d ++ s2b "::FIELD_COUNT as u8); } " ++
    flat_map (fun f => s2b "list." ++ fi_name f ++ s2b ".encode(buf); ") (ds_fields d) ++
    (if ds_transfer d then s2b "if let Some(ref body) = list.body { body.encode(buf) } " else []) ++ s2b "}".
  (** The number of fields, counted. *)
  Definition struct_count (d : described) : text := s2b "const FIELD_COUNT: usize = 0 " ++ flat_map (fun _ => s2b " + 1") (ds_fields d) ++ s2b ";".
  (** The function that reads a field: numbers and booleans by value, the rest by reference. *)
  Definition field_function (f : field) : text :=
    let ty := fi_ty f in let x := fi_name f in
    s2b "pub fn " ++ x ++ s2b "(&self) -> " ++
    (if fi_is_str f then
       if fi_optional f then s2b "Option<&str> { match self." ++ x ++ s2b " { None => None, Some(ref s) => Some(s.as_str()) } }" else s2b "&str { self." ++ x ++ s2b ".as_str() }"
     else if fi_is_ref f then
       if fi_optional f then s2b "Option<&" ++ ty ++ s2b "> { self." ++ x ++ s2b ".as_ref() }" else s2b "&" ++ ty ++ s2b " { &self." ++ x ++ s2b " }"
     else
       if fi_optional f then s2b "Option<" ++ ty ++ s2b "> { self." ++ x ++ s2b " }" else ty ++ s2b " { self." ++ x ++ s2b " }").
  Definition struct_functions (d : described) : text :=
    s2b "impl " ++ ds_name d ++ s2b " { " ++ flat_map field_function (ds_fields d) ++
    (if ds_transfer d then s2b "pub fn body(&self) -> Option<&TransferBody> { self.body.as_ref() } " else []) ++
    s2b "#[allow(clippy::identity_op)] " ++ struct_count d ++ s2b " }".
  (** The two traits of a struct. *)
  Definition struct_formatted (d : described) : text :=
    s2b "impl DecodeFormatted for " ++ ds_name d ++
    s2b " { fn decode_with_format(input: &[u8], fmt: u8) -> Result<(&[u8], Self), AmqpParseError> { validate_code!(fmt, codec::FORMATCODE_DESCRIBED); let (input, descriptor) = Descriptor::decode(input)?; " ++
    match_text d (dec (de_code (ds_descriptor d))) ++
    s2b " if !is_match { Err(AmqpParseError::InvalidDescriptor(descriptor)) } else { decode_" ++ snake (ds_name d) ++ s2b "_inner(input) } } }".
  Definition struct_encodes (d : described) : text :=
    s2b "impl Encode for " ++ ds_name d ++ s2b " { fn encoded_size(&self) -> usize { encoded_size_" ++ snake (ds_name d) ++
    s2b "_inner(self) } fn encode(&self, buf: &mut BytesMut) { encode_" ++ snake (ds_name d) ++ s2b "_inner(self, buf) } }".
End Functions.
