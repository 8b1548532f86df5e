(** Specification for the code generator: what its names, tables and generated code are to be.

    The tables [specification.json] gives are read against the tables of CompositeSpec, FrameSpec and TypeSpec (which are written
    from the standard); the code of the template against the meaning of a table. *)

From Coq Require Import String.
From Verif Require Import Io Codegen Template Utf8Spec Valid Wire TypeSpec CompositeSpec AllTypes CodecSpec MessageSpec FrameSpec.
Open Scope string_scope.
Open Scope list_scope.
Open Scope Z_scope.

(** ** Names *)
Definition separator (c : Z) : Prop := c = 45 \/ c = 95 \/ c = 32.   (* - _ and space *)
Definition small_letter (c : Z) : Prop := 97 <= c <= 122.
Definition capital_letter (c : Z) : Prop := 65 <= c <= 90.
Definition digit (c : Z) : Prop := 48 <= c <= 57.
(** The words of a name: its longest runs without a separator. *)
Inductive words_of : text -> list text -> Prop :=
| wo_end : words_of [] []
| wo_separator c t ws : separator c -> words_of t ws -> words_of (c :: t) ws
| wo_word w t ws : w <> [] -> Forall (fun c => ~ separator c) w -> (forall c r, t = c :: r -> separator c) -> words_of t ws ->
    words_of (w ++ t) (w :: ws).
(** A word with a capital. *)
Inductive capitalized : text -> text -> Prop :=
| cap_letter c r : small_letter c -> capitalized (c :: r) (c - 32 :: r)
| cap_other c r : ~ small_letter c -> capitalized (c :: r) (c :: r).
(** The name of a type, or of an item: its words with capitals, written together. *)
Definition titled (n t : text) : Prop := exists ws caps, words_of n ws /\ Forall2 capitalized ws caps /\ t = concat caps.
(** The names of the specification: words of small letters and digits that begin with a letter, joined by [-]. *)
Definition plain_word (w : text) : Prop :=
  exists c r, w = c :: r /\ small_letter c /\ Forall (fun x => small_letter x \/ digit x) r.
Fixpoint joined (sep : Z) (ws : list text) : text :=
  match ws with
  | [] => []
  | [w] => w
  | w :: r => w ++ sep :: joined sep r
  end.
Definition keyword (t : text) : Prop := t = s2b "type" \/ t = s2b "return".
(** The name of a field, or of a function: small letters, with [_] for the separators and before a capital that follows a
    character other than a capital.  [before]: the last character that is no separator; [gap]: a separator has followed it. *)
Definition capital (upper : Z -> bool) (c : Z) : Prop := capital_letter c \/ 128 <= c /\ upper c = true.
Inductive without_capital : Z -> Z -> Prop :=
| wc_letter c : capital_letter c -> without_capital c (c + 32)
| wc_other c : ~ capital_letter c -> without_capital c c.
Inductive underscored (upper : Z -> bool) : option Z -> bool -> text -> text -> Prop :=
| us_end before gap : underscored upper before gap [] []
| us_separator before gap c r t : separator c -> underscored upper before true r t -> underscored upper before gap (c :: r) t
| us_gap before c d r t : ~ separator c -> without_capital c d -> underscored upper (Some c) false r t ->
    underscored upper before true (c :: r) (95 :: d :: t)
| us_capital b c d r t : ~ separator c -> ~ capital upper b -> capital upper c -> without_capital c d ->
    underscored upper (Some c) false r t -> underscored upper (Some b) false (c :: r) (95 :: d :: t)
| us_first c d r t : ~ separator c -> without_capital c d -> underscored upper (Some c) false r t ->
    underscored upper None false (c :: r) (d :: t)
| us_next b c d r t : ~ separator c -> capital upper b \/ ~ capital upper c -> without_capital c d ->
    underscored upper (Some c) false r t -> underscored upper (Some b) false (c :: r) (d :: t).
Inductive member_name (upper : Z -> bool) : text -> text -> Prop :=
| mn_keyword n : keyword n -> member_name upper n (n ++ s2b "_")
| mn_other n t : ~ keyword n -> underscored upper None false n t -> member_name upper n t.

(** ** Types and fields of the generated code *)

(** The Rust type for an AMQP type: the one named by [requires], or that of a primitive type, or one of that name. *)
Inductive primitive_name : string -> string -> Prop :=
| pn_any : primitive_name "*" "Variant"
| pn_binary : primitive_name "binary" "Bytes"
| pn_string : primitive_name "string" "ByteStr"
| pn_ubyte : primitive_name "ubyte" "u8"
| pn_ushort : primitive_name "ushort" "u16"
| pn_uint : primitive_name "uint" "u32"
| pn_ulong : primitive_name "ulong" "u64"
| pn_boolean : primitive_name "boolean" "bool".
Inductive rust_name : text -> option text -> text -> Prop :=
| rn_requires ty r t : titled r t -> rust_name ty (Some r) t
| rn_primitive ty rust : primitive_name ty rust -> rust_name (s2b ty) None (s2b rust)
| rn_named ty t : (forall s rust, primitive_name s rust -> ty <> s2b s) -> titled ty t -> rust_name ty None t.
(** The types a list of [provides] names: separated by commas, blanks around them do not count, empty ones neither. *)
Definition blank (c : Z) : Prop :=
  9 <= c <= 13 \/ 0x2000 <= c <= 0x200A \/ In c [32; 0x85; 0xA0; 0x1680; 0x2028; 0x2029; 0x202F; 0x205F; 0x3000].
Inductive blank_trimmed : text -> text -> Prop :=
| bt_intro a t b : Forall blank a -> Forall blank b ->
    (forall c r, t = c :: r -> ~ blank c) -> (forall r c, t = r ++ [c] -> ~ blank c) ->
    blank_trimmed (a ++ t ++ b) t.
Inductive provided : option text -> list text -> Prop :=
| pr_none : provided None []
| pr_some parts trimmed names : parts <> [] -> Forall (fun p => ~ In 44 p) parts -> Forall2 blank_trimmed parts trimmed ->
    Forall2 titled (filter (fun t => match t with [] => false | _ => true end) trimmed) names ->
    provided (Some (joined 44 parts)) names.

(** The text of a descriptor code: hexadecimal numbers after [0x], separated by colons; the first is the domain, the second
    the code. *)
Inductive hex_char : Z -> Z -> Prop :=
| hx_digit c : digit c -> hex_char c (c - 48)
| hx_small c : 97 <= c <= 102 -> hex_char c (c - 87)
| hx_capital c : 65 <= c <= 70 -> hex_char c (c - 55).
Inductive hex_number : text -> Z -> Prop :=
| hn_one c d : hex_char c d -> hex_number [c] d
| hn_more t n c d : hex_number t n -> hex_char c d -> hex_number (t ++ [c]) (16 * n + d).
Inductive code_number : text -> Z -> Prop :=
| cn_plain t n : hex_number t n -> n < 2 ^ 32 -> code_number (s2b "0x" ++ t) n
| cn_plus t n : hex_number t n -> n < 2 ^ 32 -> code_number (s2b "0x+" ++ t) n.
Definition code_text (t : text) (domain code : Z) : Prop :=
  exists parts ns, t = joined 58 parts /\ Forall2 code_number parts (domain :: code :: ns).
Definition code_readable (t : text) : Prop := exists domain code, code_text t domain code.

(** Types whose fields are read by reference, besides the structs. *)
Definition references : list text := map s2b
  ["Bytes"; "ByteStr"; "Symbol"; "Fields"; "Map"; "MessageId"; "Address"; "NodeProperties"; "Outcome"; "DeliveryState";
   "FilterSet"; "DeliveryTag"; "Symbols"; "IetfLanguageTags"; "ErrorCondition"; "DistributionMode"].
(** What the generator makes of each kind of type.  [structs], [enums]: the names of the structs and of the enumerations. *)
Definition field_for (upper : Z -> bool) (structs enums : list text) (f : raw_field) (o : field) : Prop :=
  exists base ty, rust_name (rf_ty f) (rf_requires f) base /\
    ty = (if rf_multiple f then base ++ s2b "s" else base) /\
    member_name upper (rf_name f) (fi_name o) /\ fi_ty o = ty /\ fi_multiple o = rf_multiple f /\
    fi_is_str o = false /\ (fi_is_ref o = true <-> In ty references \/ In ty structs) /\
    (fi_optional o = true <-> rf_mandatory f = false /\ fi_default o = []) /\
    match rf_default f with
    | None => fi_default o = []
    | Some d => (In ty enums /\ exists t, titled d t /\ fi_default o = ty ++ s2b "::" ++ t) \/ (~ In ty enums /\ fi_default o = d)
    end.
Definition alias_for (a : raw_alias) (o : alias) : Prop :=
  titled (ra_name a) (al_name o) /\ rust_name (ra_source a) None (al_source o) /\ provided (ra_provides a) (al_provides o).
Definition item_for (i o : enum_item) : Prop :=
  titled (ei_name i) (ei_name o) /\ ei_value o = ei_value i /\ ei_value_len o = zlen (flat_map utf8_encode (ei_value i)).
Definition enum_for (e : raw_enum) (o : enum) : Prop :=
  titled (re_name e) (en_name o) /\ rust_name (re_source e) None (en_ty o) /\ provided (re_provides e) (en_provides o) /\
  (en_is_symbol o = true <-> en_ty o = s2b "Symbol") /\ Forall2 item_for (re_choice e) (en_items o).
Definition descriptor_for (d : raw_descriptor) (o : descr) : Prop :=
  de_name o = rd_name d /\ code_text (rd_code d) (de_domain o) (de_code o).
Definition list_for (upper : Z -> bool) (structs enums : list text) (d : raw_described) (o : described) : Prop :=
  titled (rl_name d) (ds_name o) /\ ds_ty o = [] /\ provided (rl_provides d) (ds_provides o) /\ descriptor_for (rl_descriptor d) (ds_descriptor o) /\
  Forall2 (field_for upper structs enums) (rl_field d) (ds_fields o) /\ (ds_transfer o = true <-> rl_name d = s2b "transfer").
Definition restricted_for (upper : Z -> bool) (structs enums : list text) (d : raw_described) (o : described) : Prop :=
  titled (rl_name d) (ds_name o) /\ rust_name (rl_source d) None (ds_ty o) /\ provided (rl_provides d) (ds_provides o) /\
  descriptor_for (rl_descriptor d) (ds_descriptor o) /\ Forall2 (field_for upper structs enums) (rl_field d) (ds_fields o) /\
  ds_transfer o = false.

(** The kind of a type: an alias (maps are left to hand-written code), an enumeration, a list, a restricted type, or none of
    these, for which nothing is generated. *)
Inductive kind := KAlias (a : raw_alias) | KEnum (e : raw_enum) | KList (d : raw_described) | KRestricted (d : raw_described) | KNothing.
Inductive kind_of : raw_type -> kind -> Prop :=
| ko_alias a : ra_source a <> s2b "map" -> kind_of (TAlias a) (KAlias a)
| ko_map a : ra_source a = s2b "map" -> kind_of (TAlias a) KNothing
| ko_enum e : kind_of (TChoice e) (KEnum e)
| ko_restricted d : rl_class d = s2b "restricted" -> kind_of (TDescribed d) (KRestricted d)
| ko_list d : rl_class d <> s2b "restricted" -> rl_source d = s2b "list" -> kind_of (TDescribed d) (KList d)
| ko_other d : rl_class d <> s2b "restricted" -> rl_source d <> s2b "list" -> kind_of (TDescribed d) KNothing.
Definition enums_of (types : list raw_type) : list text :=
  flat_map (fun t => match t with TChoice e => [re_name e] | _ => [] end) types.
Definition structs_of (types : list raw_type) : list text :=
  flat_map (fun t => match t with TDescribed d => if list_eq_dec Z.eq_dec (rl_source d) (s2b "list") then [rl_name d] else [] | _ => [] end) types.
(** A described type that needs a descriptor code. *)
Definition type_readable (t : raw_type) : Prop :=
  match t with
  | TDescribed d => rl_class d = s2b "restricted" \/ rl_source d = s2b "list" -> code_readable (rd_code (rl_descriptor d))
  | _ => True
  end.
(** [generates upper structs enums kinds D]: [D] has one entry for each type, in order. *)
Definition no_descr : descr := MkDescr [] 0 0.
Inductive generates (upper : Z -> bool) (structs enums : list text) : list kind ->
  list alias -> list enum -> list described -> list described -> list (text * provides_item) -> Prop :=
| ge_end : generates upper structs enums [] [] [] [] [] []
| ge_alias a o r As Es Ls Rs P : alias_for a o -> generates upper structs enums r As Es Ls Rs P ->
    generates upper structs enums (KAlias a :: r) (o :: As) Es Ls Rs (map (fun p => (p, MkProvidesItem (al_name o) no_descr)) (al_provides o) ++ P)
| ge_enum e o r As Es Ls Rs P : enum_for e o -> generates upper structs enums r As Es Ls Rs P ->
    generates upper structs enums (KEnum e :: r) As (o :: Es) Ls Rs (map (fun p => (p, MkProvidesItem (en_name o) no_descr)) (en_provides o) ++ P)
| ge_list d o r As Es Ls Rs P : list_for upper structs enums d o -> generates upper structs enums r As Es Ls Rs P ->
    generates upper structs enums (KList d :: r) As Es (o :: Ls) Rs
      (map (fun p => (p, MkProvidesItem (ds_name o) (ds_descriptor o))) (ds_provides o) ++ P)
| ge_restricted d o r As Es Ls Rs P : restricted_for upper structs enums d o -> generates upper structs enums r As Es Ls Rs P ->
    generates upper structs enums (KRestricted d :: r) As Es Ls (o :: Rs)
      (map (fun p => (p, MkProvidesItem (ds_name o) (ds_descriptor o))) (ds_provides o) ++ P)
| ge_nothing r As Es Ls Rs P : generates upper structs enums r As Es Ls Rs P -> generates upper structs enums (KNothing :: r) As Es Ls Rs P.
(** [providers P name]: the types that provide [name], in order. *)
Definition providers (P : list (text * provides_item)) (name : text) : list provides_item :=
  flat_map (fun e => if list_eq_dec Z.eq_dec (fst e) name then [snd e] else []) P.
(** The unions: one for each name that more than one type provides, with those types.  They are generated as Rust enums
    unless they are [Frame] or no option has a descriptor code. *)
Definition unions_for (P : list (text * provides_item)) (unions : list provides_enum) : Prop :=
  NoDup (map pe_name unions) /\
  (forall name, In name (map pe_name unions) <-> 2 <= zlen (providers P name)) /\
  Forall (fun u => pe_options u = providers P (pe_name u) /\
    (pe_described u = true <-> pe_name u <> s2b "Frame" /\ exists i, In i (pe_options u) /\ de_code (pi_descriptor i) <> 0)) unions.

(** ** The JSON of the specification

    Objects, with their entries in any order and other entries besides.  An entry must not be repeated. *)
Definition entries (l : list (text * json)) (k : string) : list json :=
  flat_map (fun e => if list_eq_dec Z.eq_dec (fst e) (s2b k) then [snd e] else []) l.
Definition needed (l : list (text * json)) (k : string) {A} (reads : json -> A -> Prop) (a : A) : Prop :=
  exists j, entries l k = [j] /\ reads j a.
Definition allowed (l : list (text * json)) (k : string) {A} (reads : json -> A -> Prop) (default a : A) : Prop :=
  (entries l k = [] /\ a = default) \/ needed l k reads a.
Definition reads_text (j : json) (t : text) : Prop := j = JStr t.
Definition reads_optional (j : json) (o : option text) : Prop := match o with Some t => j = JStr t | None => j = JNull end.
Definition reads_flag (j : json) (b : bool) : Prop := j = JStr (s2b (if b then "true" else "false")).
Definition reads_size (j : json) (n : Z) : Prop := j = JInt n /\ 0 <= n < 2 ^ 64.
Definition reads_list {A} (reads : json -> A -> Prop) (j : json) (l : list A) : Prop := exists js, j = JArr js /\ Forall2 reads js l.
Definition reads_descriptor (j : json) (d : raw_descriptor) : Prop := exists l, j = JObj l /\
  needed l "name" reads_text (rd_name d) /\ needed l "code" reads_text (rd_code d).
Definition reads_item (j : json) (i : enum_item) : Prop := exists l, j = JObj l /\
  needed l "name" reads_text (ei_name i) /\ needed l "value" reads_text (ei_value i) /\ allowed l "value_len" reads_size 0 (ei_value_len i).
Definition reads_enum (j : json) (e : raw_enum) : Prop := exists l, j = JObj l /\
  needed l "name" reads_text (re_name e) /\ needed l "source" reads_text (re_source e) /\
  allowed l "provides" reads_optional None (re_provides e) /\ needed l "choice" (reads_list reads_item) (re_choice e).
Definition reads_field (j : json) (f : raw_field) : Prop := exists l, j = JObj l /\
  needed l "name" reads_text (rf_name f) /\ needed l "type" reads_text (rf_ty f) /\
  allowed l "mandatory" reads_flag false (rf_mandatory f) /\ allowed l "default" reads_optional None (rf_default f) /\
  allowed l "multiple" reads_flag false (rf_multiple f) /\ allowed l "requires" reads_optional None (rf_requires f).
Definition reads_described (j : json) (d : raw_described) : Prop := exists l, j = JObj l /\
  needed l "name" reads_text (rl_name d) /\ needed l "class" reads_text (rl_class d) /\ needed l "source" reads_text (rl_source d) /\
  allowed l "provides" reads_optional None (rl_provides d) /\ needed l "descriptor" reads_descriptor (rl_descriptor d) /\
  allowed l "field" (reads_list reads_field) [] (rl_field d).
Definition reads_alias (j : json) (a : raw_alias) : Prop := exists l, j = JObj l /\
  needed l "name" reads_text (ra_name a) /\ needed l "source" reads_text (ra_source a) /\ allowed l "provides" reads_optional None (ra_provides a).
(** The first of the three kinds that can be read. *)
Definition reads_type (j : json) (t : raw_type) : Prop :=
  match t with
  | TChoice e => reads_enum j e
  | TDescribed d => (forall e, ~ reads_enum j e) /\ reads_described j d
  | TAlias a => (forall e, ~ reads_enum j e) /\ (forall d, ~ reads_described j d) /\ reads_alias j a
  end.
(** A flag of a field that is a text but neither [true] nor [false]. *)
Definition odd_flag (j : json) : Prop := exists l fields field key t,
  j = JObj l /\ In (JArr fields) (entries l "field") /\ In (JObj field) fields /\ (key = "mandatory" \/ key = "multiple")%string /\
  In (JStr t) (entries field key) /\ t <> s2b "true" /\ t <> s2b "false".

(** ** The code of the template *)

(** What the template is given for a table of fields. *)
Fixpoint code_of {R} (F : fields R) : table R :=
  match F with
  | FNil => TNil
  | FReq name t r => TPlain name (s_codec t) (code_of r)
  | FOpt name t r => TOptional name (s_codec t) (code_of r)
  | FDef name t d r => TDefault name (s_codec t) d (code_of r)
  end.
(** [C] is the code [C'] under another name of the type. *)
Definition same_encoder {T R} (to : T -> R) (E : enc T) (E' : enc R) : Prop :=
  (forall v, e_size E v = e_size E' (to v)) /\ (forall v, e_enc E v = e_enc E' (to v)).
Definition same_code {T R} (to : T -> R) (of : R -> T) (C : codec T) (C' : codec R) : Prop :=
  (forall v, of (to v) = v) /\ (forall a, to (of a) = a) /\ same_encoder to (c_E C) (c_E C') /\
  (forall md inp fmt, c_D C md inp fmt = map_res of (c_D C' md inp fmt)).
Definition transfer_split (v : transfer_t) : transfer_row * option transfer_body := (transfer_to v, transfer_body_f v).
Definition transfer_joined (r : transfer_row * option transfer_body) : transfer_t := transfer_of (fst r) (snd r).
(** The options of a union. *)
Definition option_of {T} (a : alternative T) : option_ty T :=
  MkOption (d_code (a_D a)) (d_name (a_D a)) (d_inner (a_D a)) (e_size (d_E (a_D a))) (e_enc (d_E (a_D a))) (a_inj a) (a_prj a).
(** A type with a descriptor of its own and the encoding of another type. *)
Definition restricted_D {T} (code : Z) (name : string) (S : tspec T) : dspec T :=
  section_D code name S (template_restricted_size (s_codec S)) (template_restricted_enc code (s_codec S))
    (template_restricted_inner (s_codec S)).
(** The code of an enumeration, which numbers its alternatives. *)
Definition same_enumeration {T} (number : T -> Z) (C : codec T) (C' : codec Z) : Prop :=
  (forall a b, number a = number b -> a = b) /\ same_encoder number (c_E C) (c_E C') /\
  (forall md inp fmt, map_res number (c_D C md inp fmt) = c_D C' md inp fmt).

(** What the template is given for an enumeration: its name, the type of its items and their values. *)
Inductive enumeration_code (name : string) : forall {B}, (B -> bytes -> Prop) -> list B -> codec Z -> Prop :=
| ec_symbol items : enumeration_code name wire_symbol items (template_symbol_enum name items)
| ec_ubyte items : enumeration_code name wire_ubyte items (template_value_enum name u8_C Z.eqb 0 items)
| ec_uint items : enumeration_code name wire_uint items (template_value_enum name u32_C Z.eqb 0 items)
| ec_boolean items : enumeration_code name wire_boolean items (template_value_enum name bool_C Bool.eqb false items).

(** Types that can be generated: from the types of the crate, by the template.  A struct is the tuple of its fields. *)
Definition list_K {R} (code : Z) (name : string) (F : fields R) : composite :=
  MkComposite R R code name F (fun a => a) (fun a => a) (template_list code name (code_of F)) (template_inner (code_of F)).
Definition numbered_S {B} (C : codec Z) (codes : list Z) (w : B -> bytes -> Prop) (items : list B) : tspec Z :=
  MkSpec C (fun i => 0 <= i < zlen items) codes (fun i bs => exists b, 0 <= i /\ nth_error items (Z.to_nat i) = Some b /\ w b bs)
    same always always.
Inductive generated : forall {T}, tspec T -> Prop :=
| gn_type T (S : tspec T) : amqp_type S -> generated S
| gn_list R code name (F : fields R) : 1 <= code < 256 -> field_count F < 2 ^ 32 -> generated_fields F ->
    generated (composite_S (list_K code name F))
| gn_union T (alts : list (alternative T)) :
    NoDup (map (fun a => d_code (a_D a)) alts) -> NoDup (map (fun a => s2b (d_name (a_D a))) alts) ->
    Forall (fun a => forall v x, a_prj a v = Some x <-> v = a_inj a x) alts ->
    ForallOrdPairs (fun a b => forall x, a_prj a (a_inj b x) = None) alts ->
    generated_options alts -> generated (union_S (template_union (map option_of alts)) alts)
| gn_symbols name items : NoDup items -> Forall (fun t => text_ok t /\ zlen t < 256) items ->
    generated (numbered_S (template_symbol_enum name items) symbol_codes wire_symbol items)
| gn_ubytes name items : NoDup items -> Forall (between 0 (2 ^ 8)) items ->
    generated (numbered_S (template_value_enum name u8_C Z.eqb 0 items) [0x50] wire_ubyte items)
| gn_uints name items : NoDup items -> Forall (between 0 (2 ^ 32)) items ->
    generated (numbered_S (template_value_enum name u32_C Z.eqb 0 items) [0x43; 0x52; 0x70] wire_uint items)
| gn_booleans name items : NoDup items ->
    generated (numbered_S (template_value_enum name bool_C Bool.eqb false items) [0x41; 0x42; 0x56] wire_boolean items)
with generated_fields : forall {R}, fields R -> Prop :=
| gf_nil : generated_fields FNil
| gf_req T R name (S : tspec T) (r : fields R) : generated S -> generated_fields r -> generated_fields (FReq name S r)
| gf_opt T R name (S : tspec T) (r : fields R) : generated S -> ~ In 0x40 (s_codes S) -> generated_fields r ->
    generated_fields (FOpt name S r)
| gf_def T R name (S : tspec T) dflt (r : fields R) : generated S -> ~ In 0x40 (s_codes S) -> s_valid S dflt ->
    generated_fields r -> generated_fields (FDef name S dflt r)
with generated_options : forall {T}, list (alternative T) -> Prop :=
| go_nil T : generated_options (@nil (alternative T))
| go_list T R code name (F : fields R) (inj : R -> T) prj r : 1 <= code < 256 -> field_count F < 2 ^ 32 -> generated_fields F ->
    generated_options r -> generated_options (MkAlt (composite_D (list_K code name F)) inj prj :: r)
| go_restricted T X code name (S : tspec X) (inj : X -> T) prj r : 1 <= code < 256 -> generated S ->
    generated_options r -> generated_options (MkAlt (restricted_D code name S) inj prj :: r).

(** ** The tables of the specification

    [rust_type D name S]: the Rust type [name] is [S], by src/types and src/codec, by lines 38-45 and the types below them of
    src/protocol/mod.rs, or by the definitions [D]. *)

(** Literals. *)
Fixpoint decimal (acc : Z) (t : text) (n : Z) : Prop :=
  match t with
  | [] => n = acc
  | c :: r => digit c /\ decimal (10 * acc + (c - 48)) r n
  end.
Inductive item_value : text -> forall {B}, (B -> bytes -> Prop) -> text -> B -> Prop :=
| iv_ubyte t n : t <> [] -> decimal 0 t n -> item_value (s2b "u8") wire_ubyte t n
| iv_uint t n : t <> [] -> decimal 0 t n -> item_value (s2b "u32") wire_uint t n
| iv_false : item_value (s2b "bool") wire_boolean (s2b "false") false
| iv_true : item_value (s2b "bool") wire_boolean (s2b "true") true
| iv_symbol t : item_value (s2b "Symbol") wire_symbol t t.
Definition item_follows (ty : text) {T B} (w : B -> bytes -> Prop) (i : enum_item) (e : T * B) : Prop :=
  item_value ty w (ei_value i) (snd e) /\ ei_value_len i = zlen (ei_value i).
Inductive enum_follows : enum -> forall {T}, tspec T -> list T -> Prop :=
| ef_intro e T B (S : tspec T) (w : B -> bytes -> Prop) (table : list (T * B)) name : enumeration S w table name ->
    en_name e = s2b name -> Forall2 (item_follows (en_ty e) w) (en_items e) table -> enum_follows e S (map fst table).
Inductive literal (D : definitions) : forall {T}, tspec T -> text -> T -> Prop :=
| li_u8 t n : t <> [] -> decimal 0 t n -> 0 <= n < 2 ^ 8 -> literal D u8_S t n
| li_u16 t n : t <> [] -> decimal 0 t n -> 0 <= n < 2 ^ 16 -> literal D u16_S t n
| li_u32 t n : t <> [] -> decimal 0 t n -> 0 <= n < 2 ^ 32 -> literal D u32_S t n
| li_false : literal D bool_S (s2b "false") false
| li_true : literal D bool_S (s2b "true") true
| li_enum e T (S : tspec T) values i it v : In e (df_enums D) -> enum_follows e S values ->
    nth_error (en_items e) i = Some it -> nth_error values i = Some v ->
    literal D S (en_name e ++ s2b "::" ++ ei_name it) v.
Inductive rust_type (D : definitions) : text -> forall {T}, tspec T -> Prop :=
| rt_u8 : rust_type D (s2b "u8") u8_S
| rt_u16 : rust_type D (s2b "u16") u16_S
| rt_u32 : rust_type D (s2b "u32") u32_S
| rt_u64 : rust_type D (s2b "u64") u64_S
| rt_bool : rust_type D (s2b "bool") bool_S
| rt_bytes : rust_type D (s2b "Bytes") bin_S
| rt_bytestr : rust_type D (s2b "ByteStr") bstr_S
| rt_symbol : rust_type D (s2b "Symbol") symbol_S
| rt_uuid : rust_type D (s2b "Uuid") uuid_S
| rt_variant : rust_type D (s2b "Variant") variant_S
| rt_list : rust_type D (s2b "List") list_S
| rt_map : rust_type D (s2b "Map") vmap_S
| rt_string_map : rust_type D (s2b "StringVariantMap") string_variant_map_S
| rt_fields : rust_type D (s2b "Fields") fields_S
| rt_filter_set : rust_type D (s2b "FilterSet") filter_set_S
| rt_timestamp : rust_type D (s2b "Timestamp") datetime_S
| rt_symbols : rust_type D (s2b "Symbols") symbols_S
| rt_language_tags : rust_type D (s2b "IetfLanguageTag") symbol_S -> rust_type D (s2b "IetfLanguageTags") symbols_S
| rt_annotations : rust_type D (s2b "Annotations") fields_S
| rt_message_id : rust_type D (s2b "MessageId") message_id_S
| rt_error_condition : rust_type D (s2b "ErrorCondition") error_condition_S
| rt_distribution_mode : rust_type D (s2b "DistributionMode") distribution_mode_S
| rt_alias a T (S : tspec T) : In a (df_aliases D) -> rust_type D (al_source a) S -> rust_type D (al_name a) S
| rt_enum e T (S : tspec T) values : In e (df_enums D) -> enum_follows e S values -> rust_type D (en_name e) S
| rt_struct l K : In l (df_lists D) -> list_follows D l K -> rust_type D (ds_name l) (composite_S K)
| rt_union p T C (alts : list (alternative T)) : In p (df_provides D) -> pe_described p = true ->
    options_follow D (pe_options p) alts -> rust_type D (pe_name p) (union_S C alts)
with list_follows (D : definitions) : described -> composite -> Prop :=
| lf_intro l K : s2b (k_name K) = de_name (ds_descriptor l) -> k_code K = de_code (ds_descriptor l) -> ds_transfer l = false ->
    fields_follow D (ds_fields l) (k_fields K) -> list_follows D l K
with fields_follow (D : definitions) : list field -> forall {R}, fields R -> Prop :=
| ff_nil : fields_follow D [] FNil
| ff_opt f r T R name (S : tspec T) (F : fields R) : fi_optional f = true -> fi_name f = s2b name -> rust_type D (fi_ty f) S ->
    fields_follow D r F -> fields_follow D (f :: r) (FOpt name S F)
| ff_def f r T R name (S : tspec T) dflt (F : fields R) : fi_optional f = false -> fi_name f = s2b name -> rust_type D (fi_ty f) S ->
    literal D S (fi_default f) dflt -> fields_follow D r F -> fields_follow D (f :: r) (FDef name S dflt F)
| ff_req f r T R name (S : tspec T) (F : fields R) : fi_optional f = false -> fi_default f = [] -> fi_name f = s2b name ->
    rust_type D (fi_ty f) S -> fields_follow D r F -> fields_follow D (f :: r) (FReq name S F)
with options_follow (D : definitions) : list provides_item -> forall {T}, list (alternative T) -> Prop :=
| of_nil T : options_follow D [] (@nil (alternative T))
| of_list o r T l K (inj : k_T K -> T) prj alts : In l (df_lists D) -> ds_name l = pi_ty o -> ds_descriptor l = pi_descriptor o ->
    list_follows D l K -> options_follow D r alts -> options_follow D (o :: r) (MkAlt (composite_D K) inj prj :: alts)
| of_transfer o r T l (inj : transfer_t -> T) prj alts : In l (df_lists D) -> ds_name l = pi_ty o -> ds_descriptor l = pi_descriptor o ->
    s2b "amqp:transfer:list" = de_name (pi_descriptor o) -> 0x14 = de_code (pi_descriptor o) -> ds_transfer l = true ->
    fields_follow D (ds_fields l) transfer_table -> options_follow D r alts ->
    options_follow D (o :: r) (MkAlt transfer_D inj prj :: alts)
| of_restricted o r T l X code name (S : tspec X) size enc inner (inj : X -> T) prj alts :
    In l (df_described_restricted D) -> ds_name l = pi_ty o -> ds_descriptor l = pi_descriptor o ->
    s2b name = de_name (pi_descriptor o) -> code = de_code (pi_descriptor o) -> rust_type D (ds_ty l) S ->
    options_follow D r alts -> options_follow D (o :: r) (MkAlt (section_D code name S size enc inner) inj prj :: alts).
(** All the definitions. *)
Definition union_follows (D : definitions) (p : provides_enum) : Prop :=
  (pe_name p = s2b "SaslFrameBody" /\ pe_described p = true /\ options_follow D (pe_options p) sasl_frame_body_alts) \/
  (pe_name p = s2b "Section" /\ pe_described p = true /\ options_follow D (pe_options p) section_alts) \/
  (pe_name p = s2b "DeliveryState" /\ pe_described p = true /\ options_follow D (pe_options p) delivery_state_alts) \/
  (pe_name p = s2b "Outcome" /\ pe_described p = true /\ options_follow D (pe_options p) outcome_alts) \/
  (pe_name p = s2b "Frame" /\ pe_described p = false /\ options_follow D (pe_options p) frame_alts) \/
  (pe_name p = s2b "MessageId" /\ pe_described p = false) \/
  (pe_name p = s2b "ErrorCondition" /\ pe_described p = false).
Definition struct_follows (D : definitions) (l : described) : Prop :=
  (exists K, In K all_composites /\ list_follows D l K) \/
  (ds_transfer l = true /\ fields_follow D (ds_fields l) transfer_table).

(** ** What Rust asks of the generated code *)

(** Names, of the characters that appear here. *)
Definition letter (c : Z) : Prop := small_letter c \/ capital_letter c.
Definition identifier (t : text) : Prop := exists c r, t = c :: r /\ letter c /\ Forall (fun x => letter x \/ digit x \/ x = 95) r.
Definition rust_keywords : list text := map s2b
  ["as"; "break"; "const"; "continue"; "crate"; "dyn"; "else"; "enum"; "extern"; "false"; "fn"; "for"; "if"; "impl"; "in"; "let"; "loop";
   "match"; "mod"; "move"; "mut"; "pub"; "ref"; "return"; "self"; "Self"; "static"; "struct"; "super"; "trait"; "true"; "type"; "unsafe";
   "use"; "where"; "while"; "async"; "await"; "abstract"; "become"; "box"; "do"; "final"; "macro"; "override"; "priv"; "typeof"; "unsized";
   "virtual"; "yield"; "try"].
Definition usable (t : text) : Prop := identifier t /\ ~ In t rust_keywords.
(** Types that are [Copy], so that their fields can be given out by value: those of Rust, [DateTime], and the enumerations. *)
Inductive copyable (D : definitions) : text -> Prop :=
| cp_plain s : In s ["u8"; "u16"; "u32"; "u64"; "bool"; "Timestamp"] -> copyable D (s2b s)
| cp_enum e : In e (df_enums D) -> copyable D (en_name e)
| cp_alias a : In a (df_aliases D) -> copyable D (al_source a) -> copyable D (al_name a).
Definition struct_accepted (D : definitions) (l : described) : Prop :=
  usable (ds_name l) /\ NoDup (map fi_name (ds_fields l)) /\ Forall usable (map fi_name (ds_fields l)) /\
  (ds_transfer l = true -> ~ In (s2b "body") (map fi_name (ds_fields l))) /\
  Forall (fun f => fi_is_ref f = true \/ copyable D (fi_ty f)) (ds_fields l).
Definition enum_accepted (e : enum) : Prop :=
  usable (en_name e) /\ NoDup (map ei_name (en_items e)) /\ NoDup (map ei_value (en_items e)) /\ Forall usable (map ei_name (en_items e)).
Definition union_accepted (u : provides_enum) : Prop :=
  usable (pe_name u) /\ NoDup (map pi_ty (pe_options u)) /\ Forall usable (map pi_ty (pe_options u)) /\
  (pe_described u = true -> NoDup (map (fun i => de_code (pi_descriptor i)) (pe_options u)) /\
                            NoDup (map (fun i => de_name (pi_descriptor i)) (pe_options u))).
Definition accepted (upper : Z -> bool) (D : definitions) : Prop :=
  Forall (struct_accepted D) (df_lists D) /\ Forall enum_accepted (df_enums D) /\ Forall union_accepted (df_provides D) /\
  Forall usable (map al_name (df_aliases D)) /\ Forall usable (map ds_name (df_described_restricted D)) /\
  exists functions, Forall2 (member_name upper) (map ds_name (df_lists D ++ df_described_restricted D)) functions /\ NoDup functions /\
    Forall usable functions.
