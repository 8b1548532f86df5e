(** Model of the code generator: /repo/codegen/mod.rs, from the parsed JSON of the specification to the data given to the
    template.  The meaning of the template itself is in Template.v, the specification file in SpecJson.v.

    A Rust [String] is the list of its characters (code points).  [serde_json::from_str] is modelled from the JSON value on;
    the reading of a JSON value as a struct follows what serde derives: entries in order, unknown keys skipped, a repeated
    key or a wrong type is an error.  Simplification: a struct given as a JSON array (which serde reads by position) is an
    error here.  [char::is_uppercase] outside ASCII is the parameter [upper]. *)

From Coq Require Import String.
From Verif Require Import Base.
Open Scope string_scope.
Open Scope list_scope.
Open Scope Z_scope.

Definition text := list Z.
Definition text_eqb : text -> text -> bool := bytes_eqb.
Definition is (t : text) (literal : string) : bool := text_eqb t (s2b literal).

(** Why the build script stops. *)
Inductive gpanic :=
| GPSpec     (* "Failed to parse AMQP spec." *)
| GPBool     (* "Error parsing bool from string" *)
| GPAssert   (* assert!(p.starts_with("0x")) *)
| GPRadix    (* "malformed descriptor code" *)
| GPIndex.   (* code_parts[1] *)
Inductive gres (A : Type) := GOk (a : A) | GErr | GPanic (p : gpanic).
Arguments GOk {A}. Arguments GErr {A}. Arguments GPanic {A}.
Definition gbind {A B} (x : gres A) (f : A -> gres B) : gres B :=
  match x with GOk a => f a | GErr => GErr | GPanic p => GPanic p end.
Notation "x <-- a ;; b" := (gbind a (fun x => b)) (at level 61, a at next level, right associativity).
Notation "' p <-- a ;; b" := (gbind a (fun p => b)) (at level 61, p pattern, a at next level, right associativity).
Fixpoint gmap {A B} (f : A -> gres B) (l : list A) : gres (list B) :=
  match l with
  | [] => GOk []
  | x :: r => y <-- f x ;; s <-- gmap f r ;; GOk (y :: s)
  end.

(** ** JSON values and serde *)
Inductive json :=
| JNull | JBool (b : bool) | JInt (n : Z) | JFloat
| JStr (s : text)
| JArr (l : list json)
| JObj (l : list (text * json)).

(** [String], [Option<String>], [usize] and [Vec<T>] *)
Definition de_string (j : json) : gres text := match j with JStr s => GOk s | _ => GErr end.
Definition de_opt_string (j : json) : gres (option text) :=
  match j with JNull => GOk None | JStr s => GOk (Some s) | _ => GErr end.
Definition de_usize (j : json) : gres Z :=
  match j with JInt n => if (0 <=? n) && (n <? 2 ^ 64) then GOk n else GErr | _ => GErr end.
Definition de_vec {A} (f : json -> gres A) (j : json) : gres (list A) :=
  match j with JArr l => gmap f l | _ => GErr end.
(** [string_as_bool]: lines 422-430. *)
Definition de_string_as_bool (j : json) : gres bool :=
  s <-- de_string j ;;
  if is s "true" then GOk true else if is s "false" then GOk false else GPanic GPBool.

(** What serde derives for a struct: [step] puts the value of a known key in its slot. *)
Definition de_struct {S} (step : text -> json -> S -> gres S) (init : S) (j : json) : gres S :=
  match j with
  | JObj l => fold_left (fun acc kv => s <-- acc ;; step (fst kv) (snd kv) s) l (GOk init)
  | _ => GErr
  end.
Definition set_slot {A} (slot : option A) (v : gres A) : gres (option A) :=
  match slot with Some _ => GErr | None => a <-- v ;; GOk (Some a) end.
Definition required {A} (slot : option A) : gres A := match slot with Some a => GOk a | None => GErr end.
Definition or_default {A} (d : A) (slot : option A) : A := match slot with Some a => a | None => d end.

(** [_Descriptor]: lines 76-80. *)
Record raw_descriptor := MkRawDescriptor { rd_name : text; rd_code : text }.
Definition de_descriptor (j : json) : gres raw_descriptor :=
  '(n, c) <-- de_struct (fun k v '(n, c) =>
     if is k "name" then x <-- set_slot n (de_string v) ;; GOk (x, c)
     else if is k "code" then x <-- set_slot c (de_string v) ;; GOk (n, x)
     else GOk (n, c)) (None, None) j ;;
  n' <-- required n ;; c' <-- required c ;; GOk (MkRawDescriptor n' c').

(** [EnumItem]: lines 130-136 (both what is read and what is given to the template). *)
Record enum_item := MkEnumItem { ei_name : text; ei_value : text; ei_value_len : Z }.
Definition de_enum_item (j : json) : gres enum_item :=
  '(n, v, l) <-- de_struct (fun k j '(n, v, l) =>
     if is k "name" then x <-- set_slot n (de_string j) ;; GOk (x, v, l)
     else if is k "value" then x <-- set_slot v (de_string j) ;; GOk (n, x, l)
     else if is k "value_len" then x <-- set_slot l (de_usize j) ;; GOk (n, v, x)
     else GOk (n, v, l)) (None, None, None) j ;;
  n' <-- required n ;; v' <-- required v ;; GOk (MkEnumItem n' v' (or_default 0 l)).

(** [_Enum]: lines 82-88. *)
Record raw_enum := MkRawEnum { re_name : text; re_source : text; re_provides : option text; re_choice : list enum_item }.
Definition de_enum (j : json) : gres raw_enum :=
  '(n, s, p, c) <-- de_struct (fun k j '(n, s, p, c) =>
     if is k "name" then x <-- set_slot n (de_string j) ;; GOk (x, s, p, c)
     else if is k "source" then x <-- set_slot s (de_string j) ;; GOk (n, x, p, c)
     else if is k "provides" then x <-- set_slot p (de_opt_string j) ;; GOk (n, s, x, c)
     else if is k "choice" then x <-- set_slot c (de_vec de_enum_item j) ;; GOk (n, s, p, x)
     else GOk (n, s, p, c)) (None, None, None, None) j ;;
  n' <-- required n ;; s' <-- required s ;; c' <-- required c ;; GOk (MkRawEnum n' s' (or_default None p) c').

(** [_Field]: lines 101-114. *)
Record raw_field := MkRawField { rf_name : text; rf_ty : text; rf_mandatory : bool; rf_default : option text; rf_multiple : bool;
  rf_requires : option text }.
Definition de_field (j : json) : gres raw_field :=
  '(n, t, m, d, u, r) <-- de_struct (fun k j '(n, t, m, d, u, r) =>
     if is k "name" then x <-- set_slot n (de_string j) ;; GOk (x, t, m, d, u, r)
     else if is k "type" then x <-- set_slot t (de_string j) ;; GOk (n, x, m, d, u, r)
     else if is k "mandatory" then x <-- set_slot m (de_string_as_bool j) ;; GOk (n, t, x, d, u, r)
     else if is k "default" then x <-- set_slot d (de_opt_string j) ;; GOk (n, t, m, x, u, r)
     else if is k "multiple" then x <-- set_slot u (de_string_as_bool j) ;; GOk (n, t, m, d, x, r)
     else if is k "requires" then x <-- set_slot r (de_opt_string j) ;; GOk (n, t, m, d, u, x)
     else GOk (n, t, m, d, u, r)) (None, None, None, None, None, None) j ;;
  n' <-- required n ;; t' <-- required t ;;
  GOk (MkRawField n' t' (or_default false m) (or_default None d) (or_default false u) (or_default None r)).

(** [_Described]: lines 90-99. *)
Record raw_described := MkRawDescribed { rl_name : text; rl_class : text; rl_source : text; rl_provides : option text;
  rl_descriptor : raw_descriptor; rl_field : list raw_field }.
Definition de_described (j : json) : gres raw_described :=
  '(n, c, s, p, d, f) <-- de_struct (fun k j '(n, c, s, p, d, f) =>
     if is k "name" then x <-- set_slot n (de_string j) ;; GOk (x, c, s, p, d, f)
     else if is k "class" then x <-- set_slot c (de_string j) ;; GOk (n, x, s, p, d, f)
     else if is k "source" then x <-- set_slot s (de_string j) ;; GOk (n, c, x, p, d, f)
     else if is k "provides" then x <-- set_slot p (de_opt_string j) ;; GOk (n, c, s, x, d, f)
     else if is k "descriptor" then x <-- set_slot d (de_descriptor j) ;; GOk (n, c, s, p, x, f)
     else if is k "field" then x <-- set_slot f (de_vec de_field j) ;; GOk (n, c, s, p, d, x)
     else GOk (n, c, s, p, d, f)) (None, None, None, None, None, None) j ;;
  n' <-- required n ;; c' <-- required c ;; s' <-- required s ;; d' <-- required d ;;
  GOk (MkRawDescribed n' c' s' (or_default None p) d' (or_default [] f)).

(** [_Alias]: lines 116-121. *)
Record raw_alias := MkRawAlias { ra_name : text; ra_source : text; ra_provides : option text }.
Definition de_alias (j : json) : gres raw_alias :=
  '(n, s, p) <-- de_struct (fun k j '(n, s, p) =>
     if is k "name" then x <-- set_slot n (de_string j) ;; GOk (x, s, p)
     else if is k "source" then x <-- set_slot s (de_string j) ;; GOk (n, x, p)
     else if is k "provides" then x <-- set_slot p (de_opt_string j) ;; GOk (n, s, x)
     else GOk (n, s, p)) (None, None, None) j ;;
  n' <-- required n ;; s' <-- required s ;; GOk (MkRawAlias n' s' (or_default None p)).

(** [_Type]: lines 68-74. Untagged: the first of the three that can be read. *)
Inductive raw_type := TChoice (e : raw_enum) | TDescribed (d : raw_described) | TAlias (a : raw_alias).
Definition or_else {A} (x y : gres A) : gres A := match x with GErr => y | _ => x end.
Definition de_type (j : json) : gres raw_type :=
  or_else (e <-- de_enum j ;; GOk (TChoice e))
  (or_else (d <-- de_described j ;; GOk (TDescribed d))
           (a <-- de_alias j ;; GOk (TAlias a))).

(** ** Names *)

(** [ch == '-' || ch == '_' || ch == ' ']: lines 435 and 459. *)
Definition is_separator (ch : Z) : bool := (ch =? 45) || (ch =? 95) || (ch =? 32).
Definition to_ascii_uppercase (ch : Z) : Z := if (97 <=? ch) && (ch <=? 122) then ch - 32 else ch.
Definition to_ascii_lowercase (ch : Z) : Z := if (65 <=? ch) && (ch <=? 90) then ch + 32 else ch.

(** [camel_case]: lines 432-448. The state is [new_word] and [result]. *)
Definition camel_step (st : bool * text) (ch : Z) : bool * text :=
  let (new_word, result) := st in
  if is_separator ch then (true, result)
  else (false, result ++ [if new_word then to_ascii_uppercase ch else ch]).
Definition camel_case (name : text) : text := snd (fold_left camel_step name (true, [])).

Section Upper.
  Variable upper : Z -> bool.
  Definition is_uppercase (ch : Z) : bool := if ch <? 128 then (65 <=? ch) && (ch <=? 90) else upper ch.

  (** [snake_case]: lines 450-478. The state is [new_word], [last_was_upper] and [result]. *)
  Definition snake_step (st : bool * bool * text) (ch : Z) : bool * bool * text :=
    let '(new_word, last_was_upper, result) := st in
    if is_separator ch then (true, last_was_upper, result)
    else
      let uppercase := is_uppercase ch in
      let '(new_word1, result1) :=
        if new_word || (negb last_was_upper && negb (match result with [] => true | _ => false end) && uppercase)
        then (false, result ++ [95]) else (new_word, result) in
      (new_word1, uppercase, result1 ++ [if uppercase then to_ascii_lowercase ch else ch]).
  Definition snake_case (name : text) : text :=
    if is name "type" then s2b "type_"
    else if is name "return" then s2b "return_"
    else snd (fold_left snake_step name (false, false, [])).

  (** [PRIMITIVE_TYPES]: lines 8-19. *)
  Definition primitive_type (ty : text) : option text :=
    if is ty "*" then Some (s2b "Variant")
    else if is ty "binary" then Some (s2b "Bytes")
    else if is ty "string" then Some (s2b "ByteStr")
    else if is ty "ubyte" then Some (s2b "u8")
    else if is ty "ushort" then Some (s2b "u16")
    else if is ty "uint" then Some (s2b "u32")
    else if is ty "ulong" then Some (s2b "u64")
    else if is ty "boolean" then Some (s2b "bool")
    else None.
  (** [get_type_name]: lines 396-404. *)
  Definition get_type_name (ty : text) (req : option text) : text :=
    match req with
    | Some t => camel_case t
    | None => match primitive_type ty with Some p => p | None => camel_case ty end
    end.

  (** [str::split(c)] *)
  Fixpoint split_on (c : Z) (s : text) : list text :=
    match s with
    | [] => [[]]
    | x :: r => if x =? c then [] :: split_on c r
                else match split_on c r with [] => [[x]] | p :: ps => (x :: p) :: ps end
    end.
  (** [str::split_terminator(c)]: the same without an empty last part. *)
  Definition split_terminator (c : Z) (s : text) : list text :=
    let parts := split_on c s in
    match rev parts with [] :: r => rev r | _ => parts end.
  (** [char::is_whitespace] and [str::trim] *)
  Definition is_whitespace (ch : Z) : bool :=
    ((9 <=? ch) && (ch <=? 13)) || (ch =? 32) || (ch =? 0x85) || (ch =? 0xA0) || (ch =? 0x1680)
    || ((0x2000 <=? ch) && (ch <=? 0x200A)) || (ch =? 0x2028) || (ch =? 0x2029) || (ch =? 0x202F) || (ch =? 0x205F) || (ch =? 0x3000).
  Fixpoint trim_start (s : text) : text :=
    match s with x :: r => if is_whitespace x then trim_start r else s | [] => [] end.
  Definition trim (s : text) : text := rev (trim_start (rev (trim_start s))).
  (** [parse_provides]: lines 406-420. *)
  Definition parse_provides (p : option text) : list text :=
    match p with
    | None => []
    | Some v => flat_map (fun s => match trim s with [] => [] | t => [camel_case t] end) (split_terminator 44 v)
    end.

  (** ** What is given to the template *)
  Record alias := MkAlias { al_name : text; al_source : text; al_provides : list text }.       (* lines 123-128 *)
  Record enum := MkEnum { en_name : text; en_ty : text; en_provides : list text; en_items : list enum_item; en_is_symbol : bool }.
                                                                                                (* lines 160-167 *)
  Record descr := MkDescr { de_name : text; de_domain : Z; de_code : Z }.                       (* lines 179-184 *)
  Record field := MkField { fi_name : text; fi_ty : text; fi_is_str : bool; fi_is_ref : bool; fi_optional : bool;
    fi_default : text; fi_multiple : bool }.                                                    (* lines 186-195 *)
  Record described := MkDescribed { ds_name : text; ds_ty : text; ds_provides : list text; ds_descriptor : descr;
    ds_fields : list field; ds_transfer : bool }.                                               (* lines 169-177 *)
  Record provides_item := MkProvidesItem { pi_ty : text; pi_descriptor : descr }.               (* lines 154-158 *)
  Record provides_enum := MkProvidesEnum { pe_name : text; pe_described : bool; pe_options : list provides_item }.
                                                                                                (* lines 147-152 *)
  Record definitions := MkDefinitions { df_aliases : list alias; df_enums : list enum; df_lists : list described;
    df_described_restricted : list described; df_provides : list provides_enum }.               (* lines 138-145 *)

  (** [Alias::from]: lines 289-297. *)
  Definition alias_from (a : raw_alias) : alias :=
    MkAlias (camel_case (ra_name a)) (get_type_name (ra_source a) None) (parse_provides (ra_provides a)).

  (** [String::len] of a text: its bytes in UTF-8. *)
  Definition char_len (c : Z) : Z := if c <? 0x80 then 1 else if c <? 0x800 then 2 else if c <? 0x10000 then 3 else 4.
  Definition text_len (t : text) : Z := zsum char_len t.
  (** [Enum::from]: lines 299-319. *)
  Definition enum_from (e : raw_enum) : enum :=
    let ty := get_type_name (re_source e) None in
    MkEnum (camel_case (re_name e)) ty (parse_provides (re_provides e))
      (map (fun c => MkEnumItem (camel_case (ei_name c)) (ei_value c) (text_len (ei_value c))) (re_choice e))
      (is ty "Symbol").

  (** [u32::from_str_radix(s, 16)]: an optional sign [+], at least one digit, less than 2^32. *)
  Definition hex_digit (c : Z) : option Z :=
    if (48 <=? c) && (c <=? 57) then Some (c - 48)
    else if (97 <=? c) && (c <=? 102) then Some (c - 87)
    else if (65 <=? c) && (c <=? 70) then Some (c - 55)
    else None.
  Fixpoint hex_value (acc : Z) (s : text) : option Z :=
    match s with
    | [] => Some acc
    | c :: r =>
      match hex_digit c with
      | Some d => let v := acc * 16 + d in if v <? 2 ^ 32 then hex_value v r else None
      | None => None
      end
    end.
  Definition u32_from_hex (s : text) : option Z :=
    match s with
    | [] => None
    | c :: r => if c =? 43 then match r with [] => None | _ => hex_value 0 r end else hex_value 0 s
    end.
  (** [Descriptor::from]: lines 345-361. *)
  Definition code_part (p : text) : gres Z :=
    match p with
    | c0 :: c1 :: r =>
      if (c0 =? 48) && (c1 =? 120) then match u32_from_hex r with Some v => GOk v | None => GPanic GPRadix end
      else GPanic GPAssert
    | _ => GPanic GPAssert
    end.
  Definition descr_from (d : raw_descriptor) : gres descr :=
    parts <-- gmap code_part (split_on 58 (rd_code d)) ;;
    match parts with
    | domain :: code :: _ => GOk (MkDescr (rd_name d) domain code)
    | _ => GPanic GPIndex
    end.

  (** [REF_TYPES] and [ENUM_TYPES] after [parse]: lines 21-44 and 47-66. *)
  Definition initial_ref_types : list text := map s2b
    ["Bytes"; "ByteStr"; "Symbol"; "Fields"; "Map"; "MessageId"; "Address"; "NodeProperties"; "Outcome"; "DeliveryState";
     "FilterSet"; "DeliveryTag"; "Symbols"; "IetfLanguageTags"; "ErrorCondition"; "DistributionMode"].
  Definition ref_types (types : list raw_type) : list text :=
    initial_ref_types ++ flat_map (fun t => match t with TDescribed l => if is (rl_source l) "list" then [camel_case (rl_name l)] else [] | _ => [] end) types.
  Definition enum_types (types : list raw_type) : list text :=
    flat_map (fun t => match t with TChoice e => [camel_case (re_name e)] | _ => [] end) types.
  Definition contains (set : list text) (t : text) : bool := existsb (text_eqb t) set.

  (** [Field::format_default]: lines 382-393. *)
  Definition format_default (enums : list text) (default : option text) (ty : text) : text :=
    match default with
    | None => []
    | Some def => if contains enums ty then ty ++ s2b "::" ++ camel_case def else def
    end.
  (** [Field::from]: lines 362-380. [STRING_TYPES] is line 20. *)
  Definition field_from (refs enums : list text) (f : raw_field) : field :=
    let ty0 := get_type_name (rf_ty f) (rf_requires f) in
    let ty := if rf_multiple f then ty0 ++ [115] else ty0 in
    let default := format_default enums (rf_default f) ty in
    MkField (snake_case (rf_name f)) ty
      (contains [s2b "string"; s2b "symbol"] ty && negb (rf_multiple f))
      (contains refs ty)
      (negb (rf_mandatory f) && match default with [] => true | _ => false end)
      default (rf_multiple f).

  (** [Described::list] and [Described::alias]: lines 321-343. *)
  Definition described_list (refs enums : list text) (d : raw_described) : gres described :=
    descriptor <-- descr_from (rl_descriptor d) ;;
    GOk (MkDescribed (camel_case (rl_name d)) [] (parse_provides (rl_provides d)) descriptor
           (map (field_from refs enums) (rl_field d)) (is (rl_name d) "transfer")).
  Definition described_alias (refs enums : list text) (d : raw_described) : gres described :=
    descriptor <-- descr_from (rl_descriptor d) ;;
    GOk (MkDescribed (camel_case (rl_name d)) (get_type_name (rl_source d) None) (parse_provides (rl_provides d)) descriptor
           (map (field_from refs enums) (rl_field d)) false).

  (** [Definitions::register_provides]: lines 268-286. The map is a list, in the order of first insertion. *)
  Definition provide_map := list (text * list provides_item).
  Fixpoint entry_push (m : provide_map) (k : text) (i : provides_item) : provide_map :=
    match m with
    | [] => [(k, [i])]
    | (k', l) :: r => if text_eqb k' k then (k', l ++ [i]) :: r else (k', l) :: entry_push r k i
    end.
  Definition register_provides (m : provide_map) (name : text) (descriptor : option descr) (provides : list text) : provide_map :=
    fold_left (fun m p => entry_push m p (MkProvidesItem name (or_default (MkDescr [] 0 0) descriptor))) provides m.

  (** [Definitions::from]: lines 198-266. One step of the loop, on (aliases, enums, lists, described_restricted, provide_map). *)
  Definition from_state : Type := list alias * list enum * list described * list described * provide_map.
  Definition from_step (refs enum_names : list text) (st : from_state) (t : raw_type) : gres from_state :=
    let '(aliases, enums, lists, restricted, m) := st in
    match t with
    | TAlias a =>
      if negb (is (ra_source a) "map") then
        let al := alias_from a in
        GOk (aliases ++ [al], enums, lists, restricted, register_provides m (al_name al) None (al_provides al))
      else GOk st
    | TChoice e =>
      let en := enum_from e in
      GOk (aliases, enums ++ [en], lists, restricted, register_provides m (en_name en) None (en_provides en))
    | TDescribed d =>
      if is (rl_source d) "list" && negb (is (rl_class d) "restricted") then
        ls <-- described_list refs enum_names d ;;
        GOk (aliases, enums, lists ++ [ls], restricted, register_provides m (ds_name ls) (Some (ds_descriptor ls)) (ds_provides ls))
      else if is (rl_class d) "restricted" then
        ls <-- described_alias refs enum_names d ;;
        GOk (aliases, enums, lists, restricted ++ [ls], register_provides m (ds_name ls) (Some (ds_descriptor ls)) (ds_provides ls))
      else GOk st
    end.
  Fixpoint from_loop (refs enum_names : list text) (st : from_state) (types : list raw_type) : gres from_state :=
    match types with
    | [] => GOk st
    | t :: r => st' <-- from_step refs enum_names st t ;; from_loop refs enum_names st' r
    end.
  (** The filter at the end: lines 241-257. The order of [provides] is that of a HashMap, hence unspecified; here it is the
      order of first insertion. *)
  Definition provides_of (m : provide_map) : list provides_enum :=
    flat_map (fun kv : text * list provides_item => let (k, v) := kv in
      if zlen v =? 1 then []
      else [MkProvidesEnum k (if is k "Frame" then false else existsb (fun i => negb (de_code (pi_descriptor i) =? 0)) v) v]) m.
  Definition definitions_from (types : list raw_type) : gres definitions :=
    '(aliases, enums, lists, restricted, m) <-- from_loop (ref_types types) (enum_types types) ([], [], [], [], []) types ;;
    GOk (MkDefinitions aliases enums lists restricted (provides_of m)).

  (** [parse]: lines 47-66, from the JSON value on. *)
  Definition parse (spec : json) : gres definitions :=
    types <-- (match de_vec de_type spec with GErr => GPanic GPSpec | r => r end) ;;
    definitions_from types.
End Upper.
