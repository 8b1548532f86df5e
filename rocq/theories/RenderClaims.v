(** C80: the text that the build script writes.  [upper] is what char::is_uppercase says of characters outside ASCII. *)

From Coq Require Import String.
From Verif Require Import Base Codegen SpecJson SpecFacts Display Handlebars RepoText RenderSpec RenderFacts DeclFacts BlankFacts WholeFacts.
Open Scope string_scope.
Open Scope list_scope.
Open Scope Z_scope.

(** Rendering the template of the repository never meets a path that leads nowhere. *)
Theorem C80_renders : forall upper D, exists t, generated upper true template_text D = Some t.
Proof. exact (fun upper => template_renders upper true). Qed.
Print Assumptions C80_renders.
(** A template that asks for something else does. *)
Example ex_no_field : exists t, generated (fun _ => false) true (s2b "{{#each defs.lists as |list|}}{{list.title}}{{/each}}") D0 = t /\ t = None.
Proof. eexists. split; vm_compute; reflexivity. Qed.

(** One block for each definition, in the order of the definitions; what is written for one does not depend on the others. *)
Theorem C80_blocks : forall upper, exists t0 t1 t2 t3 t4 t5 (U : provides_enum -> text) (A : alias -> text) (E : enum -> text) (R L : described -> text),
  forall D, generated upper true template_text D =
    Some (t0 ++ flat_map U (df_provides D) ++ t1 ++ flat_map A (df_aliases D) ++ t2 ++ flat_map E (df_enums D) ++ t3 ++
          flat_map R (df_described_restricted D) ++ t4 ++ flat_map L (df_lists D) ++ t5).
Proof. exact (fun upper => template_blocks upper true). Qed.
Print Assumptions C80_blocks.

(** The escaping of [{{path}}], meant for HTML, changes nothing as long as no name, type or default has a quote, an ampersand or an
    angle bracket. *)
Theorem C80_unescaped : forall upper D, without """&<>" D -> generated upper true template_text D = generated upper false template_text D.
Proof. exact template_unescaped. Qed.
Print Assumptions C80_unescaped.
Example ex_without_marks : without """&<>" D0.
Proof. apply (without_ok """&<>"). vm_compute. reflexivity. Qed.
(** It would change [Vec<u8>] as the source of an alias. *)
Definition with_angles : definitions := MkDefinitions [MkAlias (s2b "Data") (s2b "Vec<u8>") []] [] [] [] [].
Example ex_escaped : marks (generated (fun _ => false) true template_text with_angles) (s2b "pub type Data = Vec&lt;u8&gt;;") = true /\
  marks (generated (fun _ => false) false template_text with_angles) (s2b "pub type Data = Vec<u8>;") = true.
Proof. vm_compute. split; reflexivity. Qed.

Example ex_each_mark : generated (fun _ => false) true (s2b "{{#each defs.aliases as |x|}}{{x.source}}{{{x.source}}}{{/each}}")
    (MkDefinitions [MkAlias [] (s2b "a""b&c<d>e'") []] [] [] [] []) = Some (s2b "a&quot;b&amp;c&lt;d&gt;e'a""b&c<d>e'" ++ [10]).
Proof. vm_compute. reflexivity. Qed.
(** Tags that are not well formed. *)
Example ex_tags : map (fun t => generated (fun _ => false) true (s2b t) with_angles)
    ["{{#each defs.aliases of |x|}}{{/each}}"; "{{#with defs.aliases as |x|}}{{/each}}"; "{{#each defs.aliases as ~x|}}{{/each}}"; "{{#each defs.aliases as |x~}}{{/each}}";
     "{{#each defs.aliases as |x|}}{{/if}}"; "{{#if defs.aliases}}"; "{{/if}}"; "{{else}}"; "{{#each defs as |x|}}{{/each}}";
     "{{#if defs}a}}x{{/if}}"; "{{#if defs}~x{{/if}}"; "{{#if defs~}x{{/if}}"; "{{#each defs.aliases as |x|}}{{x.source}a}}{{/each}}"; "{{#each defs.aliases as |x|}}{{x.source~}y{{/each}}"] = repeat None 14 /\
  generated (fun _ => false) true (s2b "{{#if defs}}a{{else}}b{{/if}}{{#if defs.enums}}a{{else}}b{{/if}}") with_angles = Some (s2b "ab" ++ [10]).
Proof. vm_compute. split; reflexivity. Qed.

(** What is written for each definition, up to blanks: its declaration with all its fields or options in their order; the descriptor
    it is written and recognised with; all its fields, in their order, in the size and in what is written. *)
Theorem C80_declares : forall upper D t, without """&<>" D -> generated upper true template_text D = Some t ->
  (forall p, In p (df_provides D) -> pe_described p = true -> declares t (union_text p)) /\
  (forall a, In a (df_aliases D) -> declares t (alias_text a)) /\
  (forall e, In e (df_enums D) -> declares t (enum_text e)) /\
  (forall d, In d (df_described_restricted D) -> declares t (restricted_text d) /\
     declares t (encoder_text "dr" d (snake_case upper (ds_name d)) (decimal (de_code (ds_descriptor d))))) /\
  (forall d, In d (df_lists D) -> declares t (struct_text d) /\ declares t (match_text d (decimal (de_code (ds_descriptor d)))) /\
     declares t (encoder_text "list" d (snake_case upper (ds_name d)) (decimal (de_code (ds_descriptor d)))) /\
     declares t (sizes_text d) /\ declares t (writes_text d)).
Proof. exact whole_declares. Qed.
Print Assumptions C80_declares.
Example ex_declared : struct_text (MkDescribed (s2b "Close") (s2b "list") [] (MkDescr (s2b "amqp:close:list") 0 24)
    [MkField (s2b "error") (s2b "Error") false true true [] false] false) = s2b "pub struct Close {pub error: Option<Error>, }" /\
  existsb (fun d => text_eqb (ds_name d) (s2b "Close") && text_eqb (struct_text d) (s2b "pub struct Close {pub error: Option<Error>, }")) (df_lists D0) = true.
Proof. vm_compute. split; reflexivity. Qed.

(** The functions written for each definition, whole (see RenderSpec): reading and writing of unions, enumerations, described restricted
    types and structs. *)
Theorem C80_functions : forall upper D t, without """&<>" D -> generated upper true template_text D = Some t ->
  let snake := snake_case upper in
  (forall p, In p (df_provides D) -> pe_described p = true -> declares t (union_reader snake decimal p) /\ declares t (union_writer snake p)) /\
  (forall e, In e (df_enums D) -> declares t (enum_reader e) /\ declares t (enum_formatted e) /\ declares t (enum_writer decimal e)) /\
  (forall d, In d (df_described_restricted D) -> declares t (restricted_functions snake decimal d)) /\
  (forall d, In d (df_lists D) -> declares t (struct_functions d) /\ declares t (struct_reader snake d) /\ declares t (struct_size snake d) /\
     declares t (struct_writer snake decimal d) /\ declares t (struct_formatted snake decimal d) /\ declares t (struct_encodes snake d)).
Proof. exact whole_functions. Qed.
Print Assumptions C80_functions.
(** Three fields: one to be left out, one with a default, one required. *)
Example ex_functions : map field_read [MkField (s2b "a") (s2b "T") false true true [] false; MkField (s2b "b") (s2b "u8") false false false (s2b "5") false;
    MkField (s2b "c") (s2b "u8") false false false [] false] =
  [s2b "let a: Option<T>; if count > 0 { let decoded = Option::<T>::decode(input)?; input = decoded.0; a = decoded.1; count -= 1; } else { a = None; } ";
   s2b "let b: u8; if count > 0 { let (in1, decoded) = Option::<u8>::decode(input)?; b = decoded.unwrap_or(5); input = in1; count -= 1; } else { b = 5; } ";
   s2b "let c: u8; if count > 0 { let (in1, decoded) = u8::decode(input)?; c = decoded; input = in1; count -= 1; } else { return Err(AmqpParseError::RequiredFieldOmitted(""c"")) } "] /\
  map (fun p => (pe_described p, match pe_options p with [] => false | _ => true end)) (df_provides D0) <> [] /\ df_enums D0 <> [] /\ df_described_restricted D0 <> [] /\ df_lists D0 <> [].
Proof. vm_compute. repeat split; try reflexivity; discriminate. Qed.

(** Brackets are closed by their own kind, innermost first, as long as no name, type or default has a bracket. *)
Theorem C80_balanced : forall upper D t, without "()[]{}" D -> generated upper true template_text D = Some t -> balanced t.
Proof. exact (fun upper => template_balanced upper true). Qed.
Print Assumptions C80_balanced.
Example ex_without_brackets : without "()[]{}" D0.
Proof. apply (without_ok "()[]{}"). vm_compute. reflexivity. Qed.

(** The file in the repository is what the template gives for the specification: same code up to layout, for one of the orders that
    the hash map can have. *)
Theorem C80_checked_in : forall upper, exists D D' t, parse upper specification = GOk D /\ reordered D D' /\
  generated upper true template_text D' = Some t /\ same_code t checked_in_text.
Proof. exact template_checked_in. Qed.
Print Assumptions C80_checked_in.
(** The comparison sees a changed number, a missing field and two fields that have changed places. *)
Example ex_code_differs : same_code_b (s2b "use a; const X: u32 = 1 ;") (s2b "const X:u32=1;use a;") = true /\
  same_code_b (s2b "const X: u32 = 1;") (s2b "const X: u32 = 2;") = false /\
  same_code_b (s2b "struct A { pub x: u8, pub y: u8 }") (s2b "struct A { pub x: u8, }") = false /\
  same_code_b (s2b "struct A { pub x: u8, pub y: u8 }") (s2b "struct A { pub y: u8, pub x: u8 }") = false /\
  same_code_b (s2b "match x { 1 => { f(2); } }") (s2b "match x { 1 => f(2), }") = true.
Proof. vm_compute. repeat split; reflexivity. Qed.

(** Whether or not the template engine leaves out the lines that hold nothing but a block tag: the texts differ in blanks only (so what
    C80_declares says holds of both), for every template; and the file in the repository is the same code as either. *)
Theorem C80_trimmed : forall upper escaping template D,
  match generated upper escaping template D, generated_trimmed upper escaping template D with
  | Some t, Some u => squeezed t = squeezed u
  | None, None => True
  | _, _ => False
  end.
Proof. exact generated_trimmed_same. Qed.
Print Assumptions C80_trimmed.
Theorem C80_trimmed_checked_in : forall upper, exists D D' t, parse upper specification = GOk D /\ reordered D D' /\
  generated_trimmed upper true template_text D' = Some t /\ same_code t checked_in_text.
Proof. exact template_checked_in_trimmed. Qed.
Print Assumptions C80_trimmed_checked_in.
Example ex_trimmed : let t := lines ["a"; "  {{#each defs.aliases as |x|}}"; "  {{x.name}};"; "  {{/each}}  "; "b"] in
  generated (fun _ => false) true t with_angles = Some (lines ["a"; "  "; "  Data;"; "    "; "b"; ""]) /\
  generated_trimmed (fun _ => false) true t with_angles = Some (lines ["a"; "  Data;"; "b"; ""]).
Proof. vm_compute. split; reflexivity. Qed.
