(** Model of the build script: /repo/build.rs lines 27-76, from the definitions that codegen/mod.rs gives to the text that is written.

    Handlebars (0.27) is modelled for the tags that the template uses: [{{path}}], [{{{path}}}], [{{snake path}}], [{{#each path as
    |name|}}], [{{#if path}}], [{{else}}].  A path that leads nowhere, or to a value that the tag cannot use, gives no text at all here
    (handlebars leaves such a tag empty or stops); C80_renders says that it does not happen.  Simplification: what
    rustfmt does to the file (lines 78-101) is not modelled, see the relation [same_code] of RenderSpec. *)

From Coq Require Import String.
From Verif Require Import Base Codegen Display.
Open Scope string_scope.
Open Scope list_scope.
Open Scope Z_scope.

(** ** The template as a tree *)
Inductive node :=
| NText (t : text)
| NVar (raw : bool) (path : list text)
| NSnake (path : list text)
| NEach (path : list text) (param : text) (body : list node)
| NIf (path : list text) (yes no : list node).

(** The text cut at the tags: what is between [{{] and [}}].  In [{{{path}}}] the inner braces stay with the tag. *)
Inductive piece := PText (t : text) | PTag (t : text).
Fixpoint pieces (inside : bool) (before : text) (t : text) : list piece :=
  match t with
  | [] => [PText (rev before)]
  | c :: r =>
    match inside, r with
    | false, c' :: r' => if (c =? 123) && (c' =? 123) then PText (rev before) :: pieces true [] r' else pieces false (c :: before) r
    | true, c' :: r' =>
      if (c =? 125) && (c' =? 125) && negb (match r' with c'' :: _ => c'' =? 125 | [] => false end)
      then PTag (rev before) :: pieces false [] r'
      else pieces true (c :: before) r
    | _, [] => pieces inside (c :: before) r
    end
  end.

(** What a tag says. *)
Inductive tag := TagEach (path : list text) (param : text) | TagIf (path : list text) | TagElse | TagEnd (each : bool) | TagNode (n : node).
Definition between_bars (t : text) : option text :=
  match t with
  | b :: r => match rev r with e :: r' => if (b =? 124) && (e =? 124) then Some (rev r') else None | [] => None end
  | [] => None
  end.
Definition read_tag (t : text) : option tag :=
  match split_on 32 t with
  | [w] =>
    if is w "else" then Some TagElse
    else if is w "/each" then Some (TagEnd true)
    else if is w "/if" then Some (TagEnd false)
    else match w with
         | 123 :: r => match rev r with 125 :: r' => Some (TagNode (NVar true (split_on 46 (rev r')))) | _ => None end
         | _ => Some (TagNode (NVar false (split_on 46 w)))
         end
  | [w; p] =>
    if is w "#if" then Some (TagIf (split_on 46 p))
    else if is w "snake" then Some (TagNode (NSnake (split_on 46 p)))
    else None
  | [w; p; a; x] =>
    if is w "#each" && is a "as" then match between_bars x with Some n => Some (TagEach (split_on 46 p) n) | None => None end
    else None
  | _ => None
  end.

(** The blocks still open, innermost first, each with the nodes before it (last one first). *)
Inductive block :=
| BEach (path : list text) (param : text) (before : list node)
| BIf (path : list text) (before : list node)
| BElse (path : list text) (yes : list node) (before : list node).
Fixpoint tree (l : list piece) (before : list node) (open : list block) : option (list node) :=
  match l with
  | [] => match open with [] => Some (rev before) | _ => None end
  | PText t :: r => tree r (NText t :: before) open
  | PTag t :: r =>
    match read_tag t with
    | Some (TagNode n) => tree r (n :: before) open
    | Some (TagEach p x) => tree r [] (BEach p x before :: open)
    | Some (TagIf p) => tree r [] (BIf p before :: open)
    | Some TagElse => match open with BIf p b :: o => tree r [] (BElse p (rev before) b :: o) | _ => None end
    | Some (TagEnd each) =>
      match open, each with
      | BEach p x b :: o, true => tree r (NEach p x (rev before) :: b) o
      | BIf p b :: o, false => tree r (NIf p (rev before) [] :: b) o
      | BElse p yes b :: o, false => tree r (NIf p yes (rev before) :: b) o
      | _, _ => None
      end
    | None => None
    end
  end.
(** [register_template_string]: lines 63-65. *)
Definition compile (t : text) : option (list node) := tree (pieces false [] t) [] [].

(** A block tag alone on its line, as the language of templates has it (Mustache, "standalone"): the blanks before it and the rest of
    the line are left out.  Whether version 0.27 does so is not settled by /repo, so both are considered. *)
Definition space (c : Z) : bool := (c =? 32) || (c =? 9).
Fixpoint without_indent (t : text) : text := match t with c :: r => if space c then without_indent r else t | [] => [] end.
(** The text before the tag ends with a line of blanks ([fresh]: it begins at the beginning of a line). *)
Definition line_begins (fresh : bool) (t : text) : bool := match without_indent (rev t) with c :: _ => c =? 10 | [] => fresh end.
Definition line_ends (last : bool) (t : text) : bool := match without_indent t with c :: _ => c =? 10 | [] => last end.
Definition next_line (t : text) : text := match without_indent t with _ :: r => r | [] => [] end.
Definition block_tag (t : text) : bool := match t with 35 :: _ | 47 :: _ => true | _ => is t "else" end.
Fixpoint trim (fresh : bool) (before : text) (l : list piece) : list piece :=
  match l with
  | PTag t :: PText b :: r =>
    if block_tag t && line_begins fresh before && line_ends (match r with [] => true | _ => false end) b
    then PText (rev (without_indent (rev before))) :: PTag t :: trim true (next_line b) r
    else PText before :: PTag t :: trim false b r
  | _ => PText before :: l
  end.
Definition compile_trimmed (t : text) : option (list node) :=
  match pieces false [] t with
  | PText b :: r => tree (trim true b r) [] []
  | l => tree l [] []
  end.

(** ** Rendering *)

(** The names in scope: the parameters of the blocks around, innermost first, then the root. *)
Definition scope := list (text * json).
Fixpoint member (l : list (text * json)) (k : text) : option json :=
  match l with
  | [] => None
  | (k', v) :: r => if text_eqb k' k then Some v else member r k
  end.
Fixpoint descend (v : json) (path : list text) : option json :=
  match path with
  | [] => Some v
  | k :: r => match v with JObj l => match member l k with Some w => descend w r | None => None end | _ => None end
  end.
Definition resolve (s : scope) (path : list text) : option json :=
  match path with
  | [] => None
  | k :: r => match member s k with Some v => descend v r | None => None end
  end.

(** What is written for a value, and the HTML escaping of [{{path}}]. *)
Definition written_value (v : json) : option text :=
  match v with
  | JStr t => Some t
  | JInt n => Some (decimal n)
  | JBool b => Some (s2b (if b then "true" else "false"))
  | _ => None
  end.
Definition escape_char (c : Z) : text :=
  if c =? 34 then s2b "&quot;" else if c =? 38 then s2b "&amp;" else if c =? 60 then s2b "&lt;" else if c =? 62 then s2b "&gt;" else [c].
Definition escape (t : text) : text := flat_map escape_char t.
(** When [{{#if}}] takes its first branch. *)
Definition truthy (v : json) : bool :=
  match v with
  | JNull => false
  | JBool b => b
  | JInt n => negb (n =? 0)
  | JFloat => true
  | JStr t => negb (match t with [] => true | _ => false end)
  | JArr l => negb (match l with [] => true | _ => false end)
  | JObj l => negb (match l with [] => true | _ => false end)
  end.

(** One text after the other, if there are all. *)
Definition joined {A} (f : A -> option text) : list A -> option text :=
  fix go l := match l with
              | [] => Some []
              | x :: r => match f x, go r with Some a, Some b => Some (a ++ b) | _, _ => None end
              end.

Section Render.
  Variable upper : Z -> bool.
  (** [true]: as handlebars does it; [false]: without escaping. *)
  Variable escaping : bool.

  Fixpoint render (n : node) (s : scope) : option text :=
    match n with
    | NText t => Some t
    | NVar raw p =>
      match resolve s p with
      | Some v => match written_value v with Some t => Some (if raw || negb escaping then t else escape t) | None => None end
      | None => None
      end
    | NSnake p => match resolve s p with Some (JStr t) => Some (snake_case upper t) | _ => None end             (* build.rs lines 47-61 *)
    | NEach p x body =>
      match resolve s p with
      | Some (JArr l) => joined (fun v => joined (fun m => render m ((x, v) :: s)) body) l
      | _ => None
      end
    | NIf p yes no =>
      match resolve s p with
      | Some v => if truthy v then joined (fun m => render m s) yes else joined (fun m => render m s) no
      | None => None
      end
    end.
End Render.

(** ** What serde derives for the definitions ([Serialize]): codegen/mod.rs lines 123-195 *)
Definition O (l : list (string * json)) : json := JObj (map (fun e => (s2b (fst e), snd e)) l).
Definition texts_json (l : list text) : json := JArr (map JStr l).
Definition alias_json (a : alias) : json :=
  O [("name", JStr (al_name a)); ("source", JStr (al_source a)); ("provides", texts_json (al_provides a))].
Definition item_json (i : enum_item) : json :=
  O [("name", JStr (ei_name i)); ("value", JStr (ei_value i)); ("value_len", JInt (ei_value_len i))].
Definition descr_json (d : descr) : json :=
  O [("name", JStr (de_name d)); ("domain", JInt (de_domain d)); ("code", JInt (de_code d))].
Definition field_json (f : field) : json :=
  O [("name", JStr (fi_name f)); ("ty", JStr (fi_ty f)); ("is_str", JBool (fi_is_str f)); ("is_ref", JBool (fi_is_ref f));
     ("optional", JBool (fi_optional f)); ("default", JStr (fi_default f)); ("multiple", JBool (fi_multiple f))].
Definition described_json (d : described) : json :=
  O [("name", JStr (ds_name d)); ("ty", JStr (ds_ty d)); ("provides", texts_json (ds_provides d)); ("descriptor", descr_json (ds_descriptor d));
     ("fields", JArr (map field_json (ds_fields d))); ("transfer", JBool (ds_transfer d))].
Definition provides_item_json (i : provides_item) : json := O [("ty", JStr (pi_ty i)); ("descriptor", descr_json (pi_descriptor i))].
Definition provides_json (p : provides_enum) : json :=
  O [("name", JStr (pe_name p)); ("described", JBool (pe_described p)); ("options", JArr (map provides_item_json (pe_options p)))].
Definition enum_json (e : enum) : json :=
  O [("name", JStr (en_name e)); ("ty", JStr (en_ty e)); ("provides", texts_json (en_provides e)); ("items", JArr (map item_json (en_items e)));
     ("is_symbol", JBool (en_is_symbol e))].
Definition definitions_json (D : definitions) : json :=
  O [("aliases", JArr (map alias_json (df_aliases D))); ("enums", JArr (map enum_json (df_enums D))); ("lists", JArr (map described_json (df_lists D)));
     ("described_restricted", JArr (map described_json (df_described_restricted D))); ("provides", JArr (map provides_json (df_provides D)))].

(** [generate_from_spec]: lines 44-76: the template is compiled, the definitions are put under [defs], the text is written with a
    new line after it. *)
Definition generated_by (compiled : option (list node)) (upper : Z -> bool) (escaping : bool) (D : definitions) : option text :=
  match compiled with
  | Some nodes =>
    match joined (fun n => render upper escaping n [(s2b "defs", definitions_json D)]) nodes with
    | Some t => Some (t ++ [10])
    | None => None
    end
  | None => None
  end.
Definition generated (upper : Z -> bool) (escaping : bool) (template : text) (D : definitions) : option text :=
  generated_by (compile template) upper escaping D.
Definition generated_trimmed (upper : Z -> bool) (escaping : bool) (template : text) (D : definitions) : option text :=
  generated_by (compile_trimmed template) upper escaping D.
