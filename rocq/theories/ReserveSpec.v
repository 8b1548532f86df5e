(** Specification: the capacities asked for in advance and the values begun while decoding (file ReserveClaims). *)

From Coq Require Import String.
From Verif Require Import Frames Reserve Utf8Spec Valid Wire TypeSpec CompositeSpec AllTypes CodecSpec MessageSpec FrameSpec.
Open Scope string_scope.
Open Scope list_scope.
Open Scope Z_scope.

(** ** Which decoder with capacities belongs to which type, from those of its parts

    [E] says which types may be the elements of an array. *)
Section Runs.
Variable E : forall T, tspec T -> Prop.
Inductive runs : forall {T}, tspec T -> rdec T -> Prop :=
| ru_simple T (S : tspec T) L : language S L -> runs S (simple_run (s_dec S))
| ru_variant : runs variant_S variant_rdec
| ru_list : runs list_S (list_rdec variant_rdec)
| ru_vec_string_map : runs vecmap_S vecmap_rdec
| ru_option T (S : tspec T) D : runs S D -> ~ In 0x40 (s_codes S) -> runs (option_S S) (option_rdec D)
| ru_map K V (KO : key K) (SK : tspec K) (SV : tspec V) DK DV : runs SK DK -> runs SV DV -> runs (map_S KO SK SV) (map_rdec KO DK DV)
| ru_vec T A width (S : tspec T) D : element A width S -> E T S -> runs S D -> runs (vec_S A width S) (vec_rdec D)
| ru_multiple T A width (S : tspec T) D : element A width S -> E T S -> ~ In 0xe0 (s_codes S) -> ~ In 0xf0 (s_codes S) ->
    runs S D -> runs (multiple_S A width S) (multiple_rdec D)
| ru_composite K D : In K all_composites -> inner_runs (composite_D K) D ->
    runs (composite_S K) (described_run (one_of_run (k_code K) (k_name K) (fun x => x) D none_run))
| ru_union T (S : tspec T) alts D : union_type S alts -> union_runs alts D -> runs S (described_run D)
with field_runs : forall {R}, fields R -> rfield_dec R -> Prop :=
| fr_nil : field_runs FNil no_fields_run
| fr_mandatory T R name (S : tspec T) (r : fields R) D DR : runs S D -> field_runs r DR ->
    field_runs (FReq name S r) (req_field_run name D DR)
| fr_optional T R name (S : tspec T) (r : fields R) D DR : runs S D -> field_runs r DR ->
    field_runs (FOpt name S r) (opt_field_run D DR)
| fr_default T R name (S : tspec T) dflt (r : fields R) D DR : runs S D -> field_runs r DR ->
    field_runs (FDef name S dflt r) (def_field_run D dflt DR)
with inner_runs : forall {T}, dspec T -> rinner T -> Prop :=
| ir_composite K D : In K all_composites -> field_runs (k_fields K) D -> inner_runs (composite_D K) (fields_run D (k_of K))
| ir_section T code name (S : tspec T) size enc inner D : (forall md inp, inner md inp = decode (s_dec S) md inp) -> runs S D ->
    inner_runs (section_D code name S size enc inner) (run_decode D)
with union_runs : forall {T}, list (alternative T) -> selection T -> Prop :=
| ur_nil T : union_runs (@nil (alternative T)) none_run
| ur_cons T (a : alternative T) r D DR : inner_runs (a_D a) D -> union_runs r DR ->
    union_runs (a :: r) (one_of_run (d_code (a_D a)) (d_name (a_D a)) (a_inj a) D DR).

(** Performatives. *)
Inductive performative_runs : forall {T}, dspec T -> rinner T -> Prop :=
| pr_composite K D : In K all_composites -> inner_runs (composite_D K) D -> performative_runs (composite_D K) D
| pr_transfer D : field_runs transfer_table D -> performative_runs transfer_D (transfer_run D transfer_of).
Inductive frame_runs : list (alternative frame) -> selection frame -> Prop :=
| frs_nil : frame_runs [] none_run
| frs_cons a r D DR : performative_runs (a_D a) D -> frame_runs r DR ->
    frame_runs (a :: r) (one_of_run (d_code (a_D a)) (d_name (a_D a)) (a_inj a) D DR).
End Runs.

(** Arrays of any type, and arrays whose elements take at least a byte each: not those of booleans and unsigned numbers, for
    which there are format codes that stand for a value (true, false, 0) and are followed by nothing. *)
Definition any_element (T : Type) (S : tspec T) : Prop := True.
Definition wide_element (T : Type) (S : tspec T) : Prop := Forall (fun c => ~ In c [0x41; 0x42; 0x43; 0x44]) (s_codes S).

(** The capacities asked for, in order, and how many values were begun. *)
Fixpoint capacities (l : list event) : list Z :=
  match l with
  | [] => []
  | Asks n :: r => n :: capacities r
  | Begins :: r => capacities r
  end.
Fixpoint beginnings (l : list event) : Z :=
  match l with
  | [] => 0
  | Asks _ :: r => beginnings r
  | Begins :: r => 1 + beginnings r
  end.
Definition asked {A} (m : run A) : list Z := capacities (fst m).
Definition begun {A} (m : run A) : Z := beginnings (fst m).
Definition total (l : list Z) : Z := fold_right Z.add 0 l.
