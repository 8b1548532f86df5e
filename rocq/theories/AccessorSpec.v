(** Specification: what the functions that read the fields of a struct have to give. *)

From Coq Require Import String.
From Verif Require Import Io Accessors Template Utf8Spec Valid Wire TypeSpec CompositeSpec AllTypes CodecSpec MessageSpec FrameSpec GenSpec.
Open Scope string_scope.
Open Scope list_scope.
Open Scope Z_scope.

(** One function for each field of a table, in order. *)
Fixpoint functions (T : Type) {R} (F : fields R) : Type :=
  match F with
  | FNil => unit
  | @FReq X _ _ _ r => accessor T X * functions T r
  | @FOpt X _ _ _ r => accessor T (option X) * functions T r
  | @FDef X _ _ _ _ r => accessor T X * functions T r
  end.
Fixpoint function_names {T R} (F : fields R) : functions T F -> list string :=
  match F with
  | FNil => fun _ => []
  | FReq _ _ r => fun L => acc_name (fst L) :: function_names r (snd L)
  | FOpt _ _ r => fun L => acc_name (fst L) :: function_names r (snd L)
  | FDef _ _ _ r => fun L => acc_name (fst L) :: function_names r (snd L)
  end.
Fixpoint field_names {R} (F : fields R) : list string :=
  match F with
  | FNil => []
  | FReq name _ r => name :: field_names r
  | FOpt name _ r => name :: field_names r
  | FDef name _ _ r => name :: field_names r
  end.

(** [told v F L encs]: [encs] are encodings of the first fields, the others were left out, and each function gives for [v] the
    value encoded there: the default or no value for a null or a field left out. *)
Fixpoint told {T R} (v : T) (F : fields R) : functions T F -> list bytes -> Prop :=
  match F with
  | FNil => fun _ encs => encs = []
  | FReq _ t r => fun L encs =>
      match encs with
      | [] => False
      | e :: rest => s_wire t (acc_get (fst L) v) e /\ told v r (snd L) rest
      end
  | FOpt _ t r => fun L encs =>
      match encs with
      | [] => acc_get (fst L) v = None /\ told v r (snd L) []
      | e :: rest => (acc_get (fst L) v = None /\ e = [0x40] \/ exists x, acc_get (fst L) v = Some x /\ s_wire t x e) /\ told v r (snd L) rest
      end
  | FDef _ t dflt r => fun L encs =>
      match encs with
      | [] => acc_get (fst L) v = dflt /\ told v r (snd L) []
      | e :: rest => (acc_get (fst L) v = dflt /\ e = [0x40] \/ s_wire t (acc_get (fst L) v) e) /\ told v r (snd L) rest
      end
  end.

(** [kept v w F L]: what each function gives for [w] is what it gives for [v], as received. *)
Fixpoint kept {T R} (v w : T) (F : fields R) : functions T F -> Prop :=
  match F with
  | FNil => fun _ => True
  | FReq _ t r => fun L => acc_get (fst L) w = s_canon t (acc_get (fst L) v) /\ kept v w r (snd L)
  | FOpt _ t r => fun L => acc_get (fst L) w = option_map (s_canon t) (acc_get (fst L) v) /\ kept v w r (snd L)
  | FDef _ t _ r => fun L => acc_get (fst L) w = s_canon t (acc_get (fst L) v) /\ kept v w r (snd L)
  end.

(** The functions of each struct. *)
Inductive struct_impl : forall K, functions (k_T K) (k_fields K) -> Prop :=
| si_error : struct_impl error_K error_accessors
| si_received : struct_impl received_K received_accessors
| si_accepted : struct_impl accepted_K accepted_accessors
| si_rejected : struct_impl rejected_K rejected_accessors
| si_released : struct_impl released_K released_accessors
| si_modified : struct_impl modified_K modified_accessors
| si_source : struct_impl source_K source_accessors
| si_target : struct_impl target_K target_accessors
| si_open : struct_impl open_K open_accessors
| si_begin : struct_impl begin_K begin_accessors
| si_attach : struct_impl attach_K attach_accessors
| si_flow : struct_impl flow_K flow_accessors
| si_disposition : struct_impl disposition_K disposition_accessors
| si_detach : struct_impl detach_K detach_accessors
| si_end : struct_impl end_K end_accessors
| si_close : struct_impl close_K close_accessors
| si_sasl_mechanisms : struct_impl sasl_mechanisms_K sasl_mechanisms_accessors
| si_sasl_init : struct_impl sasl_init_K sasl_init_accessors
| si_sasl_challenge : struct_impl sasl_challenge_K sasl_challenge_accessors
| si_sasl_response : struct_impl sasl_response_K sasl_response_accessors
| si_sasl_outcome : struct_impl sasl_outcome_K sasl_outcome_accessors
| si_header : struct_impl header_K header_accessors
| si_properties : struct_impl properties_K properties_accessors.

(** The functions that the template gives for the code of a table ([code_of]: GenSpec.v) are functions for the table. *)
Fixpoint functions_of {T R} (F : fields R) : accessors_type T (code_of F) -> functions T F :=
  match F with
  | FNil => fun L => L
  | FReq _ _ r => fun L => (fst L, functions_of r (snd L))
  | FOpt _ _ r => fun L => (fst L, functions_of r (snd L))
  | FDef _ _ _ r => fun L => (fst L, functions_of r (snd L))
  end.
