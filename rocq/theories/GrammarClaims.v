(** The claim C54 as theorems: exactly what the decoders of values, lists, maps, arrays, composites and unions read.
    The grammars are in GrammarSpec.v. *)

From Coq Require Import String.
From Verif Require Import Definitions Utf8Spec Valid Wire TypeSpec CompositeSpec AllTypes CodecSpec GrammarSpec GrammarFacts.
Open Scope string_scope.
Open Scope list_scope.
Open Scope Z_scope.

(** ** C54: a decoder succeeds on exactly the byte strings of its grammar *)
Theorem C54_language : forall T (S : tspec T) G, grammar S G -> forall md inp rest v, bytes_ok inp ->
  (decode (s_dec S) md inp = Ok (rest, v) <-> exists bs, inp = bs ++ rest /\ G md v bs).
Proof. exact (@grammar_decode). Qed.
Print Assumptions C54_language.
(** Any value: the size of a list is not looked at (9 is announced, 2 bytes are used). *)
Example C54_value_example : grammar variant_S read_value /\
  read_value Debug (VList [VNull; VUbyte 7]) [0xc0; 9; 2; 0x40; 0x50; 7] /\
  decode (s_dec variant_S) Debug [0xc0; 9; 2; 0x40; 0x50; 7; 1] = Ok ([1], VList [VNull; VUbyte 7]).
Proof.
  split; [exact gr_variant|]. split; [|vm_compute; reflexivity].
  apply (RV_list Debug [VNull; VUbyte 7] 8 [0xc0; 9; 2] [0x40; 0x50; 7]).
  - right. left. split; [vm_compute; split; congruence|]. split; [|reflexivity]. split; [vm_compute; split; congruence|]. intros _. reflexivity.
  - apply (IS_cons _ VNull [VUbyte 7] [0x40] [0x50; 7]); [constructor|].
    apply (IS_cons _ (VUbyte 7) [] [0x50; 7] []); [constructor; lia|constructor].
Qed.
(** A map: the odd key at the end and what follows it is skipped; a repeated key keeps its place and takes the last value. *)
Example C54_map_example :
  read_value Debug (VMap [(VUbyte 1, VUbyte 9); (VUbyte 2, VNull)])
    [0xc1; 18; 7; 0x50; 1; 0x40; 0x50; 2; 0x40; 0x50; 1; 0x50; 9; 0x50; 3; 0; 0; 0; 0; 0] /\
  decode (s_dec variant_S) Debug [0xc1; 18; 7; 0x50; 1; 0x40; 0x50; 2; 0x40; 0x50; 1; 0x50; 9; 0x50; 3; 0; 0; 0; 0; 0; 1] =
    Ok ([1], VMap [(VUbyte 1, VUbyte 9); (VUbyte 2, VNull)]).
Proof.
  split; [|vm_compute; reflexivity].
  apply (RV_map Debug [(VUbyte 1, VNull); (VUbyte 2, VNull); (VUbyte 1, VUbyte 9)] 7 [0xc1; 18; 7]
    [0x50; 1; 0x40; 0x50; 2; 0x40; 0x50; 1; 0x50; 9] [0x50; 3; 0; 0; 0; 0; 0]).
  - left. split; [lia|]. split; [|reflexivity]. split; [vm_compute; split; congruence|]. intros _. reflexivity.
  - reflexivity.
  - apply (WP_cons _ _ (VUbyte 1) VNull _ [0x50; 1] [0x40]); [constructor; lia|constructor|].
    apply (WP_cons _ _ (VUbyte 2) VNull _ [0x50; 2] [0x40]); [constructor; lia|constructor|].
    apply (WP_cons _ _ (VUbyte 1) (VUbyte 9) _ [0x50; 1] [0x50; 9] []); [constructor; lia|constructor; lia|constructor].
  - repeat constructor.
Qed.

(** Every composite type and every union has a grammar; so have (by the rules) options, arrays and maps of such types. *)
Theorem C54_composites : forall K, In K all_composites -> exists G, grammar (composite_S K) G.
Proof. exact composites_have. Qed.
Print Assumptions C54_composites.
Theorem C54_unions : forall T (S : tspec T) alts, union_type S alts -> exists G, grammar S G.
Proof. exact (@unions_have). Qed.
Print Assumptions C54_unions.
(** A type has one grammar only. *)
Theorem C54_unique : forall T (S : tspec T) G1 G2, grammar S G1 -> grammar S G2 -> forall md v bs, bytes_ok bs ->
  (G1 md v bs <-> G2 md v bs).
Proof. exact (@grammar_unique). Qed.
Print Assumptions C54_unique.
(** No input is read in two ways. *)
Theorem C54_unambiguous : forall T (S : tspec T) G md v w bs bs' rest rest', grammar S G -> bytes_ok (bs ++ rest) ->
  G md v bs -> G md w bs' -> bs ++ rest = bs' ++ rest' -> v = w /\ bs = bs' /\ rest = rest'.
Proof. exact (@grammar_unambiguous). Qed.
Print Assumptions C54_unambiguous.
(** What the standard allows, of values the crate can represent, belongs to the grammar. *)
Theorem C54_standard : forall T (S : tspec T) G, grammar S G -> forall md v bs, bytes_ok bs -> s_wire S v bs -> s_decodable S v -> G md v bs.
Proof. exact (@grammar_standard). Qed.
Print Assumptions C54_standard.
(** The grammar of [Close], written out: one optional field, which may be left out, and unknown fields after it. *)
Example C54_close_example : exists GE, grammar (composite_S error_K) GE /\
  grammar (composite_S close_K) (fun md v bs => exists label body, wire_label 0x18 "amqp:close:list" label /\
    (exists n hdr content junk, list_header md n (zlen (content ++ junk)) hdr /\
      ((0 < n /\ exists e b, match close_error v with Some x => GE md x e | None => e = [0x40] end /\ b = [] /\ content = e ++ b) \/
       (n = 0 /\ close_error v = None /\ content = [])) /\ body = hdr ++ content ++ junk) /\
    bs = 0x00 :: label ++ body).
Proof.
  destruct (C54_composites error_K) as [GE HE]; [left; reflexivity|]. exists GE. split; [exact HE|].
  assert (HK : In close_K all_composites) by (cbv [all_composites In]; repeat (first [left; reflexivity|right])).
  refine (gr_composite close_K _ HK (bg_composite close_K _ HK (fg_optional _ _ _ _ _ GE _ HE fg_nil))).
Qed.
