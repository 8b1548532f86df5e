(** What the template writes for one definition: how a struct is read. *)

From Coq Require Import String.
From Verif Require Import Base Codegen Display DisplaySpec DisplayFacts Handlebars RepoText RenderSpec RenderFacts DeclFacts.
Open Scope string_scope.
Open Scope list_scope.
Open Scope Z_scope.

Section Declared.
  Variable upper : Z -> bool.
  Notation sn := (snake_case upper).
  Lemma struct_functions_block d t : block upper 9 "list" (described_json d) t -> declares t (struct_functions d).
  Proof. intros H. window H 9%nat 6%nat 9%nat. unfold struct_functions, struct_count. destruct (ds_transfer d); literals; search'. Qed.
  Lemma struct_reader_block d t : block upper 9 "list" (described_json d) t -> declares t (struct_reader sn d).
  Proof. intros H. window H 9%nat 14%nat 15%nat. unfold struct_reader. destruct (ds_fields d) as [|f0 fs]; destruct (ds_transfer d); literals; search'. Qed.
End Declared.
