(** What the template writes for one definition: its functions. *)

From Coq Require Import String.
From Verif Require Import Base Codegen Display DisplaySpec DisplayFacts Handlebars RepoText RenderSpec RenderFacts DeclFacts.
Open Scope string_scope.
Open Scope list_scope.
Open Scope Z_scope.

Section Declared.
  Variable upper : Z -> bool.
  Notation sn := (snake_case upper).
  Lemma union_reader_block p t : pe_described p = true -> block upper 1 "provide" (provides_json p) t -> declares t (union_reader sn decimal p).
  Proof. intros Hp H. window H 1%nat 0%nat 3%nat. rewrite Hp. cbv iota. unfold union_reader. literals. search'. Qed.
  Lemma union_writer_block p t : pe_described p = true -> block upper 1 "provide" (provides_json p) t -> declares t (union_writer sn p).
  Proof. intros Hp H. window H 1%nat 0%nat 3%nat. rewrite Hp. cbv iota. unfold union_writer. literals. search'. Qed.
  Lemma enum_reader_block e t : block upper 5 "enum" (enum_json e) t -> declares t (enum_reader e).
  Proof. intros H. window H 5%nat 5%nat 2%nat. unfold enum_reader. destruct (en_is_symbol e); literals; search'. Qed.
  Lemma enum_formatted_block e t : block upper 5 "enum" (enum_json e) t -> declares t (enum_formatted e).
  Proof. intros H. window H 5%nat 5%nat 2%nat. unfold enum_formatted. destruct (en_is_symbol e); literals; search'. Qed.
  Lemma enum_writer_block e t : block upper 5 "enum" (enum_json e) t -> declares t (enum_writer decimal e).
  Proof. intros H. window H 5%nat 5%nat 2%nat. unfold enum_writer. destruct (en_is_symbol e); literals; search'. Qed.
  Lemma restricted_functions_block d t : block upper 7 "dr" (described_json d) t -> declares t (restricted_functions sn decimal d).
  Proof. intros H. window H 7%nat 0%nat 40%nat. unfold restricted_functions. literals. search'. Qed.
  Lemma struct_size_block d t : block upper 9 "list" (described_json d) t -> declares t (struct_size sn d).
  Proof. intros H. window H 9%nat 28%nat 9%nat. unfold struct_size, content. destruct (ds_transfer d); literals; search'. Qed.
  Lemma struct_writer_block d t : block upper 9 "list" (described_json d) t -> declares t (struct_writer sn decimal d).
  Proof. intros H. window H 9%nat 36%nat 17%nat. unfold struct_writer, content. destruct (ds_transfer d); literals; search'. Qed.
  Lemma struct_formatted_block d t : block upper 9 "list" (described_json d) t -> declares t (struct_formatted sn decimal d).
  Proof. intros H. window H 9%nat 52%nat 9%nat. unfold struct_formatted, match_text. literals; search'. Qed.
  Lemma struct_encodes_block d t : block upper 9 "list" (described_json d) t -> declares t (struct_encodes sn d).
  Proof. intros H. window H 9%nat 60%nat 7%nat. unfold struct_encodes. literals; search'. Qed.
End Declared.
