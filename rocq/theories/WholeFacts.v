(** What the template writes for every definition: its functions. *)

From Coq Require Import String.
From Verif Require Import Base Codegen Display DisplaySpec DisplayFacts Handlebars RepoText RenderSpec RenderFacts DeclFacts BlockFacts ReaderFacts.
Open Scope string_scope.
Open Scope list_scope.
Open Scope Z_scope.

Section Whole.
  Variable upper : Z -> bool.
  Notation sn := (snake_case upper).
  Lemma whole_functions D t : without """&<>" D -> generated upper true template_text D = Some t ->
    (forall p, In p (df_provides D) -> pe_described p = true -> declares t (union_reader sn decimal p) /\ declares t (union_writer sn p)) /\
    (forall e, In e (df_enums D) -> declares t (enum_reader e) /\ declares t (enum_formatted e) /\ declares t (enum_writer decimal e)) /\
    (forall d, In d (df_described_restricted D) -> declares t (restricted_functions sn decimal d)) /\
    (forall d, In d (df_lists D) -> declares t (struct_functions d) /\ declares t (struct_reader sn d) /\ declares t (struct_size sn d) /\
       declares t (struct_writer sn decimal d) /\ declares t (struct_formatted sn decimal d) /\ declares t (struct_encodes sn d)).
  Proof.
    intros Hw E. rewrite (template_unescaped upper D Hw), template_blocks_are in E. apply some_inj in E. rewrite <- E. clear E.
    generalize (text_at 0) (text_at 2) (text_at 4) (text_at 6) (text_at 8) (text_at 10 ++ [10]). intros t0 t1 t2 t3 t4 t5.
    assert (Z1 : forall (x y a : text) b, declares y b -> declares (x ++ a ++ y) b).
    { intros x y a b H. rewrite app_assoc. rewrite <- (app_nil_r ((x ++ a) ++ y)), <- app_assoc. apply declares_in. exact H. }
    split; [|split; [|split]].
    - intros p Hin Hp.
      assert (B : block upper 1 "provide" (provides_json p) (block_text upper false 1 "provide" (provides_json p))).
      { eapply (blocks_are upper D); [cbn; tauto|]. apply provides_fits. }
      split; (eapply each_declares; [exact Hin|]); [apply (union_reader_block upper)|apply (union_writer_block upper)]; assumption.
    - intros e Hin.
      assert (B : block upper 5 "enum" (enum_json e) (block_text upper false 5 "enum" (enum_json e))).
      { eapply (blocks_are upper D); [cbn; tauto|]. apply enum_fits. }
      split; [|split]; do 2 apply Z1; (eapply each_declares; [exact Hin|]);
        [apply (enum_reader_block upper)|apply (enum_formatted_block upper)|apply (enum_writer_block upper)]; exact B.
    - intros d Hin. do 3 apply Z1. eapply each_declares; [exact Hin|]. apply (restricted_functions_block upper).
      eapply (blocks_are upper D); [cbn; tauto|]. apply described_fits.
    - intros d Hin.
      assert (B : block upper 9 "list" (described_json d) (block_text upper false 9 "list" (described_json d))).
      { eapply (blocks_are upper D); [cbn; tauto|]. apply described_fits. }
      repeat match goal with |- _ /\ _ => split end; do 4 apply Z1; (eapply each_declares; [exact Hin|]);
        [apply (struct_functions_block upper)|apply (struct_reader_block upper)|apply (struct_size_block upper)|apply (struct_writer_block upper)
        |apply (struct_formatted_block upper)|apply (struct_encodes_block upper)]; exact B.
  Qed.
End Whole.
