(** Blanks around tags do not matter. *)

From Coq Require Import String Permutation.
From Verif Require Import Base Codegen Display SpecJson SpecFacts Handlebars RepoText RenderSpec RenderFacts DeclFacts.
Open Scope string_scope.
Open Scope list_scope.
Open Scope Z_scope.

(** ** Trees that differ in blanks *)
Inductive respaced : node -> node -> Prop :=
| rs_text a b : squeezed a = squeezed b -> respaced (NText a) (NText b)
| rs_var raw p : respaced (NVar raw p) (NVar raw p)
| rs_snake p : respaced (NSnake p) (NSnake p)
| rs_each p x a b : Forall2 respaced a b -> respaced (NEach p x a) (NEach p x b)
| rs_if p a b c d : Forall2 respaced a b -> Forall2 respaced c d -> respaced (NIf p a c) (NIf p b d).
Definition same_text (a b : option text) : Prop :=
  match a, b with Some t, Some u => squeezed t = squeezed u | None, None => True | _, _ => False end.
Lemma same_text_refl a : same_text a a.
Proof. destruct a; cbn; trivial. Qed.
Lemma joined_same {A B} (R : A -> B -> Prop) (f : A -> option text) (g : B -> option text) l l' :
  (forall x y, In x l -> R x y -> same_text (f x) (g y)) -> Forall2 R l l' -> same_text (joined f l) (joined g l').
Proof.
  intros H F. revert H. induction F as [|x y l l' Hxy _ IH]; intros H; [reflexivity|]. cbn.
  pose proof (H x y (or_introl eq_refl) Hxy) as H1. assert (H2 : same_text (joined f l) (joined g l')).
  { apply IH. intros a b Ha. apply H. right. exact Ha. }
  unfold same_text in *. destruct (f x), (g y); try contradiction; [|exact I].
  destruct (joined f l), (joined g l'); try contradiction; [|exact I]. rewrite !squeezed_app, H1, H2. reflexivity.
Qed.
Lemma Forall2_eq {A} (l : list A) : Forall2 eq l l.
Proof. induction l; constructor; auto. Qed.
Lemma render_respaced upper e n : forall n' s, respaced n n' -> same_text (render upper e n s) (render upper e n' s).
Proof.
  induction n as [t|raw p|p|p x body IH|p yes no IHy IHn] using node_ind'; intros n' s H; inversion H; subst; cbn [render].
  - assumption.
  - apply same_text_refl.
  - apply same_text_refl.
  - destruct (resolve s p) as [[| | | | |l|]|]; try exact I. apply (joined_same eq); [|apply Forall2_eq]. intros v ? _ <-.
    eapply joined_same; [|eassumption]. intros a b' Ha Hab. rewrite Forall_forall in IH. exact (IH a Ha b' _ Hab).
  - destruct (resolve s p) as [v|]; [|exact I]. rewrite Forall_forall in IHy, IHn.
    destruct (truthy v); (eapply joined_same; [|eassumption]); intros a b' Ha Hab; [exact (IHy a Ha b' s Hab)|exact (IHn a Ha b' s Hab)].
Qed.

(** ** Trimming *)
Inductive same_piece : piece -> piece -> Prop :=
| sp_text a b : squeezed a = squeezed b -> same_piece (PText a) (PText b)
| sp_tag t : same_piece (PTag t) (PTag t).
Inductive same_block : Handlebars.block -> Handlebars.block -> Prop :=
| sb_each p x a b : Forall2 respaced a b -> same_block (BEach p x a) (BEach p x b)
| sb_if p a b : Forall2 respaced a b -> same_block (BIf p a) (BIf p b)
| sb_else p a b c d : Forall2 respaced a b -> Forall2 respaced c d -> same_block (BElse p a c) (BElse p b d).
Definition same_tree (a b : option (list node)) : Prop :=
  match a, b with Some l, Some l' => Forall2 respaced l l' | None, None => True | _, _ => False end.
Lemma Forall2_rev {A B} (R : A -> B -> Prop) l l' : Forall2 R l l' -> Forall2 R (rev l) (rev l').
Proof. induction 1; cbn; [constructor|]. apply Forall2_app; [assumption|]. constructor; [assumption|constructor]. Qed.
Lemma respaced_refl n : respaced n n.
Proof.
  induction n as [t|raw p|p|p x body IH|p yes no IHy IHn] using node_ind'; constructor; try reflexivity;
    [clear -IH; induction IH|clear -IHy; induction IHy|clear -IHn; induction IHn]; constructor; assumption.
Qed.
Lemma tree_respaced l l' : Forall2 same_piece l l' -> forall before before' open open', Forall2 respaced before before' ->
  Forall2 same_block open open' -> same_tree (tree l before open) (tree l' before' open').
Proof.
  induction 1 as [|x y l l' Hxy _ IH]; intros before before' open open' Hb Ho; cbn [tree].
  - inversion Ho; subst; [|exact I]. cbn. apply Forall2_rev. exact Hb.
  - inversion Hxy as [a b Hab|t]; subst.
    + apply IH; [|exact Ho]. constructor; [constructor; exact Hab|exact Hb].
    + destruct (read_tag t) as [[p x|p| |each|n]|]; [| | | | |exact I].
      * apply IH; [constructor|]. constructor; [constructor; exact Hb|exact Ho].
      * apply IH; [constructor|]. constructor; [constructor; exact Hb|exact Ho].
      * inversion Ho as [|? ? ? ? H1 H2]; subst; [exact I|]. inversion H1; subst; try exact I.
        apply IH; [constructor|]. constructor; [|exact H2]. constructor; [apply Forall2_rev; exact Hb|assumption].
      * inversion Ho as [|? ? ? ? H1 H2]; subst; [exact I|].
        inversion H1; subst; destruct each; try exact I; (apply IH; [|exact H2]); (constructor; [|assumption]); constructor; try assumption; try constructor; apply Forall2_rev; exact Hb.
      * apply IH; [|exact Ho]. constructor; [apply respaced_refl|exact Hb].
Qed.
Lemma space_blank c : space c = true -> blank c = true.
Proof. unfold space, blank. destruct (c =? 32), (c =? 9), (c =? 10), (c =? 13); cbn; congruence. Qed.
Lemma without_indent_squeezed t : squeezed (without_indent t) = squeezed t.
Proof.
  induction t as [|c t IH]; [reflexivity|]. cbn [without_indent]. destruct (space c) eqn:E; [|reflexivity].
  rewrite IH, squeezed_cons, (space_blank c E). reflexivity.
Qed.
Lemma squeezed_rev t : squeezed (rev t) = rev (squeezed t).
Proof.
  induction t as [|c t IH]; [reflexivity|]. cbn [rev]. rewrite squeezed_app, IH, !squeezed_cons. destruct (blank c); cbn; [apply app_nil_r|reflexivity].
Qed.
Lemma next_line_squeezed last t : line_ends last t = true -> squeezed (next_line t) = squeezed t.
Proof.
  unfold line_ends, next_line. rewrite <- (without_indent_squeezed t). destruct (without_indent t) as [|c r]; [reflexivity|]. intros E.
  apply Z.eqb_eq in E. subst c. rewrite squeezed_cons. reflexivity.
Qed.
Lemma same_pieces_refl l : Forall2 same_piece l l.
Proof. induction l as [|[]]; constructor; try constructor; auto. Qed.
Lemma trim_same n : forall l, (length l <= n)%nat -> forall fresh b b', squeezed b = squeezed b' -> Forall2 same_piece (PText b :: l) (trim fresh b' l).
Proof.
  induction n as [|n IH]; intros l Hl fresh b b' E.
  - destruct l; [|cbn in Hl; lia]. cbn. repeat constructor. exact E.
  - destruct l as [|[t|t] l]; [repeat constructor; exact E| |].
    + cbn. constructor; [constructor; exact E|apply same_pieces_refl].
    + destruct l as [|[u|u] l]; [repeat constructor; exact E| |cbn; constructor; [constructor; exact E|apply same_pieces_refl]].
      cbn [trim]. cbn in Hl. destruct (block_tag t && line_begins fresh b' && line_ends _ u) eqn:Ec.
      * apply andb_prop in Ec as [_ Ec]. constructor; [|constructor; [constructor|]].
        -- constructor. rewrite squeezed_rev, without_indent_squeezed, squeezed_rev, rev_involutive. exact E.
        -- apply IH; [lia|]. symmetry. eapply next_line_squeezed. exact Ec.
      * constructor; [constructor; exact E|]. constructor; [constructor|]. apply IH; [lia|reflexivity].
Qed.
Lemma compile_same t : same_tree (compile t) (compile_trimmed t).
Proof.
  unfold compile, compile_trimmed. destruct (pieces false [] t) as [|[b|b] r]; (apply tree_respaced; [|constructor|constructor]); [constructor| |apply same_pieces_refl].
  eapply trim_same; [apply le_n|reflexivity].
Qed.
Lemma generated_trimmed_same upper e template D : same_text (generated upper e template D) (generated_trimmed upper e template D).
Proof.
  unfold generated, generated_trimmed, generated_by. pose proof (compile_same template) as H.
  destruct (compile template) as [l|], (compile_trimmed template) as [l'|]; try contradiction; [|exact I]. cbn in H.
  pose proof (joined_same respaced (fun n => render upper e n [(s2b "defs", definitions_json D)]) (fun n => render upper e n [(s2b "defs", definitions_json D)]) l l') as J.
  assert (J' : same_text (joined (fun n => render upper e n [(s2b "defs", definitions_json D)]) l) (joined (fun n => render upper e n [(s2b "defs", definitions_json D)]) l')).
  { apply J; [|exact H]. intros x y _ Hxy. apply render_respaced. exact Hxy. }
  unfold same_text in *.
  destruct (joined _ l), (joined _ l'); try contradiction; [|exact I]. rewrite !squeezed_app, J'. reflexivity.
Qed.
Lemma D1_compared_trimmed upper : match generated_trimmed upper true template_text D1 with Some t => same_code_b t checked_in_text | None => false end = true.
Proof. vm_compute. reflexivity. Qed.
Lemma template_checked_in_trimmed upper : exists D D' t, parse upper specification = GOk D /\ reordered D D' /\
  generated_trimmed upper true template_text D' = Some t /\ same_code t checked_in_text.
Proof.
  pose proof (D1_compared_trimmed upper) as H. destruct (generated_trimmed upper true template_text D1) as [t|] eqn:E; [|discriminate H].
  exists D0, D1, t. split; [apply parsed|]. split; [apply D1_reordered|]. split; [exact E|]. apply same_code_ok. exact H.
Qed.
