(** What the template writes for one definition, step by step. *)

From Coq Require Import String.
From Verif Require Import Base Codegen Display DisplaySpec DisplayFacts Handlebars RepoText RenderSpec RenderFacts.
Open Scope string_scope.
Open Scope list_scope.
Open Scope Z_scope.

Section Steps.
  Variable upper : Z -> bool.
  Notation R := (render upper false).
  Notation J s := (joined (fun m => R m s)).
  Lemma j_nil s : J s [] = Some [].
  Proof. reflexivity. Qed.
  Lemma j_cons s n l a b : R n s = Some a -> J s l = Some b -> J s (n :: l) = Some (a ++ b).
  Proof. intros H1 H2. cbn. rewrite H1, H2. reflexivity. Qed.
  Lemma r_text s t : R (NText t) s = Some t.
  Proof. reflexivity. Qed.
  Lemma r_var s raw p t : resolve s p = Some (JStr t) -> R (NVar raw p) s = Some t.
  Proof. intros H. cbn. rewrite H. cbn. rewrite Bool.orb_true_r. reflexivity. Qed.
  Lemma r_num s raw p n : resolve s p = Some (JInt n) -> R (NVar raw p) s = Some (decimal n).
  Proof. intros H. cbn. rewrite H. cbn. rewrite Bool.orb_true_r. reflexivity. Qed.
  Lemma r_snake s p t : resolve s p = Some (JStr t) -> R (NSnake p) s = Some (snake_case upper t).
  Proof. intros H. cbn. rewrite H. reflexivity. Qed.
  Lemma r_each {A} s p x body (f : A -> json) l g : resolve s p = Some (JArr (map f l)) ->
    (forall y, J ((x, f y) :: s) body = Some (g y)) -> R (NEach p x body) s = Some (flat_map g l).
  Proof. intros H1 H2. cbn. rewrite H1, joined_map. apply joined_some. apply Forall_forall. intros y _. apply H2. Qed.
  Lemma r_if s p yes no b u v : resolve s p = Some (JBool b) -> J s yes = Some u -> J s no = Some v -> R (NIf p yes no) s = Some (if b then u else v).
  Proof. intros H1 H2 H3. cbn. rewrite H1. destruct b; assumption. Qed.
  Lemma r_some {A} s p yes no (l : list A) h u v : resolve s p = Some (JArr (map h l)) -> J s yes = Some u -> J s no = Some v ->
    R (NIf p yes no) s = Some (match l with [] => v | _ => u end).
  Proof. intros H1 H2 H3. cbn. rewrite H1. destruct l; assumption. Qed.
  Lemma r_given s p yes no t u v : resolve s p = Some (JStr t) -> J s yes = Some u -> J s no = Some v ->
    R (NIf p yes no) s = Some (match t with [] => v | _ => u end).
  Proof. intros H1 H2 H3. cbn. rewrite H1. destruct t; assumption. Qed.
End Steps.
Ltac step :=
  first [ apply j_nil | apply r_text | apply r_var; reflexivity | apply r_num; reflexivity | apply r_snake; reflexivity
        | eapply r_each; [reflexivity|intros ?] | eapply r_if; [reflexivity|..] | eapply r_some; [reflexivity|..] | eapply r_given; [reflexivity|..]
        | eapply j_cons ].

(** ** Without blanks *)
Lemma squeezed_app a b : squeezed (a ++ b) = squeezed a ++ squeezed b.
Proof. apply filter_app. Qed.
Lemma squeezed_loop {A} (f g : A -> text) l : (forall x, squeezed (f x) = squeezed (g x)) -> squeezed (flat_map f l) = squeezed (flat_map g l).
Proof. intros H. induction l as [|x l IH]; [reflexivity|]. cbn [flat_map]. rewrite !squeezed_app, H, IH. reflexivity. Qed.
Definition found (t a : text) : Prop := exists x y, t = x ++ a ++ y.
Definition begins (t a : text) : Prop := exists y, t = a ++ y.
Lemma found_here t a : begins t a -> found t a.
Proof. intros (y & ->). exists [], y. reflexivity. Qed.
Lemma found_later b t a : found t a -> found (b ++ t) a.
Proof. intros (x & y & ->). exists (b ++ x), y. rewrite <- app_assoc. reflexivity. Qed.
Lemma found_next c t a : found t a -> found (c :: t) a.
Proof. exact (found_later [c] t a). Qed.
Lemma found_before t b a : found t a -> found (t ++ b) a.
Proof. intros (x & y & ->). exists x, (y ++ b). rewrite <- !app_assoc. reflexivity. Qed.
Lemma begins_nil t : begins t [].
Proof. exists t. reflexivity. Qed.
Lemma begins_next c t a : begins t a -> begins (c :: t) (c :: a).
Proof. intros (y & ->). exists y. reflexivity. Qed.
Lemma begins_same b b' t a : b = b' -> begins t a -> begins (b ++ t) (b' ++ a).
Proof. intros <- (y & ->). exists y. rewrite app_assoc. reflexivity. Qed.
Lemma begins_all b b' : b = b' -> begins b b'.
Proof. intros <-. exists []. rewrite app_nil_r. reflexivity. Qed.
Lemma begins_end b b' t : b = b' -> begins (b ++ t) b'.
Proof. intros <-. exists t. reflexivity. Qed.
Lemma squeezed_cons c t : squeezed (c :: t) = if blank c then squeezed t else c :: squeezed t.
Proof. unfold squeezed. cbn [filter]. destruct (blank c); reflexivity. Qed.
(** Character by character. *)
Ltac chars :=
  repeat first
    [ rewrite squeezed_app
    | rewrite squeezed_cons; match goal with |- context [blank ?c] => let v := eval vm_compute in (blank c) in change (blank c) with v; cbv iota end
    | match goal with |- context [s2b ?s] => let v := eval vm_compute in (s2b s) in change (s2b s) with v end
    | match goal with |- context [squeezed []] => change (squeezed []) with (@nil Z) end ];
  rewrite <- ?app_assoc; cbn [app]; rewrite ?app_nil_r.
(** Literal by literal. *)
Ltac literals :=
  rewrite ?squeezed_app;
  repeat match goal with
         | |- context [squeezed (?c :: ?r)] => let v := eval vm_compute in (squeezed (c :: r)) in change (squeezed (c :: r)) with v
         | |- context [squeezed (s2b ?s)] => let v := eval vm_compute in (squeezed (s2b s)) in change (squeezed (s2b s)) with v
         | |- context [squeezed []] => change (squeezed []) with (@nil Z)
         end;
  rewrite <- ?app_assoc; cbn [app]; rewrite ?app_nil_r.
Ltac same_chunk := first [ reflexivity | apply squeezed_loop; intros []; unfold field_text; cbn [ei_name pi_ty fi_name fi_ty fi_optional];
                           repeat match goal with |- context [if ?b then _ else _] => destruct b end; chars; reflexivity ].
Ltac same := repeat first [ apply begins_nil | apply begins_next | apply begins_same; [same_chunk|] | apply begins_end; same_chunk | apply begins_all; same_chunk ].
Ltac search :=
  repeat first
    [ match goal with
      | |- found (?c :: ?d :: ?e :: ?f :: _) (?c :: ?d :: ?e :: ?f :: _) => solve [apply found_here; same]
      end
    | match goal with |- found (_ :: _) _ => apply found_next | |- found (_ ++ _) _ => apply found_later end ].

(** ** A part of a block *)
Lemma part_declares (f : node -> option text) body i k t u a : joined f body = Some t -> joined f (firstn k (skipn i body)) = Some u ->
  declares u a -> declares t a.
Proof.
  intros H1 H2 (x & y & E). rewrite <- (firstn_skipn i body), joined_app in H1.
  destruct (joined f (firstn i body)) as [t1|]; [|discriminate H1].
  rewrite <- (firstn_skipn k (skipn i body)), joined_app, H2 in H1.
  destruct (joined f (skipn k (skipn i body))) as [t2|]; [|discriminate H1]. injection H1 as <-.
  exists (squeezed t1 ++ x), (y ++ squeezed t2). rewrite !squeezed_app, E, <- !app_assoc. reflexivity.
Qed.

Section Declared.
  Variable upper : Z -> bool.
  Definition block (i : nat) (x : string) (v : json) (t : text) : Prop :=
    joined (fun m => render upper false m [(s2b x, v); (s2b "defs", JNull)]) (body_at i) = Some t.
  Ltac window H b i k :=
    refine (part_declares _ _ i k _ _ _ H _ _);
    [ let l := eval vm_compute in (firstn k (skipn i (body_at b))) in change (firstn k (skipn i (body_at b))) with l; repeat step
    | match goal with |- declares ?t ?a => change (found (squeezed t) (squeezed a)) end ].
  Lemma alias_block a t : block 3 "alias" (alias_json a) t -> declares t (alias_text a).
  Proof. intros H. window H 3%nat 0%nat 5%nat. unfold alias_text. literals. search. Qed.
  Lemma restricted_block d t : block 7 "dr" (described_json d) t -> declares t (restricted_text d).
  Proof. intros H. window H 7%nat 0%nat 5%nat. unfold restricted_text. literals. search. Qed.
  Lemma enum_block e t : block 5 "enum" (enum_json e) t -> declares t (enum_text e).
  Proof. intros H. window H 5%nat 0%nat 5%nat. unfold enum_text. literals. search. Qed.
  Lemma union_block p t : pe_described p = true -> block 1 "provide" (provides_json p) t -> declares t (union_text p).
  Proof. intros Hp H. window H 1%nat 0%nat 3%nat. rewrite Hp. cbv iota. unfold union_text. literals. search. Qed.
  Lemma list_struct d t : block 9 "list" (described_json d) t -> declares t (struct_text d).
  Proof. intros H. window H 9%nat 0%nat 7%nat. unfold struct_text. destruct (ds_transfer d); literals; search. Qed.
  Lemma list_encoder d t : block 9 "list" (described_json d) t ->
    declares t (encoder_text "list" d (snake_case upper (ds_name d)) (decimal (de_code (ds_descriptor d)))).
  Proof. intros H. window H 9%nat 36%nat 7%nat. unfold encoder_text. literals. search. Qed.
  Lemma list_match d t : block 9 "list" (described_json d) t -> declares t (match_text d (decimal (de_code (ds_descriptor d)))).
  Proof. intros H. window H 9%nat 54%nat 5%nat. unfold match_text. literals. search. Qed.
  Lemma list_sizes d t : block 9 "list" (described_json d) t -> declares t (sizes_text d).
  Proof. intros H. window H 9%nat 42%nat 3%nat. unfold sizes_text. literals. search. Qed.
  Lemma list_writes d t : block 9 "list" (described_json d) t -> declares t (writes_text d).
  Proof. intros H. window H 9%nat 48%nat 3%nat. unfold writes_text. literals. search. Qed.
  Lemma restricted_encoder d t : block 7 "dr" (described_json d) t ->
    declares t (encoder_text "dr" d (snake_case upper (ds_name d)) (decimal (de_code (ds_descriptor d)))).
  Proof. intros H. window H 7%nat 0%nat 40%nat. unfold encoder_text. literals. search. Qed.
End Declared.

(** ** In the whole text *)
Lemma declares_in t x y a : declares t a -> declares (x ++ t ++ y) a.
Proof. intros (u & v & E). exists (squeezed x ++ u), (v ++ squeezed y). rewrite !squeezed_app, E, <- !app_assoc. reflexivity. Qed.
Lemma each_declares {A} (f : A -> text) l x y t a : In a l -> declares (f a) t -> declares (x ++ flat_map f l ++ y) t.
Proof.
  intros H Hd. apply declares_in. apply in_split in H as (l1 & l2 & ->). rewrite flat_map_app. cbn [flat_map]. apply declares_in. exact Hd.
Qed.
Lemma some_inj {A} (a b : A) : Some a = Some b -> a = b.
Proof. intros H. injection H as H. exact H. Qed.
Section Whole.
  Variable upper : Z -> bool.
  Lemma blocks_are (D : definitions) : forall i x sh v, In (i, x, sh) [(1, "provide", provides_shape); (3, "alias", alias_shape); (5, "enum", enum_shape);
      (7, "dr", described_shape); (9, "list", described_shape)]%nat -> fits sh v -> block upper i x v (block_text upper false i x v).
  Proof.
    intros i x sh v Hin Hf.
    assert (Hr : forallb (rootless (s2b "defs")) (body_at i) = true).
    { pose proof bodies_rootless as H. rewrite forallb_forall in H. apply H. cbn in Hin |- *.
      repeat (destruct Hin as [Hin|Hin]; [injection Hin as <- <- <-; tauto|]). destruct Hin. }
    assert (Hc : forallb (check [(s2b x, sh); (s2b "defs", definitions_shape)]) (body_at i) = true).
    { pose proof bodies_checked as H. rewrite forallb_forall in H. exact (H (i, x, sh) Hin). }
    unfold block. rewrite <- (block_rendered upper false i x sh v D Hr Hc Hf).
    apply joined_ext. refine (check_body _ _ _ _ Hr). apply Forall_forall. intros m _ Hm.
    exact (render_other upper false (s2b "defs") _ _ m [(s2b x, v)] Hm).
  Qed.
  Lemma whole_declares D t : without """&<>" D -> generated upper true template_text D = Some t ->
    (forall p, In p (df_provides D) -> pe_described p = true -> declares t (union_text p)) /\
    (forall a, In a (df_aliases D) -> declares t (alias_text a)) /\
    (forall e, In e (df_enums D) -> declares t (enum_text e)) /\
    (forall d, In d (df_described_restricted D) -> declares t (restricted_text d) /\
       declares t (encoder_text "dr" d (snake_case upper (ds_name d)) (decimal (de_code (ds_descriptor d))))) /\
    (forall d, In d (df_lists D) -> declares t (struct_text d) /\ declares t (match_text d (decimal (de_code (ds_descriptor d)))) /\
       declares t (encoder_text "list" d (snake_case upper (ds_name d)) (decimal (de_code (ds_descriptor d)))) /\
       declares t (sizes_text d) /\ declares t (writes_text d)).
  Proof.
    intros Hw E. rewrite (template_unescaped upper D Hw), template_blocks_are in E. apply some_inj in E. rewrite <- E. clear E.
    generalize (text_at 0) (text_at 2) (text_at 4) (text_at 6) (text_at 8) (text_at 10 ++ [10]). intros t0 t1 t2 t3 t4 t5.
    assert (Z1 : forall (x y a : text) b, declares y b -> declares (x ++ a ++ y) b).
    { intros x y a b H. rewrite app_assoc. rewrite <- (app_nil_r ((x ++ a) ++ y)), <- app_assoc. apply declares_in. exact H. }
    split; [|split; [|split; [|split]]].
    - intros p Hin Hp. eapply each_declares; [exact Hin|]. apply (union_block upper); [exact Hp|].
      eapply (blocks_are D); [cbn; tauto|]. apply provides_fits.
    - intros a Hin. apply Z1. eapply each_declares; [exact Hin|]. apply (alias_block upper). eapply (blocks_are D); [cbn; tauto|]. apply alias_fits.
    - intros a Hin. do 2 apply Z1. eapply each_declares; [exact Hin|]. apply (enum_block upper). eapply (blocks_are D); [cbn; tauto|]. apply enum_fits.
    - intros d Hin.
      assert (B : block upper 7 "dr" (described_json d) (block_text upper false 7 "dr" (described_json d))).
      { eapply (blocks_are D); [cbn; tauto|]. apply described_fits. }
      split; do 3 apply Z1; (eapply each_declares; [exact Hin|]); [apply (restricted_block upper)|apply (restricted_encoder upper)]; exact B.
    - intros d Hin.
      assert (B : block upper 9 "list" (described_json d) (block_text upper false 9 "list" (described_json d))).
      { eapply (blocks_are D); [cbn; tauto|]. apply described_fits. }
      split; [|split; [|split; [|split]]]; do 4 apply Z1; (eapply each_declares; [exact Hin|]);
        [apply (list_struct upper)|apply (list_match upper)|apply (list_encoder upper)|apply (list_sizes upper)|apply (list_writes upper)]; exact B.
  Qed.
End Whole.

(** ** The functions of a block: BlockFacts, ReaderFacts *)
(** An item of a loop, by cases on what the template asks about it. *)
Ltac item :=
  first [ reflexivity
        | apply squeezed_loop; intros []; unfold option_read, field_read, field_function, struct_count; cbn [pi_ty pi_descriptor ei_name ei_value ei_value_len fi_name fi_ty fi_is_str fi_is_ref fi_optional fi_default fi_multiple];
          repeat match goal with |- context [if ?b then _ else _] => is_var b; lazymatch type of b with bool => destruct b end end;
          repeat match goal with |- context [match ?b with [] => _ | _ :: _ => _ end] => is_var b; let E := fresh in destruct b eqn:E; [clear E|rewrite <- E; clear E] end; chars; repeat progress (rewrite <- ?app_assoc; cbn [app]); reflexivity ].
Ltac same' := repeat first [ apply begins_nil | apply begins_next | apply begins_same; [item|] | apply begins_end; item | apply begins_all; item ].
Ltac search' :=
  repeat first
    [ match goal with
      | |- found (?c :: ?d :: ?e :: ?f :: ?g :: ?h :: ?i :: ?j :: _) (?c :: ?d :: ?e :: ?f :: ?g :: ?h :: ?i :: ?j :: _) => solve [apply found_here; same']
      | |- found (?c :: ?d :: ?e :: ?f :: ?x ++ _) (?c :: ?d :: ?e :: ?f :: ?x ++ _) => solve [apply found_here; same']
      end
    | match goal with |- found (_ :: _) _ => apply found_next | |- found (_ ++ _) _ => apply found_later end ].
Ltac window H b i k :=
  refine (part_declares _ _ i k _ _ _ H _ _);
  [ let l := eval vm_compute in (firstn k (skipn i (body_at b))) in change (firstn k (skipn i (body_at b))) with l; repeat step
  | match goal with |- declares ?t ?a => change (found (squeezed t) (squeezed a)) end ].
