(** Facts about the reading of the JSON of the specification. *)

From Coq Require Import String.
From Verif Require Import Io Codegen BaseFacts GenSpec NameFacts.
Open Scope string_scope.
Open Scope list_scope.
Open Scope Z_scope.

Definition fills {A} (read : json -> gres A) (k : string) (l : list (text * json)) (s s' : option A) : Prop :=
  match s with
  | None => (entries l k = [] /\ s' = None) \/ (exists j a, entries l k = [j] /\ read j = GOk a /\ s' = Some a)
  | Some a => entries l k = [] /\ s' = Some a
  end.
Lemma entries_skip k k' j l : k' <> s2b k -> entries ((k', j) :: l) k = entries l k.
Proof. intros N. unfold entries. cbn [flat_map fst snd]. destruct (list_eq_dec Z.eq_dec k' (s2b k)); [congruence|reflexivity]. Qed.
Lemma entries_hit k j l : entries ((s2b k, j) :: l) k = j :: entries l k.
Proof. unfold entries. cbn [flat_map fst snd]. destruct (list_eq_dec Z.eq_dec (s2b k) (s2b k)); [reflexivity|congruence]. Qed.
Lemma fills_nil {A} (read : json -> gres A) k s s' : fills read k [] s s' <-> s' = s.
Proof. destruct s; cbn; split; intros H; [now destruct H|now split|destruct H as [[_ H]|(j & a & H & _)]; [exact H|discriminate]|now left]. Qed.
Lemma fills_skip {A} (read : json -> gres A) k k' j l s s' : k' <> s2b k -> fills read k ((k', j) :: l) s s' <-> fills read k l s s'.
Proof. intros N. unfold fills. now rewrite entries_skip. Qed.
Lemma fills_hit {A} (read : json -> gres A) k j l s s' :
  fills read k ((s2b k, j) :: l) s s' <-> exists s1, set_slot s (read j) = GOk s1 /\ fills read k l s1 s'.
Proof.
  unfold fills. rewrite entries_hit. destruct s as [a|]; cbn [set_slot].
  - split; [now intros [H _]|]. intros (s1 & H & _). discriminate.
  - split.
    + intros [[H _]|(j' & a & H & R & ->)]; [discriminate|]. injection H as -> H. rewrite R. exists (Some a). cbn [gbind]. now rewrite H.
    + intros (s1 & H & F). right. destruct (read j) as [a| |] eqn:R; try discriminate. injection H as <-. destruct F as [F ->]. exists j, a. now rewrite F.
Qed.
Lemma fold_bad {S} (f : text -> json -> S -> gres S) l acc st : (forall s, acc <> GOk s) ->
  fold_left (fun acc kv => s <-- acc ;; f (fst kv) (snd kv) s) l acc <> GOk st.
Proof.
  revert acc. induction l as [|e l IH]; intros acc N; cbn [fold_left]; [apply N|]. apply IH. intros s. destruct acc; try discriminate. now destruct (N a).
Qed.
Ltac key := match goal with |- context [is ?k ?s] =>
  let E := fresh "E" in destruct (is k s) eqn:E; [apply is_eq in E; subst k|apply is_neq in E] end.
Ltac skips := repeat match goal with |- context [fills ?r ?s ((?k, _) :: _) _ _] =>
  first [rewrite (fills_skip r s k) by assumption | rewrite (fills_skip r s k) by (vm_compute; discriminate)] end.
Ltac hit := rewrite fills_hit.
Ltac solve_hit IH :=
  match goal with |- context [set_slot ?s ?v] => destruct (set_slot s v) as [s1| |] eqn:HS; cbn [gbind] end;
  [ rewrite IH; split; [intros H; decompose [and] H; repeat split; try assumption; try eexists; split; [reflexivity|assumption]
    | intros H; decompose [and] H; repeat match goal with H : exists _, _ |- _ => destruct H as (? & [= <-] & ?) end; repeat split; assumption]
  | split; [intros H; exfalso; revert H; apply fold_bad; discriminate
    | intros H; decompose [and] H; match goal with X : exists _, GErr = _ /\ _ |- _ => destruct X as (? & X & _); discriminate X | X : exists _, GPanic _ = _ /\ _ |- _ => destruct X as (? & X & _); discriminate X end]
  | split; [intros H; exfalso; revert H; apply fold_bad; discriminate
    | intros H; decompose [and] H; match goal with X : exists _, GErr = _ /\ _ |- _ => destruct X as (? & X & _); discriminate X | X : exists _, GPanic _ = _ /\ _ |- _ => destruct X as (? & X & _); discriminate X end] ].
Ltac struct_step step IH :=
  cbn [fold_left]; match goal with |- context [fold_left ?F ?l (?F (GOk ?s) (?k, ?j))] => change (F (GOk s) (k, j)) with (step k j s) end;
  cbv beta iota delta [step]; repeat (key; [skips; hit; solve_hit IH|]); skips; cbn [gbind]; apply IH.
Ltac struct_fold step := let l := fresh "l" in let IH := fresh "IH" in
  match goal with |- context [fold_left ?f _ _] => set (F := f) end;
  intros l; induction l as [|[k j] l IH];
  [intros; cbn [fold_left]; rewrite !fills_nil; split; [intros H; repeat split; congruence | intros H; decompose [and] H; subst; reflexivity]
  | intros; struct_step step IH].

Definition descriptor_step (k : text) (v : json) '((n, c) : option text * option text) :=
  if is k "name" then x <-- set_slot n (de_string v) ;; GOk (x, c)
  else if is k "code" then x <-- set_slot c (de_string v) ;; GOk (n, x)
  else GOk (n, c).
Lemma descriptor_fold : forall l n c n' c',
  fold_left (fun acc kv => s <-- acc ;; descriptor_step (fst kv) (snd kv) s) l (GOk (n, c)) = GOk (n', c') <->
  fills de_string "name" l n n' /\ fills de_string "code" l c c'.
Proof. struct_fold descriptor_step. Qed.
Definition item_step (k : text) (j : json) '((n, v, l) : option text * option text * option Z) :=
  if is k "name" then x <-- set_slot n (de_string j) ;; GOk (x, v, l)
  else if is k "value" then x <-- set_slot v (de_string j) ;; GOk (n, x, l)
  else if is k "value_len" then x <-- set_slot l (de_usize j) ;; GOk (n, v, x)
  else GOk (n, v, l).
Lemma item_fold : forall l a b c a' b' c',
  fold_left (fun acc kv => s <-- acc ;; item_step (fst kv) (snd kv) s) l (GOk (a, b, c)) = GOk (a', b', c') <->
  fills de_string "name" l a a' /\ fills de_string "value" l b b' /\ fills de_usize "value_len" l c c'.
Proof. struct_fold item_step. Qed.
Definition enum_step (k : text) (j : json) '((n, s, p, c) : option text * option text * option (option text) * option (list enum_item)) :=
  if is k "name" then x <-- set_slot n (de_string j) ;; GOk (x, s, p, c)
  else if is k "source" then x <-- set_slot s (de_string j) ;; GOk (n, x, p, c)
  else if is k "provides" then x <-- set_slot p (de_opt_string j) ;; GOk (n, s, x, c)
  else if is k "choice" then x <-- set_slot c (de_vec de_enum_item j) ;; GOk (n, s, p, x)
  else GOk (n, s, p, c).
Lemma enum_fold : forall l a b c d a' b' c' d',
  fold_left (fun acc kv => s <-- acc ;; enum_step (fst kv) (snd kv) s) l (GOk (a, b, c, d)) = GOk (a', b', c', d') <->
  fills de_string "name" l a a' /\ fills de_string "source" l b b' /\ fills de_opt_string "provides" l c c' /\
  fills (de_vec de_enum_item) "choice" l d d'.
Proof. struct_fold enum_step. Qed.
Definition field_step (k : text) (j : json)
    '((n, t, m, d, u, r) : option text * option text * option bool * option (option text) * option bool * option (option text)) :=
  if is k "name" then x <-- set_slot n (de_string j) ;; GOk (x, t, m, d, u, r)
  else if is k "type" then x <-- set_slot t (de_string j) ;; GOk (n, x, m, d, u, r)
  else if is k "mandatory" then x <-- set_slot m (de_string_as_bool j) ;; GOk (n, t, x, d, u, r)
  else if is k "default" then x <-- set_slot d (de_opt_string j) ;; GOk (n, t, m, x, u, r)
  else if is k "multiple" then x <-- set_slot u (de_string_as_bool j) ;; GOk (n, t, m, d, x, r)
  else if is k "requires" then x <-- set_slot r (de_opt_string j) ;; GOk (n, t, m, d, u, x)
  else GOk (n, t, m, d, u, r).
Lemma field_fold : forall l a b c d e f a' b' c' d' e' f',
  fold_left (fun acc kv => s <-- acc ;; field_step (fst kv) (snd kv) s) l (GOk (a, b, c, d, e, f)) = GOk (a', b', c', d', e', f') <->
  fills de_string "name" l a a' /\ fills de_string "type" l b b' /\ fills de_string_as_bool "mandatory" l c c' /\
  fills de_opt_string "default" l d d' /\ fills de_string_as_bool "multiple" l e e' /\ fills de_opt_string "requires" l f f'.
Proof. struct_fold field_step. Qed.
Definition described_step (k : text) (j : json)
    '((n, c, s, p, d, f) : option text * option text * option text * option (option text) * option raw_descriptor * option (list raw_field)) :=
  if is k "name" then x <-- set_slot n (de_string j) ;; GOk (x, c, s, p, d, f)
  else if is k "class" then x <-- set_slot c (de_string j) ;; GOk (n, x, s, p, d, f)
  else if is k "source" then x <-- set_slot s (de_string j) ;; GOk (n, c, x, p, d, f)
  else if is k "provides" then x <-- set_slot p (de_opt_string j) ;; GOk (n, c, s, x, d, f)
  else if is k "descriptor" then x <-- set_slot d (de_descriptor j) ;; GOk (n, c, s, p, x, f)
  else if is k "field" then x <-- set_slot f (de_vec de_field j) ;; GOk (n, c, s, p, d, x)
  else GOk (n, c, s, p, d, f).
Lemma described_fold : forall l a b c d e f a' b' c' d' e' f',
  fold_left (fun acc kv => s <-- acc ;; described_step (fst kv) (snd kv) s) l (GOk (a, b, c, d, e, f)) = GOk (a', b', c', d', e', f') <->
  fills de_string "name" l a a' /\ fills de_string "class" l b b' /\ fills de_string "source" l c c' /\
  fills de_opt_string "provides" l d d' /\ fills de_descriptor "descriptor" l e e' /\ fills (de_vec de_field) "field" l f f'.
Proof. struct_fold described_step. Qed.
Definition alias_step (k : text) (j : json) '((n, s, p) : option text * option text * option (option text)) :=
  if is k "name" then x <-- set_slot n (de_string j) ;; GOk (x, s, p)
  else if is k "source" then x <-- set_slot s (de_string j) ;; GOk (n, x, p)
  else if is k "provides" then x <-- set_slot p (de_opt_string j) ;; GOk (n, s, x)
  else GOk (n, s, p).
Lemma alias_fold : forall l a b c a' b' c',
  fold_left (fun acc kv => s <-- acc ;; alias_step (fst kv) (snd kv) s) l (GOk (a, b, c)) = GOk (a', b', c') <->
  fills de_string "name" l a a' /\ fills de_string "source" l b b' /\ fills de_opt_string "provides" l c c'.
Proof. struct_fold alias_step. Qed.

(** ** Values *)
Definition reader {A} (read : json -> gres A) (reads : json -> A -> Prop) : Prop := forall j a, read j = GOk a <-> reads j a.
Lemma text_reader : reader de_string reads_text.
Proof. intros [] a; cbn; unfold reads_text; split; intros H; try discriminate; congruence. Qed.
Lemma optional_reader : reader de_opt_string reads_optional.
Proof. intros [] [a|]; cbn; split; intros H; try discriminate; congruence. Qed.
Lemma size_reader : reader de_usize reads_size.
Proof.
  intros [] a; cbn; unfold reads_size; try (split; [discriminate|now intros [? _]]).
  destruct (_ && _) eqn:E; split; try discriminate.
  - intros [= <-]. split; [reflexivity|]. lia.
  - intros [[= <-] _]. reflexivity.
  - intros [[= <-] H]. lia.
Qed.
Lemma flag_reader : reader de_string_as_bool reads_flag.
Proof.
  intros [] a; cbn [de_string_as_bool de_string gbind]; unfold reads_flag; try (split; [discriminate|intros H; discriminate H]).
  destruct (is s "true") eqn:E1; [apply is_eq in E1 as ->|apply is_neq in E1; destruct (is s "false") eqn:E2; [apply is_eq in E2 as ->|apply is_neq in E2]];
    destruct a; split; intros H; try discriminate H; try reflexivity; injection H as H; contradiction.
Qed.
Lemma gmap_reads {A} (read : json -> gres A) (reads : json -> A -> Prop) : reader read reads -> forall l r, gmap read l = GOk r <-> Forall2 reads l r.
Proof.
  intros R. induction l as [|x l IH]; intros r; cbn [gmap].
  - split; [intros [= <-]; constructor|]. intros H. now inversion H.
  - split.
    + destruct (read x) as [y| |] eqn:E; try discriminate. cbn [gbind]. destruct (gmap read l) as [s| |] eqn:G; try discriminate.
      intros [= <-]. constructor; [now apply R|now apply IH].
    + intros H. inversion H as [|? y ? s H1 H2]; subst. apply R in H1. apply IH in H2. rewrite H1. cbn [gbind]. now rewrite H2.
Qed.
Lemma list_reader {A} (read : json -> gres A) reads : reader read reads -> reader (de_vec read) (reads_list reads).
Proof.
  intros R [] a; cbn [de_vec]; unfold reads_list; try (split; [discriminate|now intros (? & ? & _)]).
  rewrite (gmap_reads read reads R). split; [intros H; now exists l|]. now intros (js & [= <-] & H).
Qed.
Lemma fill_needed {A} (read : json -> gres A) reads l k a : reader read reads -> fills read k l None (Some a) <-> needed l k reads a.
Proof.
  intros R. unfold fills, needed. split.
  - intros [[_ H]|(j & x & E & H & [= <-])]; [discriminate|]. exists j. split; [exact E|now apply R].
  - intros (j & E & H). right. exists j, a. now apply R in H.
Qed.
Lemma fill_allowed {A} (read : json -> gres A) reads l k d a : reader read reads ->
  (exists s, fills read k l None s /\ or_default d s = a) <-> allowed l k reads d a.
Proof.
  intros R. unfold allowed. rewrite <- (fill_needed read reads l k a R). split.
  - intros ([x|] & F & E); cbn in E; subst; [now right|]. left. destruct F as [[F _]|(j & x & _ & _ & H)]; [now split|discriminate].
  - intros [[E ->]|H]; [exists None; split; [now left|reflexivity]|exists (Some a); now split].
Qed.
Lemma allowed_slot {A} (read : json -> gres A) reads l k d s : reader read reads -> fills read k l None s -> allowed l k reads d (or_default d s).
Proof. intros R F. apply (fill_allowed read reads l k d _ R). now exists s. Qed.

Ltac not_object := try (split; [discriminate|intros (? & H & _); discriminate H]).
Lemma descriptor_reader : reader de_descriptor reads_descriptor.
Proof.
  intros [] d; unfold reads_descriptor; not_object. unfold de_descriptor, de_struct.
  change (fun acc kv => _) with (fun acc kv => s <-- acc ;; descriptor_step (fst kv) (snd kv) s).
  split.
  - destruct (fold_left _ _ _) as [[n c]| |] eqn:E; try discriminate. apply descriptor_fold in E as (H1 & H2). cbn [gbind].
    destruct n as [n|], c as [c|]; try discriminate. intros [= <-]. exists l. split; [reflexivity|].
    apply (fill_needed _ _ _ _ _ text_reader) in H1, H2. now split.
  - intros (l' & [= <-] & H1 & H2). apply (fill_needed _ _ _ _ _ text_reader) in H1, H2.
    rewrite (proj2 (descriptor_fold l None None (Some (rd_name d)) (Some (rd_code d)))) by now split. now destruct d.
Qed.
Lemma item_reader : reader de_enum_item reads_item.
Proof.
  intros [] d; unfold reads_item; not_object. unfold de_enum_item, de_struct.
  change (fun acc kv => _) with (fun acc kv => s <-- acc ;; item_step (fst kv) (snd kv) s).
  split.
  - destruct (fold_left _ _ _) as [[[n c] v]| |] eqn:E; try discriminate. apply item_fold in E as (H1 & H2 & H3). cbn [gbind].
    destruct n as [n|], c as [c|]; try discriminate. intros [= <-]. exists l. split; [reflexivity|].
    apply (fill_needed _ _ _ _ _ text_reader) in H1, H2. apply (allowed_slot _ _ _ _ 0 _ size_reader) in H3. now repeat split.
  - intros (l' & [= <-] & H1 & H2 & H3). apply (fill_needed _ _ _ _ _ text_reader) in H1, H2. apply (fill_allowed _ _ _ _ _ _ size_reader) in H3 as (s & H3 & E).
    rewrite (proj2 (item_fold l None None None (Some (ei_name d)) (Some (ei_value d)) s)) by now split. cbn [gbind required]. rewrite E. now destruct d.
Qed.
Lemma enum_reader : reader de_enum reads_enum.
Proof.
  intros [] d; unfold reads_enum; not_object. unfold de_enum, de_struct.
  change (fun acc kv => _) with (fun acc kv => s <-- acc ;; enum_step (fst kv) (snd kv) s).
  pose proof (list_reader _ _ item_reader) as LR. split.
  - destruct (fold_left _ _ _) as [[[[n s] p] c]| |] eqn:E; try discriminate. apply enum_fold in E as (H1 & H2 & H3 & H4). cbn [gbind].
    destruct n as [n|], s as [s|], c as [c|]; try discriminate. intros [= <-]. exists l. split; [reflexivity|].
    apply (fill_needed _ _ _ _ _ text_reader) in H1, H2. apply (fill_needed _ _ _ _ _ LR) in H4.
    apply (allowed_slot _ _ _ _ None _ optional_reader) in H3. now repeat split.
  - intros (l' & [= <-] & H1 & H2 & H3 & H4). apply (fill_needed _ _ _ _ _ text_reader) in H1, H2. apply (fill_needed _ _ _ _ _ LR) in H4.
    apply (fill_allowed _ _ _ _ _ _ optional_reader) in H3 as (s & H3 & E).
    rewrite (proj2 (enum_fold l None None None None (Some (re_name d)) (Some (re_source d)) s (Some (re_choice d)))) by now repeat split.
    cbn [gbind required]. rewrite E. now destruct d.
Qed.
Lemma field_reader : reader de_field reads_field.
Proof.
  intros [] d; unfold reads_field; not_object. unfold de_field, de_struct.
  change (fun acc kv => _) with (fun acc kv => s <-- acc ;; field_step (fst kv) (snd kv) s).
  split.
  - destruct (fold_left _ _ _) as [[[[[[n t] m] x] u] r]| |] eqn:E; try discriminate. apply field_fold in E as (H1 & H2 & H3 & H4 & H5 & H6). cbn [gbind].
    destruct n as [n|], t as [t|]; try discriminate. intros [= <-]. exists l. split; [reflexivity|].
    apply (fill_needed _ _ _ _ _ text_reader) in H1, H2. apply (allowed_slot _ _ _ _ false _ flag_reader) in H3, H5.
    apply (allowed_slot _ _ _ _ None _ optional_reader) in H4, H6. now repeat split.
  - intros (l' & [= <-] & H1 & H2 & H3 & H4 & H5 & H6). apply (fill_needed _ _ _ _ _ text_reader) in H1, H2.
    apply (fill_allowed _ _ _ _ _ _ flag_reader) in H3 as (s3 & H3 & E3), H5 as (s5 & H5 & E5).
    apply (fill_allowed _ _ _ _ _ _ optional_reader) in H4 as (s4 & H4 & E4), H6 as (s6 & H6 & E6).
    rewrite (proj2 (field_fold l None None None None None None (Some (rf_name d)) (Some (rf_ty d)) s3 s4 s5 s6)) by now repeat split.
    cbn [gbind required]. rewrite E3, E4, E5, E6. now destruct d.
Qed.
Lemma described_reader : reader de_described reads_described.
Proof.
  intros [] d; unfold reads_described; not_object. unfold de_described, de_struct.
  change (fun acc kv => _) with (fun acc kv => s <-- acc ;; described_step (fst kv) (snd kv) s).
  pose proof (list_reader _ _ field_reader) as LR. split.
  - destruct (fold_left _ _ _) as [[[[[[n c] s] p] x] f]| |] eqn:E; try discriminate. apply described_fold in E as (H1 & H2 & H3 & H4 & H5 & H6). cbn [gbind].
    destruct n as [n|], c as [c|], s as [s|], x as [x|]; try discriminate. intros [= <-]. exists l. split; [reflexivity|].
    apply (fill_needed _ _ _ _ _ text_reader) in H1, H2, H3. apply (fill_needed _ _ _ _ _ descriptor_reader) in H5.
    apply (allowed_slot _ _ _ _ None _ optional_reader) in H4. apply (allowed_slot _ _ _ _ [] _ LR) in H6. now repeat split.
  - intros (l' & [= <-] & H1 & H2 & H3 & H4 & H5 & H6). apply (fill_needed _ _ _ _ _ text_reader) in H1, H2, H3.
    apply (fill_needed _ _ _ _ _ descriptor_reader) in H5. apply (fill_allowed _ _ _ _ _ _ optional_reader) in H4 as (s4 & H4 & E4).
    apply (fill_allowed _ _ _ _ _ _ LR) in H6 as (s6 & H6 & E6).
    rewrite (proj2 (described_fold l None None None None None None (Some (rl_name d)) (Some (rl_class d)) (Some (rl_source d)) s4 (Some (rl_descriptor d)) s6))
      by now repeat split.
    cbn [gbind required]. rewrite E4, E6. now destruct d.
Qed.
Lemma alias_reader : reader de_alias reads_alias.
Proof.
  intros [] d; unfold reads_alias; not_object. unfold de_alias, de_struct.
  change (fun acc kv => _) with (fun acc kv => s <-- acc ;; alias_step (fst kv) (snd kv) s).
  split.
  - destruct (fold_left _ _ _) as [[[n s] p]| |] eqn:E; try discriminate. apply alias_fold in E as (H1 & H2 & H3). cbn [gbind].
    destruct n as [n|], s as [s|]; try discriminate. intros [= <-]. exists l. split; [reflexivity|].
    apply (fill_needed _ _ _ _ _ text_reader) in H1, H2. apply (allowed_slot _ _ _ _ None _ optional_reader) in H3. now repeat split.
  - intros (l' & [= <-] & H1 & H2 & H3). apply (fill_needed _ _ _ _ _ text_reader) in H1, H2.
    apply (fill_allowed _ _ _ _ _ _ optional_reader) in H3 as (s & H3 & E).
    rewrite (proj2 (alias_fold l None None None (Some (ra_name d)) (Some (ra_source d)) s)) by now repeat split.
    cbn [gbind required]. rewrite E. now destruct d.
Qed.

(** ** Panics *)
Lemma fold_panic {S} (step : text -> json -> S -> gres S) p : forall l s,
  fold_left (fun acc kv => s <-- acc ;; step (fst kv) (snd kv) s) l (GOk s) = GPanic p -> exists k j s', In (k, j) l /\ step k j s' = GPanic p.
Proof.
  induction l as [|[k j] l IH]; intros s; cbn [fold_left]; [discriminate|]. cbn [gbind fst snd].
  destruct (step k j s) as [s'| |q] eqn:E.
  - intros H. destruct (IH _ H) as (k' & j' & t & H1 & H2). exists k', j', t. split; [now right|exact H2].
  - intros H. exfalso. clear -H. induction l; cbn in H; [discriminate|auto].
  - intros H. assert (q = p) as -> by (clear -H; induction l; cbn in H; [congruence|auto]). exists k, j, s. split; [now left|exact E].
Qed.
Lemma gmap_panic {A B} (f : A -> gres B) p : forall l, gmap f l = GPanic p -> exists x, In x l /\ f x = GPanic p.
Proof.
  induction l as [|x l IH]; cbn [gmap]; [discriminate|]. destruct (f x) as [y| |q] eqn:E; cbn [gbind].
  - destruct (gmap f l) as [s| |q] eqn:G; cbn [gbind]; try discriminate. intros [= ->]. destruct (IH eq_refl) as (z & H1 & H2). exists z. split; [now right|exact H2].
  - discriminate.
  - intros [= ->]. exists x. split; [now left|exact E].
Qed.
Lemma set_panic {A B} (s : option A) (v : gres A) (f : option A -> B) p : (x <-- set_slot s v ;; GOk (f x)) = GPanic p -> v = GPanic p.
Proof. destruct s, v; cbn; congruence. Qed.
Lemma entries_in l k j : In (s2b k, j) l -> In j (entries l k).
Proof. intros H. apply in_flat_map. exists (s2b k, j). split; [exact H|]. cbn [fst snd]. destruct (list_eq_dec _ _ _); [now left|congruence]. Qed.
Lemma string_panic j p : de_string j <> GPanic p.
Proof. destruct j; discriminate. Qed.
Lemma opt_string_panic j p : de_opt_string j <> GPanic p.
Proof. destruct j; discriminate. Qed.
Lemma usize_panic j p : de_usize j <> GPanic p.
Proof. destruct j; try discriminate. cbn. destruct (_ && _); discriminate. Qed.
Ltac scan := repeat match goal with
  | H : (if is ?k ?s then _ else _) = GPanic _ |- _ =>
      let E := fresh "E" in destruct (is k s) eqn:E; [apply is_eq in E; apply set_panic in H|]
  | H : de_string _ = GPanic _ |- _ => now apply string_panic in H
  | H : de_opt_string _ = GPanic _ |- _ => now apply opt_string_panic in H
  | H : de_usize _ = GPanic _ |- _ => now apply usize_panic in H
  | H : GOk _ = GPanic _ |- _ => discriminate H
  end.
Lemma descriptor_panic j p : de_descriptor j <> GPanic p.
Proof.
  destruct j; try discriminate. unfold de_descriptor, de_struct.
  change (fun acc kv => _) with (fun acc kv => s <-- acc ;; descriptor_step (fst kv) (snd kv) s).
  destruct (fold_left _ _ _) as [[[] []]| |q] eqn:F; try discriminate. apply fold_panic in F as (k & j & [n c] & _ & E). unfold descriptor_step in E. scan.
Qed.
Lemma item_panic j p : de_enum_item j <> GPanic p.
Proof.
  destruct j; try discriminate. unfold de_enum_item, de_struct.
  change (fun acc kv => _) with (fun acc kv => s <-- acc ;; item_step (fst kv) (snd kv) s).
  destruct (fold_left _ _ _) as [[[[] []] ?]| |q] eqn:F; try discriminate. apply fold_panic in F as (k & j & [[n c] v] & _ & E). unfold item_step in E. scan.
Qed.
Lemma enum_panic j p : de_enum j <> GPanic p.
Proof.
  destruct j; try discriminate. unfold de_enum, de_struct.
  change (fun acc kv => _) with (fun acc kv => s <-- acc ;; enum_step (fst kv) (snd kv) s).
  destruct (fold_left _ _ _) as [[[[[] []] ?] []]| |q] eqn:F; try discriminate. apply fold_panic in F as (k & j & [[[n s] o] c] & _ & E). unfold enum_step in E. scan.
  destruct j; try discriminate. cbn [de_vec] in E. apply gmap_panic in E as (x & _ & E). now apply item_panic in E.
Qed.
Lemma alias_panic j p : de_alias j <> GPanic p.
Proof.
  destruct j; try discriminate. unfold de_alias, de_struct.
  change (fun acc kv => _) with (fun acc kv => s <-- acc ;; alias_step (fst kv) (snd kv) s).
  destruct (fold_left _ _ _) as [[[[] []] ?]| |q] eqn:F; try discriminate. apply fold_panic in F as (k & j & [[n c] v] & _ & E). unfold alias_step in E. scan.
Qed.
Lemma flag_panic j p : de_string_as_bool j = GPanic p -> p = GPBool /\ exists t, j = JStr t /\ t <> s2b "true" /\ t <> s2b "false".
Proof.
  destruct j; try discriminate. cbn [de_string_as_bool de_string gbind]. destruct (is s "true") eqn:E1; [discriminate|]. destruct (is s "false") eqn:E2; [discriminate|].
  intros [= <-]. apply is_neq in E1, E2. split; [reflexivity|]. now exists s.
Qed.
Lemma field_panic j p : de_field j = GPanic p -> p = GPBool /\ exists l key t, j = JObj l /\ (key = "mandatory" \/ key = "multiple")%string /\
  In (JStr t) (entries l key) /\ t <> s2b "true" /\ t <> s2b "false".
Proof.
  destruct j; try discriminate. unfold de_field, de_struct.
  change (fun acc kv => _) with (fun acc kv => s <-- acc ;; field_step (fst kv) (snd kv) s).
  destruct (fold_left _ _ _) as [[[[[[[] []] ?] ?] ?] ?]| |q] eqn:F; try discriminate. cbn [gbind]. intros [= <-].
  apply fold_panic in F as (k & j & [[[[[n t] m] d] u] r] & I & E). unfold field_step in E. scan; subst k.
  - apply flag_panic in E as (-> & t' & -> & H1 & H2). split; [reflexivity|]. exists l, "mandatory"%string, t'. apply entries_in in I. tauto.
  - apply flag_panic in E as (-> & t' & -> & H1 & H2). split; [reflexivity|]. exists l, "multiple"%string, t'. apply entries_in in I. tauto.
Qed.
Lemma described_panic j p : de_described j = GPanic p -> p = GPBool /\ odd_flag j.
Proof.
  destruct j; try discriminate. unfold de_described, de_struct.
  change (fun acc kv => _) with (fun acc kv => s <-- acc ;; described_step (fst kv) (snd kv) s).
  destruct (fold_left _ _ _) as [[[[[[[] []] []] ?] []] ?]| |q] eqn:F; try discriminate. cbn [gbind]. intros [= <-].
  apply fold_panic in F as (k & j & [[[[[n c] s] o] d] f] & I & E). unfold described_step in E. scan; [now apply descriptor_panic in E|]. subst k.
  destruct j; try discriminate. cbn [de_vec] in E. apply gmap_panic in E as (x & Ix & E). apply field_panic in E as (-> & fl & key & t & -> & K & It & H1 & H2).
  split; [reflexivity|]. apply entries_in in I. now exists l, l0, fl, key, t.
Qed.

(** ** Types *)
Lemma type_reads j t : de_type j = GOk t -> reads_type j t.
Proof.
  unfold de_type. destruct (de_enum j) as [e| |] eqn:E; cbn [gbind or_else]; try discriminate.
  - intros [= <-]. now apply enum_reader.
  - assert (NE : forall e, ~ reads_enum j e) by (intros e H; apply enum_reader in H; congruence).
    destruct (de_described j) as [d| |] eqn:D; cbn [gbind or_else]; try discriminate.
    + intros [= <-]. split; [exact NE|now apply described_reader].
    + assert (ND : forall d, ~ reads_described j d) by (intros d H; apply described_reader in H; congruence).
      destruct (de_alias j) as [a| |] eqn:A; cbn [gbind]; try discriminate. intros [= <-]. split; [exact NE|]. split; [exact ND|now apply alias_reader].
Qed.
Lemma reads_type_ok j t : reads_type j t -> de_type j = GOk t \/ (de_type j = GPanic GPBool /\ odd_flag j).
Proof.
  unfold de_type. destruct t as [e|d|a]; cbn [reads_type].
  - intros H. apply enum_reader in H. rewrite H. now left.
  - intros (NE & H). apply described_reader in H. rewrite H. left.
    destruct (de_enum j) as [e| |] eqn:E; [apply enum_reader in E; now apply NE in E|reflexivity|now apply enum_panic in E].
  - intros (NE & ND & H). apply alias_reader in H. rewrite H.
    destruct (de_enum j) as [e| |] eqn:E; [apply enum_reader in E; now apply NE in E| |now apply enum_panic in E]. cbn [gbind or_else].
    destruct (de_described j) as [d| |] eqn:D; [apply described_reader in D; now apply ND in D|now left|].
    apply described_panic in D as (-> & O). now right.
Qed.
Lemma type_panic j p : de_type j = GPanic p -> p = GPBool /\ odd_flag j.
Proof.
  unfold de_type. destruct (de_enum j) as [e| |] eqn:E; cbn [gbind or_else]; try discriminate; [|now apply enum_panic in E].
  destruct (de_described j) as [d| |] eqn:D; cbn [gbind or_else]; try discriminate.
  - destruct (de_alias j) as [a| |] eqn:A; cbn [gbind]; try discriminate. now apply alias_panic in A.
  - intros [= <-]. now apply described_panic.
Qed.
Lemma types_read : forall js types, gmap de_type js = GOk types -> Forall2 reads_type js types.
Proof.
  induction js as [|j js IH]; intros types; cbn [gmap]; [intros [= <-]; constructor|].
  destruct (de_type j) as [t| |] eqn:E; try discriminate. cbn [gbind]. destruct (gmap de_type js) as [ts| |] eqn:G; try discriminate. intros [= <-].
  constructor; [now apply type_reads|now apply IH].
Qed.
Lemma parse_spec upper j D : parse upper j = GOk D -> exists types, reads_list reads_type j types /\ definitions_from upper types = GOk D.
Proof.
  unfold parse. destruct (de_vec de_type j) as [types| |] eqn:E; try discriminate. cbn [gbind]. intros H. exists types. split; [|exact H].
  destruct j; try discriminate. exists l. split; [reflexivity|now apply types_read].
Qed.
Lemma types_ok : forall js types, Forall2 reads_type js types -> Forall (fun j => ~ odd_flag j) js -> gmap de_type js = GOk types.
Proof.
  induction 1 as [|j t js ts H _ IH]; intros O; [reflexivity|]. inversion O as [|? ? O1 O2]; subst. cbn [gmap].
  destruct (reads_type_ok _ _ H) as [E|[_ X]]; [|contradiction]. rewrite E. cbn [gbind]. now rewrite IH.
Qed.
Lemma parse_ok upper js types : Forall2 reads_type js types -> Forall (fun j => ~ odd_flag j) js -> parse upper (JArr js) = definitions_from upper types.
Proof. intros H O. unfold parse. cbn [de_vec]. now rewrite (types_ok js types H O). Qed.
Lemma type_err j : de_type j = GErr -> forall t, ~ reads_type j t.
Proof. intros E t H. destruct (reads_type_ok _ _ H) as [X|[X _]]; congruence. Qed.
Lemma types_err : forall js, gmap de_type js = GErr -> forall types, ~ Forall2 reads_type js types.
Proof.
  induction js as [|j js IH]; cbn [gmap]; [discriminate|]. intros G types H. inversion H as [|? t ? ts H1 H2]; subst.
  destruct (de_type j) as [t'| |] eqn:E; cbn [gbind] in G; try discriminate; [|now apply type_err with (t := t) in E].
  destruct (gmap de_type js) eqn:G'; try discriminate. now apply (IH eq_refl) in H2.
Qed.
Lemma parse_cases upper j :
  (exists types, reads_list reads_type j types /\ parse upper j = definitions_from upper types) \/
  (parse upper j = GPanic GPSpec /\ forall types, ~ reads_list reads_type j types) \/
  (parse upper j = GPanic GPBool /\ exists js, j = JArr js /\ Exists odd_flag js).
Proof.
  unfold parse. destruct j; try (right; left; split; [reflexivity|intros types (? & [=] & _)]). cbn [de_vec].
  destruct (gmap de_type l) as [types| |q] eqn:E; cbn [gbind].
  - left. exists types. split; [|reflexivity]. exists l. split; [reflexivity|now apply types_read].
  - right; left. split; [reflexivity|]. intros types (js & [= <-] & H). now apply (types_err l E types).
  - right; right. apply gmap_panic in E as (x & I & E). apply type_panic in E as (-> & O). split; [reflexivity|]. exists l. split; [reflexivity|].
    apply Exists_exists. now exists x.
Qed.
Lemma reader_unique {A} (read : json -> gres A) reads j a b : reader read reads -> reads j a -> reads j b -> a = b.
Proof. intros R H1 H2. apply R in H1, H2. congruence. Qed.
Lemma reads_type_unique j t t' : reads_type j t -> reads_type j t' -> t = t'.
Proof.
  destruct t as [e|d|a], t' as [e'|d'|a']; cbn [reads_type]; intros H H'.
  all: repeat match goal with H : _ /\ _ |- _ => destruct H end.
  all: try (exfalso; match goal with N : forall x, ~ _, H : reads_enum _ _ |- _ => exact (N _ H) | N : forall x, ~ _, H : reads_described _ _ |- _ => exact (N _ H) end).
  - f_equal. now apply (reader_unique _ _ j _ _ enum_reader).
  - f_equal. now apply (reader_unique _ _ j _ _ described_reader).
  - f_equal. now apply (reader_unique _ _ j _ _ alias_reader).
Qed.
