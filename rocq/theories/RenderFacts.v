(** Facts about the rendering of the template. *)

From Coq Require Import String Permutation.
From Verif Require Import Base Codegen Display DisplaySpec DisplayFacts SpecJson SpecFacts Handlebars RepoText RenderSpec.
Open Scope string_scope.
Open Scope list_scope.
Open Scope Z_scope.

(** ** Induction over nodes *)
Section NodeInd.
  Variable P : node -> Prop.
  Hypothesis Htext : forall t, P (NText t).
  Hypothesis Hvar : forall raw p, P (NVar raw p).
  Hypothesis Hsnake : forall p, P (NSnake p).
  Hypothesis Heach : forall p x body, Forall P body -> P (NEach p x body).
  Hypothesis Hif : forall p yes no, Forall P yes -> Forall P no -> P (NIf p yes no).
  Fixpoint node_ind' (n : node) : P n :=
    let all := fix all (l : list node) : Forall P l :=
      match l with [] => Forall_nil _ | x :: r => Forall_cons x (node_ind' x) (all r) end in
    match n with
    | NText t => Htext t
    | NVar raw p => Hvar raw p
    | NSnake p => Hsnake p
    | NEach p x body => Heach p x body (all body)
    | NIf p yes no => Hif p yes no (all yes) (all no)
    end.
End NodeInd.

Lemma text_eqb_eq a b : text_eqb a b = true <-> a = b.
Proof. apply BaseFacts.bytes_eqb_eq. Qed.

(** ** [joined] *)
Lemma joined_some {A} (f : A -> option text) (g : A -> text) l : Forall (fun x => f x = Some (g x)) l -> joined f l = Some (flat_map g l).
Proof. induction 1 as [|x l Hx _ IH]; [reflexivity|]. cbn. rewrite Hx, IH. reflexivity. Qed.
Lemma joined_all {A} (f : A -> option text) l : Forall (fun x => exists t, f x = Some t) l -> exists t, joined f l = Some t.
Proof. induction 1 as [|x l [a Ha] _ [b Hb]]; [exists []; reflexivity|]. exists (a ++ b). cbn. rewrite Ha, Hb. reflexivity. Qed.
Lemma joined_ext {A} (f g : A -> option text) l : Forall (fun x => f x = g x) l -> joined f l = joined g l.
Proof. induction 1 as [|x l Hx _ IH]; [reflexivity|]. cbn. rewrite Hx, IH. reflexivity. Qed.
Lemma joined_app {A} (f : A -> option text) a b :
  joined f (a ++ b) = match joined f a, joined f b with Some x, Some y => Some (x ++ y) | _, _ => None end.
Proof.
  induction a as [|x a IH]; cbn; [destruct (joined f b); reflexivity|]. rewrite IH.
  destruct (f x), (joined f a), (joined f b); try reflexivity. rewrite app_assoc. reflexivity.
Qed.
Lemma joined_map {A B} (h : B -> A) (f : A -> option text) l : joined f (map h l) = joined (fun x => f (h x)) l.
Proof. induction l as [|x l IH]; [reflexivity|]. cbn. rewrite IH. reflexivity. Qed.

(** ** Shapes: the template only asks for what is there *)
Inductive shape := ShStr | ShNum | ShBool | ShArr (s : shape) | ShObj (l : list (text * shape)).
Fixpoint fits (s : shape) (j : json) {struct s} : Prop :=
  match s, j with
  | ShStr, JStr _ | ShNum, JInt _ | ShBool, JBool _ => True
  | ShArr s', JArr l => Forall (fits s') l
  | ShObj fs, JObj l =>
    (fix go (fs : list (text * shape)) (l : list (text * json)) : Prop :=
       match fs, l with
       | [], [] => True
       | (k, s') :: fs', (k', j') :: l' => k = k' /\ fits s' j' /\ go fs' l'
       | _, _ => False
       end) fs l
  | _, _ => False
  end.
Fixpoint smember (l : list (text * shape)) (k : text) : option shape :=
  match l with [] => None | (k', v) :: r => if text_eqb k' k then Some v else smember r k end.
Fixpoint sdescend (s : shape) (path : list text) : option shape :=
  match path with
  | [] => Some s
  | k :: r => match s with ShObj l => match smember l k with Some w => sdescend w r | None => None end | _ => None end
  end.
Definition sresolve (env : list (text * shape)) (path : list text) : option shape :=
  match path with [] => None | k :: r => match smember env k with Some v => sdescend v r | None => None end end.

Definition scope_fits (env : list (text * shape)) (s : scope) : Prop := fits (ShObj env) (JObj s).
Lemma smember_fits env : forall s, scope_fits env s -> forall k sh, smember env k = Some sh -> exists v, member s k = Some v /\ fits sh v.
Proof.
  induction env as [|[k0 sh0] env IH]; intros [|[k1 v1] s] H k sh E; cbn in E; try discriminate E; try (destruct H; fail).
  destruct H as (<- & Hf & Hr). cbn. destruct (text_eqb k0 k); [injection E as <-; eauto|]. eapply IH; eassumption.
Qed.
Lemma sdescend_fits path : forall sh v, fits sh v -> forall sh', sdescend sh path = Some sh' -> exists w, descend v path = Some w /\ fits sh' w.
Proof.
  induction path as [|k path IH]; intros sh v Hf sh' E; cbn in E |- *; [injection E as <-; eauto|].
  destruct sh as [| | | |fs]; try discriminate E. destruct (smember fs k) as [w|] eqn:Em; [|discriminate E].
  destruct v as [| | | | | |l]; try (destruct Hf; fail).
  destruct (smember_fits fs l Hf k w Em) as (u & -> & Hu). eapply IH; eassumption.
Qed.
Lemma sresolve_fits env s : scope_fits env s -> forall p sh, sresolve env p = Some sh -> exists v, resolve s p = Some v /\ fits sh v.
Proof.
  intros H [|k p] sh E; cbn in E |- *; [discriminate E|]. destruct (smember env k) as [w|] eqn:Em; [|discriminate E].
  destruct (smember_fits env s H k w Em) as (u & -> & Hu). eapply sdescend_fits; eassumption.
Qed.

Fixpoint check (env : list (text * shape)) (n : node) : bool :=
  match n with
  | NText _ => true
  | NVar _ p => match sresolve env p with Some ShStr | Some ShNum | Some ShBool => true | _ => false end
  | NSnake p => match sresolve env p with Some ShStr => true | _ => false end
  | NEach p x body => match sresolve env p with Some (ShArr s) => forallb (check ((x, s) :: env)) body | _ => false end
  | NIf p yes no => match sresolve env p with Some _ => forallb (check env) yes && forallb (check env) no | _ => false end
  end.
Lemma check_body {A} (f : A -> bool) (P : A -> Prop) l : Forall (fun x => f x = true -> P x) l -> forallb f l = true -> Forall P l.
Proof.
  intros H E. rewrite forallb_forall in E. rewrite Forall_forall in H |- *. intros x Hx. exact (H x Hx (E x Hx)).
Qed.
Lemma check_render upper e n : forall env s, scope_fits env s -> check env n = true -> exists t, render upper e n s = Some t.
Proof.
  induction n as [t|raw p|p|p x body IH|p yes no IHy IHn] using node_ind'; intros env s Hs Hc; cbn in Hc |- *.
  - eauto.
  - destruct (sresolve env p) as [sh|] eqn:E; [|discriminate Hc]. destruct (sresolve_fits env s Hs p sh E) as (v & -> & Hv).
    destruct sh; try discriminate Hc; destruct v; try (destruct Hv; fail); cbn; eauto.
  - destruct (sresolve env p) as [sh|] eqn:E; [|discriminate Hc]. destruct (sresolve_fits env s Hs p sh E) as (v & -> & Hv).
    destruct sh; try discriminate Hc; destruct v; try (destruct Hv; fail); eauto.
  - destruct (sresolve env p) as [sh|] eqn:E; [|discriminate Hc]. destruct (sresolve_fits env s Hs p sh E) as (v & -> & Hv).
    destruct sh as [| | |sh|]; try discriminate Hc. destruct v as [| | | | |l|]; try (destruct Hv; fail). cbn in Hv.
    apply joined_all. apply Forall_forall. intros v Hin. apply joined_all.
    assert (Hs' : scope_fits ((x, sh) :: env) ((x, v) :: s)).
    { split; [reflexivity|]. split; [|exact Hs]. rewrite Forall_forall in Hv. exact (Hv v Hin). }
    refine (check_body _ _ _ _ Hc). eapply Forall_impl; [|exact IH]. intros m Hm Hcm. exact (Hm _ _ Hs' Hcm).
  - destruct (sresolve env p) as [sh|] eqn:E; [|discriminate Hc]. destruct (sresolve_fits env s Hs p sh E) as (v & -> & _).
    apply andb_prop in Hc as [Hy Hn].
    destruct (truthy v); apply joined_all.
    + refine (check_body _ _ _ _ Hy). eapply Forall_impl; [|exact IHy]. intros m Hm Hcm. exact (Hm _ _ Hs Hcm).
    + refine (check_body _ _ _ _ Hn). eapply Forall_impl; [|exact IHn]. intros m Hm Hcm. exact (Hm _ _ Hs Hcm).
Qed.

(** The shapes of the definitions. *)
Definition OS (l : list (string * shape)) : shape := ShObj (map (fun e => (s2b (fst e), snd e)) l).
Definition alias_shape := OS [("name", ShStr); ("source", ShStr); ("provides", ShArr ShStr)].
Definition item_shape := OS [("name", ShStr); ("value", ShStr); ("value_len", ShNum)].
Definition descr_shape := OS [("name", ShStr); ("domain", ShNum); ("code", ShNum)].
Definition field_shape := OS [("name", ShStr); ("ty", ShStr); ("is_str", ShBool); ("is_ref", ShBool); ("optional", ShBool); ("default", ShStr);
  ("multiple", ShBool)].
Definition described_shape := OS [("name", ShStr); ("ty", ShStr); ("provides", ShArr ShStr); ("descriptor", descr_shape);
  ("fields", ShArr field_shape); ("transfer", ShBool)].
Definition provides_item_shape := OS [("ty", ShStr); ("descriptor", descr_shape)].
Definition provides_shape := OS [("name", ShStr); ("described", ShBool); ("options", ShArr provides_item_shape)].
Definition enum_shape := OS [("name", ShStr); ("ty", ShStr); ("provides", ShArr ShStr); ("items", ShArr item_shape); ("is_symbol", ShBool)].
Definition definitions_shape := OS [("aliases", ShArr alias_shape); ("enums", ShArr enum_shape); ("lists", ShArr described_shape);
  ("described_restricted", ShArr described_shape); ("provides", ShArr provides_shape)].

Lemma fits_map {A} (f : A -> json) sh l : (forall x, fits sh (f x)) -> fits (ShArr sh) (JArr (map f l)).
Proof. intros H. cbn. apply Forall_forall. intros j Hj. apply in_map_iff in Hj as (x & <- & _). apply H. Qed.
Lemma texts_fits l : fits (ShArr ShStr) (texts_json l).
Proof. apply fits_map. intros x. exact I. Qed.
Ltac fits_obj := cbn -[s2b]; repeat split; try exact I.
Lemma alias_fits a : fits alias_shape (alias_json a).
Proof. repeat split; try exact (texts_fits _). Qed.
Lemma item_fits a : fits item_shape (item_json a).
Proof. repeat split. Qed.
Lemma descr_fits a : fits descr_shape (descr_json a).
Proof. repeat split. Qed.
Lemma field_fits a : fits field_shape (field_json a).
Proof. repeat split. Qed.
Lemma described_fits a : fits described_shape (described_json a).
Proof. repeat split; try exact (texts_fits _). exact (fits_map field_json field_shape _ field_fits). Qed.
Lemma provides_item_fits a : fits provides_item_shape (provides_item_json a).
Proof. repeat split. Qed.
Lemma provides_fits a : fits provides_shape (provides_json a).
Proof. repeat split. exact (fits_map provides_item_json provides_item_shape _ provides_item_fits). Qed.
Lemma enum_fits a : fits enum_shape (enum_json a).
Proof. repeat split; try exact (texts_fits _). exact (fits_map item_json item_shape _ item_fits). Qed.
Lemma definitions_fits D : scope_fits [(s2b "defs", definitions_shape)] [(s2b "defs", definitions_json D)].
Proof.
  split; [reflexivity|]. split; [|exact I]. 
  repeat split; [exact (fits_map alias_json alias_shape _ alias_fits) | exact (fits_map enum_json enum_shape _ enum_fits)
    | exact (fits_map described_json described_shape _ described_fits) | exact (fits_map described_json described_shape _ described_fits)
    | exact (fits_map provides_json provides_shape _ provides_fits)].
Qed.

(** ** The template as a tree *)
Definition nodes : list node := Eval vm_compute in match compile template_text with Some l => l | None => [] end.
Lemma compiled : compile template_text = Some nodes.
Proof. vm_compute. reflexivity. Qed.
Lemma nodes_checked : forallb (check [(s2b "defs", definitions_shape)]) nodes = true.
Proof. vm_compute. reflexivity. Qed.
Lemma template_renders upper e D : exists t, generated upper e template_text D = Some t.
Proof.
  unfold generated, generated_by. rewrite compiled.
  destruct (joined_all (fun n => render upper e n [(s2b "defs", definitions_json D)]) nodes) as (t & ->); [|eauto].
  refine (check_body _ _ _ _ nodes_checked). apply Forall_forall. intros n _. apply check_render, definitions_fits.
Qed.

(** ** What the values in scope are made of *)
Fixpoint good (P : text -> Prop) (j : json) : Prop :=
  match j with
  | JStr t => P t
  | JArr l => (fix go (l : list json) : Prop := match l with [] => True | x :: r => good P x /\ go r end) l
  | JObj l => (fix go (l : list (text * json)) : Prop := match l with [] => True | (_, x) :: r => good P x /\ go r end) l
  | _ => True
  end.
Lemma good_arr P l : good P (JArr l) <-> Forall (good P) l.
Proof.
  induction l as [|x r IH]; [split; [constructor|exact (fun _ => I)]|]. split.
  - intros [H1 H2]. constructor; [exact H1|]. apply IH. exact H2.
  - intros H. inversion H as [|? ? H1 H2]; subst. split; [exact H1|]. apply IH. exact H2.
Qed.
Lemma good_obj P l : good P (JObj l) <-> Forall (fun e => good P (snd e)) l.
Proof.
  induction l as [|[k x] r IH]; [split; [constructor|exact (fun _ => I)]|]. split.
  - intros [H1 H2]. constructor; [exact H1|]. apply IH. exact H2.
  - intros H. inversion H as [|? ? H1 H2]; subst. split; [exact H1|]. apply IH. exact H2.
Qed.
Lemma member_good P l : Forall (fun e : text * json => good P (snd e)) l -> forall k v, member l k = Some v -> good P v.
Proof.
  induction 1 as [|[k0 v0] l H _ IH]; intros k v E; cbn in E; [discriminate E|].
  destruct (text_eqb k0 k); [injection E as <-; exact H|]. exact (IH k v E).
Qed.
Lemma descend_good P path : forall v, good P v -> forall w, descend v path = Some w -> good P w.
Proof.
  induction path as [|k path IH]; intros v Hv w E; cbn in E; [injection E as <-; exact Hv|].
  destruct v as [| | | | | |l]; try discriminate E. destruct (member l k) as [u|] eqn:Em; [|discriminate E].
  apply good_obj in Hv. exact (IH u (member_good P l Hv k u Em) w E).
Qed.
Lemma resolve_good P s : Forall (fun e : text * json => good P (snd e)) s -> forall p v, resolve s p = Some v -> good P v.
Proof.
  intros H [|k p] v E; cbn in E; [discriminate E|]. destruct (member s k) as [u|] eqn:Em; [|discriminate E].
  exact (descend_good P p u (member_good P s H k u Em) v E).
Qed.

Lemma good_map {A} (f : A -> json) P l : Forall (fun x => good P (f x)) l -> good P (JArr (map f l)).
Proof. intros H. apply good_arr. apply Forall_map. exact H. Qed.
Lemma texts_good P l : Forall P l -> good P (texts_json l).
Proof. intros H. apply good_map. eapply Forall_impl; [|exact H]. intros x Hx. exact Hx. Qed.
Lemma Forall_flat {A B} (P : B -> Prop) (f : A -> list B) l : Forall P (flat_map f l) -> Forall (fun x => Forall P (f x)) l.
Proof. induction l as [|x l IH]; cbn; intros H; constructor; apply Forall_app in H as [H1 H2]; auto. Qed.
Lemma alias_good P a : Forall P (al_name a :: al_source a :: al_provides a) -> good P (alias_json a).
Proof. intros H. inversion H as [|? ? H1 H2]; subst. inversion H2 as [|? ? H3 H4]; subst. repeat split; try assumption. exact (texts_good P _ H4). Qed.
Lemma item_good P i : Forall P [ei_name i; ei_value i] -> good P (item_json i).
Proof. intros H. inversion H as [|? ? H1 H2]; subst. inversion H2; subst. repeat split; assumption. Qed.
Lemma enum_good P e :
  Forall P (en_name e :: en_ty e :: en_provides e ++ flat_map (fun i => [ei_name i; ei_value i]) (en_items e)) -> good P (enum_json e).
Proof.
  intros H. inversion H as [|? ? H1 H2]; subst. inversion H2 as [|? ? H3 H4]; subst. apply Forall_app in H4 as [H4 H5].
  repeat split; try assumption; [exact (texts_good P _ H4)|]. apply (good_map item_json). apply Forall_flat in H5.
  eapply Forall_impl; [|exact H5]. intros i. apply item_good.
Qed.
Lemma field_good P f : Forall P [fi_name f; fi_ty f; fi_default f] -> good P (field_json f).
Proof. intros H. inversion H as [|? ? H1 H2]; subst. inversion H2 as [|? ? H3 H4]; subst. inversion H4; subst. repeat split; assumption. Qed.
Lemma described_good P d : Forall P (described_texts d) -> good P (described_json d).
Proof.
  intros H. unfold described_texts, descr_texts in H. inversion H as [|? ? H1 H2]; subst. inversion H2 as [|? ? H3 H4]; subst.
  apply Forall_app in H4 as [H4 H5]. cbn [app] in H5. inversion H5 as [|? ? H6 H7]; subst.
  repeat split; try assumption; [exact (texts_good P _ H4)|]. apply (good_map field_json). apply Forall_flat in H7.
  eapply Forall_impl; [|exact H7]. intros i. apply field_good.
Qed.
Lemma provides_good P p :
  Forall P (pe_name p :: flat_map (fun i => pi_ty i :: descr_texts (pi_descriptor i)) (pe_options p)) -> good P (provides_json p).
Proof.
  intros H. inversion H as [|? ? H1 H2]; subst. repeat split; [exact H1|]. apply (good_map provides_item_json). apply Forall_flat in H2.
  eapply Forall_impl; [|exact H2]. intros i Hi. inversion Hi as [|? ? H3 H4]; subst. inversion H4; subst. repeat split; assumption.
Qed.
Lemma definitions_good P D : Forall P (definitions_texts D) -> Forall (fun e : text * json => good P (snd e)) [(s2b "defs", definitions_json D)].
Proof.
  intros H. unfold definitions_texts in H. repeat rewrite Forall_app in H. destruct H as (H1 & H2 & H3 & H4 & H5).
  constructor; [|constructor]. cbn [snd]. repeat split; cbn [snd].
  - apply (good_map alias_json). apply Forall_flat in H1. eapply Forall_impl; [|exact H1]. intros a. apply alias_good.
  - apply (good_map enum_json). apply Forall_flat in H2. eapply Forall_impl; [|exact H2]. intros a. apply enum_good.
  - apply (good_map described_json). apply Forall_flat in H3. eapply Forall_impl; [|exact H3]. intros a. apply described_good.
  - apply (good_map described_json). apply Forall_flat in H4. eapply Forall_impl; [|exact H4]. intros a. apply described_good.
  - apply (good_map provides_json). apply Forall_flat in H5. eapply Forall_impl; [|exact H5]. intros a. apply provides_good.
Qed.

(** ** Characters *)
Definition free (cs : string) (t : text) : Prop := Forall (fun c => ~ In c (s2b cs)) t.
Lemma decimal_chars n : Forall (fun c => digit c \/ c = 45) (decimal n).
Proof.
  pose proof (proj2 (number_unique n (decimal n)) eq_refl) as H. unfold number in H. destruct (n <? 0).
  - destruct H as (r & -> & (_ & Hd & _)). constructor; [right; reflexivity|]. eapply Forall_impl; [|exact Hd]. intros c Hc. left. exact Hc.
  - destruct H as (_ & Hd & _). eapply Forall_impl; [|exact Hd]. intros c Hc. left. exact Hc.
Qed.

(** ** Escaping *)
Lemma escape_free t : free """&<>" t -> escape t = t.
Proof.
  unfold escape. induction 1 as [|c t Hc _ IH]; [reflexivity|]. cbn [flat_map]. rewrite IH. unfold escape_char.
  destruct (c =? 34) eqn:E1; [apply Z.eqb_eq in E1; subst; destruct Hc; cbn; auto|].
  destruct (c =? 38) eqn:E2; [apply Z.eqb_eq in E2; subst; destruct Hc; cbn; auto|].
  destruct (c =? 60) eqn:E3; [apply Z.eqb_eq in E3; subst; destruct Hc; cbn; auto|].
  destruct (c =? 62) eqn:E4; [apply Z.eqb_eq in E4; subst; destruct Hc; cbn; auto|]. reflexivity.
Qed.
Lemma written_free cs v t : Forall (fun c => ~ digit c /\ c <> 45 /\ ~ In c (s2b "truefals")) (s2b cs) -> good (free cs) v -> written_value v = Some t -> free cs t.
Proof.
  intros Hcs Hv E. rewrite Forall_forall in Hcs. destruct v as [|b|n| |t'| |]; try discriminate E; injection E as <-.
  - destruct b; apply Forall_forall; intros c Hc Hin; destruct (Hcs c Hin) as (_ & _ & Hn); apply Hn; cbn in Hc |- *; tauto.
  - eapply Forall_impl; [|apply decimal_chars]. intros c [Hd|Hm] Hin; destruct (Hcs c Hin) as (H1 & H2 & _); contradiction.
  - exact Hv.
Qed.
Lemma render_unescaped upper n : forall s, Forall (fun e : text * json => good (free """&<>") (snd e)) s -> render upper true n s = render upper false n s.
Proof.
  induction n as [t|raw p|p|p x body IH|p yes no IHy IHn] using node_ind'; intros s Hs; cbn.
  - reflexivity.
  - destruct (resolve s p) as [v|] eqn:E; [|reflexivity]. pose proof (resolve_good _ s Hs p v E) as Hv.
    destruct (written_value v) as [t|] eqn:Ew; [|reflexivity]. rewrite Bool.orb_false_r, Bool.orb_true_r.
    destruct raw; [reflexivity|]. rewrite escape_free; [reflexivity|].
    apply (written_free _ v t); [|exact Hv|exact Ew]. unfold digit. repeat constructor; cbn; lia.
  - reflexivity.
  - destruct (resolve s p) as [v|] eqn:E; [|reflexivity]. pose proof (resolve_good _ s Hs p v E) as Hv.
    destruct v as [| | | | |l|]; try reflexivity. apply good_arr in Hv. apply joined_ext. eapply Forall_impl; [|exact Hv]. intros v Hg.
    apply joined_ext. eapply Forall_impl; [|exact IH]. intros m Hm. apply Hm. constructor; [exact Hg|exact Hs].
  - destruct (resolve s p) as [v|]; [|reflexivity].
    destruct (truthy v); apply joined_ext; (eapply Forall_impl; [|eassumption]); intros m Hm; apply Hm; exact Hs.
Qed.
Lemma template_unescaped upper D : without """&<>" D -> generated upper true template_text D = generated upper false template_text D.
Proof.
  intros H. unfold generated, generated_by. rewrite compiled. erewrite joined_ext; [reflexivity|]. apply Forall_forall. intros n _.
  apply render_unescaped. apply definitions_good. exact H.
Qed.

(** ** Brackets *)
Definition closing (c : Z) : option Z := if c =? 40 then Some 41 else if c =? 91 then Some 93 else if c =? 123 then Some 125 else None.
Fixpoint run (st : list Z) (t : text) : option (list Z) :=
  match t with
  | [] => Some st
  | c :: r =>
    match closing c with
    | Some e => run (e :: st) r
    | None =>
      if (c =? 41) || (c =? 93) || (c =? 125)
      then match st with e :: st' => if e =? c then run st' r else None | [] => None end
      else run st r
    end
  end.
Lemma run_app a : forall st b, run st (a ++ b) = match run st a with Some st' => run st' b | None => None end.
Proof.
  induction a as [|c a IH]; intros st b; [reflexivity|]. cbn. destruct (closing c); [apply IH|].
  destruct ((c =? 41) || (c =? 93) || (c =? 125)); [|apply IH]. destruct st as [|e st]; [reflexivity|]. destruct (e =? c); [apply IH|reflexivity].
Qed.
Lemma run_under t : forall st st' more, run st t = Some st' -> run (st ++ more) t = Some (st' ++ more).
Proof.
  induction t as [|c t IH]; intros st st' more E; cbn in E |- *; [injection E as <-; reflexivity|].
  destruct (closing c) as [e|]; [exact (IH (e :: st) st' more E)|].
  destruct ((c =? 41) || (c =? 93) || (c =? 125)); [|exact (IH st st' more E)].
  destruct st as [|e st]; [discriminate E|]. cbn. destruct (e =? c); [exact (IH st st' more E)|discriminate E].
Qed.
Lemma run_free t : free "()[]{}" t -> forall st, run st t = Some st.
Proof.
  induction 1 as [|c t Hc _ IH]; intros st; [reflexivity|]. cbn. cbn in Hc. unfold closing.
  destruct (c =? 40) eqn:E1; [lia|]. destruct (c =? 91) eqn:E2; [lia|]. destruct (c =? 123) eqn:E3; [lia|].
  destruct (c =? 41) eqn:E4; [lia|]. destruct (c =? 93) eqn:E5; [lia|]. destruct (c =? 125) eqn:E6; [lia|]. apply IH.
Qed.
Inductive closes : list Z -> text -> Prop :=
| cl_nil t : balanced t -> closes [] t
| cl_cons c st a b : balanced a -> closes st b -> closes (c :: st) (a ++ c :: b).
Lemma run_closes t : forall st, run st t = Some [] -> closes st t.
Proof.
  induction t as [|c t IH]; intros st E; cbn in E; [injection E as ->; repeat constructor|].
  destruct (closing c) as [e|] eqn:Ec.
  - apply IH in E. inversion E as [|e' st' a b Ha Hb]; subst. 
    assert (Hin : In (c, e) [(40, 41); (91, 93); (123, 125)]).
    { unfold closing in Ec. cbn. destruct (c =? 40) eqn:E1; [injection Ec as <-; left; f_equal; lia|].
      destruct (c =? 91) eqn:E2; [injection Ec as <-; right; left; f_equal; lia|].
      destruct (c =? 123) eqn:E3; [injection Ec as <-; right; right; left; f_equal; lia|discriminate Ec]. }
    inversion Hb as [t' Ht|e2 st2 a2 b2 Ha2 Hb2]; subst.
    + constructor. apply bal_pair; assumption.
    + replace (c :: a ++ e :: a2 ++ e2 :: b2) with ((c :: a ++ e :: a2) ++ e2 :: b2) by (cbn; rewrite <- app_assoc; reflexivity).
      constructor; [apply bal_pair; assumption|exact Hb2].
  - destruct ((c =? 41) || (c =? 93) || (c =? 125)) eqn:Eb.
    + destruct st as [|e st]; [discriminate E|]. destruct (e =? c) eqn:Ee; [|discriminate E]. apply Z.eqb_eq in Ee. subst e.
      apply (cl_cons c st [] t); [constructor|]. apply IH. exact E.
    + assert (Hc : ~ In c (s2b "()[]{}")).
      { unfold closing in Ec. cbn. destruct (c =? 40) eqn:E1; [discriminate Ec|]. destruct (c =? 91) eqn:E2; [discriminate Ec|].
        destruct (c =? 123) eqn:E3; [discriminate Ec|]. lia. }
      apply IH in E. inversion E as [t' Ht|e2 st2 a2 b2 Ha2 Hb2]; subst.
      * constructor. apply bal_char; assumption.
      * apply (cl_cons e2 st2 (c :: a2) b2); [apply bal_char; assumption|exact Hb2].
Qed.
Lemma run_balanced t : run [] t = Some [] -> balanced t.
Proof. intros E. apply run_closes in E. inversion E; subst; assumption. Qed.

Fixpoint brackets (n : node) (st : list Z) : option (list Z) :=
  match n with
  | NText t => run st t
  | NVar _ _ | NSnake _ => Some st
  | NEach _ _ body =>
    match (fix go (l : list node) (st : list Z) : option (list Z) :=
             match l with [] => Some st | m :: r => match brackets m st with Some st' => go r st' | None => None end end) body [] with
    | Some [] => Some st
    | _ => None
    end
  | NIf _ yes no =>
    let go := fix go (l : list node) (st : list Z) : option (list Z) :=
             match l with [] => Some st | m :: r => match brackets m st with Some st' => go r st' | None => None end end in
    match go yes [], go no [] with
    | Some [], Some [] => Some st
    | _, _ => None
    end
  end.
Fixpoint brackets_all (l : list node) (st : list Z) : option (list Z) :=
  match l with [] => Some st | m :: r => match brackets m st with Some st' => brackets_all r st' | None => None end end.
Lemma nodes_brackets : brackets_all nodes [] = Some [].
Proof. vm_compute. reflexivity. Qed.
Lemma escape_brackets t : free "()[]{}" t -> free "()[]{}" (escape t).
Proof.
  unfold escape. induction 1 as [|c t Hc _ IH]; [constructor|]. cbn [flat_map]. apply Forall_app. split; [|exact IH].
  unfold escape_char.
  destruct (c =? 34); [repeat constructor; cbn; lia|]. destruct (c =? 38); [repeat constructor; cbn; lia|].
  destruct (c =? 60); [repeat constructor; cbn; lia|]. destruct (c =? 62); [repeat constructor; cbn; lia|].
  constructor; [exact Hc|constructor].
Qed.
Lemma snake_brackets upper t : free "()[]{}" t -> free "()[]{}" (snake_case upper t).
Proof.
  intros H. unfold snake_case. destruct (is t "type"); [repeat constructor; cbn; lia|]. destruct (is t "return"); [repeat constructor; cbn; lia|].
  enough (G : forall st, free "()[]{}" (snd st) -> free "()[]{}" (snd (fold_left (snake_step upper) t st))) by (apply G; constructor).
  induction H as [|c t Hc _ IH]; intros [[nw lu] r] Hr; [exact Hr|]. cbn [fold_left]. apply IH. unfold snake_step. cbn [snd] in Hr.
  destruct (is_separator c); [exact Hr|].
  assert (Hl : ~ In (if is_uppercase upper c then to_ascii_lowercase c else c) (s2b "()[]{}")).
  { destruct (is_uppercase upper c); [|exact Hc]. unfold to_ascii_lowercase. cbn in Hc |- *. destruct ((65 <=? c) && (c <=? 90)) eqn:Eu; lia. }
  match goal with |- context [if ?b then (false, r ++ [95]) else _] => destruct b end; cbn [snd].
  - repeat (apply Forall_app; split); [exact Hr|constructor; [cbn; lia|constructor]|constructor; [exact Hl|constructor]].
  - apply Forall_app; split; [exact Hr|constructor; [exact Hl|constructor]].
Qed.
Lemma brackets_each p x body st : brackets (NEach p x body) st = match brackets_all body [] with Some [] => Some st | _ => None end.
Proof. reflexivity. Qed.
Lemma brackets_if p yes no st :
  brackets (NIf p yes no) st = match brackets_all yes [], brackets_all no [] with Some [], Some [] => Some st | _, _ => None end.
Proof. reflexivity. Qed.

Section Brackets.
  Variables (upper : Z -> bool) (e : bool).
  Definition in_scope (s : scope) : Prop := Forall (fun x : text * json => good (free "()[]{}") (snd x)) s.
  Definition bracketed (n : node) : Prop :=
    forall s st st' t, in_scope s -> brackets n st = Some st' -> render upper e n s = Some t -> run st t = Some st'.
  Lemma bracketed_all l : Forall bracketed l -> forall s st st' t, in_scope s -> brackets_all l st = Some st' ->
    joined (fun m => render upper e m s) l = Some t -> run st t = Some st'.
  Proof.
    induction 1 as [|n l Hn _ IH]; intros s st st' t Hs Hb Hj; cbn in Hb, Hj.
    - injection Hb as <-. injection Hj as <-. reflexivity.
    - destruct (brackets n st) as [st1|] eqn:E1; [|discriminate Hb]. destruct (render upper e n s) as [a|] eqn:Ea; [|discriminate Hj].
      destruct (joined (fun m => render upper e m s) l) as [b|] eqn:Eb; [|discriminate Hj]. injection Hj as <-.
      rewrite run_app, (Hn s st st1 a Hs E1 Ea). exact (IH s st1 st' b Hs Hb Eb).
  Qed.
  Lemma joined_run {A} (f : A -> option text) l : (forall x t, In x l -> f x = Some t -> run [] t = Some []) ->
    forall t, joined f l = Some t -> run [] t = Some [].
  Proof.
    induction l as [|x l IH]; intros H t E; cbn in E; [injection E as <-; reflexivity|].
    destruct (f x) as [a|] eqn:Ea; [|discriminate E]. destruct (joined f l) as [b|] eqn:Eb; [|discriminate E]. injection E as <-.
    rewrite run_app, (H x a (or_introl eq_refl) Ea). apply IH; [|reflexivity]. intros y t Hy. apply H. right. exact Hy.
  Qed.
  Lemma run_over t st : run [] t = Some [] -> run st t = Some st.
  Proof. exact (run_under t [] [] st). Qed.
  Lemma node_bracketed n : bracketed n.
  Proof.
    induction n as [t0|raw p|p|p x body IH|p yes no IHy IHn] using node_ind'; intros s st st' t Hs Hb Hr.
    - cbn in Hb, Hr. injection Hr as <-. exact Hb.
    - cbn in Hb, Hr. injection Hb as <-. destruct (resolve s p) as [v|] eqn:E; [|discriminate Hr].
      destruct (written_value v) as [w|] eqn:Ew; [|discriminate Hr]. injection Hr as <-.
      assert (Hw : free "()[]{}" w).
      { apply (written_free _ v w); [|exact (resolve_good _ s Hs p v E)|exact Ew]. unfold digit. repeat constructor; cbn; lia. }
      destruct (raw || negb e); apply run_free; [exact Hw|]. apply escape_brackets. exact Hw.
    - cbn in Hb, Hr. injection Hb as <-. destruct (resolve s p) as [v|] eqn:E; [|discriminate Hr].
      pose proof (resolve_good _ s Hs p v E) as Hv. destruct v; try discriminate Hr. injection Hr as <-. apply run_free, snake_brackets. exact Hv.
    - rewrite brackets_each in Hb. cbn in Hr. destruct (brackets_all body []) as [[|]|] eqn:Eb; try discriminate Hb. injection Hb as <-.
      destruct (resolve s p) as [v|] eqn:E; [|discriminate Hr]. pose proof (resolve_good _ s Hs p v E) as Hv.
      destruct v as [| | | | |l|]; try discriminate Hr. apply run_over. refine (joined_run _ l _ t Hr). intros v a Hin Ha.
      refine (bracketed_all body IH ((x, v) :: s) [] [] a _ Eb Ha). constructor; [|exact Hs]. apply good_arr in Hv.
      rewrite Forall_forall in Hv. exact (Hv v Hin).
    - rewrite brackets_if in Hb. cbn in Hr. destruct (brackets_all yes []) as [[|]|] eqn:Ey; try discriminate Hb.
      destruct (brackets_all no []) as [[|]|] eqn:En; try discriminate Hb. injection Hb as <-.
      destruct (resolve s p) as [v|] eqn:E; [|discriminate Hr]. apply run_over.
      destruct (truthy v); [exact (bracketed_all yes IHy s [] [] t Hs Ey Hr)|exact (bracketed_all no IHn s [] [] t Hs En Hr)].
  Qed.
End Brackets.
Lemma template_balanced upper e D t : without "()[]{}" D -> generated upper e template_text D = Some t -> balanced t.
Proof.
  intros H E. unfold generated, generated_by in E. rewrite compiled in E.
  destruct (joined (fun n => render upper e n [(s2b "defs", definitions_json D)]) nodes) as [u|] eqn:Ej; [|discriminate E]. injection E as <-.
  apply run_balanced. rewrite run_app.
  rewrite (bracketed_all upper e nodes) with (s := [(s2b "defs", definitions_json D)]) (st' := []).
  - reflexivity.
  - apply Forall_forall. intros n _. apply node_bracketed.
  - apply definitions_good. exact H.
  - apply nodes_brackets.
  - exact Ej.
Qed.

(** ** One block for each definition *)

(** Paths that do not start at the root. *)
Definition inner (root : text) (p : list text) : bool := match p with [] => true | k :: _ => negb (text_eqb root k) end.
Fixpoint rootless (root : text) (n : node) : bool :=
  match n with
  | NText _ => true
  | NVar _ p | NSnake p => inner root p
  | NEach p x body => inner root p && forallb (rootless root) body
  | NIf p yes no => inner root p && forallb (rootless root) yes && forallb (rootless root) no
  end.
Lemma member_other root v w s k : text_eqb root k = false -> member (s ++ [(root, v)]) k = member (s ++ [(root, w)]) k.
Proof. intros H. induction s as [|[k0 v0] s IH]; cbn; [rewrite H; reflexivity|]. rewrite IH. reflexivity. Qed.
Lemma resolve_other root v w s p : inner root p = true -> resolve (s ++ [(root, v)]) p = resolve (s ++ [(root, w)]) p.
Proof.
  destruct p as [|k p]; [reflexivity|]. cbn. intros H. rewrite (member_other root v w); [reflexivity|]. apply Bool.negb_true_iff. exact H.
Qed.
Lemma render_other upper e root v w n : forall s, rootless root n = true -> render upper e n (s ++ [(root, v)]) = render upper e n (s ++ [(root, w)]).
Proof.
  induction n as [t|raw p|p|p x body IH|p yes no IHy IHn] using node_ind'; intros s H; cbn in H |- *.
  - reflexivity.
  - rewrite (resolve_other root v w s p H). reflexivity.
  - rewrite (resolve_other root v w s p H). reflexivity.
  - apply andb_prop in H as [H1 H2]. rewrite (resolve_other root v w s p H1). destruct (resolve (s ++ [(root, w)]) p) as [[| | | | |l|]|]; try reflexivity.
    apply joined_ext. apply Forall_forall. intros u _. apply joined_ext. refine (check_body _ _ _ _ H2). eapply Forall_impl; [|exact IH].
    intros m Hm Hc. exact (Hm ((x, u) :: s) Hc).
  - apply andb_prop in H as [H H3]. apply andb_prop in H as [H1 H2]. rewrite (resolve_other root v w s p H1).
    destruct (resolve (s ++ [(root, w)]) p) as [u|]; [|reflexivity]. destruct (truthy u); apply joined_ext.
    + refine (check_body _ _ _ _ H2). eapply Forall_impl; [|exact IHy]. intros m Hm Hc. exact (Hm s Hc).
    + refine (check_body _ _ _ _ H3). eapply Forall_impl; [|exact IHn]. intros m Hm Hc. exact (Hm s Hc).
Qed.
Definition text_at (i : nat) : text := match nth i nodes (NText []) with NText t => t | _ => [] end.
Definition body_at (i : nat) : list node := match nth i nodes (NText []) with NEach _ _ b => b | _ => [] end.
Definition block_text (upper : Z -> bool) (e : bool) (i : nat) (x : string) (v : json) : text :=
  match joined (fun m => render upper e m [(s2b x, v); (s2b "defs", JNull)]) (body_at i) with Some t => t | None => [] end.
Definition dpath (k : string) : list text := [s2b "defs"; s2b k].
Lemma nodes_listed : nodes = [NText (text_at 0); NEach (dpath "provides") (s2b "provide") (body_at 1); NText (text_at 2);
  NEach (dpath "aliases") (s2b "alias") (body_at 3); NText (text_at 4); NEach (dpath "enums") (s2b "enum") (body_at 5); NText (text_at 6);
  NEach (dpath "described_restricted") (s2b "dr") (body_at 7); NText (text_at 8); NEach (dpath "lists") (s2b "list") (body_at 9); NText (text_at 10)].
Proof. vm_compute. reflexivity. Qed.
Lemma bodies_rootless : forallb (fun i => forallb (rootless (s2b "defs")) (body_at i)) [1; 3; 5; 7; 9]%nat = true.
Proof. vm_compute. reflexivity. Qed.
Lemma bodies_checked : forallb (fun e => let '(i, x, sh) := e in forallb (check [(s2b x, sh); (s2b "defs", definitions_shape)]) (body_at i))
  [(1, "provide", provides_shape); (3, "alias", alias_shape); (5, "enum", enum_shape); (7, "dr", described_shape); (9, "list", described_shape)]%nat = true.
Proof. vm_compute. reflexivity. Qed.
Lemma block_rendered upper e i x sh v D : forallb (rootless (s2b "defs")) (body_at i) = true ->
  forallb (check [(s2b x, sh); (s2b "defs", definitions_shape)]) (body_at i) = true -> fits sh v ->
  joined (fun m => render upper e m [(s2b x, v); (s2b "defs", definitions_json D)]) (body_at i) = Some (block_text upper e i x v).
Proof.
  intros Hr Hc Hf.
  assert (E : joined (fun m => render upper e m [(s2b x, v); (s2b "defs", definitions_json D)]) (body_at i) =
              joined (fun m => render upper e m [(s2b x, v); (s2b "defs", JNull)]) (body_at i)).
  { apply joined_ext. refine (check_body _ _ _ _ Hr). apply Forall_forall. intros m _ Hm. exact (render_other upper e (s2b "defs") _ _ m [(s2b x, v)] Hm). }
  assert (X : exists t, joined (fun m => render upper e m [(s2b x, v); (s2b "defs", definitions_json D)]) (body_at i) = Some t).
  { apply joined_all. refine (check_body _ _ _ _ Hc). apply Forall_forall. intros m _ Hm. refine (check_render upper e m _ _ _ Hm).
    split; [reflexivity|]. split; [exact Hf|]. apply definitions_fits. }
  destruct X as (t & X). unfold block_text. rewrite <- E, X. reflexivity.
Qed.
Lemma each_rendered {A} upper e (i : nat) x k (f : A -> json) sh l D :
  resolve [(s2b "defs", definitions_json D)] (dpath k) = Some (JArr (map f l)) ->
  forallb (rootless (s2b "defs")) (body_at i) = true -> forallb (check [(s2b x, sh); (s2b "defs", definitions_shape)]) (body_at i) = true ->
  (forall a, fits sh (f a)) ->
  render upper e (NEach (dpath k) (s2b x) (body_at i)) [(s2b "defs", definitions_json D)] = Some (flat_map (fun a => block_text upper e i x (f a)) l).
Proof.
  intros Hres Hr Hc Hf. cbn [render]. rewrite Hres, joined_map. apply joined_some. apply Forall_forall. intros a _.
  apply (block_rendered upper e i x sh (f a) D Hr Hc (Hf a)).
Qed.
Lemma template_blocks_are upper e D : generated upper e template_text D =
  Some (text_at 0 ++ flat_map (fun a => block_text upper e 1 "provide" (provides_json a)) (df_provides D) ++ text_at 2 ++
        flat_map (fun a => block_text upper e 3 "alias" (alias_json a)) (df_aliases D) ++ text_at 4 ++
        flat_map (fun a => block_text upper e 5 "enum" (enum_json a)) (df_enums D) ++ text_at 6 ++
        flat_map (fun a => block_text upper e 7 "dr" (described_json a)) (df_described_restricted D) ++ text_at 8 ++
        flat_map (fun a => block_text upper e 9 "list" (described_json a)) (df_lists D) ++ text_at 10 ++ [10]).
Proof.
  unfold generated, generated_by. rewrite compiled, nodes_listed.
  pose proof bodies_rootless as Hr. pose proof bodies_checked as Hc. cbn [forallb] in Hr, Hc.
  repeat (apply andb_prop in Hr as [? Hr]). repeat (apply andb_prop in Hc as [? Hc]).
  cbn [joined].
  rewrite (each_rendered upper e 1 "provide" "provides" provides_json provides_shape (df_provides D)) by (try assumption; try reflexivity; apply provides_fits).
  rewrite (each_rendered upper e 3 "alias" "aliases" alias_json alias_shape (df_aliases D)) by (try assumption; try reflexivity; apply alias_fits).
  rewrite (each_rendered upper e 5 "enum" "enums" enum_json enum_shape (df_enums D)) by (try assumption; try reflexivity; apply enum_fits).
  rewrite (each_rendered upper e 7 "dr" "described_restricted" described_json described_shape (df_described_restricted D)) by (try assumption; try reflexivity; apply described_fits).
  rewrite (each_rendered upper e 9 "list" "lists" described_json described_shape (df_lists D)) by (try assumption; try reflexivity; apply described_fits).
  cbn [render]. rewrite app_nil_r. repeat rewrite <- app_assoc. reflexivity.
Qed.
Lemma template_blocks upper e : exists t0 t1 t2 t3 t4 t5 (U : provides_enum -> text) (A : alias -> text) (E : enum -> text) (R L : described -> text),
  forall D, generated upper e template_text D =
    Some (t0 ++ flat_map U (df_provides D) ++ t1 ++ flat_map A (df_aliases D) ++ t2 ++ flat_map E (df_enums D) ++ t3 ++
          flat_map R (df_described_restricted D) ++ t4 ++ flat_map L (df_lists D) ++ t5).
Proof.
  exists (text_at 0), (text_at 2), (text_at 4), (text_at 6), (text_at 8), (text_at 10 ++ [10]),
    (fun a => block_text upper e 1 "provide" (provides_json a)), (fun a => block_text upper e 3 "alias" (alias_json a)),
    (fun a => block_text upper e 5 "enum" (enum_json a)), (fun a => block_text upper e 7 "dr" (described_json a)),
    (fun a => block_text upper e 9 "list" (described_json a)).
  exact (template_blocks_are upper e).
Qed.

(** ** The file that is checked in *)
Definition D1 : definitions := MkDefinitions (df_aliases D0) (df_enums D0) (df_lists D0) (df_described_restricted D0)
  [U 0; U 1; U 3; U 5; U 2; U 6; U 4].
Fixpoint teqb (a b : list text) : bool := match a, b with [], [] => true | x :: a', y :: b' => text_eqb x y && teqb a' b' | _, _ => false end.
Lemma teqb_eq a : forall b, teqb a b = true -> a = b.
Proof.
  induction a as [|x a IH]; intros [|y b] H; cbn in H; try discriminate H; [reflexivity|]. apply andb_prop in H as [H1 H2].
  apply text_eqb_eq in H1. subst. f_equal. exact (IH b H2).
Qed.
Fixpoint take_out (x : list text) (l : list (list text)) : option (list (list text)) :=
  match l with
  | [] => None
  | y :: r => if teqb x y then Some r else match take_out x r with Some r' => Some (y :: r') | None => None end
  end.
Fixpoint permuted (a b : list (list text)) : bool :=
  match a with
  | [] => match b with [] => true | _ => false end
  | x :: r => match take_out x b with Some b' => permuted r b' | None => false end
  end.
Lemma take_out_perm x l : forall r, take_out x l = Some r -> Permutation (x :: r) l.
Proof.
  induction l as [|y l IH]; intros r E; cbn in E; [discriminate E|]. destruct (teqb x y) eqn:Et.
  - injection E as <-. apply teqb_eq in Et. subst. reflexivity.
  - destruct (take_out x l) as [r'|]; [|discriminate E]. injection E as <-. rewrite perm_swap. constructor. apply IH. reflexivity.
Qed.
Lemma permuted_perm a : forall b, permuted a b = true -> Permutation a b.
Proof.
  induction a as [|x a IH]; intros b E; cbn in E; [destruct b; [constructor|discriminate E]|].
  destruct (take_out x b) as [r|] eqn:Et; [|discriminate E]. rewrite <- (take_out_perm x b r Et). constructor. apply IH. exact E.
Qed.
Definition same_code_b (a b : text) : bool :=
  permuted (uses None (code a)) (uses None (code b)) && teqb (others false (code a)) (others false (code b)).
Lemma same_code_ok a b : same_code_b a b = true -> same_code a b.
Proof. intros H. apply andb_prop in H as [H1 H2]. split; [apply permuted_perm; exact H1|apply teqb_eq; exact H2]. Qed.
Lemma D1_compared upper : match generated upper true template_text D1 with Some t => same_code_b t checked_in_text | None => false end = true.
Proof. vm_compute. reflexivity. Qed.
Lemma D1_reordered : reordered D0 D1.
Proof.
  split; [|repeat split]. change (df_provides D0) with [U 0; U 1; U 2; U 3; U 4; U 5; U 6]. cbn [D1 df_provides].
  generalize (U 0) (U 1) (U 2) (U 3) (U 4) (U 5) (U 6). intros a b c d e f g. do 2 constructor.
  transitivity (d :: c :: [e; f; g]); [constructor|]. constructor.
  transitivity (c :: f :: [e; g]); [constructor; constructor|]. transitivity (f :: c :: [e; g]); [constructor|]. do 2 constructor. constructor.
Qed.
Lemma template_checked_in upper : exists D D' t, parse upper specification = GOk D /\ reordered D D' /\
  generated upper true template_text D' = Some t /\ same_code t checked_in_text.
Proof.
  pose proof (D1_compared upper) as H. destruct (generated upper true template_text D1) as [t|] eqn:E; [|discriminate H].
  exists D0, D1, t. split; [apply parsed|]. split; [apply D1_reordered|]. split; [exact E|]. apply same_code_ok. exact H.
Qed.

(** ** For the examples *)
Definition without_b (cs : string) (D : definitions) : bool :=
  forallb (forallb (fun c => negb (existsb (Z.eqb c) (s2b cs)))) (definitions_texts D).
Lemma without_ok cs D : without_b cs D = true -> without cs D.
Proof.
  intros H. unfold without_b in H. rewrite forallb_forall in H. apply Forall_forall. intros t Ht. specialize (H t Ht).
  rewrite forallb_forall in H. apply Forall_forall. intros c Hc Hin. specialize (H c Hc). apply Bool.negb_true_iff in H.
  enough (X : existsb (Z.eqb c) (s2b cs) = true) by congruence. apply existsb_exists. exists c. split; [exact Hin|apply Z.eqb_refl].
Qed.
Fixpoint starts (p t : text) : bool := match p, t with [], _ => true | x :: p', y :: t' => (x =? y) && starts p' t' | _, [] => false end.
Fixpoint contains (p t : text) : bool := starts p t || match t with [] => false | _ :: r => contains p r end.
Definition marks (t : option text) (p : text) : bool := match t with Some u => contains p u | None => false end.
