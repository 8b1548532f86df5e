(** Facts about the code of the template. *)

From Coq Require Import String.
From Verif Require Import Io Codegen Template BaseFacts Utf8Spec Utf8Facts Valid Wire PrimFacts DecLaws EncLaws VariantFacts TypeSpec TypeFacts
  CompositeSpec CompositeFacts AllTypes AllTypesFacts CodecSpec MessageSpec FrameSpec FrameFacts GenSpec.
From Coq Require Import ZifyBool.
Ltac Zify.zify_post_hook ::= Z.div_mod_to_equations.
Open Scope string_scope.
Open Scope list_scope.
Open Scope Z_scope.

(** ** Tables of fields *)
Lemma count_code {R} (F : fields R) : template_count (code_of F) = field_count F.
Proof. induction F; cbn [code_of template_count field_count]; lia. Qed.
Lemma content_code {R} (F : fields R) acc a : template_content (code_of F) acc a = size_fields F acc a.
Proof. revert acc a. induction F; intros acc a; cbn [code_of template_content size_fields]; [reflexivity| | |]; rewrite IHF; reflexivity. Qed.
Lemma ops_code {R} (F : fields R) a : template_field_ops (code_of F) a = enc_fields F a.
Proof. revert a. induction F; intros a; cbn [code_of template_field_ops enc_fields]; [reflexivity| | |]; rewrite IHF; reflexivity. Qed.
Lemma fields_code {R} (F : fields R) md s : template_fields (code_of F) md s = dec_fields F md s.
Proof.
  revert s. induction F; intros [input count]; cbn [code_of template_fields dec_fields]; [reflexivity| | |];
    (apply bind_ext; intros [s1 x]; now rewrite IHF).
Qed.
Lemma inner_code {R} (F : fields R) md inp :
  template_inner (code_of F) md inp = ('(s, rem) <- open_list md inp ;; dec_fields_k F md s (fun a => Ok (rem, a))).
Proof.
  unfold template_inner, open_list. rewrite bind_assoc. apply bind_ext. intros [i fmt]. rewrite bind_assoc. apply bind_ext.
  intros [i2 h]. rewrite bind_assoc. apply bind_ext. intros u. cbn [bind]. rewrite dec_fields_k_eq, fields_code. reflexivity.
Qed.
Lemma size_code {R} (F : fields R) a : template_size (code_of F) a = composite_size (size_fields F 0 a).
Proof. unfold template_size. now rewrite content_code. Qed.
Lemma enc_code code {R} (F : fields R) a :
  template_enc code (code_of F) a = composite_header code (field_count F) (size_fields F 0 a) ++ enc_fields F a.
Proof. unfold template_enc. rewrite content_code, count_code, ops_code. unfold composite_header. rewrite <- app_assoc. reflexivity. Qed.
Lemma dec_code {T} code name (inner : mode -> bytes -> res (bytes * T)) md inp fmt :
  template_dec code name inner md inp fmt = composite_dec code name inner md inp fmt.
Proof.
  unfold template_dec, composite_dec. apply bind_ext. intros u. apply bind_ext. intros [i d].
  destruct (match d with DUlong _ => _ | _ => _ end); reflexivity.
Qed.

(** ** A codec with the same functions meets the same specification *)
Lemma good_codec {T} (S : tspec T) (C : codec T) : good S ->
  (forall v, e_size (c_E C) v = s_size S v) -> (forall v, e_enc (c_E C) v = e_enc (c_E (s_codec S)) v) ->
  (forall md inp fmt, c_D C md inp fmt = s_dec S md inp fmt) ->
  good (MkSpec C (s_valid S) (s_codes S) (s_wire S) (s_canon S) (s_encodable S) (s_decodable S)).
Proof.
  intros G Hs He Hd. constructor; cbn [s_codec s_valid s_codes s_wire s_canon s_encodable s_decodable].
  - intros v Hv. rewrite Hs, He. exact (g_enc S G v Hv).
  - unfold s_dec. cbn [s_codec]. intros md fmt. eapply lawful_ext; [intros inp; symmetry; apply Hd|]. apply (g_dec S G).
  - unfold s_dec. cbn [s_codec]. intros md inp fmt. rewrite Hd. apply (g_total S G).
  - unfold s_size, s_bytes. cbn [s_codec]. intros v. rewrite Hs, He. apply (g_emits S G).
  - unfold s_dec. cbn [s_codec]. intros md v bs W D rest. pose proof (g_accepts S G md v bs W D rest) as A.
    unfold decode in *. etransitivity; [|exact A]. apply bind_ext. intros [i f]. apply Hd.
  - apply (g_codes S G).
  - unfold s_dec. cbn [s_codec]. intros md inp fmt. rewrite Hd. apply (g_reject S G).
Qed.

(** ** Lists *)
Definition plain_K {R} (code : Z) (name : string) (F : fields R) : composite :=
  MkComposite R R code name F (fun a => a) (fun a => a)
    (MkCodec (MkEnc (template_size (code_of F)) (template_enc code (code_of F))) (composite_dec code name (template_inner (code_of F))))
    (template_inner (code_of F)).
Lemma plain_tr {R} code name (F : fields R) : 1 <= code < 256 -> field_count F < 2 ^ 32 -> transcribed (plain_K code name F).
Proof.
  intros Hc Hn. constructor; cbn [plain_K k_T k_R k_code k_name k_fields k_to k_of k_codec k_inner c_E c_D e_size e_enc]; auto.
  - intros md inp. apply inner_code.
  - intros v. apply size_code.
  - intros v. apply enc_code.
Qed.
Lemma list_good_D {R} code name (F : fields R) : 1 <= code < 256 -> field_count F < 2 ^ 32 -> good_fields F ->
  good_D (composite_D (list_K code name F)).
Proof. intros Hc Hn G. exact (composite_good_D (plain_K code name F) (plain_tr code name F Hc Hn) G). Qed.
Lemma list_good {R} code name (F : fields R) : 1 <= code < 256 -> field_count F < 2 ^ 32 -> good_fields F ->
  good (composite_S (list_K code name F)).
Proof.
  intros Hc Hn G. apply (good_codec (composite_S (plain_K code name F)) (template_list code name (code_of F))).
  - exact (composite_good (plain_K code name F) (plain_tr code name F Hc Hn) G).
  - reflexivity.
  - reflexivity.
  - intros md inp fmt. apply dec_code.
Qed.

(** ** Unions *)
Lemma arms_select {T} (alts : list (alternative T)) md inp d :
  match match d with
        | DUlong val => template_ulong_arms (map option_of alts) md inp val
        | DSymbol a => template_symbol_arms (map option_of alts) md inp a
        end with Some r => r | None => Err (EInvalidDescriptor d) end = union_select alts md d inp.
Proof.
  destruct d as [val|s]; induction alts as [|a r IH]; cbn [map template_ulong_arms template_symbol_arms union_select matches]; try reflexivity;
    cbn [option_of o_code o_name o_inj o_inner].
  - destruct (val =? d_code (a_D a)); [reflexivity|exact IH].
  - unfold sym_is. destruct (bytes_eqb (str_bytes s) (s2b (d_name (a_D a)))); [reflexivity|exact IH].
Qed.
Lemma union_size_at {T} (alts : list (alternative T)) a x :
  Forall (fun a => forall v x, a_prj a v = Some x <-> v = a_inj a x) alts ->
  ForallOrdPairs (fun a b => forall x, a_prj a (a_inj b x) = None) alts -> In a alts ->
  template_union_size (map option_of alts) (a_inj a x) = e_size (d_E (a_D a)) x /\
  template_union_enc (map option_of alts) (a_inj a x) = e_enc (d_E (a_D a)) x.
Proof.
  induction alts as [|b r IH]; intros Hp Hd I; [easy|]. inversion Hp as [|? ? Hp1 Hp2]; inversion Hd as [|? ? Hd1 Hd2]; subst.
  cbn [map template_union_size template_union_enc option_of o_match o_size o_enc]. destruct I as [->|I].
  - assert (E : a_prj a (a_inj a x) = Some x) by now apply Hp1. rewrite E. now split.
  - rewrite Forall_forall in Hd1. rewrite (Hd1 a I). now apply IH.
Qed.
Lemma template_union_good {T} (alts : list (alternative T)) : alts_ok alts -> Forall (fun a => good_D (a_D a)) alts ->
  good (union_S (template_union (map option_of alts)) alts).
Proof.
  intros A G. set (C := MkCodec (c_E (template_union (map option_of alts)))
    (fun md inp fmt => _ <- validate_code fmt FC_DESCRIBED ;; '(inp1, d) <- decode descriptor_dec md inp ;; union_select alts md d inp1)).
  apply (good_codec (union_S C alts)).
  - apply (union_good C alts (union_select alts) A G); [|reflexivity|reflexivity].
    apply Forall_forall. intros a I x. exact (union_size_at alts a x (ao_prj _ A) (ao_disjoint _ A) I).
  - reflexivity.
  - reflexivity.
  - intros md inp fmt. unfold s_dec. cbn [s_codec union_S C c_D template_union]. unfold template_union_dec. apply bind_ext. intros u.
    apply bind_ext. intros [i d]. apply arms_select.
Qed.

(** ** Enumerations *)
Lemma try_items_at {B} (eqb : B -> B -> bool) (items : list B) k n b : (forall x y, eqb x y = true <-> x = y) ->
  NoDup items -> nth_error items n = Some b -> try_from_items eqb items k b = Some (k + Z.of_nat n).
Proof.
  intros He. revert k n. induction items as [|c r IH]; intros k n N E; [destruct n; discriminate|].
  inversion N as [|? ? N1 N2]; subst. cbn [try_from_items]. destruct n as [|n]; cbn [nth_error] in E.
  - injection E as ->. assert (X : eqb b b = true) by now apply He. rewrite X. f_equal. lia.
  - destruct (eqb b c) eqn:X; [apply He in X as ->; exfalso; apply N1; exact (nth_error_In _ _ E)|].
    rewrite (IH _ _ N2 E). f_equal. lia.
Qed.
Lemma try_items_range {B} (eqb : B -> B -> bool) (items : list B) k b i : try_from_items eqb items k b = Some i -> k <= i < k + zlen items.
Proof.
  revert k. induction items as [|c r IH]; intros k E; [discriminate|]. cbn [try_from_items] in E. rewrite zlen_cons. pose proof (zlen_nonneg r).
  destruct (eqb b c); [injection E as <-; lia|]. apply IH in E. lia.
Qed.
Lemma item_at {B} (d : B) (items : list B) i : 0 <= i < zlen items -> nth_error items (Z.to_nat i) = Some (item d items i).
Proof.
  revert i. induction items as [|c r IH]; intros i H; [unfold zlen in H; cbn [length] in H; lia|]. rewrite zlen_cons in H. cbn [item].
  destruct (Z.eqb_spec i 0) as [->|N]; [reflexivity|]. replace (Z.to_nat i) with (S (Z.to_nat (i - 1))) by lia. cbn [nth_error].
  apply IH. lia.
Qed.
Lemma numbered_good {A B} (name : string) (D : dec A) (key : A -> B) (back : B -> A) (eqb : B -> B -> bool) (E : enc Z) codes
    (w : B -> bytes -> Prop) (P : A -> Prop) (items : list B) :
  (forall x y, eqb x y = true <-> x = y) -> NoDup items -> (forall b, key (back b) = b) ->
  dec_lawful P D -> total D ->
  (forall md b bs, w b bs -> decodes md D bs (back b)) ->
  (forall b bs, w b bs -> exists c r, bs = c :: r /\ In c codes) ->
  (forall md inp fmt, ~ In fmt codes -> D md inp fmt = Err (EInvalidFormatCode fmt)) ->
  (forall i, 0 <= i < zlen items -> enc_fits (e_size E i) (e_enc E i) /\ 1 <= e_size E i) ->
  (forall i, 0 <= i < zlen items -> exists b, nth_error items (Z.to_nat i) = Some b /\ w b (wbytes (e_enc E i))) ->
  good (numbered_S (MkCodec E (fun md inp fmt => '(i, x) <- D md inp fmt ;;
      v <- try_from_result name (try_from_items eqb items 0 (key x)) ;; Ok (i, v))) codes w items).
Proof.
  intros He N Hk HL HT HA HC HR HE HW. constructor; cbn [s_valid s_codec s_codes s_wire s_canon s_encodable s_decodable numbered_S c_E c_D].
  - exact HE.
  - unfold s_dec. cbn [s_codec numbered_S c_D s_valid]. intros md fmt.
    apply (lawful_post P _ (fun x => try_from_result name (try_from_items eqb items 0 (key x)))); [apply HL|].
    intros x v _ X. unfold try_from_result in X. destruct (try_from_items eqb items 0 (key x)) eqn:Y; [|discriminate]. injection X as <-.
    apply try_items_range in Y. lia.
  - intros md inp fmt X. unfold s_dec in X. cbn [s_codec numbered_S c_D] in X. apply bind_oof in X as [X|([i x] & _ & X)]; [now apply HT in X|].
    unfold try_from_result in X. destruct (try_from_items _ _ _ _); discriminate.
  - intros i Hi _ _. destruct (HW i Hi) as (b & Nb & Wb). exists b. split; [exact (proj1 Hi)|]. now split.
  - intros md i bs (b & Hi & Nb & W) _ rest. unfold s_dec, decode. cbn [s_codec numbered_S c_D].
    pose proof (HA md b bs W rest) as X. unfold decode in X. destruct (HC b bs W) as (c & r & -> & _).
    unfold decode_format_code in *. cbn [app] in *. rewrite read_u8_cons in *. cbn [bind] in *. rewrite X. cbn [bind].
    rewrite Hk, (try_items_at eqb items 0 _ b He N Nb). cbn [try_from_result bind]. do 2 f_equal. lia.
  - intros i bs (b & _ & _ & W). now apply HC in W.
  - intros md inp fmt H. unfold s_dec. cbn [s_codec numbered_S c_D]. now rewrite HR.
Qed.
Lemma in_items {B} (items : list B) n b (P : B -> Prop) : Forall P items -> nth_error items n = Some b -> P b.
Proof. intros F E. rewrite Forall_forall in F. exact (F b (nth_error_In _ _ E)). Qed.
Lemma symbols_good name items : NoDup items -> Forall (fun t => text_ok t /\ zlen t < 256) items ->
  good (numbered_S (template_symbol_enum name items) symbol_codes wire_symbol items).
Proof.
  intros N F. apply (numbered_good name symbol_dec str_bytes SByteStr bytes_eqb _ symbol_codes wire_symbol symbol_ok items).
  - intros x y. apply bytes_eqb_eq.
  - exact N.
  - reflexivity.
  - exact symbol_lawful.
  - exact symbol_total.
  - intros md b bs W. now apply symbol_accepts.
  - intros b bs W. now apply symbol_codes_wire in W.
  - exact (g_reject symbol_S symbol_good).
  - intros i Hi. pose proof (in_items _ _ _ _ F (item_at [] items i Hi)) as [T L]. cbn [e_size e_enc template_symbol_enum c_E].
    pose proof (zlen_nonneg (item [] items i)). split; [|lia]. rewrite Z.add_comm. eapply fits_eq; [|apply var_fits].
    + unfold var_size. destruct (Z.ltb_spec 255 (zlen (item [] items i))); lia.
    + now apply is_utf8_bytes_ok.
  - intros i Hi. exists (item [] items i). split; [exact (item_at [] items i Hi)|].
    pose proof (in_items _ _ _ _ F (item_at [] items i Hi)) as [T L]. cbn [e_enc template_symbol_enum c_E].
    apply static_symbol_emits; [apply T|lia].
Qed.
Lemma values_good {B} (name : string) (S : tspec B) eqb d items : good S -> (forall x y, eqb x y = true <-> x = y) -> NoDup items ->
  Forall (s_valid S) items -> (forall b, s_canon S b = b) -> (forall b, In b items -> s_encodable S b) -> (forall b, s_decodable S b) ->
  (forall b, In b items -> s_size S b < 2 ^ 32) ->
  good (numbered_S (template_value_enum name (s_codec S) eqb d items) (s_codes S) (s_wire S) items).
Proof.
  intros G He N F C En De Sz.
  apply (numbered_good name (s_dec S) (fun b => b) (fun b => b) eqb _ (s_codes S) (s_wire S) (s_valid S) items); auto.
  - apply (g_dec S G).
  - apply (g_total S G).
  - intros md b bs W. now apply (g_accepts S G).
  - apply (g_codes S G).
  - apply (g_reject S G).
  - intros i Hi. pose proof (in_items _ _ _ _ F (item_at d items i Hi)) as V. cbn [e_size e_enc template_value_enum c_E]. exact (g_enc S G _ V).
  - intros i Hi. exists (item d items i). pose proof (item_at d items i Hi) as A. split; [exact A|].
    pose proof (in_items _ _ _ _ F A) as V. pose proof (nth_error_In _ _ A) as I. cbn [e_enc template_value_enum c_E].
    rewrite <- (C (item d items i)) at 1. now apply (g_emits S G); auto.
Qed.

(** ** Everything that can be generated *)
Scheme generated_rec := Induction for generated Sort Prop
  with generated_fields_rec := Induction for generated_fields Sort Prop
  with generated_options_rec := Induction for generated_options Sort Prop.
Lemma generated_good {T} (S : tspec T) : generated S -> good S.
Proof.
  revert T S.
  apply (generated_rec (fun T S _ => good S) (fun R F _ => good_fields F) (fun T l _ => Forall (fun a => good_D (a_D a)) l)).
  - intros T S A. now apply type_good.
  - intros R code name F Hc Hn _ G. now apply list_good.
  - intros T alts N1 N2 P O _ G. apply template_union_good; [now constructor|exact G].
  - intros name items N F. now apply symbols_good.
  - intros name items N F. apply (values_good name u8_S Z.eqb 0 items u8_good Z.eqb_eq N F); try reflexivity; intros; exact I || (now vm_compute).
  - intros name items N F. apply (values_good name u32_S Z.eqb 0 items u32_good Z.eqb_eq N F); try reflexivity; intros; try exact I.
    unfold s_size. cbn [u32_S s_codec u32_C c_E u32_E e_size]. unfold u32_size. repeat (destruct (_ : bool)); lia.
  - intros name items N. apply (values_good name bool_S Bool.eqb false items bool_good); try reflexivity; try (intros; exact I); try exact N.
    + intros x y. apply Bool.eqb_true_iff.
    + apply Forall_forall. intros x _. exact I.
  - exact I.
  - intros T R name S r _ G _ Gr. now split.
  - intros T R name S r _ G Nn _ Gr. exact (conj (conj G Nn) Gr).
  - intros T R name S dflt r _ G Nn V _ Gr. exact (conj (conj G (conj Nn V)) Gr).
  - constructor.
  - intros T R code name F inj prj r Hc Hn _ G _ Gr. constructor; [|exact Gr]. now apply list_good_D.
  - intros T X code name S inj prj r Hc _ G _ Gr. constructor; [|exact Gr]. cbn [a_D]. apply section_good_D; try reflexivity; auto.
Qed.
Lemma generated_size {T} (S : tspec T) : generated S -> forall v, s_valid S v -> s_size S v = zlen (s_bytes S v).
Proof. intros g v V. destruct (g_enc S (generated_good S g) v V) as [[E _] _]. symmetry. exact E. Qed.
Lemma generated_round_trip {T} (S : tspec T) : generated S -> forall md v rest,
  s_valid S v -> s_encodable S v -> s_size S v < 2 ^ 32 -> s_decodable S (s_canon S v) ->
  decode (s_dec S) md (s_bytes S v ++ rest) = Ok (rest, s_canon S v).
Proof. intros g md v rest V E Z D. exact (good_round_trip S md v (generated_good S g) V E Z D rest). Qed.
Lemma generated_accepts {T} (S : tspec T) : generated S -> forall md v bs rest, s_wire S v bs -> s_decodable S v ->
  decode (s_dec S) md (bs ++ rest) = Ok (rest, v).
Proof. intros g md v bs rest W D. exact (g_accepts S (generated_good S g) md v bs W D rest). Qed.

(** ** The code of the crate *)
Lemma map_bind {A B C} (x : res A) (f : A -> res (bytes * B)) (g : B -> C) :
  map_res g (bind x f) = bind x (fun a => map_res g (f a)).
Proof. destruct x; reflexivity. Qed.
Lemma inner_template K md inp : transcribed K -> k_inner K md inp = map_res (k_of K) (template_inner (code_of (k_fields K)) md inp).
Proof.
  intros Tr. rewrite (tr_inner K Tr), inner_code, map_bind. apply bind_ext. intros [s rem]. rewrite !dec_fields_k_eq, map_bind.
  apply bind_ext. intros [s' a]. reflexivity.
Qed.
Lemma composite_dec_map {A B} (f : A -> B) code name (i : mode -> bytes -> res (bytes * A)) (j : mode -> bytes -> res (bytes * B)) md inp fmt :
  (forall md inp, j md inp = map_res f (i md inp)) ->
  composite_dec code name j md inp fmt = map_res f (template_dec code name i md inp fmt).
Proof.
  intros H. rewrite dec_code. unfold composite_dec. rewrite map_bind. apply bind_ext. intros u. rewrite map_bind. apply bind_ext.
  intros [i1 d]. destruct (match d with DUlong _ => _ | _ => _ end); [apply H|reflexivity].
Qed.
Lemma composite_template K : In K all_composites ->
  same_code (k_to K) (k_of K) (k_codec K) (template_list (k_code K) (k_name K) (code_of (k_fields K))) /\
  (forall md inp, k_inner K md inp = map_res (k_of K) (template_inner (code_of (k_fields K)) md inp)).
Proof.
  intros I. destruct (all_composites_ok K I) as [Tr _]. split; [|intros md inp; now apply inner_template].
  split; [apply (tr_of_to K Tr)|]. split; [apply (tr_to_of K Tr)|]. split; [split; intros v|intros md inp fmt];
    cbn [template_list c_E c_D e_size e_enc].
  - rewrite (tr_size K Tr). symmetry. apply size_code.
  - rewrite (tr_enc K Tr). symmetry. apply enc_code.
  - rewrite (tr_dec K Tr). apply composite_dec_map. intros. now apply inner_template.
Qed.
Lemma head_code md inp : template_inner (code_of transfer_table) md inp = head_inner md inp.
Proof. exact (inner_code transfer_table md inp). Qed.
Lemma transfer_inner_template md inp :
  decode_transfer_inner md inp = map_res transfer_joined (template_transfer_inner (code_of transfer_table) md inp).
Proof.
  rewrite transfer_inner_eq. unfold template_transfer_inner. rewrite map_bind, head_code. apply bind_ext. intros [rem a].
  destruct rem; reflexivity.
Qed.
Local Strategy expand [transfer_size transfer_enc].
Lemma transfer_size_template v : transfer_size v = template_transfer_size (code_of transfer_table) (transfer_split v).
Proof.
  unfold template_transfer_size, transfer_split, transfer_size. cbn [fst snd]. rewrite size_code, head_content. exact eq_refl.
Qed.
Lemma transfer_enc_template v : transfer_enc v = template_transfer_enc 0x14 (code_of transfer_table) (transfer_split v).
Proof.
  unfold template_transfer_enc, transfer_split. cbn [fst snd]. rewrite enc_code, head_content_enc, head_content, <- app_assoc.
  change (field_count transfer_table) with 11. exact eq_refl.
Qed.
Lemma transfer_split_joined r : transfer_split (transfer_joined r) = r.
Proof. destruct r as [a b]. unfold transfer_split, transfer_joined. cbn [fst snd]. now rewrite transfer_to_of, transfer_body_of. Qed.
Lemma transfer_template :
  same_code transfer_split transfer_joined transfer_C (template_transfer 0x14 "amqp:transfer:list" (code_of transfer_table)) /\
  (forall md inp, decode_transfer_inner md inp = map_res transfer_joined (template_transfer_inner (code_of transfer_table) md inp)).
Proof.
  split; [|exact transfer_inner_template]. split; [exact transfer_of_to|]. split; [exact transfer_split_joined|].
  split; [exact (conj transfer_size_template transfer_enc_template)|]. intros md inp fmt.
  exact (composite_dec_map transfer_joined _ _ (template_transfer_inner (code_of transfer_table)) _ md inp fmt transfer_inner_template).
Qed.
(** The unions. *)
Local Strategy 1000 [properties_size properties_enc header_size header_enc].
Lemma union_template {T} (C : codec T) (alts : list (alternative T)) (select : mode -> descriptor -> bytes -> res (bytes * T)) :
  c_D C = (fun md inp fmt => _ <- validate_code fmt FC_DESCRIBED ;; '(inp1, d) <- decode descriptor_dec md inp ;; select md d inp1) ->
  (forall md d inp, select md d inp = union_select alts md d inp) ->
  (forall v, e_size (c_E C) v = template_union_size (map option_of alts) v) ->
  (forall v, e_enc (c_E C) v = template_union_enc (map option_of alts) v) ->
  same_code (fun v => v) (fun v => v) C (template_union (map option_of alts)).
Proof.
  intros HD HS H1 H2. split; [reflexivity|]. split; [reflexivity|]. split; [now split|]. intros md inp fmt. rewrite HD.
  cbn [template_union c_D]. unfold template_union_dec. rewrite map_bind. apply bind_ext. intros u. rewrite map_bind. apply bind_ext.
  intros [i d]. rewrite HS. pose proof (arms_select alts md i d) as A.
  destruct (match d with DUlong _ => _ | _ => _ end) as [r|]; rewrite <- A; [|reflexivity]. now destruct r as [[? ?]|?|?|].
Qed.
Ltac union_tac sel := apply (union_template _ _ sel);
  [reflexivity|intros md [c|a] inp; reflexivity|intros []; exact eq_refl|intros []; exact eq_refl].
Lemma unions_template :
  same_code (fun v => v) (fun v => v) delivery_state_C (template_union (map option_of delivery_state_alts)) /\
  same_code (fun v => v) (fun v => v) outcome_C (template_union (map option_of outcome_alts)) /\
  same_code (fun v => v) (fun v => v) sasl_frame_body_C (template_union (map option_of sasl_frame_body_alts)) /\
  same_code (fun v => v) (fun v => v) section_C (template_union (map option_of section_alts)).
Proof.
  split; [union_tac delivery_state_select|]. split; [union_tac outcome_select|]. split; [union_tac sasl_frame_body_select|].
  union_tac section_select.
Qed.
(** The restricted types. *)
Lemma restricted_template :
  section_D 0x71 "amqp:delivery-annotations:map" fields_S delivery_annotations_size delivery_annotations_enc decode_delivery_annotations_inner
    = restricted_D 0x71 "amqp:delivery-annotations:map" fields_S /\
  section_D 0x72 "amqp:message-annotations:map" fields_S message_annotations_size message_annotations_enc decode_message_annotations_inner
    = restricted_D 0x72 "amqp:message-annotations:map" fields_S /\
  section_D 0x74 "amqp:application-properties:map" string_variant_map_S application_properties_size application_properties_enc
    decode_application_properties_inner = restricted_D 0x74 "amqp:application-properties:map" string_variant_map_S /\
  section_D 0x75 "amqp:data:binary" bin_S data_size data_enc decode_data_inner = restricted_D 0x75 "amqp:data:binary" bin_S /\
  section_D 0x76 "amqp:amqp-sequence:list" list_S amqp_sequence_size amqp_sequence_enc decode_amqp_sequence_inner
    = restricted_D 0x76 "amqp:amqp-sequence:list" list_S /\
  section_D 0x77 "amqp:amqp-value:*" variant_S amqp_value_size amqp_value_enc decode_amqp_value_inner
    = restricted_D 0x77 "amqp:amqp-value:*" variant_S /\
  section_D 0x78 "amqp:footer:map" fields_S footer_size footer_enc decode_footer_inner = restricted_D 0x78 "amqp:footer:map" fields_S.
Proof. repeat split. Qed.

(** The enumerations. *)
Ltac enum_cases :=
  repeat match goal with |- context [if ?c then _ else _] => destruct c end; reflexivity.
Ltac nth_cases :=
  let i := fresh "i" in let v := fresh "v" in let b := fresh "b" in let E := fresh "E" in
  intros i v b E; repeat (destruct i as [|i]; [injection E as <- <-; reflexivity|]); destruct i; discriminate E.
Lemma enum_map {A B} (d : dec A) (tf : A -> res B) (number : B -> Z) name (found : A -> option Z) md inp fmt :
  (forall x, match tf x with Ok v => Some (number v) | _ => None end = found x) ->
  (forall x, found x = None -> tf x = Err (EUnknownEnumOption name)) ->
  map_res number (enum_dec d tf md inp fmt) = ('(i, x) <- d md inp fmt ;; v <- try_from_result name (found x) ;; Ok (i, v)).
Proof.
  intros H1 H2. unfold enum_dec. rewrite map_bind. apply bind_ext. intros [i x]. rewrite map_bind. specialize (H1 x). specialize (H2 x).
  rewrite <- H1 in H2 |- *. destruct (tf x) as [v|e|q|]; cbn [try_from_result bind map_res]; try reflexivity; specialize (H2 eq_refl); congruence.
Qed.
Ltac enum_template num ec tf d :=
  exists num; eexists; split; [apply ec|]; split; [nth_cases|]; split; [intros []; eexists; find_in|];
  split; [let E := fresh in intros [] [] E; first [reflexivity|discriminate E]|]; split; [split; intros []; reflexivity|];
  let md := fresh in let inp := fresh in let fmt := fresh in let x := fresh in
  intros md inp fmt; match goal with |- _ = ?r => change (map_res num (enum_dec d tf md inp fmt) = r) end; apply enum_map; intros x; unfold tf, sym_is;
  match goal with |- context [try_from_items _ ?l _ _] => let l' := eval cbv -[s2b] in l in change l with l' end;
  cbn [try_from_items]; match type of x with bool => destruct x; try reflexivity; try discriminate | _ => idtac end;
  repeat match goal with |- context [if ?c then _ else _] => destruct c; [try reflexivity; discriminate|] end; try reflexivity; try discriminate.
Lemma enumerations_template {T B} (S : tspec T) (w : B -> bytes -> Prop) table name : enumeration S w table name ->
  exists number C, enumeration_code name w (map snd table) C /\
    (forall i v b, nth_error table i = Some (v, b) -> number v = Z.of_nat i) /\ (forall v, exists b, In (v, b) table) /\
    same_enumeration number (s_codec S) C.
Proof.
  intros E. destruct E.
  - enum_template (fun v => match v with Role_Sender => 0 | Role_Receiver => 1 end) ec_boolean role_try_from bool_dec.
  - enum_template (fun v => match v with SenderSettleMode_Unsettled => 0 | SenderSettleMode_Settled => 1 | SenderSettleMode_Mixed => 2 end) ec_ubyte sender_settle_mode_try_from u8_dec.
  - enum_template (fun v => match v with ReceiverSettleMode_First => 0 | ReceiverSettleMode_Second => 1 end) ec_ubyte receiver_settle_mode_try_from u8_dec.
  - enum_template (fun v => match v with SaslCode_Ok => 0 | SaslCode_Auth => 1 | SaslCode_Sys => 2 | SaslCode_SysPerm => 3 | SaslCode_SysTemp => 4 end) ec_ubyte sasl_code_try_from u8_dec.
  - enum_template (fun v => match v with TerminusDurability_None => 0 | TerminusDurability_Configuration => 1 | TerminusDurability_UnsettledState => 2 end) ec_uint terminus_durability_try_from u32_dec.
  - enum_template (fun v => match v with TerminusExpiryPolicy_LinkDetach => 0 | TerminusExpiryPolicy_SessionEnd => 1 | TerminusExpiryPolicy_ConnectionClose => 2 | TerminusExpiryPolicy_Never => 3 end) ec_symbol terminus_expiry_policy_try_from symbol_dec.
  - enum_template (fun v => match v with AmqpError_InternalError => 0 | AmqpError_NotFound => 1 | AmqpError_UnauthorizedAccess => 2 | AmqpError_DecodeError => 3 | AmqpError_ResourceLimitExceeded => 4 | AmqpError_NotAllowed => 5 | AmqpError_InvalidField => 6 | AmqpError_NotImplemented => 7 | AmqpError_ResourceLocked => 8 | AmqpError_PreconditionFailed => 9 | AmqpError_ResourceDeleted => 10 | AmqpError_IllegalState => 11 | AmqpError_FrameSizeTooSmall => 12 end) ec_symbol amqp_error_try_from symbol_dec.
  - enum_template (fun v => match v with ConnectionError_ConnectionForced => 0 | ConnectionError_FramingError => 1 | ConnectionError_Redirect => 2 end) ec_symbol connection_error_try_from symbol_dec.
  - enum_template (fun v => match v with SessionError_WindowViolation => 0 | SessionError_ErrantLink => 1 | SessionError_HandleInUse => 2 | SessionError_UnattachedHandle => 3 end) ec_symbol session_error_try_from symbol_dec.
  - enum_template (fun v => match v with LinkError_DetachForced => 0 | LinkError_TransferLimitExceeded => 1 | LinkError_MessageSizeExceeded => 2 | LinkError_Redirect => 3 | LinkError_Stolen => 4 end) ec_symbol link_error_try_from symbol_dec.
Qed.

(** ** The limits of the template *)
Lemma descriptor_length code : 0 <= code ->
  zlen (wbytes (descriptor_enc (DUlong code))) = 3 + (if code =? 0 then -1 else if code <? 256 then 0 else 7).
Proof.
  intros H. unfold descriptor_enc, u64_enc. destruct (Z.eqb_spec code 0) as [->|N]; [reflexivity|].
  destruct (Z.ltb_spec 255 code); destruct (Z.ltb_spec code 256); try lia; reflexivity.
Qed.
Lemma list_size_at {R} code name (F : fields R) a : 0 <= code -> field_count F < 2 ^ 32 -> generated_fields F -> each_field (@s_valid) F a ->
  e_size (c_E (template_list code name (code_of F))) a =
  zlen (wbytes (e_enc (c_E (template_list code name (code_of F))) a)) + (if code =? 0 then 1 else if code <? 256 then 0 else -7).
Proof.
  intros H C G V. pose proof (generated_size _ (gn_list R 1 name F ltac:(lia) C G) a V) as X.
  change (template_size (code_of F) a = zlen (wbytes (template_enc 1 (code_of F) a))) in X.
  change (template_size (code_of F) a = zlen (wbytes (template_enc code (code_of F) a)) + (if code =? 0 then 1 else if code <? 256 then 0 else -7)).
  unfold template_enc in *. cbv zeta in *. rewrite wbytes_app, zlen_app in *.
  rewrite (descriptor_length code H). rewrite (descriptor_length 1) in X by lia. cbn [Z.eqb] in X. change (1 <? 256) with true in X. cbv iota in X.
  destruct (code =? 0), (code <? 256); lia.
Qed.
Lemma symbol_size_at name items i : 0 <= i < zlen items ->
  e_size (c_E (template_symbol_enum name items)) i =
  zlen (wbytes (e_enc (c_E (template_symbol_enum name items)) i)) + (if zlen (item [] items i) <? 256 then 0 else -3).
Proof.
  intros _. cbn [template_symbol_enum c_E e_size e_enc]. unfold static_symbol_enc, var_enc. set (t := item [] items i).
  rewrite wbytes_app, zlen_app. change (wbytes [Put t]) with (t ++ []). rewrite app_nil_r.
  destruct (Z.ltb_spec 255 (zlen t)); destruct (Z.ltb_spec (zlen t) 256); try lia.
  - change (zlen (wbytes [put_u8 FC_SYMBOL32; put_u32_be (zlen t)])) with 5. lia.
  - change (zlen (wbytes [put_u8 FC_SYMBOL8; put_u8 (zlen t)])) with 2. lia.
Qed.
