(** Facts about the capacities asked for and the values begun while decoding. *)

From Coq Require Import String.
From Verif Require Import Frames Reserve BaseFacts Utf8Spec Utf8Facts Valid Wire PrimFacts DecLaws EncLaws VariantFacts TypeSpec TypeFacts CompositeSpec
  CompositeFacts AllTypes AllTypesFacts CodecSpec EqFacts CodecFacts MapFacts ValueFacts ExactFacts CompositeReads MessageSpec MessageFacts FrameSpec
  FrameFacts FramingFacts ReserveSpec.
From Coq Require Import ZifyBool.
Open Scope string_scope.
Open Scope list_scope.
Open Scope Z_scope.

Scheme runs_mind := Minimality for runs Sort Prop
  with field_runs_mind := Minimality for field_runs Sort Prop
  with inner_runs_mind := Minimality for inner_runs Sort Prop
  with union_runs_mind := Minimality for union_runs Sort Prop.
Combined Scheme runs_mutind from runs_mind, field_runs_mind, inner_runs_mind, union_runs_mind.

(** ** The result is that of the decoder *)
Lemma snd_bind {A B} (x : run A) (f : A -> run B) : snd (run_bind x f) = bind (snd x) (fun a => snd (f a)).
Proof. destruct x as [l [a|e|p|]]; cbn [run_bind snd bind]; try reflexivity. now destruct (f a). Qed.
Lemma fst_bind {A B} (x : run A) (f : A -> run B) :
  fst (run_bind x f) = fst x ++ match snd x with Ok a => fst (f a) | _ => [] end.
Proof. destruct x as [l [a|e|p|]]; cbn [run_bind fst snd]; rewrite ?app_nil_r; try reflexivity. now destruct (f a). Qed.
Lemma snd_map {A B} (f : A -> B) x : snd (map_run f x) = map_res f (snd x).
Proof. unfold map_run, map_res. rewrite snd_bind. apply bind_ext. now intros []. Qed.

Fixpoint run_iter {S} (n : nat) (f : S -> run S) (s : S) : run S :=
  match n with
  | O => quiet (Ok s)
  | Datatypes.S k => s1 <~ f s ;; run_iter k f s1
  end.
Lemma run_bind_assoc {A B C} (x : run A) (f : A -> run B) (g : B -> run C) :
  run_bind (run_bind x f) g = run_bind x (fun a => run_bind (f a) g).
Proof.
  destruct x as [l [a|e|p|]]; cbn [run_bind]; try reflexivity. destruct (f a) as [m [b|e|p|]]; cbn [run_bind]; try reflexivity.
  destruct (g b). now rewrite app_assoc.
Qed.
Lemma run_bind_ext {A B} (x : run A) (f g : A -> run B) : (forall a, f a = g a) -> run_bind x f = run_bind x g.
Proof. intros H. destruct x as [l [a|e|p|]]; cbn [run_bind]; try reflexivity. now rewrite H. Qed.
Lemma run_iter_add {S} a b (f : S -> run S) s : run_iter (a + b) f s = (s1 <~ run_iter a f s ;; run_iter b f s1).
Proof.
  revert s. induction a as [|a IH]; intros s; cbn [Nat.add run_iter].
  - cbn [quiet run_bind]. now destruct (run_iter b f s).
  - rewrite run_bind_assoc. apply run_bind_ext. intros s1. apply IH.
Qed.
Lemma run_loop_pos_iter {S} p (f : S -> run S) : forall s, run_loop_pos p f s = run_iter (Pos.to_nat p) f s.
Proof.
  induction p as [p IH|p IH|]; intros s; cbn [run_loop_pos].
  - rewrite Pos2Nat.inj_xI. cbn [Nat.mul Nat.add]. rewrite Nat.add_0_r. cbn [run_iter]. apply run_bind_ext. intros s1.
    rewrite run_iter_add, IH. apply run_bind_ext. exact IH.
  - rewrite Pos2Nat.inj_xO. cbn [Nat.mul]. rewrite Nat.add_0_r, run_iter_add, IH. apply run_bind_ext. exact IH.
  - change (Pos.to_nat 1) with 1%nat. cbn [run_iter]. destruct (f s) as [l [s1|e|p|]]; cbn [run_bind quiet]; rewrite ?app_nil_r; reflexivity.
Qed.
Lemma run_loop_iter {S} n (f : S -> run S) s : run_loop n f s = run_iter (Z.to_nat n) f s.
Proof. destruct n; cbn [run_loop Z.to_nat]; [reflexivity|apply run_loop_pos_iter|reflexivity]. Qed.
Lemma snd_loop {S} n (f : S -> run S) (g : S -> res S) s : (forall s, snd (f s) = g s) -> snd (run_loop n f s) = loop_n n g s.
Proof.
  intros H. rewrite run_loop_iter, loop_n_iter. generalize (Z.to_nat n). intros k. revert s.
  induction k as [|k IH]; intros s; cbn [run_iter iter_res]; [reflexivity|]. rewrite snd_bind, H. apply bind_ext. exact IH.
Qed.

Definition erases {T} (D : rdec T) (d : dec T) : Prop := forall md inp fmt, snd (D md inp fmt) = d md inp fmt.
Lemma erases_decode {T} (D : rdec T) d md inp : erases D d -> snd (run_decode D md inp) = decode d md inp.
Proof. intros H. unfold run_decode, decode. rewrite snd_bind. cbn [begin_value snd bind]. rewrite snd_bind. apply bind_ext. intros [i c]. apply H. Qed.
Lemma erases_step {T} (D : bytes -> run (bytes * T)) d s : (forall i, snd (D i) = d i) -> snd (vec_run_step D s) = vec_step d s.
Proof. intros H. destruct s as [i acc]. unfold vec_run_step, vec_step. rewrite snd_bind, H. apply bind_ext. now intros []. Qed.
Lemma erases_map {K V} (KO : key K) (DK : rdec K) (DV : rdec V) dk dv : erases DK dk -> erases DV dv ->
  erases (map_rdec KO DK DV) (map_dec KO dk dv).
Proof.
  intros HK HV md inp fmt. unfold map_rdec, map_dec. rewrite snd_bind. apply bind_ext. intros [i h]. rewrite snd_bind. apply bind_ext. intros w.
  rewrite snd_bind. cbn [with_capacity snd bind]. rewrite snd_bind.
  rewrite (snd_loop _ _ (map_step KO (decode dk md) (decode dv md))).
  - apply bind_ext. now intros [].
  - intros [j m]. unfold map_run_step, map_step. rewrite snd_bind, (erases_decode _ dk) by exact HK. apply bind_ext. intros [j1 k].
    rewrite snd_bind, (erases_decode _ dv) by exact HV. apply bind_ext. now intros [j2 v].
Qed.
Lemma erases_vecmap_like (DV : rdec variant) dv : erases DV dv -> forall md inp fmt,
  snd ('(inp1, header) <~ quiet (decode_map_header md inp fmt) ;;
  map_input <~ quiet (slice_to inp1 (ch_size header)) ;;
  let count := ch_count header / 2 in
  _ <~ with_capacity count ;;
  '(_, m) <~ run_loop count (vecmap_run_step (run_decode (simple_run str_dec) md) (run_decode DV md)) (map_input, []) ;;
  quiet (Ok (zdrop (ch_size header) inp1, m))) =
  ('(inp1, header) <- decode_map_header md inp fmt ;;
  map_input <- slice_to inp1 (ch_size header) ;;
  let count := ch_count header / 2 in
  '(_, m) <- loop_n count (vecmap_step (decode str_dec md) (decode dv md)) (map_input, []) ;;
  Ok (zdrop (ch_size header) inp1, m)).
Proof.
  intros HV md inp fmt. rewrite snd_bind. apply bind_ext. intros [i h]. rewrite snd_bind. apply bind_ext. intros w.
  cbv zeta. rewrite snd_bind. cbn [with_capacity snd bind]. rewrite snd_bind.
  rewrite (snd_loop _ _ (vecmap_step (decode str_dec md) (decode dv md))).
  - apply bind_ext. now intros [].
  - intros [j m]. unfold vecmap_run_step, vecmap_step. rewrite snd_bind, (erases_decode _ str_dec) by easy. apply bind_ext. intros [j1 k].
    rewrite snd_bind, (erases_decode _ dv) by exact HV. apply bind_ext. now intros [j2 v].
Qed.
Lemma erases_vec {T} (D : rdec T) d : erases D d -> erases (vec_rdec D) (vec_dec d).
Proof.
  intros H md inp fmt. unfold vec_rdec, vec_dec. rewrite snd_bind. apply bind_ext. intros [i h]. destruct i as [|c i]; [reflexivity|].
  rewrite snd_bind. cbn [with_capacity snd bind]. apply snd_loop. intros s. apply erases_step. intros j. rewrite snd_bind. apply H.
Qed.
Lemma erases_multiple {T} (D : rdec T) d : erases D d -> erases (multiple_rdec D) (multiple_dec d).
Proof.
  intros H md inp fmt. unfold multiple_rdec, multiple_dec. destruct (_ || _); [now apply erases_vec|]. rewrite snd_bind, H. apply bind_ext. now intros [].
Qed.
Lemma erases_list {T} (D : rdec T) d : erases D d -> erases (list_rdec D) (list_dec d).
Proof.
  intros H md inp fmt. unfold list_rdec, list_dec. rewrite snd_bind. apply bind_ext. intros [i h].
  rewrite snd_bind. cbn [with_capacity snd bind]. apply snd_loop. intros s. apply erases_step. intros j. now apply erases_decode.
Qed.
Lemma erases_option {T} (D : rdec T) d : erases D d -> erases (option_rdec D) (option_dec d).
Proof. intros H md inp fmt. unfold option_rdec, option_dec. destruct (_ =? _); [reflexivity|]. now rewrite snd_map, H. Qed.
Lemma erases_fuel f : erases (variant_rdec_fuel f) (variant_dec_fuel f).
Proof.
  induction f as [|f IH]; intros md inp fmt; [reflexivity|]. cbn [variant_rdec_fuel].
  destruct (Z.eqb_spec fmt FC_LIST8) as [->|N1]. { cbn [orb]. rewrite snd_map, (erases_list _ _ IH). reflexivity. }
  destruct (Z.eqb_spec fmt FC_LIST32) as [->|N2]. { cbn [orb]. rewrite snd_map, (erases_list _ _ IH). reflexivity. }
  destruct (Z.eqb_spec fmt FC_MAP8) as [->|N3]. { cbn [orb]. rewrite snd_map, (erases_map _ _ _ _ _ IH IH). reflexivity. }
  destruct (Z.eqb_spec fmt FC_MAP32) as [->|N4]. { cbn [orb]. rewrite snd_map, (erases_map _ _ _ _ _ IH IH). reflexivity. }
  destruct (Z.eqb_spec fmt FC_DESCRIBED) as [->|N5].
  { cbn [orb]. rewrite snd_bind, (erases_decode _ descriptor_dec) by easy. cbn [variant_dec_fuel]. apply bind_ext. intros [i d]. rewrite snd_bind, (erases_decode _ _ _ _ IH). apply bind_ext. now intros []. }
  reflexivity.
Qed.
Lemma erases_variant : erases variant_rdec variant_dec.
Proof. intros md inp fmt. unfold variant_rdec, variant_dec. exact (erases_fuel (Datatypes.S (length inp)) md inp fmt). Qed.

Definition erases_fields {R} (F : fields R) (D : rfield_dec R) : Prop := forall md s, snd (D md s) = dec_fields F md s.
Definition erases_inner {T} (D : dspec T) (R : rinner T) : Prop := forall md inp, snd (R md inp) = d_inner D md inp.
Definition erases_union {T} (alts : list (alternative T)) (R : selection T) : Prop :=
  forall md d inp, snd (R md d inp) = union_select alts md d inp.
Lemma union_dec_eq {T} (S : tspec T) alts : union_type S alts -> forall md inp fmt,
  s_dec S md inp fmt = (_ <- validate_code fmt FC_DESCRIBED ;; '(inp1, d) <- decode descriptor_dec md inp ;; union_select alts md d inp1).
Proof.
  destruct 1; intros md inp fmt.
  1: change (s_dec delivery_state_S) with delivery_state_dec; unfold delivery_state_dec.
  2: change (s_dec outcome_S) with outcome_dec; unfold outcome_dec.
  3: change (s_dec sasl_frame_body_S) with sasl_frame_body_dec; unfold sasl_frame_body_dec.
  4: change (s_dec section_S) with section_dec; unfold section_dec.
  all: apply bind_ext; intros []; apply bind_ext; intros [i d]; destruct d; reflexivity.
Qed.
Lemma run_erases (E : forall T, tspec T -> Prop) :
  (forall T (S : tspec T) D, runs E S D -> erases D (s_dec S)) /\
  (forall R (F : fields R) D, field_runs E F D -> erases_fields F D) /\
  (forall T (S : dspec T) D, inner_runs E S D -> erases_inner S D) /\
  (forall T (alts : list (alternative T)) D, union_runs E alts D -> erases_union alts D).
Proof.
  apply runs_mutind.
  - intros T S L H md inp fmt. reflexivity.
  - exact erases_variant.
  - apply erases_list, erases_variant.
  - exact (erases_vecmap_like variant_rdec variant_dec erases_variant).
  - intros T S D _ IH _. now apply erases_option.
  - intros K V KO SK SV DK DV _ HK _ HV. now apply erases_map.
  - intros T A width S D _ _ _ IH. now apply erases_vec.
  - intros T A width S D _ _ _ _ _ IH. now apply erases_multiple.
  - intros K D HK _ IH md inp fmt. rewrite (composite_dec_eq K HK). unfold described_run, composite_dec. rewrite snd_bind. apply bind_ext. intros [].
    rewrite snd_bind, (erases_decode _ descriptor_dec) by easy. apply bind_ext. intros [i d]. unfold one_of_run, none_run. fold (named (k_code K) (k_name K) d).
    destruct (named _ _ d); [|reflexivity]. rewrite snd_map, IH. cbn [d_inner composite_D]. unfold map_res. destruct (k_inner K md i) as [[]|?|?|]; reflexivity.
  - intros T S alts D U _ IH md inp fmt. rewrite (union_dec_eq S alts U). unfold described_run. rewrite snd_bind. apply bind_ext. intros [].
    rewrite snd_bind, (erases_decode _ descriptor_dec) by easy. apply bind_ext. intros [i d]. apply IH.
  - intros md s. reflexivity.
  - intros T R name S r D DR _ IH _ IHr md s. cbn [dec_fields]. unfold req_field_run. rewrite snd_bind.
    replace (snd _) with (req_field name (s_codec S) md s).
    + apply bind_ext. intros [s1 x]. rewrite snd_bind, IHr. apply bind_ext. now intros [].
    + unfold req_field. destruct s as [i n]. destruct (0 <? n); [|reflexivity]. rewrite snd_bind, (erases_decode _ _ _ _ IH). apply bind_ext. now intros [].
  - intros T R name S r D DR _ IH _ IHr md s. cbn [dec_fields]. unfold opt_field_run. rewrite snd_bind.
    replace (snd _) with (opt_field (s_codec S) md s).
    + apply bind_ext. intros [s1 x]. rewrite snd_bind, IHr. apply bind_ext. now intros [].
    + unfold opt_field. destruct s as [i n]. destruct (0 <? n); [|reflexivity].
      rewrite snd_bind, (erases_decode _ _ _ _ (erases_option _ _ IH)). apply bind_ext. now intros [].
  - intros T R name S dflt r D DR _ IH _ IHr md s. cbn [dec_fields]. unfold def_field_run. rewrite snd_bind.
    replace (snd _) with (def_field (s_codec S) dflt md s).
    + apply bind_ext. intros [s1 x]. rewrite snd_bind, IHr. apply bind_ext. now intros [].
    + unfold def_field. destruct s as [i n]. destruct (0 <? n); [|reflexivity].
      rewrite snd_bind, (erases_decode _ _ _ _ (erases_option _ _ IH)). apply bind_ext. now intros [].
  - intros K D HK _ IH md inp. destruct (all_composites_ok K HK) as [TR _]. cbn [d_inner composite_D]. rewrite (tr_inner K TR). unfold fields_run.
    rewrite snd_bind. apply bind_ext. intros [s rem]. rewrite dec_fields_k_eq, snd_bind, IH. apply bind_ext. now intros [].
  - intros T code name S size enc inner D HI _ IH md inp. cbn [d_inner section_D]. rewrite HI. now apply erases_decode.
  - intros T md d inp. reflexivity.
  - intros T a r D DR _ IH _ IHr md d inp. cbn [union_select]. unfold one_of_run. fold (matches (d_code (a_D a)) (d_name (a_D a)) d).
    change (named (d_code (a_D a)) (d_name (a_D a)) d) with (matches (d_code (a_D a)) (d_name (a_D a)) d).
    destruct (matches _ _ d); [|apply IHr]. now rewrite snd_map, IH.
Qed.

(** ** What is done is paid with bytes of the input

    [w]: what an event weighs; [F]: does the bound hold of runs that fail; [k0]: the change that [decode_with_format] leaves
    over, and [kd] that of [decode].  There are three instances: each capacity weighs one, or its number of places; or each
    value begun weighs one. *)
Definition in_range (n : Z) : Prop := 0 <= n < 2 ^ 32.
Definition event_ok (e : event) : Prop := match e with Asks n => in_range n | Begins => True end.
Definition wsum (w : event -> Z) (l : list event) : Z := fold_right (fun n a => w n + a) 0 l.
Lemma wsum_app w a b : wsum w (a ++ b) = wsum w a + wsum w b.
Proof. unfold wsum. induction a as [|n a IH]; cbn [app fold_right]; lia. Qed.

Lemma compound8_facts md inp rest h : bytes_ok inp -> decode_compound8 md inp = Ok (rest, h) ->
  bytes_ok rest /\ header_ok h /\ zlen rest + 2 <= zlen inp.
Proof.
  intros Hb E. split; [exact (lawful_bytes_ok _ _ _ _ _ (compound8_lawful md) E Hb)|]. split; [exact (proj2 (compound8_lawful md _ _ _ E) Hb)|].
  unfold decode_compound8 in E. apply bind_ok in E as [[] [_ E]]. destruct inp as [|b0 [|b1 r]]; try discriminate.
  apply bind_ok in E as [n [_ E]]. injection E as <- _. rewrite !zlen_cons. lia.
Qed.
Lemma compound32_facts md inp rest h : bytes_ok inp -> decode_compound32 md inp = Ok (rest, h) ->
  bytes_ok rest /\ header_ok h /\ zlen rest + 2 <= zlen inp.
Proof.
  intros Hb E. split; [exact (lawful_bytes_ok _ _ _ _ _ (compound32_lawful md) E Hb)|]. split; [exact (proj2 (compound32_lawful md _ _ _ E) Hb)|].
  unfold decode_compound32 in E. apply bind_ok in E as [[] [E1 E]]. apply bind_ok in E as [n [_ E]]. injection E as <- _.
  unfold check_len in E1. destruct (Z.ltb_spec (zlen inp) 8); [discriminate|]. rewrite zlen_zdrop; lia.
Qed.
Lemma map_header_facts md inp fmt rest h : bytes_ok inp -> decode_map_header md inp fmt = Ok (rest, h) ->
  bytes_ok rest /\ header_ok h /\ zlen rest + 2 <= zlen inp.
Proof.
  intros Hb. unfold decode_map_header. destruct (_ =? _); [now apply compound8_facts|]. destruct (_ =? _); [now apply compound32_facts|discriminate].
Qed.
Lemma array_header_facts md inp fmt rest h : bytes_ok inp -> decode_array_header md inp fmt = Ok (rest, h) ->
  bytes_ok rest /\ header_ok h /\ zlen rest + 2 <= zlen inp.
Proof.
  intros Hb. unfold decode_array_header. destruct (_ =? _); [now apply compound8_facts|]. destruct (_ =? _); [now apply compound32_facts|discriminate].
Qed.
Lemma list_header_facts md inp fmt rest h : bytes_ok inp -> decode_list_header md inp fmt = Ok (rest, h) ->
  bytes_ok rest /\ header_ok h /\ zlen rest <= zlen inp.
Proof.
  intros Hb E. split; [exact (lawful_bytes_ok _ _ _ _ _ (list_header_lawful md fmt) E Hb)|]. split; [exact (proj2 (list_header_lawful md fmt _ _ _ E) Hb)|].
  exact (lawful_len _ _ _ _ _ (list_header_lawful md fmt) E).
Qed.

Lemma quiet_ok {A B} (x : A) (f : A -> run B) : run_bind (quiet (Ok x)) f = f x.
Proof. cbn [quiet run_bind]. now destruct (f x). Qed.
Lemma run_decode_cons {T} (D : rdec T) md c r : run_decode D md (c :: r) = (_ <~ begin_value ;; D md r c).
Proof.
  unfold run_decode. apply run_bind_ext. intros _. pose proof (decode_cons (fun (_ : mode) i f => Ok (i, f)) md c r) as H. unfold decode in H.
  destruct (decode_format_code (c :: r)) as [[i f]|e|p|]; try discriminate. injection H as -> ->. now rewrite quiet_ok.
Qed.
Section Budget.
Context (w : event -> Z) (F : Prop) (k0 : Z) (E : forall T, tspec T -> Prop).
Definition wb : Z := w Begins.
Definition kd : Z := k0 + 1 - wb.
Hypothesis k0_range : -1 <= k0 <= 0.
Hypothesis wb_range : 0 <= wb.
Hypothesis kd_range : 0 <= kd.
Hypothesis w_paid : forall n, 0 <= n -> w (Asks n) + k0 <= kd * n.
Hypothesis w_fails : F -> kd = 0.

Definition spends {S} (left : S -> bytes) (k avail : Z) (m : run S) : Prop :=
  Forall event_ok (fst m) /\
  match snd m with
  | Ok s => bytes_ok (left s) /\ wsum w (fst m) + k <= avail - zlen (left s)
  | _ => F -> wsum w (fst m) + k <= avail + wb
  end.
Lemma room (l : bytes) : 0 <= zlen l + wb. Proof. pose proof (zlen_nonneg l). lia. Qed.
Lemma step_k : 0 <= kd. Proof. exact kd_range. Qed.
Lemma step_F : F -> kd = 0. Proof. exact w_fails. Qed.
Lemma spends_weaken {S} (left : S -> bytes) k k' avail avail' m : k' <= k -> avail <= avail' -> spends left k avail m -> spends left k' avail' m.
Proof. intros Hk Ha [H1 H2]. split; [exact H1|]. destruct (snd m); [|intros HF; specialize (H2 HF); lia..]. destruct H2 as [H2 H3]. split; [exact H2|lia]. Qed.
Lemma spends_shift {S} (left : S -> bytes) k avail avail' m : avail + 1 <= avail' -> spends left k avail m -> spends left (k + 1) avail' m.
Proof. intros Ha [H1 H2]. split; [exact H1|]. destruct (snd m); [|intros HF; specialize (H2 HF); lia..]. destruct H2 as [H2 H3]. split; [exact H2|lia]. Qed.
Lemma spends_bind {S S'} (left : S -> bytes) (left' : S' -> bytes) k k' avail m f :
  spends left k avail m -> (forall s, snd m = Ok s -> bytes_ok (left s) -> spends left' k' (zlen (left s)) (f s)) -> (F -> k' <= 0) ->
  spends left' (k + k') avail (run_bind m f).
Proof.
  intros [H1 H2] Hf HF. unfold spends. rewrite fst_bind, snd_bind. destruct (snd m) as [s|e|p|]; cbn [bind]; rewrite ?app_nil_r;
    try (split; [exact H1|intros HH; specialize (H2 HH); specialize (HF HH); lia]).
  destruct H2 as [H2 H3]. destruct (Hf s eq_refl H2) as [H4 H5]. split; [now apply Forall_app|]. rewrite wsum_app.
  destruct (snd (f s)) as [s'|e|p|]; try (intros HH; specialize (H5 HH); specialize (HF HH); pose proof (zlen_nonneg (left s)); lia).
  destruct H5 as [H5 H6]. split; [exact H5|lia].
Qed.
Lemma spends_quiet {S} (left : S -> bytes) k avail r : (forall s, r = Ok s -> bytes_ok (left s) /\ k <= avail - zlen (left s)) -> (F -> k <= avail + wb) ->
  spends left k avail (quiet r).
Proof. intros H1 H2. split; [constructor|]. cbn [quiet fst snd wsum fold_right]. destruct r as [s|e|p|]; [|intros HF; specialize (H2 HF); lia..]. specialize (H1 s eq_refl). now split; [|lia]. Qed.
Lemma spends_capacity {S} (left : S -> bytes) k avail n m : in_range n -> spends left k avail m -> spends left (k - w (Asks n)) avail (_ <~ with_capacity n ;; m).
Proof.
  intros Hn [H1 H2]. unfold spends. rewrite fst_bind, snd_bind. cbn [with_capacity fst snd bind app]. split; [now constructor|].
  change (wsum w (Asks n :: fst m)) with (w (Asks n) + wsum w (fst m)). destruct (snd m) as [s|e|p|]; [|intros HF; specialize (H2 HF); lia..]. destruct H2; split; [auto|lia].
Qed.
Lemma spends_begin {S} (left : S -> bytes) k avail m : spends left k avail m -> spends left (k - wb) avail (_ <~ begin_value ;; m).
Proof.
  intros [H1 H2]. unfold spends. rewrite fst_bind, snd_bind. cbn [begin_value fst snd bind app]. split; [now constructor|].
  change (wsum w (Begins :: fst m)) with (wb + wsum w (fst m)). destruct (snd m) as [s|e|p|]; [|intros HF; specialize (H2 HF); lia..]. destruct H2; split; [auto|lia].
Qed.
Lemma spends_window {S S'} (left : S -> bytes) (left' : S' -> bytes) k avail win m g :
  spends left k win m -> win <= avail -> (forall s, snd m = Ok s -> bytes_ok (left' (g s)) /\ zlen (left' (g s)) + win <= avail) ->
  spends left' k avail (s <~ m ;; quiet (Ok (g s))).
Proof.
  intros [H1 H2] HW Hg. unfold spends. rewrite fst_bind, snd_bind. destruct (snd m) as [s|e|p|]; cbn [bind quiet fst snd]; rewrite ?app_nil_r;
    try (split; [exact H1|intros HH; specialize (H2 HH); lia]).
  destruct (Hg s eq_refl) as [H3 H4]. split; [exact H1|]. split; [exact H3|]. pose proof (zlen_nonneg (left s)). lia.
Qed.
Lemma spends_map {A B} (f : A -> B) k avail (m : run (bytes * A)) : spends fst k avail m -> spends fst k avail (map_run f m).
Proof.
  intros [H1 H2]. unfold spends, map_run. rewrite fst_bind, snd_bind. destruct (snd m) as [[i a]|e|p|]; cbn [bind quiet fst snd]; rewrite ?app_nil_r; now split.
Qed.
Lemma spends_iter {S} (left : S -> bytes) k f n : 0 <= k -> (F -> k = 0) -> (forall s, bytes_ok (left s) -> spends left k (zlen (left s)) (f s)) ->
  forall s, bytes_ok (left s) -> spends left (k * Z.of_nat n) (zlen (left s)) (run_iter n f s).
Proof.
  intros Hk HF Hf. induction n as [|n IH]; intros s Hs; cbn [run_iter].
  - apply spends_quiet; [intros s' [= <-]; split; [exact Hs|lia]|]. intros _. pose proof (zlen_nonneg (left s)). lia.
  - replace (k * Z.of_nat (Datatypes.S n)) with (k + k * Z.of_nat n) by lia. eapply spends_bind; [apply Hf; exact Hs| |intros HH; rewrite (HF HH); lia].
    intros s' _ Hs'. apply IH. exact Hs'.
Qed.
Lemma spends_loop {S} (left : S -> bytes) k f n s : 0 <= k -> (F -> k = 0) -> 0 <= n ->
  (forall s, bytes_ok (left s) -> spends left k (zlen (left s)) (f s)) -> bytes_ok (left s) -> spends left (k * n) (zlen (left s)) (run_loop n f s).
Proof. intros Hk HF Hn Hf Hs. rewrite run_loop_iter. rewrite <- (Z2Nat.id n) at 1 by exact Hn. now apply spends_iter. Qed.

(** Decoders. *)
Definition within {T} (D : rdec T) : Prop := forall md inp fmt, bytes_ok inp -> spends fst k0 (zlen inp) (D md inp fmt).
Definition tight {T} (D : rdec T) : Prop := forall md inp fmt, byte_ok fmt -> bytes_ok inp -> spends fst (k0 + 1) (zlen inp) (D md inp fmt).
Lemma within_decode {T} (D : rdec T) md inp : within D -> bytes_ok inp -> spends fst kd (zlen inp) (run_decode D md inp).
Proof.
  intros HD Hb. destruct inp as [|c r].
  - split; [repeat constructor|]. intros HF. cbn. fold wb. rewrite (w_fails HF). unfold zlen; cbn; lia.
  - inversion Hb; subst. rewrite run_decode_cons. apply spends_begin. apply (spends_shift fst k0 (zlen r)); [rewrite zlen_cons; lia|]. now apply HD.
Qed.
Lemma spends_step {T} (d : bytes -> run (bytes * T)) k s : (forall i, bytes_ok i -> spends fst k (zlen i) (d i)) -> bytes_ok (fst s) ->
  spends fst k (zlen (fst s)) (vec_run_step d s).
Proof.
  intros H Hs. destruct s as [i acc]. cbn [fst] in *. unfold vec_run_step. replace k with (k + 0) by lia.
  eapply spends_bind; [exact (H i Hs)| |lia]. intros [i1 x] _ H1. cbn [fst] in *. apply spends_quiet; [|intros _; apply room].
  intros s [= <-]. cbn [fst]. split; [exact H1|lia].
Qed.
Lemma within_list {T} (D : rdec T) : within D -> within (list_rdec D).
Proof.
  intros HD md inp fmt Hb. unfold list_rdec. replace k0 with (0 + k0) by lia. apply (spends_bind fst fst 0 k0).
  - apply spends_quiet; [|intros _; apply room]. intros [r h] Er. apply list_header_facts in Er as (H1 & H2 & H3); [|exact Hb]. split; [exact H1|cbn [fst]; lia].
  - intros [r h] Er Hr. cbn [quiet snd fst] in Er, Hr |- *. apply list_header_facts in Er as (_ & [_ H2] & _); [|exact Hb]. pose proof (w_paid (ch_count h) ltac:(intros; cbv beta; lia)).
    eapply spends_weaken; [|apply Z.le_refl|apply (spends_capacity fst (kd * ch_count h)); [exact H2|]].
    2: { apply (spends_loop fst kd); [apply step_k|apply step_F|lia| |exact Hr]. intros s. apply spends_step. intros i Hi. now apply within_decode. }
    lia.
  - lia.
Qed.

Lemma half_range n : 0 <= n < 2 ^ 32 -> in_range (n / 2).
Proof. unfold in_range. intros H. split; [apply Z.div_pos; lia|]. apply Z.div_lt_upper_bound; lia. Qed.
(** Both kinds of maps. *)
Lemma spends_map_like {X} (step : mode -> bytes * X -> run (bytes * X)) (x0 : X) md inp fmt :
  (forall s, bytes_ok (fst s) -> spends fst kd (zlen (fst s)) (step md s)) -> bytes_ok inp ->
  spends fst (k0 + 1) (zlen inp)
    ('(inp1, header) <~ quiet (decode_map_header md inp fmt) ;;
     map_input <~ quiet (slice_to inp1 (ch_size header)) ;;
     let count := ch_count header / 2 in
     _ <~ with_capacity count ;;
     '(_, m) <~ run_loop count (step md) (map_input, x0) ;;
     quiet (Ok (zdrop (ch_size header) inp1, m))).
Proof.
  intros HS Hb. destruct (decode_map_header md inp fmt) as [[inp1 h]|e|p|] eqn:EH;
    try (apply spends_quiet; [discriminate|intros HF; pose proof (step_F HF); unfold kd in *; pose proof (zlen_nonneg inp); lia]).
  apply map_header_facts in EH as (H1 & [H2 H3] & H4); [|exact Hb].
  rewrite quiet_ok. cbv beta iota. unfold slice_to. destruct (Z.ltb_spec (zlen inp1) (ch_size h)) as [C|C].
  { apply spends_quiet; [discriminate|intros HF; pose proof (step_F HF); unfold kd in *; pose proof (zlen_nonneg inp); lia]. }
  rewrite quiet_ok. set (win := ztake (ch_size h) inp1).
  cbv beta zeta. pose proof (w_paid (ch_count h / 2) (proj1 (half_range _ H3))) as HW.
  assert (LW : zlen win = ch_size h) by (apply zlen_ztake; lia).
  eapply spends_weaken; [|apply Z.le_refl|apply (spends_capacity fst (kd * (ch_count h / 2) + 1)); [exact (half_range _ H3)|]]; [lia|].
  assert (A : spends fst (kd * (ch_count h / 2)) (zlen win) (run_loop (ch_count h / 2) (step md) (win, x0))).
  { apply (spends_loop fst kd (step md) (ch_count h / 2) (win, x0)); [apply step_k|apply step_F|exact (proj1 (half_range _ H3))|exact HS|].
    now apply bytes_ok_ztake. }
  assert (B : spends fst (kd * (ch_count h / 2)) (zlen inp1) 
     ('(_, m) <~ run_loop (ch_count h / 2) (step md) (win, x0) ;; quiet (Ok (zdrop (ch_size h) inp1, m)))).
  { replace (run_bind _ _) with (s <~ run_loop (ch_count h / 2) (step md) (win, x0) ;; quiet (Ok (zdrop (ch_size h) inp1, snd s)))
      by (apply run_bind_ext; now intros []).
    apply (spends_window fst fst _ _ (zlen win)); [exact A|lia|]. intros s _. cbn [fst]. split; [now apply bytes_ok_zdrop|]. rewrite zlen_zdrop by lia. lia. }
  apply (spends_shift fst _ (zlen inp1)); [lia|exact B].
Qed.
Lemma map_spends {K V} (KO : key K) (DK : rdec K) (DV : rdec V) md inp fmt : within DK -> within DV -> bytes_ok inp ->
  spends fst (k0 + 1) (zlen inp) (map_rdec KO DK DV md inp fmt).
Proof.
  intros HK HV Hb. apply (spends_map_like (fun md => map_run_step KO (run_decode DK md) (run_decode DV md)) []); [|exact Hb].
  intros [i m] Hi. cbn [fst] in *. unfold map_run_step.
  eapply spends_weaken; [|apply Z.le_refl|eapply (spends_bind fst fst kd (kd + 0)); [now apply within_decode| |]].
  - pose proof step_k. lia.
  - intros [i1 k] _ H1. cbn [fst] in H1 |- *. eapply spends_bind; [now apply within_decode| |lia]. intros [i2 v] _ H2. cbn [fst] in H2 |- *.
    apply spends_quiet; [|intros _; apply room]. intros s Hs. destruct (k_hashable KO k); [|discriminate]. injection Hs as <-. cbn [fst]. split; [exact H2|lia].
  - intros HF. pose proof (step_F HF). lia.
Qed.
Lemma vecmap_spends (DV : rdec variant) md inp fmt : within (simple_run str_dec) -> within DV -> bytes_ok inp ->
  spends fst (k0 + 1) (zlen inp) ('(inp1, header) <~ quiet (decode_map_header md inp fmt) ;;
  map_input <~ quiet (slice_to inp1 (ch_size header)) ;;
  let count := ch_count header / 2 in
  _ <~ with_capacity count ;;
  '(_, m) <~ run_loop count (vecmap_run_step (run_decode (simple_run str_dec) md) (run_decode DV md)) (map_input, []) ;;
  quiet (Ok (zdrop (ch_size header) inp1, m))).
Proof.
  intros HK HV Hb. apply (spends_map_like (fun md => vecmap_run_step (run_decode (simple_run str_dec) md) (run_decode DV md)) []); [|exact Hb].
  intros [i m] Hi. cbn [fst] in *. unfold vecmap_run_step.
  eapply spends_weaken; [|apply Z.le_refl|eapply (spends_bind fst fst kd (kd + 0)); [now apply within_decode| |]].
  - pose proof step_k. lia.
  - intros [i1 k] _ H1. cbn [fst] in H1 |- *. eapply spends_bind; [now apply within_decode| |lia]. intros [i2 v] _ H2. cbn [fst] in H2 |- *.
    apply spends_quiet; [|intros _; apply room]. intros s [= <-]. cbn [fst]. split; [exact H2|lia].
  - intros HF. pose proof (step_F HF). lia.
Qed.
Lemma vec_spends {T} (D : rdec T) md inp fmt : tight D -> bytes_ok inp -> spends fst (k0 + 1) (zlen inp) (vec_rdec D md inp fmt).
Proof.
  intros HD Hb. unfold vec_rdec. destruct (decode_array_header md inp fmt) as [[inp1 h]|e|p|] eqn:EH;
    try (apply spends_quiet; [discriminate|intros HF; pose proof (step_F HF); unfold kd in *; pose proof (zlen_nonneg inp); lia]).
  apply array_header_facts in EH as (H1 & [H2 H3] & H4); [|exact Hb].
  rewrite quiet_ok.
  cbv beta iota. destruct inp1 as [|c i].
  { apply spends_quiet; [discriminate|intros HF; pose proof (step_F HF); unfold kd in *; pose proof (zlen_nonneg inp); lia]. }
  inversion H1; subst. rewrite zlen_cons in H4. pose proof (w_paid (ch_count h) ltac:(intros; cbv beta; lia)) as HW.
  eapply spends_weaken; [|apply Z.le_refl|apply (spends_capacity fst (kd * ch_count h + 1)); [exact H3|]]; [lia|].
  assert (A : spends fst (kd * ch_count h) (zlen i) (run_loop (ch_count h) (vec_run_step (fun j => _ <~ begin_value ;; D md j c)) (i, []))).
  { apply (spends_loop fst kd _ (ch_count h) (i, [])); [apply step_k|apply step_F|lia| |assumption]. intros s. apply spends_step. intros j Hj. apply spends_begin. now apply HD. }
  apply (spends_shift fst _ (zlen i)); [lia|exact A].
Qed.
Lemma weaker {S} (left : S -> bytes) avail m : spends left (k0 + 1) avail m -> spends left k0 avail m.
Proof. apply spends_weaken; lia. Qed.
Lemma within_option {T} (D : rdec T) : within D -> within (option_rdec D).
Proof.
  intros HD md inp fmt Hb. unfold option_rdec. destruct (_ =? _); [|apply spends_map; now apply HD].
  apply spends_quiet; [|intros HF; pose proof (step_F HF); unfold kd in *; pose proof (zlen_nonneg inp); lia]. intros s [= <-]. cbn [fst]. split; [exact Hb|lia].
Qed.
Lemma within_simple {T} (d : dec T) (P : T -> Prop) : dec_lawful P d -> within (simple_run d).
Proof.
  intros L md inp fmt Hb. apply spends_quiet; [|intros HF; pose proof (step_F HF); unfold kd in *; pose proof (zlen_nonneg inp); lia]. intros [r x] Er. cbn [fst].
  split; [exact (lawful_bytes_ok _ _ _ _ _ (L md fmt) Er Hb)|]. pose proof (lawful_len _ _ _ _ _ (L md fmt) Er). lia.
Qed.
Lemma within_fuel f : within (variant_rdec_fuel f).
Proof.
  induction f as [|f IH]; intros md inp fmt Hb; cbn [variant_rdec_fuel].
  { apply spends_quiet; [discriminate|intros HF; pose proof (step_F HF); unfold kd in *; pose proof (zlen_nonneg inp); lia]. }
  destruct (_ || _); [apply spends_map; now apply within_list|]. destruct (_ || _); [apply spends_map, weaker; now apply map_spends|].
  destruct (_ =? _).
  - eapply (spends_weaken fst (kd + (kd + 0))); [pose proof step_k; lia|apply Z.le_refl|].
    eapply spends_bind; [apply within_decode; [exact (within_simple descriptor_dec _ descriptor_lawful)|exact Hb]| |intros HF; pose proof (step_F HF); lia].
    intros [i d] _ H1. cbn [fst] in H1 |- *. eapply spends_bind; [now apply within_decode| |lia].
    intros [i2 v] _ H2. cbn [fst] in H2 |- *. apply spends_quiet; [|intros _; apply room]. intros s [= <-]. cbn [fst]. split; [exact H2|lia].
  - exact (within_simple (variant_dec_fuel (Datatypes.S f)) _ (variant_fuel_lawful (Datatypes.S f)) md inp fmt Hb).
Qed.
Lemma within_variant : within variant_rdec.
Proof. intros md inp fmt Hb. unfold variant_rdec. now apply (within_fuel (Datatypes.S (length inp))). Qed.

(** Elements of arrays. *)
Definition cond {T} (S : tspec T) : Prop :=
  ~ In 0x00 (s_codes S) /\ ~ In 0x40 (s_codes S) /\ ~ In 0x45 (s_codes S) /\ (k0 = 0 -> Forall (fun c => ~ In c [0x41; 0x42; 0x43; 0x44]) (s_codes S)).
Lemma language_wide {T} (S : tspec T) L : language S L -> ~ In 0x40 (s_codes S) -> Forall (fun c => ~ In c [0x41; 0x42; 0x43; 0x44]) (s_codes S) ->
  forall v bs, L v bs -> 2 <= zlen bs.
Proof.
  assert (BE4 : forall c x, 2 <= zlen (c :: be4 x)) by (intros; rewrite zlen_cons; unfold zlen; cbn; lia).
  assert (BE8 : forall c x, 2 <= zlen (c :: be8 x)) by (intros; rewrite zlen_cons; unfold zlen; cbn; lia).
  assert (BE2 : forall c x, 2 <= zlen (c :: be2 x)) by (intros; rewrite zlen_cons; unfold zlen; cbn; lia).
  assert (ONE : forall c x : Z, 2 <= zlen [c; x]) by (intros; unfold zlen; cbn; lia).
  assert (VAR : forall c8 c32 b bs, wire_var c8 c32 b bs -> 2 <= zlen bs).
  { intros c8 c32 b bs [b' _|b' _]; rewrite !zlen_cons; [pose proof (zlen_nonneg b'); lia|]. rewrite zlen_app. pose proof (zlen_nonneg b'). unfold zlen at 1. cbn [be4 length]. lia. }
  intros H. destruct H; intros N W v bs HL; cbn [s_wire s_codes bool_S u8_S u16_S u32_S u64_S i8_S i16_S i32_S i64_S f32_S f64_S char_S datetime_S uuid_S bin_S
    bstr_S str_S symbol_S role_S sender_settle_mode_S receiver_settle_mode_S sasl_code_S terminus_durability_S terminus_expiry_policy_S amqp_error_S
    connection_error_S session_error_S link_error_S error_condition_S distribution_mode_S message_id_S option_S enum_S open_enum_S] in *;
    try (exfalso; inversion W as [|c r W1 W2]; apply W1; cbn; tauto);
    try (exfalso; rewrite Forall_forall in W; refine (W 0x44 _ _); cbn; tauto);
    try (destruct HL as [_ ->]; auto; fail);
    try (destruct HL; auto; fail);
    try (destruct HL as [_ HL]; eauto; fail);
    try (destruct HL as (b & _ & _ & HL); eauto; fail).
  - destruct HL as (ms & _ & -> & _). auto.
  - destruct HL as [HL ->]. rewrite zlen_cons. unfold uuid_ok in HL. lia.
  - destruct HL as (b & _ & _ & ->). auto.
  - destruct HL as (b & _ & _ & ->). auto.
  - destruct HL as (b & _ & _ & ->). auto.
  - destruct HL as (b & [_ HL] & _). eauto.
  - destruct HL as (b & [_ HL] & _). eauto.
  - exfalso. apply N. now left.
Qed.
Lemma tight_simple {T} (S : tspec T) L : language S L -> cond S -> tight (simple_run (s_dec S)).
Proof.
  intros HL (_ & C1 & _ & C2) md inp fmt Hf Hb. pose proof (g_dec _ (type_good S (language_type S L HL))) as LW.
  apply spends_quiet; [|intros HF; pose proof (step_F HF); unfold kd in *; pose proof (zlen_nonneg inp); lia]. intros [r x] Er. cbn [fst].
  split; [exact (lawful_bytes_ok _ _ _ _ _ (LW md fmt) Er Hb)|]. pose proof (lawful_len _ _ _ _ _ (LW md fmt) Er).
  destruct (Z.eq_dec k0 0) as [Z0|]; [|lia]. specialize (C2 Z0).
  assert (D : decode (s_dec S) md (fmt :: inp) = Ok (r, x)) by now rewrite decode_cons.
  apply (language_exact S L HL) in D as (bs & EB & W); [|now constructor]. apply (language_wide S L HL C1 C2) in W.
  apply (f_equal zlen) in EB. rewrite zlen_cons, zlen_app in EB. lia.
Qed.

Hypothesis E_cond : forall T A width (S : tspec T), element A width S -> E T S -> cond S.

Definition fields_spend {R} (D : rfield_dec R) : Prop := forall md s, bytes_ok (fst s) ->
  spends (fun x : field_state * R => fst (fst x)) 0 (zlen (fst s)) (D md s).
Definition inner_spends {T} (R : rinner T) : Prop := forall md inp, bytes_ok inp -> spends fst 0 (zlen inp) (R md inp).
Definition select_spends {T} (R : selection T) : Prop := forall md d inp, bytes_ok inp -> spends fst 0 (zlen inp) (R md d inp).
Lemma within_described {T} (R : selection T) : select_spends R -> within (described_run R).
Proof.
  intros H md inp fmt Hb. unfold described_run, validate_code.
  assert (Q : forall e, spends (S := bytes * T) fst k0 (zlen inp) (quiet (Err e))).
  { intros e. apply spends_quiet; [discriminate|intros HF; pose proof (step_F HF); unfold kd in *; pose proof (zlen_nonneg inp); lia]. }
  destruct (_ =? _); [|apply Q]. rewrite quiet_ok.
  eapply (spends_weaken fst (kd + 0)); [pose proof step_k; lia|apply Z.le_refl|].
  eapply spends_bind; [apply within_decode; [exact (within_simple descriptor_dec _ descriptor_lawful)|exact Hb]| |lia].
  intros [i d] _ H1. now apply H.
Qed.
Lemma spends_one_of {T X} code name (inj : X -> T) (R : rinner X) (others : selection T) :
  inner_spends R -> select_spends others -> select_spends (one_of_run code name inj R others).
Proof. intros H1 H2 md d inp Hb. unfold one_of_run. destruct (named code name d); [apply spends_map; now apply H1|now apply H2]. Qed.
Lemma spends_none {T} : select_spends (@none_run T).
Proof. intros md d inp Hb. apply spends_quiet; [discriminate|]. intros _. apply room. Qed.
Lemma spends_field {T R} (m : field_state -> run (field_state * T)) (r : rfield_dec R) md s :
  (spends (fun x : field_state * T => fst (fst x)) 0 (zlen (fst s)) (m s)) -> fields_spend r ->
  spends (fun x : field_state * (T * R) => fst (fst x)) 0 (zlen (fst s)) ('(s1, x) <~ m s ;; '(s2, a) <~ r md s1 ;; quiet (Ok (s2, (x, a)))).
Proof.
  intros Hm Hr. replace 0 with (0 + (0 + 0)) by lia. eapply spends_bind; [exact Hm| |lia]. intros [s1 x] _ H1. cbn [fst] in H1 |- *.
  eapply spends_bind; [exact (Hr md s1 H1)| |lia]. intros [s2 a] _ H2. cbn [fst] in H2 |- *. apply spends_quiet; [|intros _; apply room].
  intros y [= <-]. cbn [fst]. split; [exact H2|lia].
Qed.
Lemma spends_field_decode {T X} (D : rdec X) (g : X -> T) md inp n : within D -> bytes_ok inp ->
  spends (fun x : field_state * T => fst (fst x)) 0 (zlen inp) ('(in1, decoded) <~ run_decode D md inp ;; quiet (Ok ((in1, n - 1), g decoded))).
Proof.
  intros HD Hb. eapply spends_weaken; [|apply Z.le_refl|eapply (spends_bind fst _ kd 0); [now apply within_decode| |lia]]; [pose proof step_k; lia|].
  intros [i x] _ Hi. cbn [fst] in Hi |- *. apply spends_quiet; [|intros _; apply room]. intros y [= <-]. cbn [fst]. split; [exact Hi|lia].
Qed.
Lemma spends_here {T} (s : field_state) (x : res (field_state * T)) : bytes_ok (fst s) -> (forall y, x = Ok y -> fst y = s) ->
  spends (fun x : field_state * T => fst (fst x)) 0 (zlen (fst s)) (quiet x).
Proof. intros Hb H. apply spends_quiet; [|intros _; apply room]. intros y Hy. rewrite (H y Hy). split; [exact Hb|lia]. Qed.
Lemma fields_run_spends {R T} (D : rfield_dec R) (make : R -> T) : fields_spend D -> inner_spends (fields_run D make).
Proof.
  intros HD md inp Hb. unfold fields_run. destruct (open_list md inp) as [[s rem]|e|p|] eqn:EO;
    try (apply spends_quiet; [discriminate|intros _; apply room]).
  rewrite quiet_ok. apply open_list_window in EO as (hdr & -> & _); [|exact Hb]. apply bytes_ok_app in Hb as [_ Hb]. apply bytes_ok_app in Hb as [H1 H2].
  replace (run_bind _ _) with (x <~ D md s ;; quiet (Ok (rem, make (snd x)))) by (apply run_bind_ext; now intros []).
  rewrite !zlen_app. pose proof (zlen_nonneg hdr). pose proof (zlen_nonneg rem). apply (spends_window (fun x : field_state * R => fst (fst x)) fst 0 _ (zlen (fst s))).
  - exact (HD md s H1).
  - lia.
  - intros x _. cbn [fst]. split; [exact H2|lia].
Qed.
Lemma transfer_run_spends {R} (D : rfield_dec R) make : fields_spend D -> inner_spends (transfer_run D make).
Proof.
  intros HD md inp Hb. unfold transfer_run. destruct (open_list md inp) as [[s rem]|e|p|] eqn:EO;
    try (apply spends_quiet; [discriminate|intros _; apply room]).
  rewrite quiet_ok. apply open_list_window in EO as (hdr & -> & _); [|exact Hb]. apply bytes_ok_app in Hb as [_ Hb]. apply bytes_ok_app in Hb as [H1 H2].
  replace (run_bind _ _) with (x <~ D md s ;; quiet (Ok ([] : bytes, make (snd x) (match rem with [] => None | _ => Some (TBData rem) end)))) by (apply run_bind_ext; now intros []).
  rewrite !zlen_app. pose proof (zlen_nonneg hdr). pose proof (zlen_nonneg rem). apply (spends_window (fun x : field_state * R => fst (fst x)) fst 0 _ (zlen (fst s))).
  - exact (HD md s H1).
  - lia.
  - intros x _. cbn [fst]. split; [constructor|]. unfold zlen at 1. cbn [length]. lia.
Qed.

Lemma run_spends :
  (forall T (S : tspec T) D, runs E S D -> within D /\ (cond S -> tight D)) /\
  (forall R (F : fields R) D, field_runs E F D -> fields_spend D) /\
  (forall T (S : dspec T) D, inner_runs E S D -> inner_spends D) /\
  (forall T (alts : list (alternative T)) D, union_runs E alts D -> select_spends D).
Proof.
  apply runs_mutind.
  - intros T S L H. split; [apply (within_simple _ (s_valid S)), g_dec, type_good; exact (language_type S L H)|]. now apply (tight_simple S L).
  - split; [exact within_variant|]. intros [C _]. elim C. now left.
  - split; [apply within_list, within_variant|]. intros (_ & _ & C & _). elim C. now left.
  - assert (W : within (simple_run str_dec)) by (apply (within_simple str_dec str_ok); exact (g_dec _ (type_good str_S ty_str))).
    split; [intros md inp fmt Hb; apply weaker|intros _ md inp fmt _ Hb]; now apply (vecmap_spends variant_rdec md inp fmt W within_variant).
  - intros T S D _ [IH _] _. split; [now apply within_option|]. intros (_ & C & _). elim C. now left.
  - intros K V KO SK SV DK DV _ [HK _] _ [HV _]. split; [intros md inp fmt Hb; apply weaker|intros _ md inp fmt _ Hb]; now apply map_spends.
  - intros T A width S D HA HE _ [_ IH]. specialize (IH (E_cond _ _ _ _ HA HE)). split; [intros md inp fmt Hb; apply weaker|intros _ md inp fmt _ Hb]; now apply vec_spends.
  - intros T A width S D HA HE _ _ _ [IW IH]. specialize (IH (E_cond _ _ _ _ HA HE)).
    assert (SP : forall (k : Z) md inp fmt, spends fst k (zlen inp) (D md inp fmt) -> spends fst k (zlen inp) ('(i, x) <~ D md inp fmt ;; quiet (Ok (i, [x])))).
    { intros k md inp fmt HD. replace k with (k + 0) by lia. eapply spends_bind; [exact HD| |lia]. intros [i x] _ H1. cbn [fst] in H1 |- *.
      apply spends_quiet; [|intros _; apply room]. intros s [= <-]. cbn [fst]. split; [exact H1|lia]. }
    split.
    + intros md inp fmt Hb. unfold multiple_rdec. destruct (_ || _); [apply weaker; now apply vec_spends|]. apply SP. now apply IW.
    + intros _ md inp fmt Hf Hb. unfold multiple_rdec. destruct (_ || _); [now apply vec_spends|]. apply SP. now apply IH.
  - intros K D HK _ IH. split; [|intros [C _]; elim C; now left]. apply within_described, spends_one_of; [exact IH|exact spends_none].
  - intros T S alts D U _ IH. split; [now apply within_described|]. intros [C _]. elim C. destruct U; now left.
  - intros md s Hs. apply spends_here; [exact Hs|]. now intros y [= <-].
  - intros T R name S r D DR _ [IH _] _ IHr md s Hs. unfold req_field_run.
    apply (spends_field (fun s => let (inp, count) := s in
    if 0 <? count then '(in1, decoded) <~ run_decode D md inp ;; quiet (Ok ((in1, count - 1), decoded))
    else quiet (Err (ERequiredFieldOmitted name)))); [|exact IHr]. destruct s as [i n]. cbn [fst] in *.
    destruct (0 <? n); [now apply (spends_field_decode D (fun x => x))|]. now apply (spends_here (i, n)).
  - intros T R name S r D DR _ [IH _] _ IHr md s Hs. unfold opt_field_run. 
    apply (spends_field (fun s => let (inp, count) := s in
    if 0 <? count then '(in1, decoded) <~ run_decode (option_rdec D) md inp ;; quiet (Ok ((in1, count - 1), decoded))
    else quiet (Ok (s, None)))); [|exact IHr]. destruct s as [i n]. cbn [fst] in *.
    destruct (0 <? n); [apply (spends_field_decode (option_rdec D) (fun x => x)); [now apply within_option|exact Hs]|]. apply (spends_here (i, n)); [exact Hs|]. now intros y [= <-].
  - intros T R name S dflt r D DR _ [IH _] _ IHr md s Hs. unfold def_field_run.
    apply (spends_field (fun s => let (inp, count) := s in
    if 0 <? count then
      '(in1, decoded) <~ run_decode (option_rdec D) md inp ;;
      quiet (Ok ((in1, count - 1), match decoded with Some x => x | None => dflt end))
    else quiet (Ok (s, dflt)))); [|exact IHr]. destruct s as [i n]. cbn [fst] in *.
    destruct (0 <? n); [apply (spends_field_decode (option_rdec D) (fun x => match x with Some y => y | None => dflt end)); [now apply within_option|exact Hs]|].
    apply (spends_here (i, n)); [exact Hs|]. now intros y [= <-].
  - intros K D _ _ IH. now apply fields_run_spends.
  - intros T code name S size enc inner D _ _ [IH _] md inp Hb. eapply spends_weaken; [|apply Z.le_refl|now apply within_decode]. pose proof step_k. lia.
  - intros T. exact spends_none.
  - intros T a r D DR _ IH _ IHr. now apply spends_one_of.
Qed.
Lemma perf_spends {T} (D : dspec T) R : performative_runs E D R -> inner_spends R.
Proof. destruct run_spends as (_ & X1 & X2 & _). intros [K R' _ H|R' H]; [exact (X2 _ _ _ H)|]. apply transfer_run_spends. exact (X1 _ _ _ H). Qed.
Lemma frame_select_spends alts R : frame_runs E alts R -> select_spends R.
Proof. induction 1 as [|a r D DR HA _ IH]; [exact spends_none|]. apply spends_one_of; [exact (perf_spends _ _ HA)|exact IH]. Qed.

Lemma frame_spends R md inp : frame_runs E frame_alts R -> bytes_ok inp -> spends fst 0 (zlen inp) (frame_run R md inp).
Proof.
  intros HR Hb. destruct inp as [|c r].
  - apply spends_quiet; [|intros _; apply room]. intros s [= <-]. split; [constructor|]. apply Z.le_refl.
  - cbn [frame_run]. eapply spends_weaken; [|apply Z.le_refl|apply within_decode; [apply within_described; exact (frame_select_spends _ _ HR)|exact Hb]].
    pose proof step_k. lia.
Qed.
Lemma amqp_spends R md inp : frame_runs E frame_alts R -> bytes_ok inp -> spends fst 0 (zlen inp) (amqp_frame_run R md inp).
Proof.
  intros HR Hb. unfold amqp_frame_run. destruct (decode_frame_header inp FRAME_TYPE_AMQP) as [[i ch]|e|p|] eqn:EH;
    try (apply spends_quiet; [discriminate|intros _; apply room]).
  rewrite quiet_ok. apply header_read in EH as (ext & hdr & -> & _); [|exact Hb]. apply bytes_ok_app in Hb as [_ Hb].
  replace 0 with (0 + 0) by lia. eapply spends_bind; [eapply spends_weaken; [apply Z.le_refl| |now apply frame_spends]| |lia].
  - rewrite zlen_app. pose proof (zlen_nonneg hdr). lia.
  - intros [i2 f] _ H2. cbn [fst] in H2 |- *. apply spends_quiet; [|intros _; apply room]. intros s [= <-]. cbn [fst]. split; [exact H2|lia].
Qed.
Lemma sasl_spends D md inp : runs E sasl_frame_body_S D -> bytes_ok inp -> spends fst 0 (zlen inp) (sasl_frame_run D md inp).
Proof.
  intros HD Hb. destruct run_spends as [X _]. destruct (X _ _ _ HD) as [W _].
  unfold sasl_frame_run. destruct (decode_frame_header inp FRAME_TYPE_SASL) as [[i ch]|e|p|] eqn:EH;
    try (apply spends_quiet; [discriminate|intros _; apply room]).
  rewrite quiet_ok. apply header_read in EH as (ext & hdr & -> & _); [|exact Hb]. apply bytes_ok_app in Hb as [_ Hb].
  replace 0 with (0 + 0) by lia. eapply spends_bind; [eapply spends_weaken; [| |now apply within_decode]| |lia].
  - pose proof step_k. lia.
  - rewrite zlen_app. pose proof (zlen_nonneg hdr). lia.
  - intros [i2 f] _ H2. cbn [fst] in H2 |- *. apply spends_quiet; [|intros _; apply room]. intros s [= <-]. cbn [fst]. split; [exact H2|lia].
Qed.
Lemma message_loop_spends D md : within D -> forall fuel m inp, bytes_ok inp ->
  spends (fun _ : bytes * message => []) 0 (zlen inp) (message_run_loop D fuel md m inp).
Proof.
  intros W. induction fuel as [|f IH]; intros m inp Hb; cbn [message_run_loop].
  { apply spends_quiet; [discriminate|intros _; apply room]. }
  replace 0 with (0 + 0) by lia. eapply spends_bind; [eapply spends_weaken; [|apply Z.le_refl|now apply (within_decode D md inp W)]| |lia]; [pose proof step_k; lia|].
  intros [rest sec] _ Hr. cbn [fst] in Hr |- *. destruct rest as [|c r].
  - apply spends_quiet; [|intros _; apply room]. intros s [= <-]. split; [constructor|apply Z.le_refl].
  - now apply IH.
Qed.
Lemma message_spends D md inp : runs E section_S D -> bytes_ok inp -> spends (fun _ : bytes * message => []) 0 (zlen inp) (message_run D md inp).
Proof. intros HD Hb. destruct run_spends as [X _]. destruct (X _ _ _ HD) as [W _]. now apply message_loop_spends. Qed.
End Budget.

(** *** The two instances *)
Lemma element_codes {T} A width (S : tspec T) : element A width S -> ~ In 0x00 (s_codes S) /\ ~ In 0x40 (s_codes S) /\ ~ In 0x45 (s_codes S).
Proof. intros X. destruct X; cbn; repeat split; intros Y; intuition discriminate. Qed.
Lemma any_cond T A width (S : tspec T) : element A width S -> any_element T S -> cond (-1) S.
Proof. intros H _. destruct (element_codes A width S H) as (H1 & H2 & H3). repeat split; auto. discriminate. Qed.
Lemma wide_cond T A width (S : tspec T) : element A width S -> wide_element T S -> cond 0 S.
Proof. intros H W. destruct (element_codes A width S H) as (H1 & H2 & H3). repeat split; auto. Qed.
Definition w_one (e : event) : Z := match e with Asks _ => 1 | Begins => 0 end.
Definition w_places (e : event) : Z := match e with Asks n => n | Begins => 0 end.
Definition w_values (e : event) : Z := match e with Asks _ => 0 | Begins => 1 end.
Lemma wsum_cons w e l : wsum w (e :: l) = w e + wsum w l. Proof. reflexivity. Qed.
Lemma wsum_one l : wsum w_one l = zlen (capacities l).
Proof. induction l as [|[n|] l IH]; [reflexivity| |]; rewrite wsum_cons, IH; cbn [w_one capacities]; rewrite ?zlen_cons; lia. Qed.
Lemma wsum_places l : wsum w_places l = total (capacities l).
Proof. induction l as [|[n|] l IH]; [reflexivity| |]; rewrite wsum_cons, IH; cbn [w_places capacities]; reflexivity. Qed.
Lemma wsum_values l : wsum w_values l = beginnings l.
Proof. induction l as [|[n|] l IH]; [reflexivity| |]; rewrite wsum_cons, IH; cbn [w_values beginnings]; reflexivity. Qed.
Lemma ranges l : Forall event_ok l -> Forall in_range (capacities l).
Proof. induction 1 as [|[n|] l H _ IH]; cbn [capacities]; auto. Qed.
Ltac side := unfold kd, wb, w_one, w_places, w_values; intros; try lia.

Lemma counted {S} (left : S -> bytes) avail (m : run S) : spends w_one True left 0 avail m -> Forall in_range (asked m) /\ zlen (asked m) <= avail.
Proof.
  intros [H1 H2]. split; [now apply ranges|]. rewrite wsum_one in H2. unfold asked. change (wb w_one) with 0 in H2. destruct (snd m) as [s|e|p|]; [|specialize (H2 I); lia..].
  destruct H2 as [_ H2]. pose proof (zlen_nonneg (left s)). lia.
Qed.
Lemma number T (S : tspec T) D : runs any_element S D -> forall md inp, bytes_ok inp ->
  Forall in_range (asked (run_decode D md inp)) /\ zlen (asked (run_decode D md inp)) <= zlen inp.
Proof.
  intros HD md inp Hb. apply (counted fst).
  destruct (run_spends w_one True (-1) any_element ltac:(side) ltac:(side) ltac:(side) ltac:(side) ltac:(side) any_cond) as [X _]. destruct (X T S D HD) as [W _].
  exact (within_decode w_one True (-1) ltac:(side) D md inp W Hb).
Qed.
Lemma number_frame R : frame_runs any_element frame_alts R -> forall md inp, bytes_ok inp ->
  Forall in_range (asked (amqp_frame_run R md inp)) /\ zlen (asked (amqp_frame_run R md inp)) <= zlen inp.
Proof.
  intros HR md inp Hb. apply (counted fst).
  exact (amqp_spends w_one True (-1) any_element ltac:(side) ltac:(side) ltac:(side) ltac:(side) ltac:(side) any_cond R md inp HR Hb).
Qed.
Lemma number_sasl D : runs any_element sasl_frame_body_S D -> forall md inp, bytes_ok inp ->
  Forall in_range (asked (sasl_frame_run D md inp)) /\ zlen (asked (sasl_frame_run D md inp)) <= zlen inp.
Proof.
  intros HR md inp Hb. apply (counted fst).
  exact (sasl_spends w_one True (-1) any_element ltac:(side) ltac:(side) ltac:(side) ltac:(side) ltac:(side) any_cond D md inp HR Hb).
Qed.
Lemma number_message D : runs any_element section_S D -> forall md inp, bytes_ok inp ->
  Forall in_range (asked (message_run D md inp)) /\ zlen (asked (message_run D md inp)) <= zlen inp.
Proof.
  intros HR md inp Hb. apply (counted (fun _ => [])).
  exact (message_spends w_one True (-1) any_element ltac:(side) ltac:(side) ltac:(side) ltac:(side) ltac:(side) any_cond D md inp HR Hb).
Qed.
Lemma paid T (S : tspec T) D : runs wide_element S D -> forall md inp rest v, bytes_ok inp -> decode (s_dec S) md inp = Ok (rest, v) ->
  total (asked (run_decode D md inp)) < zlen inp - zlen rest.
Proof.
  intros HD md inp rest v Hb HE. destruct (run_erases wide_element) as [XE _]. pose proof (erases_decode D _ md inp (XE T S D HD)) as ED. rewrite HE in ED.
  destruct (run_spends w_places False 0 wide_element ltac:(side) ltac:(side) ltac:(side) ltac:(side) ltac:(side) wide_cond) as [X _]. destruct (X T S D HD) as [W _].
  destruct (within_decode w_places False 0 ltac:(side) D md inp W Hb) as [_ H]. rewrite ED, wsum_places in H. cbn [fst] in H.
  unfold asked. change (kd w_places 0) with 1 in H. lia.
Qed.
Lemma amqp_erases E R : frame_runs E frame_alts R -> forall md inp, snd (amqp_frame_run R md inp) = amqp_frame_decode md inp.
Proof.
  intros HR.
  assert (SEL : forall md d inp, snd (R md d inp) = union_select frame_alts md d inp).
  { induction HR as [|a r D DR HA _ IH]; [reflexivity|]. intros md d inp. unfold one_of_run. cbn [union_select].
    change (named (d_code (a_D a)) (d_name (a_D a)) d) with (matches (d_code (a_D a)) (d_name (a_D a)) d).
    destruct (matches _ _ d); [|apply IH]. rewrite snd_map. f_equal. destruct (run_erases E) as (_ & XF & XI & _).
    destruct HA as [K D' _ H|D' H]; [exact (XI _ _ _ H md inp)|]. cbn [d_inner transfer_D]. rewrite transfer_inner_eq. unfold head_inner, transfer_run.
    rewrite snd_bind, bind_assoc. apply bind_ext. intros [s rem]. rewrite dec_fields_k_eq, snd_bind, bind_assoc, (XF _ _ _ H md s). apply bind_ext. now intros [s' a']. }
  intros md inp. unfold amqp_frame_run, amqp_frame_decode. rewrite snd_bind. apply bind_ext. intros [i ch]. rewrite snd_bind.
  replace (snd (frame_run R md i)) with (frame_decode md i); [apply bind_ext; now intros []|].
  destruct i as [|c r]; [reflexivity|]. rewrite frame_decode_cons. cbn [frame_run]. rewrite run_decode_cons. unfold frame_dec, described_run.
  rewrite snd_bind. cbn [begin_value snd bind]. rewrite snd_bind. apply bind_ext. intros []. rewrite snd_bind, (erases_decode _ descriptor_dec) by easy.
  apply bind_ext. intros [j d]. symmetry. rewrite SEL. reflexivity.
Qed.
Lemma type_erases E T (S : tspec T) D : runs E S D -> forall md inp, snd (run_decode D md inp) = decode (s_dec S) md inp.
Proof. intros HD md inp. destruct (run_erases E) as [XE _]. exact (erases_decode D _ md inp (XE T S D HD)). Qed.
Lemma sasl_erases E D : runs E sasl_frame_body_S D -> forall md inp, snd (sasl_frame_run D md inp) = sasl_frame_decode md inp.
Proof.
  intros HD md inp. unfold sasl_frame_run, sasl_frame_decode. rewrite snd_bind. apply bind_ext. intros [i ch]. rewrite snd_bind, (type_erases E _ _ D HD).
  apply bind_ext. now intros [].
Qed.
Lemma message_erases E D : runs E section_S D -> forall md inp, snd (message_run D md inp) = message_decode md inp.
Proof.
  intros HD md inp. unfold message_run, message_decode. generalize (Datatypes.S (length inp)) as fuel. intros fuel. generalize message_default as m. revert inp.
  induction fuel as [|f IH]; intros inp m; [reflexivity|]. cbn [message_run_loop message_decode_loop]. rewrite snd_bind, (type_erases E _ _ D HD).
  apply bind_ext. intros [[|c r] sec]; [reflexivity|]. apply IH.
Qed.
Lemma settled {S} (left : S -> bytes) avail (m : run S) s : spends w_places False left 0 avail m -> snd m = Ok s -> total (asked m) <= avail - zlen (left s).
Proof. intros [_ H] E. rewrite E, wsum_places in H. unfold asked. lia. Qed.
Lemma paid_frame R : frame_runs wide_element frame_alts R -> forall md inp rest f, bytes_ok inp -> amqp_frame_decode md inp = Ok (rest, f) ->
  total (asked (amqp_frame_run R md inp)) <= zlen inp - zlen rest.
Proof.
  intros HR md inp rest f Hb HE. rewrite <- (amqp_erases wide_element R HR) in HE. apply (settled fst _ _ _
   (amqp_spends w_places False 0 wide_element ltac:(side) ltac:(side) ltac:(side) ltac:(side) ltac:(side) wide_cond R md inp HR Hb) HE).
Qed.
Lemma paid_sasl D : runs wide_element sasl_frame_body_S D -> forall md inp rest f, bytes_ok inp -> sasl_frame_decode md inp = Ok (rest, f) ->
  total (asked (sasl_frame_run D md inp)) <= zlen inp - zlen rest.
Proof.
  intros HR md inp rest f Hb HE. rewrite <- (sasl_erases wide_element D HR) in HE. apply (settled fst _ _ _
   (sasl_spends w_places False 0 wide_element ltac:(side) ltac:(side) ltac:(side) ltac:(side) ltac:(side) wide_cond D md inp HR Hb) HE).
Qed.
Lemma paid_message D : runs wide_element section_S D -> forall md inp rest m, bytes_ok inp -> message_decode md inp = Ok (rest, m) ->
  total (asked (message_run D md inp)) <= zlen inp.
Proof.
  intros HR md inp rest m Hb HE. rewrite <- (message_erases wide_element D HR) in HE.
  pose proof (settled _ _ _ _ (message_spends w_places False 0 wide_element ltac:(side) ltac:(side) ltac:(side) ltac:(side) ltac:(side) wide_cond D md inp HR Hb) HE) as H.
  cbv beta in H. change (zlen []) with 0 in H. lia.
Qed.

(** *** Values begun *)
Lemma work_all {S} (left : S -> bytes) avail (m : run S) : spends w_values True left 0 avail m -> begun m <= avail + 1.
Proof.
  intros [_ H]. rewrite wsum_values in H. unfold begun. change (wb w_values) with 1 in H. destruct (snd m) as [s|e|p|]; [|specialize (H I); lia..].
  destruct H as [_ H]. pose proof (zlen_nonneg (left s)). lia.
Qed.
Lemma work_ok {S} (left : S -> bytes) avail (m : run S) s : spends w_values True left 0 avail m -> snd m = Ok s -> begun m <= avail - zlen (left s).
Proof. intros [_ H] E. rewrite E, wsum_values in H. unfold begun. lia. Qed.
Lemma work_spends T (S : tspec T) D : runs wide_element S D -> forall md inp, bytes_ok inp -> spends w_values True fst 0 (zlen inp) (run_decode D md inp).
Proof.
  intros HD md inp Hb. destruct (run_spends w_values True 0 wide_element ltac:(side) ltac:(side) ltac:(side) ltac:(side) ltac:(side) wide_cond) as [X _].
  destruct (X T S D HD) as [W _]. exact (within_decode w_values True 0 ltac:(side) D md inp W Hb).
Qed.
Lemma work T (S : tspec T) D : runs wide_element S D -> forall md inp, bytes_ok inp -> begun (run_decode D md inp) <= zlen inp + 1.
Proof. intros HD md inp Hb. apply (work_all fst). now apply (work_spends T S). Qed.
Lemma work_done T (S : tspec T) D : runs wide_element S D -> forall md inp rest v, bytes_ok inp -> decode (s_dec S) md inp = Ok (rest, v) ->
  begun (run_decode D md inp) <= zlen inp - zlen rest.
Proof.
  intros HD md inp rest v Hb HE. rewrite <- (type_erases wide_element _ _ D HD) in HE. exact (work_ok fst _ _ _ (work_spends T S D HD md inp Hb) HE).
Qed.
Lemma work_frame R : frame_runs wide_element frame_alts R -> forall md inp, bytes_ok inp -> begun (amqp_frame_run R md inp) <= zlen inp + 1.
Proof.
  intros HR md inp Hb. apply (work_all fst).
  exact (amqp_spends w_values True 0 wide_element ltac:(side) ltac:(side) ltac:(side) ltac:(side) ltac:(side) wide_cond R md inp HR Hb).
Qed.
Lemma work_sasl D : runs wide_element sasl_frame_body_S D -> forall md inp, bytes_ok inp -> begun (sasl_frame_run D md inp) <= zlen inp + 1.
Proof.
  intros HR md inp Hb. apply (work_all fst).
  exact (sasl_spends w_values True 0 wide_element ltac:(side) ltac:(side) ltac:(side) ltac:(side) ltac:(side) wide_cond D md inp HR Hb).
Qed.
Lemma work_message D : runs wide_element section_S D -> forall md inp, bytes_ok inp -> begun (message_run D md inp) <= zlen inp + 1.
Proof.
  intros HR md inp Hb. apply (work_all (fun _ => [])).
  exact (message_spends w_values True 0 wide_element ltac:(side) ltac:(side) ltac:(side) ltac:(side) ltac:(side) wide_cond D md inp HR Hb).
Qed.

(** *** Every type has its decoder with capacities *)
Definition allows_wide (E : forall T, tspec T -> Prop) : Prop := forall T (S : tspec T), wide_element T S -> E T S.
Ltac not_code := let H := fresh in intros H; vm_compute in H; intuition discriminate.
Ltac listed := unfold all_composites; repeat (first [left; reflexivity|right]).
Ltac wide := match goal with HE : allows_wide _ |- _ => apply HE; unfold wide_element; cbn; repeat (first [apply Forall_nil|apply Forall_cons; [not_code|]]) end.
Ltac run_g :=
  lazymatch goal with
  | |- runs _ variant_S _ => exact (ru_variant _)
  | |- runs _ list_S _ => exact (ru_list _)
  | |- runs _ vecmap_S _ => exact (ru_vec_string_map _)
  | |- runs _ (option_S _) _ => eapply ru_option; [run_g|not_code]
  | |- runs _ (map_S ?KO _ _) _ => eapply (ru_map _ _ _ KO); [run_g|run_g]
  | |- runs _ (multiple_S _ _ _) _ => eapply ru_multiple; [constructor|wide|not_code|not_code|run_g]
  | |- runs _ (vec_S _ _ _) _ => eapply ru_vec; [constructor|wide|run_g]
  | |- runs _ (composite_S ?K) _ => eapply (ru_composite _ K); [listed|eapply ir_composite; [listed|unfold K; cbn [k_fields]; run_f]]
  | |- runs _ delivery_state_S _ => eapply ru_union; [exact un_delivery_state|unfold delivery_state_alts; run_u]
  | |- runs _ outcome_S _ => eapply ru_union; [exact un_outcome|unfold outcome_alts; run_u]
  | |- runs _ sasl_frame_body_S _ => eapply ru_union; [exact un_sasl_frame_body|unfold sasl_frame_body_alts; run_u]
  | |- runs _ section_S _ => eapply ru_union; [exact un_section|unfold section_alts; run_u]
  | |- runs _ ?S _ => first [eapply ru_simple; constructor|unfold S; run_g]
  end
with run_f :=
  lazymatch goal with
  | |- field_runs _ FNil _ => exact (fr_nil _)
  | |- field_runs _ (FReq _ _ _) _ => eapply fr_mandatory; [run_g|run_f]
  | |- field_runs _ (FOpt _ _ _) _ => eapply fr_optional; [run_g|run_f]
  | |- field_runs _ (FDef _ _ _ _) _ => eapply fr_default; [run_g|run_f]
  end
with run_u :=
  lazymatch goal with
  | |- union_runs _ [] _ => exact (ur_nil _ _)
  | |- union_runs _ _ _ => eapply ur_cons; [cbn [a_D];
      lazymatch goal with
      | |- inner_runs _ (composite_D ?K) _ => eapply ir_composite; [listed|unfold K; cbn [k_fields]; run_f]
      | |- inner_runs _ _ _ => eapply ir_section; [reflexivity|run_g]
      end|run_u]
  end.
Lemma composites_run E : allows_wide E -> forall K, In K all_composites -> exists D, runs E (composite_S K) D.
Proof. intros HE K H. repeat (destruct H as [<-|H]; [eexists; run_g|]). destruct H. Qed.
Lemma unions_run E : allows_wide E -> forall T (S : tspec T) alts, union_type S alts -> exists D, runs E S D.
Proof. intros HE T S alts H. destruct H; eexists; run_g. Qed.
Lemma frames_run E : allows_wide E -> exists R, frame_runs E frame_alts R.
Proof.
  intros HE. unfold frame_alts. eexists.
  repeat (first [exact (frs_nil _)|eapply frs_cons; [cbn [a_D]; lazymatch goal with
    | |- performative_runs _ (composite_D ?K) _ => eapply pr_composite; [listed|eapply ir_composite; [listed|unfold K; cbn [k_fields]; run_f]]
    | |- performative_runs _ transfer_D _ => eapply pr_transfer; unfold transfer_table; run_f
    end|]]).
Qed.
Lemma any_allows : allows_wide any_element. Proof. now intros T S _. Qed.
Lemma wide_allows : allows_wide wide_element. Proof. now intros T S H. Qed.
Fixpoint types_run T (S : tspec T) (H : amqp_type S) : exists D, runs any_element S D
with elements_run T A width (S : tspec T) (H : element A width S) : exists D, runs any_element S D.
Proof.
  - pose proof any_allows as HE. destruct H as [| | | | | | | | | | | | | | | | | | | | | | | | | | | | | | | | | |K HK| | | | |T S H N|K V KO SK SV H1 H2|T A width S H|T A width S H N1 N2];
      try (clear types_run elements_run; eexists; run_g).
    + now apply composites_run.
    + destruct (types_run _ _ H) as [D HD]. eexists. exact (ru_option _ _ _ _ HD N).
    + destruct (types_run _ _ H1) as [DK HK], (types_run _ _ H2) as [DV HV]. eexists. exact (ru_map _ _ _ KO _ _ _ _ HK HV).
    + destruct (elements_run _ _ _ _ H) as [D HD]. eexists. exact (ru_vec _ _ _ _ _ _ H I HD).
    + destruct (elements_run _ _ _ _ H) as [D HD]. eexists. exact (ru_multiple _ _ _ _ _ _ H I N1 N2 HD).
  - pose proof any_allows as HE. destruct H as [| | | | | | | | | | | | | | | | |K V KO SK SV H1 H2]; try (clear types_run elements_run; eexists; run_g).
    destruct (types_run _ _ H1) as [DK HK], (types_run _ _ H2) as [DV HV]. eexists. exact (ru_map _ _ _ KO _ _ _ _ HK HV).
Qed.

(** *** What hostile inputs ask for *)
Lemma run_loop_fails {S} n (f : S -> run S) s l e : 1 <= n -> f s = (l, Err e) -> run_loop n f s = (l, Err e).
Proof. intros Hn HF. rewrite run_loop_iter. destruct (Z.to_nat n) as [|k] eqn:N; [lia|]. cbn [run_iter]. now rewrite HF. Qed.
Lemma nested_fuel n : forall fuel md, (n < fuel)%nat ->
  run_decode (variant_rdec_fuel fuel) md (concat (repeat (0xd0 :: be4 4 ++ be4 (2 ^ 32 - 1)) n)) =
  (concat (repeat [Begins; Asks (2 ^ 32 - 1)] n) ++ [Begins], Err (EIncomplete (Some 1))).
Proof.
  induction n as [|n IH]; intros fuel md Hf; [reflexivity|]. destruct fuel as [|f]; [lia|]. cbn [repeat concat app].
  rewrite run_decode_cons. cbn [variant_rdec_fuel FC_LIST8 FC_LIST32 Z.eqb Pos.eqb orb]. unfold list_rdec.
  unfold decode_list_header. cbn [FC_LIST0 FC_LIST8 FC_LIST32 Z.eqb Pos.eqb]. rewrite <- !app_assoc.
  rewrite (compound32_read md 4 (2 ^ 32 - 1)) by lia. rewrite quiet_ok. cbn [ch_count].
  rewrite (run_loop_fails (2 ^ 32 - 1) _ _ (concat (repeat [Begins; Asks (2 ^ 32 - 1)] n) ++ [Begins]) (EIncomplete (Some 1))); [reflexivity|lia|].
  unfold vec_run_step. rewrite IH by lia. reflexivity.
Qed.
Lemma nested_length n (h : bytes) : length (concat (repeat h n)) = (n * length h)%nat.
Proof. induction n as [|n IH]; [reflexivity|]. cbn [repeat concat Nat.mul]. now rewrite app_length, IH. Qed.
Lemma nested_ok n h : bytes_ok h -> bytes_ok (concat (repeat h n)).
Proof. intros H. induction n as [|n IH]; [constructor|]. cbn [repeat concat]. now apply bytes_ok_app. Qed.
Lemma nested_events md n : let inp := concat (repeat (0xd0 :: be4 4 ++ be4 (2 ^ 32 - 1)) n) in
  bytes_ok inp /\ zlen inp = 9 * Z.of_nat n /\
  run_decode variant_rdec md inp = (concat (repeat [Begins; Asks (2 ^ 32 - 1)] n) ++ [Begins], Err (EIncomplete (Some 1))).
Proof.
  cbv zeta. split; [|split].
  - apply nested_ok. repeat constructor; vm_compute; congruence.
  - unfold zlen. rewrite nested_length. change (length _) with 9%nat. lia.
  - destruct n as [|n]; [reflexivity|]. rewrite <- (nested_fuel (Datatypes.S n) (length (concat (repeat (0xd0 :: be4 4 ++ be4 (2 ^ 32 - 1)) (Datatypes.S n)))) md).
    + cbn [repeat concat app]. rewrite !run_decode_cons. unfold variant_rdec. reflexivity.
    + rewrite nested_length. change (length (0xd0 :: _)) with 9%nat. lia.
Qed.
Lemma nested_asks md n : let inp := concat (repeat (0xd0 :: be4 4 ++ be4 (2 ^ 32 - 1)) n) in
  bytes_ok inp /\ zlen inp = 9 * Z.of_nat n /\ asked (run_decode variant_rdec md inp) = repeat (2 ^ 32 - 1) n /\
  snd (run_decode variant_rdec md inp) = Err (EIncomplete (Some 1)).
Proof.
  cbv zeta. destruct (nested_events md n) as (H1 & H2 & H3). cbv zeta in H1, H2, H3. split; [exact H1|]. split; [exact H2|]. unfold asked. rewrite H3. split; [|reflexivity].
  cbn [fst]. clear. induction n as [|n IH]; [reflexivity|]. cbn [repeat concat app capacities]. now rewrite IH.
Qed.
Lemma empty_items md n i acc : run_iter n (vec_run_step (fun i => _ <~ begin_value ;; simple_run u32_dec md i 0x43)) (i, acc) =
  (repeat Begins n, Ok (i, acc ++ repeat 0 n)).
Proof.
  revert acc. induction n as [|n IH]; intros acc; cbn [run_iter repeat]; [now rewrite app_nil_r|]. unfold vec_run_step at 1. unfold simple_run at 1, u32_dec at 1.
  cbn [FC_UINT FC_SMALLUINT FC_UINT_0 Z.eqb Pos.eqb]. cbn [begin_value run_bind quiet app]. rewrite IH, <- app_assoc. reflexivity.
Qed.
Lemma empty_items_events md n rest : 0 <= n < 2 ^ 32 ->
  run_decode (vec_rdec (simple_run u32_dec)) md (0xf0 :: be4 5 ++ be4 n ++ 0x43 :: rest) =
  ([Begins; Asks n] ++ repeat Begins (Z.to_nat n), Ok (rest, repeat 0 (Z.to_nat n))).
Proof.
  intros H. rewrite run_decode_cons. unfold vec_rdec, decode_array_header. cbn [FC_ARRAY8 FC_ARRAY32 Z.eqb Pos.eqb].
  rewrite compound32_read by lia. rewrite quiet_ok. cbn [ch_count]. rewrite run_loop_iter, empty_items. reflexivity.
Qed.
Lemma capacities_begins n : capacities (repeat Begins n) = [].
Proof. induction n as [|n IH]; [reflexivity|]. exact IH. Qed.
Lemma beginnings_begins n : beginnings (repeat Begins n) = Z.of_nat n.
Proof. induction n as [|n IH]; [reflexivity|]. cbn [repeat beginnings]. rewrite IH. lia. Qed.
Lemma empty_items_array md n : 0 <= n < 2 ^ 32 ->
  asked (run_decode (vec_rdec (simple_run u32_dec)) md (0xf0 :: be4 5 ++ be4 n ++ [0x43])) = [n] /\
  snd (run_decode (vec_rdec (simple_run u32_dec)) md (0xf0 :: be4 5 ++ be4 n ++ [0x43])) = Ok ([], repeat 0 (Z.to_nat n)).
Proof.
  intros H. rewrite empty_items_events by exact H. split; [|reflexivity]. unfold asked. cbn [fst app capacities]. now rewrite capacities_begins.
Qed.
Lemma empty_items_work md n rest : 0 <= n < 2 ^ 32 ->
  begun (run_decode (vec_rdec (simple_run u32_dec)) md (0xf0 :: be4 5 ++ be4 n ++ 0x43 :: rest)) = n + 1 /\
  snd (run_decode (vec_rdec (simple_run u32_dec)) md (0xf0 :: be4 5 ++ be4 n ++ 0x43 :: rest)) = Ok (rest, repeat 0 (Z.to_nat n)).
Proof.
  intros H. rewrite empty_items_events by exact H. split; [|reflexivity]. unfold begun. cbn [fst app beginnings]. rewrite beginnings_begins. lia.
Qed.
Lemma open_asks : exists R, frame_runs wide_element frame_alts R /\
  asked (amqp_frame_run R Debug ([2; 0; 0; 0; 0x00; 0x53; 0x10; 0xc0; 20; 10; 0xa1; 0] ++ repeat 0x40 8 ++ 0xd1 :: be4 4 ++ be4 (2 ^ 32 - 1))) = [2 ^ 31 - 1] /\
  snd (amqp_frame_run R Debug ([2; 0; 0; 0; 0x00; 0x53; 0x10; 0xc0; 20; 10; 0xa1; 0] ++ repeat 0x40 8 ++ 0xd1 :: be4 4 ++ be4 (2 ^ 32 - 1))) = Err (EIncomplete (Some 1)).
Proof.
  pose proof wide_allows as HE. unfold frame_alts. eexists. split.
  { repeat (first [exact (frs_nil _)|eapply frs_cons; [cbn [a_D]; lazymatch goal with
      | |- performative_runs _ (composite_D ?K) _ => eapply pr_composite; [listed|eapply ir_composite; [listed|unfold K; cbn [k_fields]; run_f]]
      | |- performative_runs _ transfer_D _ => eapply pr_transfer; unfold transfer_table; run_f
      end|]]). }
  split; vm_compute; reflexivity.
Qed.
Lemma sasl_asks : exists D, runs wide_element sasl_frame_body_S D /\
  asked (sasl_frame_run D Debug ([2; 1; 0; 0; 0x00; 0x53; 0x40; 0xc0; 11; 1; 0xf0] ++ be4 5 ++ be4 (2 ^ 32 - 1) ++ [0xa3])) = [2 ^ 32 - 1] /\
  snd (sasl_frame_run D Debug ([2; 1; 0; 0; 0x00; 0x53; 0x40; 0xc0; 11; 1; 0xf0] ++ be4 5 ++ be4 (2 ^ 32 - 1) ++ [0xa3])) = Err (EIncomplete (Some 1)).
Proof. pose proof wide_allows as HE. eexists. split; [run_g|]. split; vm_compute; reflexivity. Qed.
Lemma message_asks : exists D, runs wide_element section_S D /\
  asked (message_run D Debug ([0x00; 0x53; 0x74; 0xd1] ++ be4 4 ++ be4 (2 ^ 32 - 1))) = [2 ^ 31 - 1] /\
  snd (message_run D Debug ([0x00; 0x53; 0x74; 0xd1] ++ be4 4 ++ be4 (2 ^ 32 - 1))) = Err (EIncomplete (Some 1)).
Proof. pose proof wide_allows as HE. eexists. split; [run_g|]. split; vm_compute; reflexivity. Qed.
Lemma asked_bind {A B} (x : run A) (f : A -> run B) :
  asked (run_bind x f) = asked x ++ match snd x with Ok a => asked (f a) | _ => [] end.
Proof.
  unfold asked. rewrite fst_bind. assert (H : forall a b, capacities (a ++ b) = capacities a ++ capacities b).
  { induction a as [|[m|] a IH]; intros b; cbn [app capacities]; rewrite ?IH; reflexivity. }
  rewrite H. now destruct (snd x).
Qed.
Lemma asked_decode {T} (D : rdec T) md c r : asked (run_decode D md (c :: r)) = asked (D md r c).
Proof. now rewrite run_decode_cons, asked_bind. Qed.
Lemma loop_at_end {S} n (f : S -> run S) s l : 0 <= n -> f s = ([Begins], Err l) -> asked (run_loop n f s) = [].
Proof. intros Hn HF. rewrite run_loop_iter. destruct (Z.to_nat n) as [|k]; [reflexivity|]. cbn [run_iter]. now rewrite HF. Qed.
Lemma loop_quiet {S} n (f : S -> run S) s : (forall s, asked (f s) = []) -> asked (run_loop n f s) = [].
Proof.
  intros HF. rewrite run_loop_iter. revert s. induction (Z.to_nat n) as [|k IH]; intros s; [reflexivity|]. cbn [run_iter]. rewrite asked_bind, HF.
  destruct (snd (f s)); [apply IH|reflexivity..].
Qed.
Lemma capacity_bind {A} n (f : unit -> run A) : asked (run_bind (with_capacity n) f) = n :: asked (f tt).
Proof. now rewrite asked_bind. Qed.
Lemma map_header32 md n r : 0 <= n < 2 ^ 32 -> decode_map_header md (be4 4 ++ be4 n ++ r) 0xd1 = Ok (r, MkCH 0 n).
Proof. intros H. unfold decode_map_header. cbn [FC_MAP8 FC_MAP32 Z.eqb Pos.eqb]. now rewrite compound32_read by lia. Qed.
Lemma header_list T (D : rdec T) md n : 0 <= n < 2 ^ 32 -> asked (run_decode (list_rdec D) md (0xd0 :: be4 4 ++ be4 n)) = [n].
Proof.
  intros H. rewrite asked_decode. unfold list_rdec, decode_list_header. cbn [FC_LIST0 FC_LIST8 FC_LIST32 Z.eqb Pos.eqb].
  rewrite <- (app_nil_r (be4 n)), compound32_read by lia. rewrite quiet_ok, capacity_bind. cbn [ch_count]. f_equal.
  eapply loop_at_end; [lia|reflexivity].
Qed.
Lemma header_map K V (KO : key K) (DK : rdec K) (DV : rdec V) md n : 0 <= n < 2 ^ 32 ->
  asked (run_decode (map_rdec KO DK DV) md (0xd1 :: be4 4 ++ be4 n)) = [n / 2].
Proof.
  intros H. rewrite asked_decode. unfold map_rdec. rewrite <- (app_nil_r (be4 n)), map_header32 by lia. rewrite !quiet_ok. cbn [ch_size ch_count slice_to].
  change (slice_to [] 0) with (@Ok bytes []). rewrite quiet_ok, capacity_bind, asked_bind.
  rewrite (loop_at_end _ _ _ (EIncomplete (Some 1))); [|apply Z.div_pos; lia|reflexivity]. cbn [app].
  f_equal. now destruct (snd (run_loop _ _ _)) as [[]| | |].
Qed.
Lemma header_vecmap md n : 0 <= n < 2 ^ 32 -> asked (run_decode vecmap_rdec md (0xd1 :: be4 4 ++ be4 n)) = [n / 2].
Proof.
  intros H. rewrite asked_decode. unfold vecmap_rdec. rewrite <- (app_nil_r (be4 n)), map_header32 by lia. rewrite !quiet_ok. cbn [ch_size ch_count slice_to].
  change (slice_to [] 0) with (@Ok bytes []). rewrite quiet_ok, capacity_bind, asked_bind.
  rewrite (loop_at_end _ _ _ (EIncomplete (Some 1))); [|apply Z.div_pos; lia|reflexivity]. cbn [app].
  f_equal. now destruct (snd (run_loop _ _ _)) as [[]| | |].
Qed.
Lemma header_vec T (d : dec T) md n c rest : 0 <= n < 2 ^ 32 ->
  asked (run_decode (vec_rdec (simple_run d)) md (0xf0 :: be4 5 ++ be4 n ++ c :: rest)) = [n].
Proof.
  intros H. rewrite asked_decode. unfold vec_rdec, decode_array_header. cbn [FC_ARRAY8 FC_ARRAY32 Z.eqb Pos.eqb].
  rewrite compound32_read by lia. rewrite quiet_ok, capacity_bind. cbn [ch_count]. f_equal.
  apply loop_quiet. intros [i acc]. unfold vec_run_step. rewrite asked_bind. unfold simple_run. cbn [fst quiet snd app begin_value run_bind]. now destruct (d md i c) as [[]| | |].
Qed.

(** *** Values begun by a list of nulls *)
Lemma begun_bind {A B} (x : run A) (f : A -> run B) :
  begun (run_bind x f) = begun x + match snd x with Ok a => begun (f a) | _ => 0 end.
Proof.
  unfold begun. rewrite fst_bind. assert (H : forall a b, beginnings (a ++ b) = beginnings a + beginnings b).
  { induction a as [|[m|] a IH]; intros b; cbn [app beginnings]; rewrite ?IH; lia. }
  rewrite H. destruct (snd x); cbn [beginnings]; lia.
Qed.
Lemma null_items fuel md k : forall n acc, (n < k)%nat ->
  begun (run_iter k (vec_run_step (run_decode (variant_rdec_fuel (Datatypes.S fuel)) md)) (repeat 0x40 n, acc)) = Z.of_nat n + 1 /\
  snd (run_iter k (vec_run_step (run_decode (variant_rdec_fuel (Datatypes.S fuel)) md)) (repeat 0x40 n, acc)) = Err (EIncomplete (Some 1)).
Proof.
  induction k as [|k IH]; intros n acc H; [lia|]. cbn [run_iter]. rewrite begun_bind, snd_bind. destruct n as [|n]; [split; reflexivity|].
  assert (ES : vec_run_step (run_decode (variant_rdec_fuel (Datatypes.S fuel)) md) (repeat 0x40 (Datatypes.S n), acc) =
    ([Begins], Ok (repeat 0x40 n, acc ++ [VNull]))) by (unfold vec_run_step; cbn [repeat]; rewrite run_decode_cons; reflexivity).
  rewrite ES. cbn [snd bind]. destruct (IH n (acc ++ [VNull])) as [H1 H2]; [lia|].
  rewrite H1, H2. split; [|reflexivity]. unfold begun. cbn [fst beginnings]. lia.
Qed.
Lemma variant_list32 f md inp : variant_rdec_fuel (Datatypes.S f) md inp 0xd0 = map_run VList (list_rdec (variant_rdec_fuel f) md inp 0xd0).
Proof. reflexivity. Qed.
Lemma work_reached md n : (Z.of_nat n < 2 ^ 32 - 1) -> let inp := 0xd0 :: be4 4 ++ be4 (2 ^ 32 - 1) ++ repeat 0x40 n in
  zlen inp = Z.of_nat n + 9 /\ begun (run_decode variant_rdec md inp) = Z.of_nat n + 2 /\
  snd (run_decode variant_rdec md inp) = Err (EIncomplete (Some 1)).
Proof.
  intros Hn. cbv zeta. split. { unfold zlen. cbn [length app be4]. rewrite repeat_length. lia. }
  rewrite run_decode_cons. unfold variant_rdec. set (fuel := length _).
  assert (EF : exists f, fuel = Datatypes.S f) by (eexists; reflexivity). clearbody fuel. destruct EF as [f ->].
  rewrite variant_list32, begun_bind, snd_bind. cbn [begin_value snd bind]. unfold map_run. rewrite begun_bind, snd_bind.
  unfold list_rdec, decode_list_header. cbn [FC_LIST0 FC_LIST8 FC_LIST32 Z.eqb Pos.eqb].
  rewrite (compound32_read md 4 (2 ^ 32 - 1)) by lia. rewrite quiet_ok. cbn [ch_count]. rewrite begun_bind, snd_bind. cbn [with_capacity snd bind].
  rewrite run_loop_iter.
  destruct (null_items f md (Z.to_nat (2 ^ 32 - 1)) n [] ltac:(lia)) as [H1 H2].
  unfold bytes in *. rewrite H1, H2. split; [|reflexivity]. unfold begun. cbn [fst beginnings bind begin_value with_capacity]. lia.
Qed.
