(** What was received and is sent on: decoded values are in canonical form, and canonical form does not change the encoding. *)

From Coq Require Import String.
From Verif Require Import Definitions BaseFacts Utf8Spec Utf8Facts Valid Wire PrimFacts DecLaws EncLaws VariantFacts TypeSpec TypeFacts
  CompositeSpec CompositeFacts AllTypes AllTypesFacts CodecSpec CodecFacts ExactFacts.
From Coq Require Import ZifyBool.
Ltac Zify.zify_post_hook ::= Z.div_mod_to_equations.
Open Scope Z_scope.

(** ** Decoded values are canonical, as far as the decoder handles their canonical form *)
Definition steady {T} (S : tspec T) (v : T) : Prop := s_decodable S (s_canon S v) -> s_canon S v = v.

Lemma steady_same {T} (S : tspec T) : (forall v, s_canon S v = v) -> good S -> dec_lawful (steady S) (s_dec S).
Proof. intros H G md fmt. eapply lawful_weaken; [|apply (g_dec S G)]. intros v _ _. apply H. Qed.

Lemma millis_instant ms : millis (instant ms) = ms.
Proof. unfold millis, instant. cbn [dt_secs dt_nanos]. rewrite Z.div_mul by lia. lia. Qed.
Lemma millis_steady ms : steady datetime_S (read_instant ms).
Proof.
  unfold steady. cbn [s_canon s_decodable datetime_S]. unfold read_instant.
  destruct ((-1000 <? ms) && (ms <? 0)) eqn:A; [intros _; now rewrite millis_instant|].
  destruct ((ms <? 0) && (ms mod 1000 =? 0)) eqn:B; [|intros _; now rewrite millis_instant].
  intros [_ D]. exfalso. revert D. unfold millis, instant. cbn [dt_secs dt_nanos]. Z.to_euclidean_division_equations; lia.
Qed.
Lemma datetime_steady : dec_lawful (steady datetime_S) (s_dec datetime_S).
Proof.
  intros md fmt. cbn [s_dec datetime_S s_codec datetime_C c_D]. unfold datetime_dec. apply lawful_validate.
  apply (lawful_post (fun v => - 2 ^ 63 <= v < 2 ^ 63) (steady datetime_S) datetime_from_millis (fun inp => be_read_signed inp 8)).
  - now apply (be_read_signed_lawful 8).
  - intros ms t Hms E. rewrite from_millis_read in E by exact Hms. destruct (_ && _); [|discriminate]. injection E as <-. apply millis_steady.
Qed.
Lemma str_steady : dec_lawful (steady str_S) (s_dec str_S).
Proof.
  intros md fmt. cbn [s_dec str_S s_codec str_C c_D]. unfold str_dec. repeat apply lawful_if; [| |apply lawful_err].
  - apply (text_lawful (steady str_S) SByteStr read_bytes_u8); [apply read_bytes_u8_lawful|]. intros b _ _. reflexivity.
  - apply (text_lawful (steady str_S) SByteStr read_bytes_u32); [apply read_bytes_u32_lawful|]. intros b _ _. reflexivity.
Qed.
Lemma symbol_steady : dec_lawful (steady symbol_S) (s_dec symbol_S).
Proof.
  intros md fmt. cbn [s_dec symbol_S s_codec symbol_C c_D]. unfold symbol_dec. repeat apply lawful_if; [| |apply lawful_err].
  - apply (text_lawful (steady symbol_S) SByteStr read_bytes_u8); [apply read_bytes_u8_lawful|]. intros b _ _. reflexivity.
  - apply (text_lawful (steady symbol_S) SByteStr read_bytes_u32); [apply read_bytes_u32_lawful|]. intros b _ _. reflexivity.
Qed.
Lemma descriptor_steady : dec_lawful (fun d => canon_descriptor d = d) descriptor_dec.
Proof.
  intros md fmt. unfold descriptor_dec. repeat apply lawful_if; try apply lawful_err.
  1,2: eapply lawful_map; [apply u64_lawful|now intros].
  1,2: eapply lawful_map; [exact (symbol_steady md fmt)|]; intros s H; cbn [canon_descriptor]; f_equal; exact (H I).
Qed.

Lemma map_id {A} (f : A -> A) l : Forall (fun x => f x = x) l -> map f l = l.
Proof. induction 1 as [|x l H _ IH]; cbn [map]; congruence. Qed.
Lemma steady_list l : Forall (steady variant_S) l -> steady variant_S (VList l).
Proof.
  intros H D. cbn [s_canon variant_S canon s_decodable decodable] in *. f_equal. apply map_id.
  apply all_prop_Forall in D. rewrite Forall_map in D. rewrite Forall_forall in *. intros x Hx. now apply H, D.
Qed.
Lemma steady_entries {K V} (SK : tspec K) (SV : tspec V) (m : list (K * V)) :
  Forall (both (steady SK) (steady SV)) m -> Forall (both (s_decodable SK) (s_decodable SV)) (map (on_both (s_canon SK) (s_canon SV)) m) ->
  map (on_both (s_canon SK) (s_canon SV)) m = m.
Proof.
  intros H D. apply map_id. rewrite Forall_map in D. rewrite Forall_forall in *. intros [k v] Hx.
  destruct (H _ Hx) as [H1 H2], (D _ Hx) as [D1 D2]. unfold on_both in *. cbn [fst snd] in *. f_equal; [now apply H1|now apply H2].
Qed.
Lemma steady_map m : map_ok variant_key (steady variant_S) (steady variant_S) m -> steady variant_S (VMap m).
Proof.
  intros [H _] [D _]. cbn [s_canon variant_S canon] in *. f_equal.
  apply (all_prop_pair _ _ (fun k w => decodable k /\ variant_hashable k = true /\ decodable w)) in D; [|easy].
  apply map_id. rewrite Forall_map in D. rewrite Forall_forall in *. intros [k v] Hx.
  destruct (H _ Hx) as (H1 & _ & H2), (D _ Hx) as (D1 & _ & D2). cbn [fst snd] in *. f_equal; [now apply H1|now apply H2].
Qed.
Lemma variant_body_steady rec : dec_lawful (steady variant_S) rec -> dec_lawful (steady variant_S) (variant_body rec).
Proof.
  intros L md fmt. unfold variant_body.
  repeat (first [apply lawful_if | apply lawful_ret; intros _; reflexivity]).
  1: eapply lawful_map; [apply bool_lawful|intros ? _ _; reflexivity].
  1: eapply lawful_map; [apply u8_lawful|intros ? _ _; reflexivity].
  1: eapply lawful_map; [apply u16_lawful|intros ? _ _; reflexivity].
  1: eapply lawful_map; [apply u32_lawful|intros ? _ _; reflexivity].
  1: eapply lawful_map; [apply u64_lawful|now intros].
  1: eapply lawful_map; [apply i8_lawful|intros ? _ _; reflexivity].
  1: eapply lawful_map; [apply i16_lawful|intros ? _ _; reflexivity].
  1: eapply lawful_map; [apply i32_lawful|intros ? _ _; reflexivity].
  1: eapply lawful_map; [apply i64_lawful|intros ? _ _; reflexivity].
  1: eapply lawful_map; [apply u32_lawful|intros ? _ _; reflexivity].
  1: eapply lawful_map; [apply u64_lawful|now intros].
  1: eapply lawful_map; [apply i32_lawful|intros ? _ _; reflexivity].
  1: eapply lawful_map; [apply i64_lawful|intros ? _ _; reflexivity].
  1: eapply lawful_map; [apply f32_lawful|intros ? _ _; reflexivity].
  1: eapply lawful_map; [apply f64_lawful|intros ? _ _; reflexivity].
  1: eapply lawful_map; [apply char_lawful|intros ? _ _; reflexivity].
  1: eapply lawful_map; [exact (datetime_steady md fmt)|]; intros t H D; cbn [s_canon variant_S canon]; f_equal; exact (H D).
  1: eapply lawful_map; [apply uuid_lawful|intros ? _ _; reflexivity].
  1,2: eapply lawful_map; [apply bin_lawful|intros ? _ _; reflexivity].
  1,2: eapply lawful_map; [apply bstr_lawful|intros t _ _; reflexivity].
  1,2: eapply lawful_map; [exact (symbol_steady md fmt)|]; intros t H D; cbn [s_canon variant_S canon]; f_equal; exact (H I).
  1,2: eapply lawful_map; [apply list_lawful; exact L|apply steady_list].
  1,2: eapply lawful_map; [apply map_lawful; exact L|apply steady_map].
  - eapply (lawful_bind (fun d => canon_descriptor d = d) (steady variant_S) (decode descriptor_dec md)
      (fun d inp1 => '(inp2, v) <- decode rec md inp1 ;; Ok (inp2, VDescribed d v))).
    + apply decode_lawful, descriptor_steady.
    + intros d Hd. apply (lawful_bind (steady variant_S) (steady variant_S) (decode rec md) (fun v inp2 => Ok (inp2, VDescribed d v))).
      * now apply decode_lawful.
      * intros v Hv. apply lawful_ret. intros [_ D]. cbn [s_canon variant_S canon]. rewrite Hd. f_equal. now apply Hv.
      * intros v. now apply lawful_ret.
    + intros d. apply (lawful_bind' (steady variant_S) _ (decode rec md) (fun v inp2 => Ok (inp2, VDescribed d v))).
      * now apply decode_lawful.
      * intros v. now apply lawful_ret.
  - apply lawful_err.
Qed.
Lemma variant_fuel_steady f : dec_lawful (steady variant_S) (variant_dec_fuel f).
Proof. induction f as [|f IH]; [intros md fmt; apply lawful_oof|]. exact (variant_body_steady _ IH). Qed.
Lemma variant_steady : dec_lawful (steady variant_S) variant_dec.
Proof.
  intros md fmt inp rest v E. split; [apply (variant_lawful md fmt inp rest v E)|].
  apply (variant_fuel_steady (S (length inp)) md fmt inp rest v E).
Qed.
Lemma list_steady : dec_lawful (steady list_S) (s_dec list_S).
Proof.
  intros md fmt. eapply lawful_weaken; [|apply (list_lawful (steady variant_S) variant_dec variant_steady)].
  intros l H D. cbn [s_canon list_S s_decodable] in *. apply map_id. rewrite Forall_map in D. rewrite Forall_forall in *.
  intros x Hx. now apply H, D.
Qed.
Lemma map_steady {K V} (KO : key K) (SK : tspec K) (SV : tspec V) :
  dec_lawful (steady SK) (s_dec SK) -> dec_lawful (steady SV) (s_dec SV) -> dec_lawful (steady (map_S KO SK SV)) (s_dec (map_S KO SK SV)).
Proof.
  intros LK LV md fmt. eapply lawful_weaken; [|apply (map_lawful KO (steady SK) (steady SV) (s_dec SK) (s_dec SV) LK LV)].
  intros m [H _] [D _]. apply steady_entries; eapply Forall_impl; try eassumption; intros kv (? & _ & ?); now split.
Qed.
Lemma option_steady {T} (S : tspec T) : dec_lawful (steady S) (s_dec S) -> dec_lawful (steady (option_S S)) (s_dec (option_S S)).
Proof.
  intros L md fmt. eapply lawful_weaken; [|apply (option_lawful _ _ L)].
  intros [x|] H D; [|reflexivity]. cbn [s_canon option_S option_map]. f_equal. exact (H D).
Qed.
Lemma steady_all {T} (S : tspec T) l : Forall (steady S) l -> Forall (s_decodable S) (map (s_canon S) l) -> map (s_canon S) l = l.
Proof.
  intros H D. apply map_id. rewrite Forall_map in D. rewrite Forall_forall in *. intros x Hx. now apply H, D.
Qed.
Lemma vec_steady {T} A width (S : tspec T) : dec_lawful (steady S) (s_dec S) -> dec_lawful (steady (vec_S A width S)) (s_dec (vec_S A width S)).
Proof. intros L md fmt. eapply lawful_weaken; [|apply (vec_lawful _ _ L)]. intros l H D. now apply steady_all. Qed.
Lemma multiple_steady {T} A width (S : tspec T) : dec_lawful (steady S) (s_dec S) ->
  dec_lawful (steady (multiple_S A width S)) (s_dec (multiple_S A width S)).
Proof. intros L md fmt. eapply lawful_weaken; [|apply (multiple_lawful _ _ L)]. intros l H D. now apply steady_all. Qed.
Lemma vecmap_steady : dec_lawful (steady vecmap_S) (s_dec vecmap_S).
Proof.
  intros md fmt. change (s_dec vecmap_S) with vecmap_dec. unfold vecmap_dec.
  apply (lawful_bind' header_ok _ (fun inp => decode_map_header md inp fmt)
    (fun header inp1 => map_input <- slice_to inp1 (ch_size header) ;;
       '(_, m) <- loop_n (ch_count header / 2) (vecmap_step (decode str_dec md) (decode variant_dec md)) (map_input, []) ;;
       Ok (zdrop (ch_size header) inp1, m))).
  - apply map_header_lawful.
  - intros h.
    eapply lawful_ext; [|apply (slice_lawful (steady vecmap_S) (ch_size h)
      (fun b => '(_, m) <- loop_n (ch_count h / 2) (vecmap_step (decode str_dec md) (decode variant_dec md)) (b, []) ;; Ok m))].
    + intros inp. cbn beta. destruct (slice_to inp (ch_size h)); cbn [bind]; try reflexivity.
      destruct (loop_n _ _ _) as [[? ?]| | |]; reflexivity.
    + intros b m Hb E. apply bind_ok in E as [[r m'] [E1 E2]]. injection E2 as <-. rewrite loop_n_iter in E1.
      apply (vecmap_iter_ok _ _ _ _ _ _ _ (decode_lawful _ _ _ str_steady) (decode_lawful _ _ _ variant_steady)) in E1; auto;
        [|constructor].
      intros D. apply (steady_entries str_S variant_S); [exact E1|]. eapply Forall_impl; [|exact D]. intros kv [_ ?]. now split.
Qed.
Lemma open_enum_steady {T} (C : codec T) (of_symbol : symbol -> T) (table : list (T * string)) (custom : symbol -> T)
    (get_custom : T -> option symbol) :
  c_D C = (fun md inp fmt => '(i, s) <- symbol_dec md inp fmt ;; Ok (i, of_symbol s)) ->
  (forall b, of_symbol (SByteStr b) = match lookup_name b table with Some y => y | None => custom (SByteStr b) end) ->
  (forall s, get_custom (custom s) = Some s) -> Forall (fun e => get_custom (fst e) = None) table ->
  dec_lawful (steady (open_enum_S C table custom get_custom)) (s_dec (open_enum_S C table custom get_custom)).
Proof.
  intros HD HO HC HT md fmt. unfold s_dec. cbn [s_codec open_enum_S]. rewrite HD.
  apply (lawful_map (steady symbol_S) (steady (open_enum_S C table custom get_custom)) of_symbol); [exact (symbol_steady md fmt)|].
  intros s Hs _. specialize (Hs I). cbn [s_canon symbol_S open_enum_S] in *. destruct s as [b|b]; [|discriminate Hs]. rewrite HO. clear Hs. destruct (lookup_name b table) as [y|] eqn:E.
  - assert (get_custom y = None) as ->; [|reflexivity].
    clear - HT E. induction HT as [|[x t] table H _ IH]; cbn [lookup_name] in E; [discriminate|].
    destruct (bytes_eqb b (s2b t)); [injection E as <-; exact H|auto].
  - rewrite HC. cbn [str_bytes]. now rewrite E.
Qed.
Lemma error_condition_steady : dec_lawful (steady error_condition_S) (s_dec error_condition_S).
Proof.
  apply (open_enum_steady _ error_condition_of_symbol); [reflexivity|exact condition_of_text|reflexivity|].
  repeat (apply Forall_cons; [reflexivity|]); apply Forall_nil.
Qed.
Lemma distribution_mode_steady : dec_lawful (steady distribution_mode_S) (s_dec distribution_mode_S).
Proof.
  apply (open_enum_steady _ distribution_mode_of_symbol); [reflexivity| |reflexivity|].
  - intros b. unfold distribution_mode_of_symbol, sym_is, distribution_table. cbn [str_bytes lookup_name]. if_chain.
  - repeat (apply Forall_cons; [reflexivity|]); apply Forall_nil.
Qed.

(** *** Composites, unions, sections *)
Fixpoint steady_fields {R} (F : fields R) : Prop :=
  match F with
  | FNil => True
  | FReq _ t r => dec_lawful (steady t) (s_dec t) /\ steady_fields r
  | FOpt _ t r => dec_lawful (steady t) (s_dec t) /\ steady_fields r
  | FDef _ t dflt r => (dec_lawful (steady t) (s_dec t) /\ steady t dflt) /\ steady_fields r
  end.
Lemma req_field_steady {T} name (t : tspec T) md s s' x : dec_lawful (steady t) (s_dec t) -> bytes_ok (fst s) ->
  req_field name (s_codec t) md s = Ok (s', x) -> bytes_ok (fst s') /\ steady t x.
Proof.
  intros L Hb E. destruct s as [b n]. unfold req_field in E. destruct (0 <? n); [|discriminate].
  apply bind_ok in E as [[i y] [E1 E2]]. injection E2 as <- <-. cbn [fst] in *.
  pose proof (decode_lawful _ _ md L) as L'. split; [exact (lawful_bytes_ok _ _ _ _ _ L' E1 Hb)|].
  destruct (L' _ _ _ E1) as [_ H]. auto.
Qed.
Lemma opt_field_steady {T} (t : tspec T) md s s' x : dec_lawful (steady t) (s_dec t) -> bytes_ok (fst s) ->
  opt_field (s_codec t) md s = Ok (s', x) -> bytes_ok (fst s') /\ steady (option_S t) x.
Proof.
  intros L Hb E. destruct s as [b n]. unfold opt_field in E. destruct (0 <? n).
  - apply bind_ok in E as [[i y] [E1 E2]]. injection E2 as <- <-. cbn [fst] in *.
    pose proof (decode_lawful _ _ md (option_steady t L)) as L'. split; [exact (lawful_bytes_ok _ _ _ _ _ L' E1 Hb)|].
    destruct (L' _ _ _ E1) as [_ H]. exact (H Hb).
  - injection E as <- <-. split; [exact Hb|]. intros _. reflexivity.
Qed.
Lemma def_field_steady {T} (t : tspec T) dflt md s s' x : dec_lawful (steady t) (s_dec t) -> steady t dflt -> bytes_ok (fst s) ->
  def_field (s_codec t) dflt md s = Ok (s', x) -> bytes_ok (fst s') /\ steady t x.
Proof.
  intros L Hd Hb E. destruct s as [b n]. unfold def_field in E. destruct (0 <? n).
  - apply bind_ok in E as [[i y] [E1 E2]]. injection E2 as <- <-. cbn [fst] in *.
    pose proof (decode_lawful _ _ md (option_steady t L)) as L'. split; [exact (lawful_bytes_ok _ _ _ _ _ L' E1 Hb)|].
    destruct (L' _ _ _ E1) as [_ H]. specialize (H Hb). destruct y as [y|]; [|exact Hd].
    intros D. specialize (H D). cbn [s_canon option_S option_map] in H. now injection H.
  - injection E as <- <-. now split.
Qed.
Lemma fields_steady {R} (F : fields R) md s s' a : steady_fields F -> bytes_ok (fst s) ->
  dec_fields F md s = Ok (s', a) -> each_field (@s_decodable) F (canon_fields F a) -> canon_fields F a = a.
Proof.
  revert s s' a. induction F as [|T R name t r IH|T R name t r IH|T R name t dflt r IH]; intros s s' a G Hb E;
    cbn [steady_fields dec_fields each_field canon_fields] in *; [reflexivity| | |];
    apply bind_ok in E as [[s1 x] [E1 E2]]; apply bind_ok in E2 as [[s2 b] [E2 E3]]; injection E3 as <- <-; cbn [fst snd]; intros [D1 D2].
  - destruct G as [G1 G2]. apply req_field_steady in E1 as [Hb1 Hx]; auto. f_equal; [now apply Hx|]. eapply IH; eauto.
  - destruct G as [G1 G2]. apply opt_field_steady in E1 as [Hb1 Hx]; auto. f_equal; [now apply Hx|]. eapply IH; eauto.
  - destruct G as [(G1 & Gd) G2]. apply def_field_steady in E1 as [Hb1 Hx]; auto. f_equal; [now apply Hx|]. eapply IH; eauto.
Qed.
Definition steady_D {T} (D : dspec T) : Prop :=
  forall md, lawful (fun v => d_decodable D (d_canon D v) -> d_canon D v = v) (d_inner D md).
Lemma composite_steady_D K : transcribed K -> steady_fields (k_fields K) -> steady_D (composite_D K).
Proof.
  intros Tr G md. cbn [d_inner d_decodable d_canon composite_D].
  eapply lawful_ext; [intros inp; symmetry; apply composite_inner_eq; exact Tr|]. apply open_list_lawful.
  intros s x Hb E. apply bind_ok in E as [[s' a] [E1 E2]]. injection E2 as <-. rewrite !(tr_to_of K Tr). intros D. f_equal.
  eapply fields_steady; eauto.
Qed.
Lemma described_steady {T} (C : codec T) (D : dspec T) : c_D C = composite_dec (d_code D) (d_name D) (d_inner D) ->
  steady_D D -> dec_lawful (steady (described_S C D)) (s_dec (described_S C D)).
Proof.
  intros HD G. unfold s_dec. cbn [s_codec described_S]. rewrite HD. intros md fmt. unfold composite_dec.
  apply lawful_guard. intros u _.
  apply (lawful_bind' descriptor_ok _ (decode descriptor_dec md)
    (fun d i => if matches (d_code D) (d_name D) d then d_inner D md i else Err (EInvalidDescriptor d))).
  - apply decode_lawful, descriptor_lawful.
  - intros d. apply lawful_if; [apply G|apply lawful_err].
Qed.
Lemma the_alternative_inj {T} (P : forall X, dspec X -> X -> Prop) (alts : list (alternative T)) a x :
  alts_ok alts -> In a alts -> the_alternative P alts (a_inj a x) -> P _ (a_D a) x.
Proof.
  intros [_ _ Hp Hd]. induction alts as [|b r IH]; intros Hin HP; [easy|].
  inversion Hp as [|b' r' Hp1 Hp2]; subst. inversion Hd as [|b' r' Hd1 Hd2]; subst. cbn [the_alternative] in HP. destruct Hin as [->|Hin].
  - assert (E : a_prj a (a_inj a x) = Some x) by now apply Hp1. now rewrite E in HP.
  - rewrite Forall_forall in Hd1. rewrite (Hd1 _ Hin) in HP. now apply IH.
Qed.
Lemma canon_union_inj {T} (alts : list (alternative T)) a x :
  alts_ok alts -> In a alts -> canon_union alts (a_inj a x) = a_inj a (d_canon (a_D a) x).
Proof.
  intros [_ _ Hp Hd]. induction alts as [|b r IH]; intros Hin; [easy|].
  inversion Hp as [|b' r' Hp1 Hp2]; subst. inversion Hd as [|b' r' Hd1 Hd2]; subst. cbn [canon_union]. destruct Hin as [->|Hin].
  - assert (E : a_prj a (a_inj a x) = Some x) by now apply Hp1. now rewrite E.
  - rewrite Forall_forall in Hd1. rewrite (Hd1 _ Hin). now apply IH.
Qed.
Lemma union_steady {T} (C : codec T) (alts : list (alternative T)) select :
  alts_ok alts -> Forall (fun a => steady_D (a_D a)) alts ->
  c_D C = (fun md inp fmt => _ <- validate_code fmt FC_DESCRIBED ;; '(inp1, d) <- decode descriptor_dec md inp ;; select md d inp1) ->
  (forall md d inp, select md d inp = union_select alts md d inp) ->
  dec_lawful (steady (union_S C alts)) (s_dec (union_S C alts)).
Proof.
  intros AO G HD HS. rewrite Forall_forall in G. unfold s_dec. cbn [s_codec union_S]. rewrite HD. intros md fmt. apply lawful_guard. intros u _.
  apply (lawful_bind' descriptor_ok _ (decode descriptor_dec md) (fun d i => select md d i)).
  - apply decode_lawful, descriptor_lawful.
  - intros d. eapply lawful_ext; [intros inp; symmetry; apply HS|].
    assert (forall l, incl l alts -> lawful (steady (union_S C alts)) (fun inp => union_select l md d inp)) as K; [|now apply K].
    induction l as [|a r IH]; intros Hl; cbn [union_select]; [apply lawful_err|]. apply lawful_if.
    + assert (Ha : In a alts) by (apply Hl; now left).
      apply (lawful_map (fun v => d_decodable (a_D a) (d_canon (a_D a) v) -> d_canon (a_D a) v = v)); [apply (G a Ha)|].
      intros x Hx D. cbn [s_canon s_decodable union_S] in *. rewrite canon_union_inj in * by auto.
      apply the_alternative_inj in D; auto. f_equal. auto.
    + apply IH. intros b Hb. apply Hl. now right.
Qed.
Lemma section_steady_D {T} code name (S : tspec T) size enc inner : dec_lawful (steady S) (s_dec S) ->
  (forall md inp, inner md inp = decode (s_dec S) md inp) -> steady_D (section_D code name S size enc inner).
Proof.
  intros L Hi md. cbn [d_inner d_decodable d_canon section_D]. eapply lawful_ext; [intros inp; symmetry; apply Hi|]. now apply decode_lawful.
Qed.

(** ** Canonical form does not change the encoding *)
Definition kept {T} (S : tspec T) : Prop :=
  forall v, e_size (c_E (s_codec S)) (s_canon S v) = e_size (c_E (s_codec S)) v /\ e_enc (c_E (s_codec S)) (s_canon S v) = e_enc (c_E (s_codec S)) v.
Definition kept_A {T} (A : aenc T) (S : tspec T) : Prop :=
  forall v, a_size A (s_canon S v) = a_size A v /\ a_enc A (s_canon S v) = a_enc A v.
Lemma kept_same {T} (S : tspec T) : (forall v, s_canon S v = v) -> kept S.
Proof. intros H v. now rewrite H. Qed.
Lemma kept_A_same {T} A (S : tspec T) : (forall v, s_canon S v = v) -> kept_A A S.
Proof. intros H v. now rewrite H. Qed.
Lemma datetime_kept_A : kept_A datetime_A datetime_S.
Proof. intros t. split; [reflexivity|]. cbn [datetime_A a_enc s_canon datetime_S]. do 2 f_equal. apply millis_instant. Qed.
Lemma datetime_kept : kept datetime_S.
Proof.
  intros t. split; [reflexivity|]. change (fixed_enc datetime_A (instant (millis t)) = fixed_enc datetime_A t).
  unfold fixed_enc. f_equal. apply datetime_kept_A.
Qed.
Lemma str_kept : kept str_S.
Proof. intros [b|b]; split; reflexivity. Qed.
Lemma symbol_kept : kept symbol_S.
Proof. intros [b|b]; split; reflexivity. Qed.
Lemma symbol_kept_A : kept_A symbol_A symbol_S.
Proof. intros [b|b]; split; reflexivity. Qed.
Lemma zsum_map {A B} (f : A -> B) (g : B -> Z) (h : A -> Z) l : (forall x, In x l -> g (f x) = h x) -> zsum g (map f l) = zsum h l.
Proof. induction l as [|x l IH]; intros H; cbn [map zsum]; [reflexivity|]. rewrite (H x (or_introl eq_refl)), IH; [reflexivity|]. intros y Hy. apply H. now right. Qed.
Lemma flat_map_map {A B C} (f : A -> B) (g : B -> list C) (h : A -> list C) l : (forall x, In x l -> g (f x) = h x) ->
  flat_map g (map f l) = flat_map h l.
Proof. induction l as [|x l IH]; intros H; cbn [map flat_map]; [reflexivity|]. rewrite (H x (or_introl eq_refl)), IH; [reflexivity|]. intros y Hy. apply H. now right. Qed.
Lemma entries_kept {K V} (f : K * V -> K * V) (sk : K -> Z) (ek : K -> list wop) (sv : V -> Z) (ev : V -> list wop) m :
  (forall kv, In kv m -> sk (fst (f kv)) = sk (fst kv) /\ ek (fst (f kv)) = ek (fst kv) /\ sv (snd (f kv)) = sv (snd kv) /\ ev (snd (f kv)) = ev (snd kv)) ->
  map_encoded_size sk sv (map f m) = map_encoded_size sk sv m /\ map_entries ek ev (map f m) = map_entries ek ev m.
Proof.
  intros H. unfold map_encoded_size, map_entries. split; [apply zsum_map|apply flat_map_map];
    intros [k v] Hin; destruct (H _ Hin) as (H1 & H2 & H3 & H4); destruct (f (k, v)); cbn [fst snd] in *; congruence.
Qed.
Lemma variant_kept : kept variant_S.
Proof.
  intros v. cbn [s_codec s_canon variant_S variant_C c_E e_size e_enc variant_E].
  induction v using variant_ind'; cbn [canon variant_size variant_enc]; try (split; reflexivity).
  - apply datetime_kept.
  - apply str_kept.
  - apply symbol_kept.
  - rewrite Forall_forall in H. unfold list_size, list_enc, list_encoded_size. rewrite zlen_map.
    rewrite (zsum_map canon variant_size variant_size), (flat_map_map canon variant_enc variant_enc); [split; reflexivity| |]; intros x Hx; now apply H.
  - rewrite Forall_forall in H. set (f := fun kv : variant * variant => let (k, w) := kv in (canon k, canon w)).
    destruct (entries_kept f variant_size variant_enc variant_size variant_enc m) as [E1 E2].
    { intros [k w] Hin. destruct (H _ Hin) as [[? ?] [? ?]]. cbn [f fst snd] in *. auto. }
    unfold map_size, map_enc. rewrite zlen_map, E1, E2. split; reflexivity.
  - destruct IHv as [-> ->]. destruct d as [c|[b|b]]; split; reflexivity.
Qed.
Lemma list_kept : kept list_S.
Proof.
  intros l. pose proof (variant_kept (VList l)) as H. cbn [s_codec s_canon variant_S variant_C c_E e_size e_enc variant_E canon variant_size variant_enc] in H.
  exact H.
Qed.
Lemma map_kept {K V} (KO : key K) (SK : tspec K) (SV : tspec V) : kept SK -> kept SV -> kept (map_S KO SK SV).
Proof.
  intros HK HV m. cbn [s_codec s_canon map_S map_C c_E e_size e_enc map_E]. unfold map_size, map_enc. rewrite zlen_map.
  destruct (entries_kept (on_both (s_canon SK) (s_canon SV)) (e_size (c_E (s_codec SK))) (e_enc (c_E (s_codec SK))) (e_size (c_E (s_codec SV))) (e_enc (c_E (s_codec SV))) m)
    as [-> ->]; [|split; reflexivity].
  intros [k v] _. unfold on_both. cbn [fst snd]. destruct (HK k), (HV v). auto.
Qed.
Lemma map_kept_A {K V} (KO : key K) (SK : tspec K) (SV : tspec V) : kept SK -> kept SV ->
  kept_A (map_A (c_E (s_codec SK)) (c_E (s_codec SV))) (map_S KO SK SV).
Proof.
  intros HK HV m. cbn [s_canon map_S map_A a_size a_enc]. rewrite zlen_map.
  destruct (entries_kept (on_both (s_canon SK) (s_canon SV)) (e_size (c_E (s_codec SK))) (e_enc (c_E (s_codec SK))) (e_size (c_E (s_codec SV))) (e_enc (c_E (s_codec SV))) m)
    as [-> ->]; [|split; reflexivity].
  intros [k v] _. unfold on_both. cbn [fst snd]. destruct (HK k), (HV v). auto.
Qed.
Lemma vecmap_kept : kept vecmap_S.
Proof. exact (map_kept str_key str_S variant_S str_kept variant_kept). Qed.
Lemma option_kept {T} (S : tspec T) : kept S -> kept (option_S S).
Proof. intros H [x|]; [apply H|split; reflexivity]. Qed.
Lemma vec_kept {T} A width (S : tspec T) : kept_A A S -> kept (vec_S A width S).
Proof.
  intros H l. cbn [s_codec s_canon vec_S vec_C c_E e_size e_enc vec_E]. unfold vec_size, vec_enc, array_encoded_size. rewrite zlen_map.
  rewrite (zsum_map (s_canon S) (a_size A) (a_size A)), (flat_map_map (s_canon S) (a_enc A) (a_enc A)); [split; reflexivity| |]; intros x _; apply H.
Qed.
Lemma multiple_kept {T} A width (S : tspec T) : kept S -> kept_A A S -> kept (multiple_S A width S).
Proof.
  intros H HA l. cbn [s_codec s_canon multiple_S multiple_C c_E e_size e_enc multiple_E]. destruct l as [|x [|y l]]; [split; reflexivity|apply H|].
  exact (vec_kept A width S HA (x :: y :: l)).
Qed.
Lemma open_enum_kept {T} (C : codec T) (table : list (T * string)) (custom : symbol -> T) (get_custom : T -> option symbol) :
  (forall s, get_custom (custom s) = Some s) ->
  (forall x s, get_custom x = Some s -> e_size (c_E C) x = symbol_size s /\ e_enc (c_E C) x = symbol_enc s) ->
  Forall (fun e => e_size (c_E C) (fst e) = symbol_size (SByteStr (s2b (snd e))) /\ e_enc (c_E C) (fst e) = symbol_enc (SByteStr (s2b (snd e)))) table ->
  kept (open_enum_S C table custom get_custom).
Proof.
  intros HC HE HT x. cbn [s_codec s_canon open_enum_S]. destruct (get_custom x) as [s|] eqn:E; [|split; reflexivity].
  destruct (HE x s E) as [-> ->]. destruct (lookup_name (str_bytes s) table) as [y|] eqn:L.
  - clear - HT L. induction HT as [|[z t] table H _ IH]; cbn [lookup_name] in L; [discriminate|].
    destruct (bytes_eqb (str_bytes s) (s2b t)) eqn:B; [|auto]. injection L as <-. apply bytes_eqb_eq in B. cbn [fst snd] in H.
    destruct H as [-> ->]. rewrite <- B. destruct s; split; reflexivity.
  - destruct (HE _ _ (HC (canon_str s))) as [-> ->]. destruct s; split; reflexivity.
Qed.
Lemma error_condition_kept : kept error_condition_S.
Proof.
  apply open_enum_kept; [reflexivity| |].
  - intros [e|e|e|e|s'] s; cbn [condition_custom]; intros [= <-]. auto.
  - repeat (apply Forall_cons; [split; reflexivity|]); apply Forall_nil.
Qed.
Lemma distribution_mode_kept : kept distribution_mode_S.
Proof.
  apply open_enum_kept; [reflexivity| |].
  - intros [| |s'] s; cbn [distribution_custom]; intros [= <-]. auto.
  - repeat (apply Forall_cons; [split; reflexivity|]); apply Forall_nil.
Qed.
Fixpoint kept_fields {R} (F : fields R) : Prop :=
  match F with
  | FNil => True
  | FReq _ t r => kept t /\ kept_fields r
  | FOpt _ t r => kept t /\ kept_fields r
  | FDef _ t dflt r => kept t /\ kept_fields r
  end.
Lemma fields_kept {R} (F : fields R) a : kept_fields F ->
  size_fields F 0 (canon_fields F a) = size_fields F 0 a /\ enc_fields F (canon_fields F a) = enc_fields F a.
Proof.
  revert a. induction F as [|T R name t r IH|T R name t r IH|T R name t dflt r IH]; intros a G; cbn [size_fields enc_fields canon_fields kept_fields fst snd] in *.
  - split; reflexivity.
  - destruct G as [G1 G2]. destruct (G1 (fst a)) as [E1 E2], (IH (snd a) G2) as [I1 I2].
    rewrite !(size_fields_acc r (0 + _)), I1, I2. unfold s_size. rewrite E1, E2. split; reflexivity.
  - destruct G as [G1 G2]. destruct (option_kept t G1 (fst a)) as [E1 E2], (IH (snd a) G2) as [I1 I2].
    rewrite !(size_fields_acc r (0 + _)), I1, I2. unfold s_size. cbn [s_canon option_S] in *. rewrite E1, E2. split; reflexivity.
  - destruct G as [G1 G2]. destruct (G1 (fst a)) as [E1 E2], (IH (snd a) G2) as [I1 I2].
    rewrite !(size_fields_acc r (0 + _)), I1, I2. unfold s_size. rewrite E1, E2. split; reflexivity.
Qed.
Definition kept_D {T} (D : dspec T) : Prop :=
  forall v, e_size (d_E D) (d_canon D v) = e_size (d_E D) v /\ e_enc (d_E D) (d_canon D v) = e_enc (d_E D) v.
Lemma composite_kept_D K : transcribed K -> kept_fields (k_fields K) -> kept_D (composite_D K).
Proof.
  intros Tr G v. cbn [d_E d_canon composite_D]. rewrite !(tr_size K Tr), !(tr_enc K Tr), (tr_to_of K Tr).
  destruct (fields_kept _ (k_to K v) G) as [-> ->]. split; reflexivity.
Qed.
Lemma union_kept {T} (C : codec T) (alts : list (alternative T)) :
  alts_ok alts -> Forall (fun a => kept_D (a_D a)) alts ->
  Forall (fun a => forall x, e_size (c_E C) (a_inj a x) = e_size (d_E (a_D a)) x /\ e_enc (c_E C) (a_inj a x) = e_enc (d_E (a_D a)) x) alts ->
  kept (union_S C alts).
Proof.
  intros [_ _ Hp _] G HE v. cbn [s_codec s_canon union_S].
  induction alts as [|a r IH]; cbn [canon_union]; [split; reflexivity|].
  inversion Hp as [|? ? Hp1 Hp2]; inversion G as [|? ? G1 G2]; inversion HE as [|? ? HE1 HE2]; subst.
  destruct (a_prj a v) as [x|] eqn:E; [|now apply IH]. apply Hp1 in E as ->.
  destruct (HE1 x) as [-> ->], (HE1 (d_canon (a_D a) x)) as [-> ->]. apply G1.
Qed.
Lemma section_kept_D {T} code name (S : tspec T) size enc inner : kept S ->
  (forall v, size v = 3 + s_size S v) -> (forall v, enc v = descriptor_enc (DUlong code) ++ e_enc (c_E (s_codec S)) v) ->
  kept_D (section_D code name S size enc inner).
Proof.
  intros H Hs He v. cbn [d_E d_canon section_D e_size e_enc]. rewrite !Hs, !He. unfold s_size. destruct (H v) as [-> ->]. split; reflexivity.
Qed.

(** ** Both, for every type *)
Record relay {T} (S : tspec T) : Prop := MkRelay { rl_steady : dec_lawful (steady S) (s_dec S); rl_kept : kept S }.
Record relay_D {T} (D : dspec T) : Prop := MkRelayD { rd_steady : steady_D D; rd_kept : kept_D D }.
Record relay_element {T} (A : aenc T) (S : tspec T) : Prop := MkRelayE { re_relay : relay S; re_kept : kept_A A S }.
Lemma relay_same {T} (S : tspec T) : (forall v, s_canon S v = v) -> good S -> relay S.
Proof. intros H G. split; [now apply steady_same|now apply kept_same]. Qed.
Ltac same g := apply relay_same; [reflexivity|exact g].
Lemma bool_relay : relay bool_S. Proof. same bool_good. Qed.
Lemma u8_relay : relay u8_S. Proof. same u8_good. Qed.
Lemma u16_relay : relay u16_S. Proof. same u16_good. Qed.
Lemma u32_relay : relay u32_S. Proof. same u32_good. Qed.
Lemma u64_relay : relay u64_S. Proof. same u64_good. Qed.
Lemma i8_relay : relay i8_S. Proof. same i8_good. Qed.
Lemma i16_relay : relay i16_S. Proof. same i16_good. Qed.
Lemma i32_relay : relay i32_S. Proof. same i32_good. Qed.
Lemma i64_relay : relay i64_S. Proof. same i64_good. Qed.
Lemma f32_relay : relay f32_S. Proof. same f32_good. Qed.
Lemma f64_relay : relay f64_S. Proof. same f64_good. Qed.
Lemma char_relay : relay char_S. Proof. same char_good. Qed.
Lemma datetime_relay : relay datetime_S. Proof. exact (MkRelay _ _ datetime_steady datetime_kept). Qed.
Lemma uuid_relay : relay uuid_S. Proof. same uuid_good. Qed.
Lemma bin_relay : relay bin_S. Proof. same bin_good. Qed.
Lemma bstr_relay : relay bstr_S. Proof. same bstr_good. Qed.
Lemma str_relay : relay str_S. Proof. exact (MkRelay _ _ str_steady str_kept). Qed.
Lemma symbol_relay : relay symbol_S. Proof. exact (MkRelay _ _ symbol_steady symbol_kept). Qed.
Lemma variant_relay : relay variant_S. Proof. exact (MkRelay _ _ variant_steady variant_kept). Qed.
Lemma list_relay : relay list_S. Proof. exact (MkRelay _ _ list_steady list_kept). Qed.
Lemma vecmap_relay : relay vecmap_S. Proof. exact (MkRelay _ _ vecmap_steady vecmap_kept). Qed.
Lemma role_relay : relay role_S. Proof. same role_good. Qed.
Lemma sender_settle_mode_relay : relay sender_settle_mode_S. Proof. same sender_settle_mode_good. Qed.
Lemma receiver_settle_mode_relay : relay receiver_settle_mode_S. Proof. same receiver_settle_mode_good. Qed.
Lemma sasl_code_relay : relay sasl_code_S. Proof. same sasl_code_good. Qed.
Lemma terminus_durability_relay : relay terminus_durability_S. Proof. same terminus_durability_good. Qed.
Lemma terminus_expiry_policy_relay : relay terminus_expiry_policy_S. Proof. same terminus_expiry_policy_good. Qed.
Lemma amqp_error_relay : relay amqp_error_S. Proof. same amqp_error_good. Qed.
Lemma connection_error_relay : relay connection_error_S. Proof. same connection_error_good. Qed.
Lemma session_error_relay : relay session_error_S. Proof. same session_error_good. Qed.
Lemma link_error_relay : relay link_error_S. Proof. same link_error_good. Qed.
Lemma error_condition_relay : relay error_condition_S. Proof. exact (MkRelay _ _ error_condition_steady error_condition_kept). Qed.
Lemma distribution_mode_relay : relay distribution_mode_S. Proof. exact (MkRelay _ _ distribution_mode_steady distribution_mode_kept). Qed.
Lemma message_id_relay : relay message_id_S. Proof. same message_id_good. Qed.
Lemma option_relay {T} (S : tspec T) : relay S -> relay (option_S S).
Proof. intros [H1 H2]. split; [now apply option_steady|now apply option_kept]. Qed.
Lemma map_relay {K V} (KO : key K) (SK : tspec K) (SV : tspec V) : relay SK -> relay SV -> relay (map_S KO SK SV).
Proof. intros [H1 H2] [H3 H4]. split; [now apply map_steady|now apply map_kept]. Qed.
Lemma vec_relay {T} A width (S : tspec T) : relay_element A S -> relay (vec_S A width S).
Proof. intros [[H1 H2] H3]. split; [now apply vec_steady|now apply vec_kept]. Qed.
Lemma multiple_relay {T} A width (S : tspec T) : relay_element A S -> relay (multiple_S A width S).
Proof. intros [[H1 H2] H3]. split; [now apply multiple_steady|now apply multiple_kept]. Qed.
Lemma symbol_re : relay_element symbol_A symbol_S. Proof. exact (MkRelayE _ _ _ symbol_relay symbol_kept_A). Qed.
Create HintDb relays.
#[export] Hint Resolve bool_relay u8_relay u16_relay u32_relay u64_relay datetime_relay uuid_relay bin_relay bstr_relay str_relay symbol_relay
  variant_relay role_relay sender_settle_mode_relay receiver_settle_mode_relay sasl_code_relay terminus_durability_relay
  terminus_expiry_policy_relay error_condition_relay distribution_mode_relay message_id_relay list_relay : relays.
Lemma fields_relay : relay fields_S. Proof. apply map_relay; auto with relays. Qed.
Lemma vmap_relay : relay vmap_S. Proof. apply map_relay; auto with relays. Qed.
Lemma string_variant_map_relay : relay string_variant_map_S. Proof. apply map_relay; auto with relays. Qed.
Lemma filter_set_relay : relay filter_set_S. Proof. apply map_relay; [|apply option_relay]; auto with relays. Qed.
Lemma symbols_relay : relay symbols_S. Proof. apply multiple_relay, symbol_re. Qed.
#[export] Hint Resolve fields_relay vmap_relay string_variant_map_relay filter_set_relay symbols_relay : relays.

Fixpoint relay_fields {R} (F : fields R) : Prop :=
  match F with
  | FNil => True
  | FReq _ t r => relay t /\ relay_fields r
  | FOpt _ t r => relay t /\ relay_fields r
  | FDef _ t dflt r => (relay t /\ s_canon t dflt = dflt) /\ relay_fields r
  end.
Lemma relay_fields_steady {R} (F : fields R) : relay_fields F -> steady_fields F.
Proof.
  induction F; cbn [relay_fields steady_fields]; [easy| | |]; intros [H1 H2]; (split; [|auto]).
  - apply H1.
  - apply H1.
  - destruct H1 as [H1 H3]. split; [apply H1|]. intros _. exact H3.
Qed.
Lemma relay_fields_kept {R} (F : fields R) : relay_fields F -> kept_fields F.
Proof.
  induction F; cbn [relay_fields kept_fields]; [easy| | |]; intros [H1 H2]; (split; [|auto]); apply H1.
Qed.
Lemma composite_relay_D K : transcribed K -> relay_fields (k_fields K) -> relay_D (composite_D K).
Proof.
  intros Tr G. split; [apply composite_steady_D; auto; now apply relay_fields_steady|apply composite_kept_D; auto; now apply relay_fields_kept].
Qed.
Lemma composite_relay K : transcribed K -> relay_fields (k_fields K) -> relay (composite_S K).
Proof.
  intros Tr G. pose proof (composite_relay_D K Tr G) as [H1 H2]. split.
  - apply described_steady; [apply (tr_dec K Tr)|exact H1].
  - exact H2.
Qed.
Ltac fields_relay_tac :=
  cbn [relay_fields k_fields]; repeat match goal with
  | |- _ /\ _ => split
  | |- True => exact I
  | |- relay _ => solve [auto with relays]
  | |- _ = _ => reflexivity
  end.
Lemma union_relay {T} (C : codec T) (alts : list (alternative T)) select :
  alts_ok alts -> Forall (fun a => relay_D (a_D a)) alts ->
  Forall (fun a => forall x, e_size (c_E C) (a_inj a x) = e_size (d_E (a_D a)) x /\ e_enc (c_E C) (a_inj a x) = e_enc (d_E (a_D a)) x) alts ->
  c_D C = (fun md inp fmt => _ <- validate_code fmt FC_DESCRIBED ;; '(inp1, d) <- decode descriptor_dec md inp ;; select md d inp1) ->
  (forall md d inp, select md d inp = union_select alts md d inp) -> relay (union_S C alts).
Proof.
  intros AO G HE HD HS. split.
  - eapply union_steady; eauto. eapply Forall_impl; [|exact G]. intros a H. apply H.
  - apply union_kept; auto. eapply Forall_impl; [|exact G]. intros a H. apply H.
Qed.
Lemma section_relay_D {T} code name (S : tspec T) size enc inner : relay S ->
  (forall v, size v = 3 + s_size S v) -> (forall v, enc v = descriptor_enc (DUlong code) ++ e_enc (c_E (s_codec S)) v) ->
  (forall md inp, inner md inp = decode (s_dec S) md inp) -> relay_D (section_D code name S size enc inner).
Proof. intros [H1 H2] Hs He Hi. split; [now apply section_steady_D|now apply section_kept_D]. Qed.
Lemma error_fields_relay : relay_fields (k_fields error_K). Proof. unfold error_K. fields_relay_tac. Qed.
Lemma error_relay_D : relay_D (composite_D error_K). Proof. exact (composite_relay_D _ error_tr error_fields_relay). Qed.
Lemma error_relay : relay error_S. Proof. exact (composite_relay _ error_tr error_fields_relay). Qed.
#[export] Hint Resolve error_relay_D error_relay : relays.
Lemma received_fields_relay : relay_fields (k_fields received_K). Proof. unfold received_K. fields_relay_tac. Qed.
Lemma received_relay_D : relay_D (composite_D received_K). Proof. exact (composite_relay_D _ received_tr received_fields_relay). Qed.
Lemma received_relay : relay received_S. Proof. exact (composite_relay _ received_tr received_fields_relay). Qed.
#[export] Hint Resolve received_relay_D received_relay : relays.
Lemma accepted_fields_relay : relay_fields (k_fields accepted_K). Proof. unfold accepted_K. fields_relay_tac. Qed.
Lemma accepted_relay_D : relay_D (composite_D accepted_K). Proof. exact (composite_relay_D _ accepted_tr accepted_fields_relay). Qed.
Lemma accepted_relay : relay accepted_S. Proof. exact (composite_relay _ accepted_tr accepted_fields_relay). Qed.
#[export] Hint Resolve accepted_relay_D accepted_relay : relays.
Lemma rejected_fields_relay : relay_fields (k_fields rejected_K). Proof. unfold rejected_K. fields_relay_tac. Qed.
Lemma rejected_relay_D : relay_D (composite_D rejected_K). Proof. exact (composite_relay_D _ rejected_tr rejected_fields_relay). Qed.
Lemma rejected_relay : relay rejected_S. Proof. exact (composite_relay _ rejected_tr rejected_fields_relay). Qed.
#[export] Hint Resolve rejected_relay_D rejected_relay : relays.
Lemma released_fields_relay : relay_fields (k_fields released_K). Proof. unfold released_K. fields_relay_tac. Qed.
Lemma released_relay_D : relay_D (composite_D released_K). Proof. exact (composite_relay_D _ released_tr released_fields_relay). Qed.
Lemma released_relay : relay released_S. Proof. exact (composite_relay _ released_tr released_fields_relay). Qed.
#[export] Hint Resolve released_relay_D released_relay : relays.
Lemma modified_fields_relay : relay_fields (k_fields modified_K). Proof. unfold modified_K. fields_relay_tac. Qed.
Lemma modified_relay_D : relay_D (composite_D modified_K). Proof. exact (composite_relay_D _ modified_tr modified_fields_relay). Qed.
Lemma modified_relay : relay modified_S. Proof. exact (composite_relay _ modified_tr modified_fields_relay). Qed.
#[export] Hint Resolve modified_relay_D modified_relay : relays.
Lemma delivery_state_alts_relay : Forall (fun a => relay_D (a_D a)) delivery_state_alts.
Proof. unfold delivery_state_alts. repeat (apply Forall_cons; [cbn [a_D]; auto with relays|]); apply Forall_nil. Qed.
Lemma delivery_state_relay : relay delivery_state_S.
Proof.
  apply (union_relay _ _ delivery_state_select delivery_state_alts_ok delivery_state_alts_relay).
  - unfold delivery_state_alts. repeat (apply Forall_cons; [now split|]); apply Forall_nil.
  - reflexivity.
  - intros md [c|a] inp; reflexivity.
Qed.
#[export] Hint Resolve delivery_state_relay : relays.
Lemma outcome_alts_relay : Forall (fun a => relay_D (a_D a)) outcome_alts.
Proof. unfold outcome_alts. repeat (apply Forall_cons; [cbn [a_D]; auto with relays|]); apply Forall_nil. Qed.
Lemma outcome_relay : relay outcome_S.
Proof.
  apply (union_relay _ _ outcome_select outcome_alts_ok outcome_alts_relay).
  - unfold outcome_alts. repeat (apply Forall_cons; [now split|]); apply Forall_nil.
  - reflexivity.
  - intros md [c|a] inp; reflexivity.
Qed.
#[export] Hint Resolve outcome_relay : relays.
Lemma source_fields_relay : relay_fields (k_fields source_K). Proof. unfold source_K. fields_relay_tac. Qed.
Lemma source_relay_D : relay_D (composite_D source_K). Proof. exact (composite_relay_D _ source_tr source_fields_relay). Qed.
Lemma source_relay : relay source_S. Proof. exact (composite_relay _ source_tr source_fields_relay). Qed.
#[export] Hint Resolve source_relay_D source_relay : relays.
Lemma target_fields_relay : relay_fields (k_fields target_K). Proof. unfold target_K. fields_relay_tac. Qed.
Lemma target_relay_D : relay_D (composite_D target_K). Proof. exact (composite_relay_D _ target_tr target_fields_relay). Qed.
Lemma target_relay : relay target_S. Proof. exact (composite_relay _ target_tr target_fields_relay). Qed.
#[export] Hint Resolve target_relay_D target_relay : relays.
Lemma open_fields_relay : relay_fields (k_fields open_K). Proof. unfold open_K. fields_relay_tac. Qed.
Lemma open_relay_D : relay_D (composite_D open_K). Proof. exact (composite_relay_D _ open_tr open_fields_relay). Qed.
Lemma open_relay : relay open_S. Proof. exact (composite_relay _ open_tr open_fields_relay). Qed.
#[export] Hint Resolve open_relay_D open_relay : relays.
Lemma begin_fields_relay : relay_fields (k_fields begin_K). Proof. unfold begin_K. fields_relay_tac. Qed.
Lemma begin_relay_D : relay_D (composite_D begin_K). Proof. exact (composite_relay_D _ begin_tr begin_fields_relay). Qed.
Lemma begin_relay : relay begin_S. Proof. exact (composite_relay _ begin_tr begin_fields_relay). Qed.
#[export] Hint Resolve begin_relay_D begin_relay : relays.
Lemma attach_fields_relay : relay_fields (k_fields attach_K). Proof. unfold attach_K. fields_relay_tac. Qed.
Lemma attach_relay_D : relay_D (composite_D attach_K). Proof. exact (composite_relay_D _ attach_tr attach_fields_relay). Qed.
Lemma attach_relay : relay attach_S. Proof. exact (composite_relay _ attach_tr attach_fields_relay). Qed.
#[export] Hint Resolve attach_relay_D attach_relay : relays.
Lemma flow_fields_relay : relay_fields (k_fields flow_K). Proof. unfold flow_K. fields_relay_tac. Qed.
Lemma flow_relay_D : relay_D (composite_D flow_K). Proof. exact (composite_relay_D _ flow_tr flow_fields_relay). Qed.
Lemma flow_relay : relay flow_S. Proof. exact (composite_relay _ flow_tr flow_fields_relay). Qed.
#[export] Hint Resolve flow_relay_D flow_relay : relays.
Lemma disposition_fields_relay : relay_fields (k_fields disposition_K). Proof. unfold disposition_K. fields_relay_tac. Qed.
Lemma disposition_relay_D : relay_D (composite_D disposition_K). Proof. exact (composite_relay_D _ disposition_tr disposition_fields_relay). Qed.
Lemma disposition_relay : relay disposition_S. Proof. exact (composite_relay _ disposition_tr disposition_fields_relay). Qed.
#[export] Hint Resolve disposition_relay_D disposition_relay : relays.
Lemma detach_fields_relay : relay_fields (k_fields detach_K). Proof. unfold detach_K. fields_relay_tac. Qed.
Lemma detach_relay_D : relay_D (composite_D detach_K). Proof. exact (composite_relay_D _ detach_tr detach_fields_relay). Qed.
Lemma detach_relay : relay detach_S. Proof. exact (composite_relay _ detach_tr detach_fields_relay). Qed.
#[export] Hint Resolve detach_relay_D detach_relay : relays.
Lemma end_fields_relay : relay_fields (k_fields end_K). Proof. unfold end_K. fields_relay_tac. Qed.
Lemma end_relay_D : relay_D (composite_D end_K). Proof. exact (composite_relay_D _ end_tr end_fields_relay). Qed.
Lemma end_relay : relay end_S. Proof. exact (composite_relay _ end_tr end_fields_relay). Qed.
#[export] Hint Resolve end_relay_D end_relay : relays.
Lemma close_fields_relay : relay_fields (k_fields close_K). Proof. unfold close_K. fields_relay_tac. Qed.
Lemma close_relay_D : relay_D (composite_D close_K). Proof. exact (composite_relay_D _ close_tr close_fields_relay). Qed.
Lemma close_relay : relay close_S. Proof. exact (composite_relay _ close_tr close_fields_relay). Qed.
#[export] Hint Resolve close_relay_D close_relay : relays.
Lemma sasl_mechanisms_fields_relay : relay_fields (k_fields sasl_mechanisms_K). Proof. unfold sasl_mechanisms_K. fields_relay_tac. Qed.
Lemma sasl_mechanisms_relay_D : relay_D (composite_D sasl_mechanisms_K). Proof. exact (composite_relay_D _ sasl_mechanisms_tr sasl_mechanisms_fields_relay). Qed.
Lemma sasl_mechanisms_relay : relay sasl_mechanisms_S. Proof. exact (composite_relay _ sasl_mechanisms_tr sasl_mechanisms_fields_relay). Qed.
#[export] Hint Resolve sasl_mechanisms_relay_D sasl_mechanisms_relay : relays.
Lemma sasl_init_fields_relay : relay_fields (k_fields sasl_init_K). Proof. unfold sasl_init_K. fields_relay_tac. Qed.
Lemma sasl_init_relay_D : relay_D (composite_D sasl_init_K). Proof. exact (composite_relay_D _ sasl_init_tr sasl_init_fields_relay). Qed.
Lemma sasl_init_relay : relay sasl_init_S. Proof. exact (composite_relay _ sasl_init_tr sasl_init_fields_relay). Qed.
#[export] Hint Resolve sasl_init_relay_D sasl_init_relay : relays.
Lemma sasl_challenge_fields_relay : relay_fields (k_fields sasl_challenge_K). Proof. unfold sasl_challenge_K. fields_relay_tac. Qed.
Lemma sasl_challenge_relay_D : relay_D (composite_D sasl_challenge_K). Proof. exact (composite_relay_D _ sasl_challenge_tr sasl_challenge_fields_relay). Qed.
Lemma sasl_challenge_relay : relay sasl_challenge_S. Proof. exact (composite_relay _ sasl_challenge_tr sasl_challenge_fields_relay). Qed.
#[export] Hint Resolve sasl_challenge_relay_D sasl_challenge_relay : relays.
Lemma sasl_response_fields_relay : relay_fields (k_fields sasl_response_K). Proof. unfold sasl_response_K. fields_relay_tac. Qed.
Lemma sasl_response_relay_D : relay_D (composite_D sasl_response_K). Proof. exact (composite_relay_D _ sasl_response_tr sasl_response_fields_relay). Qed.
Lemma sasl_response_relay : relay sasl_response_S. Proof. exact (composite_relay _ sasl_response_tr sasl_response_fields_relay). Qed.
#[export] Hint Resolve sasl_response_relay_D sasl_response_relay : relays.
Lemma sasl_outcome_fields_relay : relay_fields (k_fields sasl_outcome_K). Proof. unfold sasl_outcome_K. fields_relay_tac. Qed.
Lemma sasl_outcome_relay_D : relay_D (composite_D sasl_outcome_K). Proof. exact (composite_relay_D _ sasl_outcome_tr sasl_outcome_fields_relay). Qed.
Lemma sasl_outcome_relay : relay sasl_outcome_S. Proof. exact (composite_relay _ sasl_outcome_tr sasl_outcome_fields_relay). Qed.
#[export] Hint Resolve sasl_outcome_relay_D sasl_outcome_relay : relays.
Lemma sasl_frame_body_alts_relay : Forall (fun a => relay_D (a_D a)) sasl_frame_body_alts.
Proof. unfold sasl_frame_body_alts. repeat (apply Forall_cons; [cbn [a_D]; auto with relays|]); apply Forall_nil. Qed.
Lemma sasl_frame_body_relay : relay sasl_frame_body_S.
Proof.
  apply (union_relay _ _ sasl_frame_body_select sasl_frame_body_alts_ok sasl_frame_body_alts_relay).
  - unfold sasl_frame_body_alts. repeat (apply Forall_cons; [now split|]); apply Forall_nil.
  - reflexivity.
  - intros md [c|a] inp; reflexivity.
Qed.
#[export] Hint Resolve sasl_frame_body_relay : relays.
Lemma header_fields_relay : relay_fields (k_fields header_K). Proof. unfold header_K. fields_relay_tac. Qed.
Lemma header_relay_D : relay_D (composite_D header_K). Proof. exact (composite_relay_D _ header_tr header_fields_relay). Qed.
Lemma header_relay : relay header_S. Proof. exact (composite_relay _ header_tr header_fields_relay). Qed.
#[export] Hint Resolve header_relay_D header_relay : relays.
Lemma properties_fields_relay : relay_fields (k_fields properties_K). Proof. unfold properties_K. fields_relay_tac. Qed.
Lemma properties_relay_D : relay_D (composite_D properties_K). Proof. exact (composite_relay_D _ properties_tr properties_fields_relay). Qed.
Lemma properties_relay : relay properties_S. Proof. exact (composite_relay _ properties_tr properties_fields_relay). Qed.
#[export] Hint Resolve properties_relay_D properties_relay : relays.
Lemma delivery_annotations_relay_D : relay_D (section_D 0x71 "amqp:delivery-annotations:map" fields_S delivery_annotations_size delivery_annotations_enc decode_delivery_annotations_inner).
Proof. apply section_relay_D; [auto with relays|reflexivity|reflexivity|reflexivity]. Qed.
#[export] Hint Resolve delivery_annotations_relay_D : relays.
Lemma message_annotations_relay_D : relay_D (section_D 0x72 "amqp:message-annotations:map" fields_S message_annotations_size message_annotations_enc decode_message_annotations_inner).
Proof. apply section_relay_D; [auto with relays|reflexivity|reflexivity|reflexivity]. Qed.
#[export] Hint Resolve message_annotations_relay_D : relays.
Lemma application_properties_relay_D : relay_D (section_D 0x74 "amqp:application-properties:map" string_variant_map_S application_properties_size application_properties_enc decode_application_properties_inner).
Proof. apply section_relay_D; [auto with relays|reflexivity|reflexivity|reflexivity]. Qed.
#[export] Hint Resolve application_properties_relay_D : relays.
Lemma data_relay_D : relay_D (section_D 0x75 "amqp:data:binary" bin_S data_size data_enc decode_data_inner).
Proof. apply section_relay_D; [auto with relays|reflexivity|reflexivity|reflexivity]. Qed.
#[export] Hint Resolve data_relay_D : relays.
Lemma amqp_sequence_relay_D : relay_D (section_D 0x76 "amqp:amqp-sequence:list" list_S amqp_sequence_size amqp_sequence_enc decode_amqp_sequence_inner).
Proof. apply section_relay_D; [auto with relays|reflexivity|reflexivity|reflexivity]. Qed.
#[export] Hint Resolve amqp_sequence_relay_D : relays.
Lemma amqp_value_relay_D : relay_D (section_D 0x77 "amqp:amqp-value:*" variant_S amqp_value_size amqp_value_enc decode_amqp_value_inner).
Proof. apply section_relay_D; [auto with relays|reflexivity|reflexivity|reflexivity]. Qed.
#[export] Hint Resolve amqp_value_relay_D : relays.
Lemma footer_relay_D : relay_D (section_D 0x78 "amqp:footer:map" fields_S footer_size footer_enc decode_footer_inner).
Proof. apply section_relay_D; [auto with relays|reflexivity|reflexivity|reflexivity]. Qed.
#[export] Hint Resolve footer_relay_D : relays.
Lemma section_alts_relay : Forall (fun a => relay_D (a_D a)) section_alts.
Proof. unfold section_alts. repeat (apply Forall_cons; [cbn [a_D]; auto with relays|]); apply Forall_nil. Qed.
Lemma section_relay : relay section_S.
Proof.
  apply (union_relay _ _ section_select section_alts_ok section_alts_relay).
  - unfold section_alts. repeat (apply Forall_cons;
      [intros x; split; lazy [section_C c_E e_size e_enc section_size section_enc a_inj a_D d_E composite_D section_D k_codec header_K
         properties_K header_C properties_C]; reflexivity|]); apply Forall_nil.
  - reflexivity.
  - intros md [c|a] inp; reflexivity.
Qed.
#[export] Hint Resolve section_relay : relays.
Lemma all_composites_relay K : In K all_composites -> relay (composite_S K).
Proof.
  unfold all_composites. cbn [In]. intros H; repeat (destruct H as [H|H]; [subst K|]); try contradiction.
  - exact error_relay.
  - exact received_relay.
  - exact accepted_relay.
  - exact rejected_relay.
  - exact released_relay.
  - exact modified_relay.
  - exact source_relay.
  - exact target_relay.
  - exact open_relay.
  - exact begin_relay.
  - exact attach_relay.
  - exact flow_relay.
  - exact disposition_relay.
  - exact detach_relay.
  - exact end_relay.
  - exact close_relay.
  - exact sasl_mechanisms_relay.
  - exact sasl_init_relay.
  - exact sasl_challenge_relay.
  - exact sasl_response_relay.
  - exact sasl_outcome_relay.
  - exact header_relay.
  - exact properties_relay.
Qed.
Lemma types_relay :
  (forall T (S : tspec T), amqp_type S -> relay S) /\
  (forall T A width (S : tspec T), element A width S -> relay_element A S).
Proof.
  apply types_mutind.
  - exact bool_relay.
  - exact u8_relay.
  - exact u16_relay.
  - exact u32_relay.
  - exact u64_relay.
  - exact i8_relay.
  - exact i16_relay.
  - exact i32_relay.
  - exact i64_relay.
  - exact f32_relay.
  - exact f64_relay.
  - exact char_relay.
  - exact datetime_relay.
  - exact uuid_relay.
  - exact bin_relay.
  - exact bstr_relay.
  - exact str_relay.
  - exact symbol_relay.
  - exact variant_relay.
  - exact list_relay.
  - exact vecmap_relay.
  - exact role_relay.
  - exact sender_settle_mode_relay.
  - exact receiver_settle_mode_relay.
  - exact sasl_code_relay.
  - exact terminus_durability_relay.
  - exact terminus_expiry_policy_relay.
  - exact amqp_error_relay.
  - exact connection_error_relay.
  - exact session_error_relay.
  - exact link_error_relay.
  - exact error_condition_relay.
  - exact distribution_mode_relay.
  - exact message_id_relay.
  - exact all_composites_relay.
  - exact delivery_state_relay.
  - exact outcome_relay.
  - exact sasl_frame_body_relay.
  - exact section_relay.
  - intros T S _ G _. now apply option_relay.
  - intros K V KO SK SV _ GK _ GV. now apply map_relay.
  - intros T A width S _ G. now apply vec_relay.
  - intros T A width S _ G _ _. now apply multiple_relay.
  - split; [exact bool_relay|now apply kept_A_same].
  - split; [exact u8_relay|now apply kept_A_same].
  - split; [exact u16_relay|now apply kept_A_same].
  - split; [exact u32_relay|now apply kept_A_same].
  - split; [exact u64_relay|now apply kept_A_same].
  - split; [exact i8_relay|now apply kept_A_same].
  - split; [exact i16_relay|now apply kept_A_same].
  - split; [exact i32_relay|now apply kept_A_same].
  - split; [exact i64_relay|now apply kept_A_same].
  - split; [exact f32_relay|now apply kept_A_same].
  - split; [exact f64_relay|now apply kept_A_same].
  - split; [exact char_relay|now apply kept_A_same].
  - exact (MkRelayE _ _ _ datetime_relay datetime_kept_A).
  - split; [exact uuid_relay|now apply kept_A_same].
  - split; [exact bin_relay|now apply kept_A_same].
  - split; [exact bstr_relay|now apply kept_A_same].
  - exact symbol_re.
  - intros K V KO SK SV _ GK _ GV. split; [now apply map_relay|apply map_kept_A; [apply GK|apply GV]].
Qed.
Lemma type_relay {T} (S : tspec T) : amqp_type S -> relay S.
Proof. apply types_relay. Qed.

(** ** Received, sent on, received again *)
Lemma resend {T} (S : tspec T) : amqp_type S -> forall md md' inp rest v rest', bytes_ok inp -> decode (s_dec S) md inp = Ok (rest, v) ->
  s_encodable S v -> s_size S v < 2 ^ 32 -> s_decodable S (s_canon S v) -> decode (s_dec S) md' (s_bytes S v ++ rest') = Ok (rest', v).
Proof.
  intros A md md' inp rest v rest' Hb E He Hs Hd.
  pose proof (type_good S A) as G. pose proof (type_relay S A) as [R _].
  destruct (decode_lawful _ _ md (g_dec S G) _ _ _ E) as [_ Hv]. destruct (decode_lawful _ _ md R _ _ _ E) as [_ Hc].
  specialize (Hv Hb). specialize (Hc Hb Hd).
  pose proof (type_round_trip S A md' v rest' Hv He Hs Hd) as K. now rewrite Hc in K.
Qed.
Lemma second_encoding {T} (S : tspec T) : amqp_type S -> forall md v rest, s_valid S v -> s_encodable S v -> s_size S v < 2 ^ 32 ->
  s_decodable S (s_canon S v) ->
  exists w, decode (s_dec S) md (s_bytes S v ++ rest) = Ok (rest, w) /\ s_size S w = s_size S v /\ s_bytes S w = s_bytes S v.
Proof.
  intros A md v rest Hv He Hs Hd. exists (s_canon S v). split; [now apply (type_round_trip S A)|].
  pose proof (type_relay S A) as [_ K]. destruct (K v) as [K1 K2]. unfold s_size, s_bytes. now rewrite K1, K2.
Qed.
Lemma canonical_encoding {T} (S : tspec T) : amqp_type S -> forall v, s_size S (s_canon S v) = s_size S v /\ s_bytes S (s_canon S v) = s_bytes S v.
Proof.
  intros A v. pose proof (type_relay S A) as [_ K]. destruct (K v) as [K1 K2]. unfold s_size, s_bytes. now rewrite K1, K2.
Qed.
Lemma received_canonical {T} (S : tspec T) : amqp_type S -> forall md inp rest v, bytes_ok inp -> decode (s_dec S) md inp = Ok (rest, v) ->
  s_decodable S (s_canon S v) -> s_canon S v = v.
Proof.
  intros A md inp rest v Hb E Hd. pose proof (type_relay S A) as [R _]. destruct (decode_lawful _ _ md R _ _ _ E) as [_ Hc]. exact (Hc Hb Hd).
Qed.
Lemma read_again ms : read_instant (millis (read_instant ms)) = read_instant ms.
Proof.
  unfold read_instant at 2 3. destruct ((-1000 <? ms) && (ms <? 0)) eqn:A.
  - rewrite millis_instant. unfold read_instant. now replace ((-1000 <? - ms) && (- ms <? 0)) with false by lia;
      replace ((- ms <? 0) && (- ms mod 1000 =? 0)) with false by lia.
  - destruct ((ms <? 0) && (ms mod 1000 =? 0)) eqn:B.
    + replace (millis (MkDT (ms / 1000 - 1) 1000000000)) with ms.
      * unfold read_instant. now rewrite A, B.
      * unfold millis. cbn [dt_secs dt_nanos]. change (1000000000 / 1000000) with 1000. Z.to_euclidean_division_equations; lia.
    + rewrite millis_instant. unfold read_instant. now rewrite A, B.
Qed.
Lemma millis_range ms : - 2 ^ 63 <= ms < 2 ^ 63 -> - 2 ^ 63 <= millis (read_instant ms) < 2 ^ 63.
Proof.
  intros H. unfold read_instant. destruct ((-1000 <? ms) && (ms <? 0)) eqn:A; [rewrite millis_instant; lia|].
  destruct ((ms <? 0) && (ms mod 1000 =? 0)) eqn:B; [|now rewrite millis_instant].
  unfold millis. cbn [dt_secs dt_nanos]. change (1000000000 / 1000000) with 1000. Z.to_euclidean_division_equations; lia.
Qed.
Lemma timestamp_resend md md' inp rest t rest' : bytes_ok inp -> decode datetime_dec md inp = Ok (rest, t) ->
  decode datetime_dec md' (s_bytes datetime_S t ++ rest') = Ok (rest', t).
Proof.
  intros Hb E. destruct (proj1 (language_exact _ _ la_timestamp md inp rest t Hb) E) as (bs & -> & ms & R & -> & -> & C).
  apply (language_all _ _ la_timestamp md'). exists (millis (read_instant ms)). split; [now apply millis_range|].
  split; [|split; [symmetry; apply read_again|exact C]].
  apply datetime_emits.
Qed.
