(** The composite types, the unions and the sections meet their specifications. *)

From Coq Require Import String.
From Verif Require Import Definitions BaseFacts Utf8Spec Utf8Facts Valid Wire PrimFacts DecLaws EncLaws VariantFacts TypeSpec TypeFacts
  CompositeSpec.
From Coq Require Import ZifyBool.
Ltac Zify.zify_post_hook ::= Z.div_mod_to_equations.
Open Scope string_scope.
Open Scope list_scope.
Open Scope Z_scope.

(** ** Generic encoder and decoder of a field table *)
Fixpoint dec_fields {R} (F : fields R) (md : mode) : field_state -> res (field_state * R) :=
  match F in fields R return field_state -> res (field_state * R) with
  | FNil => fun s => Ok (s, tt)
  | FReq name t r => fun s =>
      '(s1, x) <- req_field name (s_codec t) md s ;; '(s2, a) <- dec_fields r md s1 ;; Ok (s2, (x, a))
  | FOpt _ t r => fun s =>
      '(s1, x) <- opt_field (s_codec t) md s ;; '(s2, a) <- dec_fields r md s1 ;; Ok (s2, (x, a))
  | FDef _ t dflt r => fun s =>
      '(s1, x) <- def_field (s_codec t) dflt md s ;; '(s2, a) <- dec_fields r md s1 ;; Ok (s2, (x, a))
  end.
(** the same with the rest of the computation as an argument, in the shape of the transcribed decoders *)
Fixpoint dec_fields_k {R} (F : fields R) {X} (md : mode) : field_state -> (R -> res X) -> res X :=
  match F in fields R return field_state -> (R -> res X) -> res X with
  | FNil => fun s k => k tt
  | FReq name t r => fun s k => '(s1, x) <- req_field name (s_codec t) md s ;; dec_fields_k r md s1 (fun a => k (x, a))
  | FOpt _ t r => fun s k => '(s1, x) <- opt_field (s_codec t) md s ;; dec_fields_k r md s1 (fun a => k (x, a))
  | FDef _ t dflt r => fun s k => '(s1, x) <- def_field (s_codec t) dflt md s ;; dec_fields_k r md s1 (fun a => k (x, a))
  end.
Lemma bind_assoc {A B C} (x : res A) (f : A -> res B) (g : B -> res C) : bind (bind x f) g = bind x (fun a => bind (f a) g).
Proof. destruct x; reflexivity. Qed.
Lemma bind_ext {A B} (x : res A) (f g : A -> res B) : (forall a, f a = g a) -> bind x f = bind x g.
Proof. intros H. destruct x; cbn [bind]; auto. Qed.
Lemma dec_fields_k_eq {R} (F : fields R) {X} md s (k : R -> res X) :
  dec_fields_k F md s k = ('(_, a) <- dec_fields F md s ;; k a).
Proof.
  revert s X k. induction F as [|T R name t r IH|T R name t r IH|T R name t dflt r IH]; intros s X k; [reflexivity| | |];
    cbn [dec_fields dec_fields_k]; rewrite bind_assoc; apply bind_ext; intros [s1 x]; rewrite IH, bind_assoc; apply bind_ext;
    intros [s2 a]; reflexivity.
Qed.

Fixpoint size_fields {R} (F : fields R) : Z -> R -> Z :=
  match F in fields R return Z -> R -> Z with
  | FNil => fun acc _ => acc
  | FReq _ t r => fun acc a => size_fields r (acc + s_size t (fst a)) (snd a)
  | FOpt _ t r => fun acc a => size_fields r (acc + s_size (option_S t) (fst a)) (snd a)
  | FDef _ t _ r => fun acc a => size_fields r (acc + s_size t (fst a)) (snd a)
  end.
Fixpoint enc_fields {R} (F : fields R) : R -> list wop :=
  match F in fields R return R -> list wop with
  | FNil => fun _ => []
  | FReq _ t r => fun a => e_enc (c_E (s_codec t)) (fst a) ++ enc_fields r (snd a)
  | FOpt _ t r => fun a => e_enc (c_E (s_codec (option_S t))) (fst a) ++ enc_fields r (snd a)
  | FDef _ t _ r => fun a => e_enc (c_E (s_codec t)) (fst a) ++ enc_fields r (snd a)
  end.
Fixpoint field_bytes {R} (F : fields R) : R -> list bytes :=
  match F in fields R return R -> list bytes with
  | FNil => fun _ => []
  | FReq _ t r => fun a => s_bytes t (fst a) :: field_bytes r (snd a)
  | FOpt _ t r => fun a => s_bytes (option_S t) (fst a) :: field_bytes r (snd a)
  | FDef _ t _ r => fun a => s_bytes t (fst a) :: field_bytes r (snd a)
  end.

Fixpoint good_fields {R} (F : fields R) : Prop :=
  match F with
  | FNil => True
  | FReq _ t r => good t /\ good_fields r
  | FOpt _ t r => (good t /\ ~ In 0x40 (s_codes t)) /\ good_fields r
  | FDef _ t dflt r => (good t /\ ~ In 0x40 (s_codes t) /\ s_valid t dflt) /\ good_fields r
  end.

Lemma size_fields_acc {R} (F : fields R) acc a : size_fields F acc a = acc + size_fields F 0 a.
Proof.
  revert acc a. induction F as [|T R name t r IH|T R name t r IH|T R name t dflt r IH]; intros acc a; cbn [size_fields]; [lia| | |];
    rewrite (IH (acc + _)), (IH (0 + _)); lia.
Qed.
Lemma fields_fits {R} (F : fields R) a : good_fields F -> each_field (@s_valid) F a ->
  enc_fits (size_fields F 0 a) (enc_fields F a) /\ 0 <= size_fields F 0 a.
Proof.
  revert a. induction F as [|T R name t r IH|T R name t r IH|T R name t dflt r IH]; intros a G H; cbn [size_fields enc_fields each_field good_fields] in *.
  - split; [apply fits_nil|lia].
  - destruct G as [G1 G2], H as [H1 H2]. destruct (IH _ G2 H2) as [I1 I2]. destruct (g_enc t G1 _ H1) as [E1 E2].
    rewrite size_fields_acc. unfold s_size. split; [now apply fits_app|lia].
  - destruct G as [[G1 Gn] G2], H as [H1 H2]. destruct (IH _ G2 H2) as [I1 I2].
    destruct (g_enc _ (option_good t G1 Gn) _ H1) as [E1 E2].
    rewrite size_fields_acc. unfold s_size. split; [now apply fits_app|lia].
  - destruct G as [(G1 & _ & _) G2], H as [H1 H2]. destruct (IH _ G2 H2) as [I1 I2]. destruct (g_enc t G1 _ H1) as [E1 E2].
    rewrite size_fields_acc. unfold s_size. split; [now apply fits_app|lia].
Qed.
Lemma fields_count_size {R} (F : fields R) a : good_fields F -> each_field (@s_valid) F a -> field_count F <= size_fields F 0 a.
Proof.
  revert a. induction F as [|T R name t r IH|T R name t r IH|T R name t dflt r IH]; intros a G H;
    cbn [size_fields field_count each_field good_fields] in *; [lia| | |]; rewrite size_fields_acc.
  - destruct G as [G1 G2], H as [H1 H2]. specialize (IH _ G2 H2). destruct (g_enc t G1 _ H1) as [_ E2]. unfold s_size. lia.
  - destruct G as [[G1 Gn] G2], H as [H1 H2]. specialize (IH _ G2 H2).
    destruct (g_enc _ (option_good t G1 Gn) _ H1) as [_ E2]. unfold s_size. lia.
  - destruct G as [(G1 & _ & _) G2], H as [H1 H2]. specialize (IH _ G2 H2). destruct (g_enc t G1 _ H1) as [_ E2]. unfold s_size. lia.
Qed.
Lemma fields_bytes_concat {R} (F : fields R) a : wbytes (enc_fields F a) = concat (field_bytes F a).
Proof.
  revert a. induction F as [|T R name t r IH|T R name t r IH|T R name t dflt r IH]; intros a; cbn [enc_fields field_bytes concat]; [reflexivity| | |];
    now rewrite wbytes_app, IH.
Qed.
Lemma field_bytes_count {R} (F : fields R) a : zlen (field_bytes F a) = field_count F.
Proof.
  revert a. induction F as [|T R name t r IH|T R name t r IH|T R name t dflt r IH]; intros a; cbn [field_count field_bytes]; [reflexivity| | |];
    now rewrite zlen_cons, IH.
Qed.
Lemma field_count_nonneg {R} (F : fields R) : 0 <= field_count F.
Proof. induction F; cbn [field_count]; lia. Qed.
(** What the encoder writes for the fields. *)
Lemma fields_emits {R} (F : fields R) a : good_fields F -> each_field (@s_valid) F a -> each_field (@s_encodable) F a ->
  size_fields F 0 a < 2 ^ 32 -> wire_fields F (canon_fields F a) (field_bytes F a).
Proof.
  revert a. induction F as [|T R name t r IH|T R name t r IH|T R name t dflt r IH]; intros a G H He Hs;
    cbn [each_field good_fields size_fields wire_fields canon_fields field_bytes fst snd] in *; [reflexivity| | |].
  - destruct G as [G1 G2], H as [H1 H2], He as [He1 He2]. destruct (fields_fits r _ G2 H2) as [_ I2].
    destruct (g_enc t G1 _ H1) as [_ E2]. fold (s_size t (fst a)) in E2. rewrite size_fields_acc in Hs.
    split; [apply (g_emits t G1); auto; lia|apply IH; auto; lia].
  - destruct G as [[G1 Gn] G2], H as [H1 H2], He as [He1 He2]. destruct (fields_fits r _ G2 H2) as [_ I2].
    pose proof (option_good t G1 Gn) as GO. destruct (g_enc _ GO _ H1) as [_ E2]. fold (s_size (option_S t) (fst a)) in E2.
    rewrite size_fields_acc in Hs.
    split; [|apply IH; auto; lia]. apply (g_emits _ GO); auto; lia.
  - destruct G as [(G1 & _ & _) G2], H as [H1 H2], He as [He1 He2]. destruct (fields_fits r _ G2 H2) as [_ I2].
    destruct (g_enc t G1 _ H1) as [_ E2]. fold (s_size t (fst a)) in E2. rewrite size_fields_acc in Hs.
    split; [left; apply (g_emits t G1); auto; lia|apply IH; auto; lia].
Qed.

(** *** Decoding the fields *)
Lemma req_field_more {T} name (C : codec T) md b n : 0 < n ->
  req_field name C md (b, n) = ('(in1, x) <- decode (c_D C) md b ;; Ok ((in1, n - 1), x)).
Proof. intros H. unfold req_field. destruct (Z.ltb_spec 0 n); [reflexivity|lia]. Qed.
Lemma opt_field_more {T} (C : codec T) md b n : 0 < n ->
  opt_field C md (b, n) = ('(in1, x) <- decode (option_dec (c_D C)) md b ;; Ok ((in1, n - 1), x)).
Proof. intros H. unfold opt_field. destruct (Z.ltb_spec 0 n); [reflexivity|lia]. Qed.
Lemma def_field_more {T} (C : codec T) dflt md b n : 0 < n ->
  def_field C dflt md (b, n) = ('(in1, x) <- decode (option_dec (c_D C)) md b ;;
    Ok ((in1, n - 1), match x with Some y => y | None => dflt end)).
Proof. intros H. unfold def_field. destruct (Z.ltb_spec 0 n); [reflexivity|lia]. Qed.
Lemma decode_option {T} (t : tspec T) md o e rest : good t -> ~ In 0x40 (s_codes t) ->
  s_wire (option_S t) o e -> opt_prop (s_decodable t) o -> decode (option_dec (c_D (s_codec t))) md (e ++ rest) = Ok (rest, o).
Proof. intros G Gn W D. exact (g_accepts _ (option_good t G Gn) md o e W D rest). Qed.

(** [encs] are the encodings present, [n] the number of elements announced; when there are more elements than fields, all
    the fields must be present. *)
Lemma fields_accepts {R} (F : fields R) md a encs junk n :
  good_fields F -> wire_fields F a encs -> each_field (@s_decodable) F a ->
  n = zlen encs \/ (zlen encs = field_count F /\ zlen encs <= n) ->
  dec_fields F md (concat encs ++ junk, n) = Ok ((junk, n - zlen encs), a).
Proof.
  revert a encs n. induction F as [|T R name t r IH|T R name t r IH|T R name t dflt r IH]; intros a encs n G W D Hn;
    cbn [wire_fields each_field good_fields dec_fields field_count] in *; unfold bytes, field_state in *.
  - subst encs. cbn [concat app]. rewrite zlen_nil, Z.sub_0_r. now destruct a.
  - destruct encs as [|e rest]; [contradiction|]. destruct W as [W1 W2], G as [G1 G2], D as [D1 D2].
    rewrite zlen_cons in *. pose proof (zlen_nonneg rest). rewrite req_field_more by lia.
    cbn [concat]. rewrite <- app_assoc. rewrite (g_accepts t G1 md _ _ W1 D1). cbn [bind].
    etransitivity; [apply (bind_eq _ _ _ (IH _ _ (n - 1) G2 W2 D2 ltac:(lia)))|]; cbn beta iota. rewrite <- surjective_pairing. do 3 f_equal. lia.
  - destruct G as [[G1 Gn] G2], D as [D1 D2]. destruct encs as [|e rest].
    + destruct W as [W1 W2]. rewrite zlen_nil in *. pose proof (field_count_nonneg r).
      assert (n = 0) as -> by lia. unfold opt_field. cbn [Z.ltb Z.compare concat app bind].
      etransitivity; [apply (bind_eq _ _ _ (IH _ [] 0 G2 W2 D2 (or_introl eq_refl)))|]; cbn beta iota. rewrite <- W1, <- surjective_pairing. reflexivity.
    + destruct W as [W1 W2]. rewrite zlen_cons in *. pose proof (zlen_nonneg rest). rewrite opt_field_more by lia.
      cbn [concat]. rewrite <- app_assoc. rewrite (decode_option t md (fst a) e); auto. cbn [bind].
      etransitivity; [apply (bind_eq _ _ _ (IH _ _ (n - 1) G2 W2 D2 ltac:(lia)))|]; cbn beta iota. rewrite <- surjective_pairing. do 3 f_equal. lia.
  - destruct G as [(G1 & Gn & _) G2], D as [D1 D2]. destruct encs as [|e rest].
    + destruct W as [W1 W2]. rewrite zlen_nil in *. pose proof (field_count_nonneg r).
      assert (n = 0) as -> by lia. unfold def_field. cbn [Z.ltb Z.compare concat app bind].
      etransitivity; [apply (bind_eq _ _ _ (IH _ [] 0 G2 W2 D2 (or_introl eq_refl)))|]; cbn beta iota. rewrite <- W1, <- surjective_pairing. reflexivity.
    + destruct W as [W1 W2]. rewrite zlen_cons in *. pose proof (zlen_nonneg rest). rewrite def_field_more by lia.
      cbn [concat]. rewrite <- app_assoc.
      assert (exists o, s_wire (option_S t) o e /\ opt_prop (s_decodable t) o /\ fst a = match o with Some y => y | None => dflt end)
        as (o & Wo & Do & Eo).
      { destruct W1 as [W1|[W1 ->]]; [exists (Some (fst a))|exists None]; auto. repeat split; auto. }
      rewrite (decode_option t md o e); auto. cbn [bind]. rewrite <- Eo.
      etransitivity; [apply (bind_eq _ _ _ (IH _ _ (n - 1) G2 W2 D2 ltac:(lia)))|]; cbn beta iota. rewrite <- surjective_pairing. do 3 f_equal. lia.
Qed.
Lemma bind_err {A B} (x : res A) e (f : A -> res B) : x = Err e -> bind x f = Err e.
Proof. now intros ->. Qed.
Lemma fields_missing {R} (F : fields R) md encs junk missing :
  good_fields F -> field_missing F encs missing ->
  dec_fields F md (concat encs ++ junk, zlen encs) = Err (ERequiredFieldOmitted missing).
Proof.
  revert encs. induction F as [|T R name t r IH|T R name t r IH|T R name t dflt r IH]; intros encs G M;
    cbn [field_missing good_fields dec_fields] in *; [contradiction| | |]; unfold bytes, field_state in *; destruct encs as [|e rest].
  - subst missing. reflexivity.
  - destruct M as [(x & Wx & Dx) M], G as [G1 G2]. rewrite zlen_cons. pose proof (zlen_nonneg rest).
    rewrite req_field_more by lia. cbn [concat]. rewrite <- app_assoc, (g_accepts t G1 md _ _ Wx Dx). cbn [bind].
    replace (1 + zlen rest - 1) with (zlen rest) by lia. exact (bind_err _ _ _ (IH _ G2 M)).
  - destruct G as [_ G2]. rewrite zlen_nil. unfold opt_field. cbn [Z.ltb Z.compare concat app bind].
    exact (bind_err _ _ _ (IH [] G2 M)).
  - destruct M as [M1 M], G as [[G1 Gn] G2]. rewrite zlen_cons. pose proof (zlen_nonneg rest).
    rewrite opt_field_more by lia. cbn [concat]. rewrite <- app_assoc.
    assert (exists o, s_wire (option_S t) o e /\ opt_prop (s_decodable t) o) as (o & Wo & Do).
    { destruct M1 as [->|(x & Wx & Dx)]; [exists None|exists (Some x)]; now split. }
    rewrite (decode_option t md o e); auto. cbn [bind].
    replace (1 + zlen rest - 1) with (zlen rest) by lia. exact (bind_err _ _ _ (IH _ G2 M)).
  - destruct G as [_ G2]. rewrite zlen_nil. unfold def_field. cbn [Z.ltb Z.compare concat app bind].
    exact (bind_err _ _ _ (IH [] G2 M)).
  - destruct M as [M1 M], G as [(G1 & Gn & _) G2]. rewrite zlen_cons. pose proof (zlen_nonneg rest).
    rewrite def_field_more by lia. cbn [concat]. rewrite <- app_assoc.
    assert (exists o, s_wire (option_S t) o e /\ opt_prop (s_decodable t) o) as (o & Wo & Do).
    { destruct M1 as [->|(x & Wx & Dx)]; [exists None|exists (Some x)]; now split. }
    rewrite (decode_option t md o e); auto. cbn [bind].
    replace (1 + zlen rest - 1) with (zlen rest) by lia. exact (bind_err _ _ _ (IH _ G2 M)).
Qed.

Lemma req_field_ok {T} name (t : tspec T) md s s' x : good t -> bytes_ok (fst s) ->
  req_field name (s_codec t) md s = Ok (s', x) -> bytes_ok (fst s') /\ s_valid t x.
Proof.
  intros G Hb E. destruct s as [b n]. unfold req_field in E. destruct (0 <? n); [|discriminate].
  apply bind_ok in E as [[i y] [E1 E2]]. injection E2 as <- <-. cbn [fst] in *.
  pose proof (decode_lawful _ _ md (g_dec t G)) as L. split; [exact (lawful_bytes_ok _ _ _ _ _ L E1 Hb)|].
  destruct (L _ _ _ E1) as [_ H]. auto.
Qed.
Lemma opt_field_ok {T} (t : tspec T) md s s' x : good t -> ~ In 0x40 (s_codes t) -> bytes_ok (fst s) ->
  opt_field (s_codec t) md s = Ok (s', x) -> bytes_ok (fst s') /\ opt_prop (s_valid t) x.
Proof.
  intros G Gn Hb E. destruct s as [b n]. unfold opt_field in E. destruct (0 <? n).
  - apply bind_ok in E as [[i y] [E1 E2]]. injection E2 as <- <-. cbn [fst] in *.
    pose proof (decode_lawful _ _ md (g_dec _ (option_good t G Gn))) as L. split; [exact (lawful_bytes_ok _ _ _ _ _ L E1 Hb)|].
    destruct (L _ _ _ E1) as [_ H]. exact (H Hb).
  - injection E as <- <-. split; [exact Hb|exact I].
Qed.
Lemma def_field_ok {T} (t : tspec T) dflt md s s' x : good t -> ~ In 0x40 (s_codes t) -> s_valid t dflt -> bytes_ok (fst s) ->
  def_field (s_codec t) dflt md s = Ok (s', x) -> bytes_ok (fst s') /\ s_valid t x.
Proof.
  intros G Gn Hd Hb E. destruct s as [b n]. unfold def_field in E. destruct (0 <? n).
  - apply bind_ok in E as [[i y] [E1 E2]]. injection E2 as <- <-. cbn [fst] in *.
    pose proof (decode_lawful _ _ md (g_dec _ (option_good t G Gn))) as L. split; [exact (lawful_bytes_ok _ _ _ _ _ L E1 Hb)|].
    destruct (L _ _ _ E1) as [_ H]. specialize (H Hb). destruct y; [exact H|exact Hd].
  - injection E as <- <-. now split.
Qed.
Lemma fields_ok {R} (F : fields R) md s s' a : good_fields F -> bytes_ok (fst s) ->
  dec_fields F md s = Ok (s', a) -> each_field (@s_valid) F a.
Proof.
  revert s s' a. induction F as [|T R name t r IH|T R name t r IH|T R name t dflt r IH]; intros s s' a G Hb E;
    cbn [good_fields dec_fields each_field] in *; [exact I| | |];
    apply bind_ok in E as [[s1 x] [E1 E2]]; apply bind_ok in E2 as [[s2 b] [E2 E3]]; injection E3 as <- <-; cbn [fst snd].
  - destruct G as [G1 G2]. apply req_field_ok in E1 as [Hb1 Hx]; auto. split; [exact Hx|]. eapply IH; eauto.
  - destruct G as [[G1 Gn] G2]. apply opt_field_ok in E1 as [Hb1 Hx]; auto. split; [exact Hx|]. eapply IH; eauto.
  - destruct G as [(G1 & Gn & Gd) G2]. apply def_field_ok in E1 as [Hb1 Hx]; auto. split; [exact Hx|]. eapply IH; eauto.
Qed.
Lemma fields_total {R} (F : fields R) md s : good_fields F -> dec_fields F md s <> Oof.
Proof.
  revert s. induction F as [|T R name t r IH|T R name t r IH|T R name t dflt r IH]; intros [b n] G E;
    cbn [good_fields dec_fields] in *; [discriminate| | |].
  - destruct G as [G1 G2]. apply bind_oof in E as [E|([s1 x] & E1 & E)].
    + unfold req_field in E. destruct (0 <? n); [|discriminate].
      apply bind_oof in E as [E|([i y] & _ & E)]; [|discriminate]. apply decode_total in E; [easy|apply (g_total t G1)].
    + apply bind_oof in E as [E|([s2 a] & _ & E)]; [|discriminate]. now apply IH in E.
  - destruct G as [[G1 Gn] G2]. pose proof (g_total _ (option_good t G1 Gn)) as TO. apply bind_oof in E as [E|([s1 x] & E1 & E)].
    + unfold opt_field in E. destruct (0 <? n); [|discriminate].
      apply bind_oof in E as [E|([i y] & _ & E)]; [|discriminate]. apply decode_total in E; [easy|exact TO].
    + apply bind_oof in E as [E|([s2 a] & _ & E)]; [|discriminate]. now apply IH in E.
  - destruct G as [(G1 & Gn & _) G2]. pose proof (g_total _ (option_good t G1 Gn)) as TO. apply bind_oof in E as [E|([s1 x] & E1 & E)].
    + unfold def_field in E. destruct (0 <? n); [|discriminate].
      apply bind_oof in E as [E|([i y] & _ & E)]; [|discriminate]. apply decode_total in E; [easy|exact TO].
    + apply bind_oof in E as [E|([s2 a] & _ & E)]; [|discriminate]. now apply IH in E.
Qed.

(** *** The list around them *)
Lemma open_list_accepts md n content bs rest : wire_list n content bs -> open_list md (bs ++ rest) = Ok ((content, n), rest).
Proof.
  pose proof (zlen_nonneg content) as Hc; pose proof (zlen_nonneg rest) as Hr.
  intros [-> ->|Hn Hl|Hn Hl]; unfold open_list, decode_format_code.
  - cbn [app]. rewrite read_u8_cons. cbn [bind decode_list_header FC_LIST0 Z.eqb Pos.eqb ch_size ch_count].
    rewrite check_len_true by lia. cbn [bind]. now rewrite ztake_0, zdrop_0.
  - cbn [app]. rewrite read_u8_cons. cbn [bind]. unfold decode_list_header. cbn [FC_LIST0 FC_LIST8 Z.eqb Pos.eqb].
    rewrite compound8_read by lia. cbn [bind ch_size ch_count]. replace (zlen content + 1 - 1) with (zlen content) by lia.
    rewrite check_len_true by (rewrite zlen_app; lia). cbn [bind]. now rewrite ztake_app, zdrop_app.
  - cbn [app]. rewrite read_u8_cons. cbn [bind]. unfold decode_list_header. cbn [FC_LIST0 FC_LIST8 FC_LIST32 Z.eqb Pos.eqb].
    rewrite <- !app_assoc. rewrite compound32_read by lia. cbn [bind ch_size ch_count].
    replace (zlen content + 4 - 4) with (zlen content) by lia.
    rewrite check_len_true by (rewrite zlen_app; lia). cbn [bind]. now rewrite ztake_app, zdrop_app.
Qed.
Lemma check_slice_lawful {T} (P : T -> Prop) n (f : bytes -> res T) :
  (forall b x, bytes_ok b -> f b = Ok x -> P x) ->
  lawful P (fun inp => _ <- check_len inp n ;; x <- f (ztake n inp) ;; Ok (zdrop n inp, x)).
Proof.
  intros H inp rest v E. pose proof (slice_lawful P n f H inp rest v) as L. cbn beta in *.
  apply bind_ok in E as [u [E1 E2]]. apply check_len_ok in E1. unfold slice_to in L.
  destruct (Z.ltb_spec (zlen inp) n) as [C|C]; [lia|]. cbn [bind] in L. destruct (L E2) as [(p & -> & Hp) HP].
  split; [|exact HP]. exists p. split; [reflexivity|]. intros ex. specialize (Hp ex).
  destruct (Z.ltb_spec (zlen (p ++ ex)) n) as [C'|C']; [discriminate|]. rewrite check_len_true by easy. exact Hp.
Qed.
Lemma open_list_lawful {T} (P : T -> Prop) md (f : field_state -> res T) :
  (forall s x, bytes_ok (fst s) -> f s = Ok x -> P x) ->
  lawful P (fun inp => '(s, rem) <- open_list md inp ;; x <- f s ;; Ok (rem, x)).
Proof.
  intros H. eapply lawful_ext; [|
    apply (lawful_bind' byte_ok P read_u8 (fun fmt i => '(i2, h) <- decode_list_header md i fmt ;;
      _ <- check_len i2 (ch_size h) ;; x <- f (ztake (ch_size h) i2, ch_count h) ;; Ok (zdrop (ch_size h) i2, x))); [apply read_u8_lawful|]].
  - intros inp. cbn beta. unfold open_list, decode_format_code. rewrite bind_assoc. apply bind_ext. intros [i fmt].
    rewrite bind_assoc. apply bind_ext. intros [i2 h]. rewrite bind_assoc. reflexivity.
  - intros fmt. apply (lawful_bind' header_ok P (fun i => decode_list_header md i fmt)
      (fun h i2 => _ <- check_len i2 (ch_size h) ;; x <- f (ztake (ch_size h) i2, ch_count h) ;; Ok (zdrop (ch_size h) i2, x)));
      [apply list_header_lawful|]. intros h.
    apply (check_slice_lawful P (ch_size h) (fun b => f (b, ch_count h))). intros b x Hb. now apply H.
Qed.
Lemma open_list_total md inp : open_list md inp <> Oof.
Proof.
  intros E. unfold open_list in E. apply bind_oof in E as [E|([i fmt] & _ & E)]; [now apply read_u8_oof in E|].
  apply bind_oof in E as [E|([i2 h] & _ & E)]; [now apply list_header_total in E|].
  apply bind_oof in E as [E|(u & _ & E)]; [now apply check_len_oof in E|discriminate].
Qed.

(** ** Described types *)
Record good_D {T} (D : dspec T) : Prop := MkGoodD {
  gd_code : 1 <= d_code D < 256;
  gd_enc : enc_lawful (d_valid D) (d_E D);
  gd_lawful : forall md, lawful (d_valid D) (d_inner D md);
  gd_total : forall md inp, d_inner D md inp <> Oof;
  gd_emits : forall v, d_valid D v -> d_encodable D v -> e_size (d_E D) v < 2 ^ 32 ->
    exists body, wbytes (e_enc (d_E D) v) = 0x00 :: 0x53 :: d_code D :: body /\ d_body D (d_canon D v) body;
  gd_accepts : forall md v bs rest, d_body D v bs -> d_decodable D v -> d_inner D md (bs ++ rest) = Ok (rest, v)
}.

Definition labels {T} (D : dspec T) (d : descriptor) : Prop :=
  match d with
  | DUlong c => c = d_code D
  | DSymbol s => str_bytes s = s2b (d_name D)
  end.
Lemma label_decodes {T} (D : dspec T) md label : 1 <= d_code D < 256 -> wire_label (d_code D) (d_name D) label ->
  exists d, decodes md descriptor_dec label d /\ labels D d.
Proof.
  intros Hc [W|W].
  - exists (DUlong (d_code D)). split; [|reflexivity]. apply descriptor_accepts; [intros [= E]; lia|now constructor].
  - exists (DSymbol (SByteStr (s2b (d_name D)))). split; [|reflexivity]. apply descriptor_accepts; [discriminate|now constructor].
Qed.
Lemma emitted_described {T} (D : dspec T) v : good_D D -> d_valid D v -> d_encodable D v -> e_size (d_E D) v < 2 ^ 32 ->
  wire_described D (d_canon D v) (wbytes (e_enc (d_E D) v)).
Proof.
  intros G H He Hs. destruct (gd_emits D G v H He Hs) as (body & E & W). pose proof (gd_code D G).
  exists [0x53; d_code D], body. split; [left; constructor; lia|]. split; [exact W|exact E].
Qed.

Definition matches (code : Z) (name : string) (d : descriptor) : bool :=
  match d with
  | DUlong val => val =? code
  | DSymbol sym => bytes_eqb (str_bytes sym) (s2b name)
  end.
Lemma matches_labels {T} (D : dspec T) d : matches (d_code D) (d_name D) d = true <-> labels D d.
Proof. destruct d; cbn [matches labels]; [apply Z.eqb_eq|apply bytes_eqb_eq]. Qed.

Lemma described_good {T} (C : codec T) (D : dspec T) : good_D D -> c_E C = d_E D ->
  c_D C = composite_dec (d_code D) (d_name D) (d_inner D) -> good (described_S C D).
Proof.
  intros G HE HD. constructor.
  - cbn [s_valid s_codec described_S]. rewrite HE. apply (gd_enc D G).
  - unfold s_dec. cbn [s_valid s_codec described_S]. rewrite HD. intros md fmt. unfold composite_dec.
    apply lawful_guard. intros u _.
    apply (lawful_bind' descriptor_ok _ (decode descriptor_dec md)
      (fun d i => if matches (d_code D) (d_name D) d then d_inner D md i else Err (EInvalidDescriptor d))).
    + apply decode_lawful, descriptor_lawful.
    + intros d. apply lawful_if; [apply (gd_lawful D G)|apply lawful_err].
  - intros md inp fmt E. unfold s_dec in E. cbn [s_codec described_S] in E. rewrite HD in E. unfold composite_dec in E.
    apply bind_oof in E as [E|(u & _ & E)]; [unfold validate_code in E; destruct (_ =? _); discriminate|].
    apply bind_oof in E as [E|([i d] & _ & E)]; [now apply decode_total in E; [|apply descriptor_total]|].
    destruct (match d with DUlong _ => _ | _ => _ end); [now apply (gd_total D G) in E|discriminate].
  - intros v H He Hs. unfold s_size in Hs. cbn [s_codec described_S s_valid s_encodable s_wire s_canon] in *. unfold s_bytes.
    cbn [s_codec described_S]. rewrite HE in *. now apply emitted_described.
  - intros md v bs (label & body & W & B & ->) Hd. apply decodes_cons. intros rest. unfold s_dec. cbn [s_codec described_S].
    rewrite HD. unfold composite_dec. cbn [validate_code FC_DESCRIBED Z.eqb bind]. rewrite <- app_assoc.
    destruct (label_decodes D md label (gd_code D G) W) as (d & Dd & L). rewrite Dd. cbn [bind].
    apply matches_labels in L. unfold matches in L. rewrite L. now apply (gd_accepts D G).
  - intros v bs (label & body & W & B & ->). eexists _, _. split; [reflexivity|now left].
  - intros md inp fmt H. unfold s_dec. cbn [s_codec described_S]. rewrite HD. unfold composite_dec.
    rewrite validate_reject; [reflexivity|]. intros ->. apply H. now left.
Qed.

(** ** Composite types *)
Record transcribed (K : composite) : Prop := MkTranscribed {
  tr_code : 1 <= k_code K < 256;
  tr_of_to : forall v, k_of K (k_to K v) = v;
  tr_to_of : forall a, k_to K (k_of K a) = a;
  tr_inner : forall md inp, k_inner K md inp =
    ('(s, rem) <- open_list md inp ;; dec_fields_k (k_fields K) md s (fun a => Ok (rem, k_of K a)));
  tr_dec : c_D (k_codec K) = composite_dec (k_code K) (k_name K) (k_inner K);
  tr_size : forall v, e_size (c_E (k_codec K)) v = composite_size (size_fields (k_fields K) 0 (k_to K v));
  tr_enc : forall v, e_enc (c_E (k_codec K)) v =
    composite_header (k_code K) (field_count (k_fields K)) (size_fields (k_fields K) 0 (k_to K v))
    ++ enc_fields (k_fields K) (k_to K v);
  tr_count : field_count (k_fields K) < 2 ^ 32
}.

Lemma composite_header_fits code n content : 1 <= code < 256 ->
  enc_fits (composite_size content - content) (composite_header code n content).
Proof.
  intros H. unfold composite_size, composite_header, descriptor_enc, u64_enc.
  destruct (Z.ltb_spec 255 code); [lia|]. destruct (Z.eqb_spec code 0); [lia|].
  destruct (255 <? content + 1); cbn [app].
  - eapply fits_eq; [|repeat apply fits_cons_u8; apply fits_cons; [apply fits_u32|apply fits_u32]]. lia.
  - eapply fits_eq; [|repeat apply fits_cons_u8; apply fits_nil]. lia.
Qed.
(** The bytes of a composite. *)
Definition list_bytes (n : Z) (content : bytes) : bytes :=
  if zlen content + 1 <=? 255 then 0xc0 :: zlen content + 1 :: n :: content
  else 0xd0 :: be4 (zlen content + 4) ++ be4 n ++ content.
Lemma list_bytes_wire n content : 0 <= n < 2 ^ 32 -> n <= zlen content -> zlen content + 4 < 2 ^ 32 -> wire_list n content (list_bytes n content).
Proof. intros Hn Hc Hl. unfold list_bytes. destruct (Z.leb_spec (zlen content + 1) 255); [apply WLI_8|apply WLI_32]; lia. Qed.
Lemma composite_header_bytes code n content rest : 1 <= code < 256 -> 0 <= n <= content ->
  wbytes (composite_header code n content) ++ rest =
  0x00 :: 0x53 :: code ::
    (if content + 1 <=? 255 then 0xc0 :: content + 1 :: n :: rest else 0xd0 :: be4 (content + 4) ++ be4 n ++ rest).
Proof.
  intros Hc Hn. unfold composite_header, descriptor_enc, u64_enc.
  destruct (Z.ltb_spec 255 code); [lia|]. destruct (Z.eqb_spec code 0); [lia|].
  destruct (Z.ltb_spec 255 (content + 1)), (Z.leb_spec (content + 1) 255); try lia; cbn [app]; wb.
  - rewrite (Z.mod_small code) by lia. rewrite <- app_assoc. reflexivity.
  - rewrite (Z.mod_small code), (Z.mod_small (content + 1)), (Z.mod_small n) by lia. reflexivity.
Qed.

Lemma composite_bytes K v : transcribed K -> good_fields (k_fields K) -> d_valid (composite_D K) v ->
  wbytes (e_enc (c_E (k_codec K)) v) =
  0x00 :: 0x53 :: k_code K :: list_bytes (field_count (k_fields K)) (concat (field_bytes (k_fields K) (k_to K v))).
Proof.
  intros Tr G H. rewrite (tr_enc K Tr), wbytes_app, fields_bytes_concat.
  destruct (fields_fits _ _ G H) as [[L _] L0]. rewrite fields_bytes_concat in L.
  pose proof (field_count_nonneg (k_fields K)). pose proof (fields_count_size _ _ G H).
  rewrite composite_header_bytes by (try lia; apply (tr_code K Tr)). unfold list_bytes. now rewrite L.
Qed.
Lemma composite_inner_eq K md inp : transcribed K ->
  k_inner K md inp = ('(s, rem) <- open_list md inp ;; x <- ('(_, a) <- dec_fields (k_fields K) md s ;; Ok (k_of K a)) ;; Ok (rem, x)).
Proof.
  intros Tr. rewrite (tr_inner K Tr). apply bind_ext. intros [s rem]. rewrite dec_fields_k_eq, bind_assoc.
  apply bind_ext. intros [s' a]. reflexivity.
Qed.

Lemma composite_inner_accepts K md v encs n junk bs rest : transcribed K -> good_fields (k_fields K) ->
  wire_fields (k_fields K) (k_to K v) encs -> each_field (@s_decodable) (k_fields K) (k_to K v) ->
  n = zlen encs \/ (zlen encs = field_count (k_fields K) /\ zlen encs <= n) ->
  wire_list n (concat encs ++ junk) bs -> k_inner K md (bs ++ rest) = Ok (rest, v).
Proof.
  intros Tr G W D Hn L. rewrite composite_inner_eq by easy. rewrite (open_list_accepts md _ _ _ rest L). cbn [bind].
  rewrite bind_assoc. etransitivity; [apply (bind_eq _ _ _ (fields_accepts _ md _ _ junk n G W D Hn))|].
  cbn beta iota. cbn [bind]. now rewrite (tr_of_to K Tr).
Qed.
Lemma composite_good_D K : transcribed K -> good_fields (k_fields K) -> good_D (composite_D K).
Proof.
  intros Tr G. constructor.
  - apply (tr_code K Tr).
  - intros v H. cbn [d_E composite_D d_valid] in *. rewrite (tr_size K Tr), (tr_enc K Tr).
    destruct (fields_fits _ _ G H) as [H1 H2].
    set (n := size_fields (k_fields K) 0 (k_to K v)) in *. split.
    + eapply fits_eq; [|apply fits_app; [apply composite_header_fits; apply (tr_code K Tr)|exact H1]]. lia.
    + unfold composite_size. destruct (255 <? n + 1); lia.
  - intros md. cbn [d_inner d_valid composite_D].
    eapply lawful_ext; [intros inp; symmetry; apply composite_inner_eq; exact Tr|]. apply open_list_lawful.
    intros s x Hb E. apply bind_ok in E as [[s' a] [E1 E2]]. injection E2 as <-. rewrite (tr_to_of K Tr).
    eapply fields_ok; eauto.
  - intros md inp E. cbn [d_inner composite_D] in E. rewrite composite_inner_eq in E by easy.
    apply bind_oof in E as [E|([s rem] & _ & E)]; [now apply open_list_total in E|].
    apply bind_oof in E as [E|(x & _ & E)]; [|discriminate].
    apply bind_oof in E as [E|([s' a] & _ & E)]; [now apply fields_total in E|discriminate].
  - intros v H He Hs. cbn [d_E d_code d_body d_canon d_encodable composite_D] in *.
    eexists. split; [now apply composite_bytes|].
    rewrite (tr_size K Tr) in Hs. destruct (fields_fits _ _ G H) as [[L _] L0].
    rewrite fields_bytes_concat in L. pose proof (field_count_nonneg (k_fields K)). pose proof (tr_count K Tr).
    set (n := size_fields (k_fields K) 0 (k_to K v)) in *.
    assert (n + 4 < 2 ^ 32) by (unfold composite_size in Hs; destruct (Z.ltb_spec 255 (n + 1)); lia).
    exists (field_bytes (k_fields K) (k_to K v)). rewrite (tr_to_of K Tr). split.
    + apply fields_emits; auto. lia.
    + pose proof (fields_count_size _ _ G H). rewrite field_bytes_count. apply list_bytes_wire; lia.
  - intros md v bs rest (encs & W & L) Hd. cbn [d_inner composite_D].
    apply (composite_inner_accepts K md v encs (zlen encs) []); auto. now rewrite app_nil_r.
Qed.
Lemma composite_good K : transcribed K -> good_fields (k_fields K) -> good (composite_S K).
Proof.
  intros Tr G. apply described_good; [now apply composite_good_D|reflexivity|]. cbn [d_code d_name d_inner composite_D].
  apply (tr_dec K Tr).
Qed.

(** ** Unions *)
Fixpoint union_select {T} (alts : list (alternative T)) (md : mode) (d : descriptor) (inp : bytes) : res (bytes * T) :=
  match alts with
  | [] => Err (EInvalidDescriptor d)
  | a :: r => if matches (d_code (a_D a)) (d_name (a_D a)) d then map_res (a_inj a) (d_inner (a_D a) md inp)
              else union_select r md d inp
  end.
Record alts_ok {T} (alts : list (alternative T)) : Prop := MkAltsOk {
  ao_codes : NoDup (map (fun a => d_code (a_D a)) alts);
  ao_names : NoDup (map (fun a => s2b (d_name (a_D a))) alts);
  ao_prj : Forall (fun a => forall v x, a_prj a v = Some x <-> v = a_inj a x) alts;
  ao_disjoint : ForallOrdPairs (fun a b => forall x, a_prj a (a_inj b x) = None) alts
}.
Lemma the_alternative_elim {T} (P : forall X, dspec X -> X -> Prop) (alts : list (alternative T)) v :
  the_alternative P alts v -> exists a x, In a alts /\ a_prj a v = Some x /\ P _ (a_D a) x.
Proof.
  induction alts as [|a r IH]; cbn [the_alternative]; [easy|]. destruct (a_prj a v) as [x|] eqn:E.
  - intros H. exists a, x. repeat split; auto. now left.
  - intros H. destruct (IH H) as (b & x & Hb & Hx & HP). exists b, x. repeat split; auto. now right.
Qed.
Lemma the_alternative_intro {T} (P : forall X, dspec X -> X -> Prop) (alts : list (alternative T)) a x :
  alts_ok alts -> In a alts -> P _ (a_D a) x -> the_alternative P alts (a_inj a x).
Proof.
  intros [_ _ Hp Hd]. induction alts as [|b r IH]; intros Hin HP; [easy|].
  inversion Hp as [|b' r' Hp1 Hp2]; subst. inversion Hd as [|b' r' Hd1 Hd2]; subst. cbn [the_alternative]. destruct Hin as [->|Hin].
  - assert (a_prj a (a_inj a x) = Some x) as -> by now apply Hp1. exact HP.
  - rewrite Forall_forall in Hd1. rewrite (Hd1 _ Hin). now apply IH.
Qed.
Lemma select_label {T} (alts : list (alternative T)) md d inp a :
  NoDup (map (fun a => d_code (a_D a)) alts) -> NoDup (map (fun a => s2b (d_name (a_D a))) alts) ->
  In a alts -> labels (a_D a) d -> union_select alts md d inp = map_res (a_inj a) (d_inner (a_D a) md inp).
Proof.
  induction alts as [|b r IH]; intros H1 H2 Hin L; [easy|]. cbn [map union_select] in *.
  inversion H1 as [|x l N1 H1']; subst. inversion H2 as [|x l N2 H2']; subst. destruct Hin as [->|Hin].
  - apply matches_labels in L. now rewrite L.
  - destruct (matches (d_code (a_D b)) (d_name (a_D b)) d) eqn:E; [|now apply IH]. exfalso. apply matches_labels in E.
    destruct d; cbn [labels] in *.
    + apply N1. rewrite <- E, L. now apply (in_map (fun a => d_code (a_D a))).
    + apply N2. rewrite <- E, L. now apply (in_map (fun a => s2b (d_name (a_D a)))).
Qed.
Lemma select_none {T} (alts : list (alternative T)) md d inp :
  Forall (fun a => ~ labels (a_D a) d) alts -> union_select alts md d inp = Err (EInvalidDescriptor d).
Proof.
  induction 1 as [|a r Ha Hr IH]; [reflexivity|]. cbn [union_select].
  destruct (matches (d_code (a_D a)) (d_name (a_D a)) d) eqn:E; [|exact IH]. apply matches_labels in E. contradiction.
Qed.

Lemma union_good {T} (C : codec T) (alts : list (alternative T)) select :
  alts_ok alts -> Forall (fun a => good_D (a_D a)) alts ->
  Forall (fun a => forall x, e_size (c_E C) (a_inj a x) = e_size (d_E (a_D a)) x /\ e_enc (c_E C) (a_inj a x) = e_enc (d_E (a_D a)) x) alts ->
  c_D C = (fun md inp fmt => _ <- validate_code fmt FC_DESCRIBED ;; '(inp1, d) <- decode descriptor_dec md inp ;; select md d inp1) ->
  (forall md d inp, select md d inp = union_select alts md d inp) ->
  good (union_S C alts).
Proof.
  intros AO G HE HD HS. pose proof AO as [Hc Hn Hp Hdis]. rewrite Forall_forall in G, HE, Hp. constructor.
  - intros v H. cbn [s_valid union_S s_codec] in *. apply the_alternative_elim in H as (a & x & Ha & Hx & HP).
    apply (Hp a Ha) in Hx as ->. destruct (HE a Ha x) as [-> ->]. now apply (gd_enc _ (G a Ha)).
  - unfold s_dec. cbn [s_valid s_codec union_S]. rewrite HD. intros md fmt. apply lawful_guard. intros u _.
    apply (lawful_bind' descriptor_ok _ (decode descriptor_dec md) (fun d i => select md d i)).
    + apply decode_lawful, descriptor_lawful.
    + intros d. eapply lawful_ext; [intros inp; symmetry; apply HS|].
      assert (forall l, incl l alts -> lawful (the_alternative (@d_valid) alts) (fun inp => union_select l md d inp)) as K; [|now apply K].
      induction l as [|a r IH]; intros Hl; cbn [union_select]; [apply lawful_err|]. apply lawful_if.
      * apply (lawful_map (d_valid (a_D a))); [apply (gd_lawful _ (G a (Hl a (or_introl eq_refl))))|].
        intros x Hx. apply the_alternative_intro; auto. apply Hl. now left.
      * apply IH. intros b Hb. apply Hl. now right.
  - intros md inp fmt E. unfold s_dec in E. cbn [s_codec union_S] in E. rewrite HD in E.
    apply bind_oof in E as [E|(u & _ & E)]; [unfold validate_code in E; destruct (_ =? _); discriminate|].
    apply bind_oof in E as [E|([i d] & _ & E)]; [now apply decode_total in E; [|apply descriptor_total]|].
    rewrite HS in E. clear HE Hp Hdis Hc Hn HS HD AO. induction alts as [|a r IH]; [discriminate|]. cbn [union_select] in E.
    destruct (matches _ _ d).
    + apply map_res_oof in E. apply (gd_total _ (G a (or_introl eq_refl))) in E. easy.
    + apply IH; auto. intros b Hb. apply G. now right.
  - intros v H He Hs. unfold s_size, s_bytes in *. cbn [s_codec union_S s_valid s_encodable s_wire s_canon] in *.
    assert (forall l, incl l alts -> ForallOrdPairs (fun a b => forall x, a_prj a (a_inj b x) = None) l ->
      the_alternative (@d_valid) l v -> the_alternative (@d_encodable) l v ->
      the_alternative (fun X (D : dspec X) (x : X) => wire_described D x (wbytes (e_enc (c_E C) v))) l (canon_union l v)
      /\ exists b x, In b l /\ canon_union l v = a_inj b x) as K.
    { clear H He. induction l as [|a r IH]; intros Hl Ho H He; [easy|]. cbn [the_alternative canon_union] in *.
      assert (Ha : In a alts) by (apply Hl; now left).
      inversion Ho as [|a' r' Ho1 Ho2]; subst. destruct (a_prj a v) as [x|] eqn:E.
      - apply (Hp a Ha) in E as ->. destruct (HE a Ha x) as [E1 E2]. rewrite E1 in Hs. rewrite E2.
        assert (a_prj a (a_inj a (d_canon (a_D a) x)) = Some (d_canon (a_D a) x)) as -> by now apply (Hp a Ha).
        split; [apply emitted_described; auto|]. exists a, (d_canon (a_D a) x). split; [now left|reflexivity].
      - destruct IH as [I1 (b & y & Hb & Ey)]; auto; [intros c Hc'; apply Hl; now right|]. split.
        + rewrite Ey in I1 |- *. rewrite Forall_forall in Ho1. rewrite (Ho1 b Hb). exact I1.
        + exists b, y. split; [now right|exact Ey]. }
    apply (K alts); auto. apply incl_refl.
  - intros md v bs W Hd. cbn [s_wire s_decodable union_S] in *.
    assert (exists a x, In a alts /\ v = a_inj a x /\ wire_described (a_D a) x bs /\ d_decodable (a_D a) x) as (a & x & Ha & -> & W' & D').
    { clear Hc Hn Hdis HE HS HD AO. induction alts as [|a r IH]; [easy|]. cbn [the_alternative] in *.
      destruct (a_prj a v) as [x|] eqn:E.
      - exists a, x. apply (Hp a (or_introl eq_refl)) in E. repeat split; auto. now left.
      - destruct IH as (b & x & Hb & Hx); auto; try (intros c Hc'; (apply G || apply Hp); now right). exists b, x. split; [now right|exact Hx]. }
    destruct W' as (label & body & Wl & B & ->). apply decodes_cons. intros rest. unfold s_dec. cbn [s_codec union_S]. rewrite HD.
    cbn [validate_code FC_DESCRIBED Z.eqb bind]. rewrite <- app_assoc.
    destruct (label_decodes (a_D a) md label (gd_code _ (G a Ha)) Wl) as (d & Dd & L). rewrite Dd. cbn [bind].
    rewrite HS, (select_label alts md d _ a) by auto. rewrite (gd_accepts _ (G a Ha) md x body rest B D'). reflexivity.
  - intros v bs W. cbn [s_wire union_S] in W. apply the_alternative_elim in W as (a & x & Ha & Hx & label & body & W & B & ->).
    eexists _, _. split; [reflexivity|now left].
  - intros md inp fmt H. unfold s_dec. cbn [s_codec union_S]. rewrite HD.
    rewrite validate_reject; [reflexivity|]. intros ->. apply H. now left.
Qed.

(** ** Sections that are not composite *)
Lemma section_good_D {T} code name (S : tspec T) size enc inner : 1 <= code < 256 -> good S ->
  (forall v, size v = 3 + s_size S v) -> (forall v, enc v = descriptor_enc (DUlong code) ++ e_enc (c_E (s_codec S)) v) ->
  (forall md inp, inner md inp = decode (s_dec S) md inp) -> good_D (section_D code name S size enc inner).
Proof.
  intros Hc G Hs He Hi.
  assert (B : forall rest, wbytes (descriptor_enc (DUlong code)) ++ rest = 0x00 :: 0x53 :: code :: rest).
  { intros rest. unfold descriptor_enc, u64_enc. destruct (Z.ltb_spec 255 code); [lia|]. destruct (Z.eqb_spec code 0); [lia|]. wb.
    rewrite (Z.mod_small code) by lia. reflexivity. }
  constructor; cbn [d_code d_E d_valid d_inner d_body d_canon d_encodable d_decodable section_D e_size e_enc].
  - exact Hc.
  - intros v H. cbn [e_size e_enc]. rewrite Hs, He. destruct (g_enc S G v H) as [[H1 H2] H3]. unfold s_size. split.
    + split; rewrite wbytes_app, B.
      * rewrite !zlen_cons, H1. lia.
      * repeat (constructor; [unfold byte_ok; lia|]). exact H2.
    + lia.
  - intros md. eapply lawful_ext; [intros inp; symmetry; apply Hi|]. apply decode_lawful, (g_dec S G).
  - intros md inp. rewrite Hi. apply decode_total, (g_total S G).
  - intros v H Hen Hsz. rewrite Hs in Hsz. rewrite He, wbytes_app, B. eexists. split; [reflexivity|].
    apply (g_emits S G); auto. lia.
  - intros md v bs rest W D. rewrite Hi. now apply (g_accepts S G).
Qed.

Lemma list_lawful_dec : dec_lawful (Forall variant_ok) (list_dec variant_dec).
Proof. apply list_lawful, variant_lawful. Qed.
Lemma list_good : good list_S.
Proof.
  constructor.
  - exact list_el.
  - exact list_lawful_dec.
  - intros md inp fmt. apply (list_total_below variant_ok (length inp)); [apply variant_lawful|apply total_total_below, variant_total|lia].
  - intros v _ [].
  - intros md l bs [l' content bs' W L] D.
    assert (A : forall acc rest, iter_res (length l') (vec_step (decode variant_dec md)) (content ++ rest, acc) = Ok (rest, acc ++ l')).
    { apply (variant_accepts_all md); auto. now apply all_prop_Forall. }
    pose proof (zlen_nonneg content). pose proof (zlen_nonneg l').
    destruct L as [E1 E2|Hn Hl|Hn Hl]; apply decodes_cons; intros rest; change (s_dec list_S) with (list_dec variant_dec);
      unfold list_dec, decode_list_header.
    + apply zlen_0 in E1 as ->. reflexivity.
    + cbn [FC_LIST0 FC_LIST8 Z.eqb Pos.eqb app]. rewrite compound8_read by lia. cbn [bind ch_count]. rewrite loop_zlen. apply A.
    + cbn [FC_LIST0 FC_LIST8 FC_LIST32 Z.eqb Pos.eqb]. rewrite <- !app_assoc. rewrite compound32_read by lia. cbn [bind ch_count].
      rewrite loop_zlen. apply A.
  - intros l bs [l' content bs' W L]. destruct L; eexists _, _; (split; [reflexivity|find_in]).
  - intros md inp fmt H. change (s_dec list_S) with (list_dec variant_dec). unfold list_dec, decode_list_header. reject_codes H. reflexivity.
Qed.

(** ** The composite types of the crate *)
Ltac app_eq := repeat (apply (f_equal2 (@app wop)); [reflexivity|]); reflexivity.
Ltac content_eq K csize :=
  unfold K, csize; cbn [k_fields k_to size_fields fst snd]; unfold s_size;
  repeat (apply (f_equal2 Z.add); [|reflexivity]); reflexivity.
Ltac transcribe K en size csize :=
  let H := fresh "H" in
  assert (H : forall v, csize v = size_fields (k_fields K) 0 (k_to K v)) by (intros v; content_eq K csize);
  constructor;
  [ vm_compute; split; [discriminate|reflexivity]
  | now intros []
  | let a := fresh in intros a; match type of a with ?T => let T' := eval hnf in T in change T' in a end;
    repeat match goal with x : (_ * _)%type |- _ => destruct x end;
    repeat match goal with x : unit |- _ => destruct x end; reflexivity
  | intros md inp; reflexivity
  | reflexivity
  | intros v; rewrite <- H; reflexivity
  | intros v; rewrite <- H; change (e_enc (c_E (k_codec K)) v) with (en v);
    unfold K, en; cbn [k_fields k_code k_to enc_fields field_count fst snd]; rewrite ?app_nil_r; app_eq
  | vm_compute; reflexivity ].
Ltac no40 := cbv; intuition discriminate.

Lemma error_tr : transcribed error_K. Proof. transcribe error_K error_enc error_size error_content_size. Qed.
Lemma received_tr : transcribed received_K. Proof. transcribe received_K received_enc received_size received_content_size. Qed.
Lemma accepted_tr : transcribed accepted_K. Proof. transcribe accepted_K accepted_enc accepted_size accepted_content_size. Qed.
Lemma rejected_tr : transcribed rejected_K. Proof. transcribe rejected_K rejected_enc rejected_size rejected_content_size. Qed.
Lemma released_tr : transcribed released_K. Proof. transcribe released_K released_enc released_size released_content_size. Qed.
Lemma modified_tr : transcribed modified_K. Proof. transcribe modified_K modified_enc modified_size modified_content_size. Qed.
Lemma source_tr : transcribed source_K. Proof. transcribe source_K source_enc source_size source_content_size. Qed.
Lemma target_tr : transcribed target_K. Proof. transcribe target_K target_enc target_size target_content_size. Qed.
Lemma open_tr : transcribed open_K. Proof. transcribe open_K open_enc open_size open_content_size. Qed.
Lemma begin_tr : transcribed begin_K. Proof. transcribe begin_K begin_enc begin_size begin_content_size. Qed.
Lemma attach_tr : transcribed attach_K. Proof. transcribe attach_K attach_enc attach_size attach_content_size. Qed.
Lemma flow_tr : transcribed flow_K. Proof. transcribe flow_K flow_enc flow_size flow_content_size. Qed.
Lemma disposition_tr : transcribed disposition_K. Proof. transcribe disposition_K disposition_enc disposition_size disposition_content_size. Qed.
Lemma detach_tr : transcribed detach_K. Proof. transcribe detach_K detach_enc detach_size detach_content_size. Qed.
Lemma end_tr : transcribed end_K. Proof. transcribe end_K end_enc end_size end_content_size. Qed.
Lemma close_tr : transcribed close_K. Proof. transcribe close_K close_enc close_size close_content_size. Qed.
Lemma sasl_mechanisms_tr : transcribed sasl_mechanisms_K. Proof. transcribe sasl_mechanisms_K sasl_mechanisms_enc sasl_mechanisms_size sasl_mechanisms_content_size. Qed.
Lemma sasl_init_tr : transcribed sasl_init_K. Proof. transcribe sasl_init_K sasl_init_enc sasl_init_size sasl_init_content_size. Qed.
Lemma sasl_challenge_tr : transcribed sasl_challenge_K. Proof. transcribe sasl_challenge_K sasl_challenge_enc sasl_challenge_size sasl_challenge_content_size. Qed.
Lemma sasl_response_tr : transcribed sasl_response_K. Proof. transcribe sasl_response_K sasl_response_enc sasl_response_size sasl_response_content_size. Qed.
Lemma sasl_outcome_tr : transcribed sasl_outcome_K. Proof. transcribe sasl_outcome_K sasl_outcome_enc sasl_outcome_size sasl_outcome_content_size. Qed.
Lemma header_tr : transcribed header_K. Proof. transcribe header_K header_enc header_size header_content_size. Qed.
Lemma properties_tr : transcribed properties_K. Proof. transcribe properties_K properties_enc properties_size properties_content_size. Qed.

Ltac fields_good_tac :=
  cbn [good_fields k_fields]; repeat match goal with
  | |- _ /\ _ => split
  | |- True => exact I
  | |- ~ In _ _ => no40
  | |- good _ => eauto with goods
  | |- s_valid _ _ => first [exact I | cbv; split; [discriminate|reflexivity]]
  end.
Create HintDb goods.
#[export] Hint Resolve bool_good u8_good u16_good u32_good u64_good datetime_good uuid_good bin_good bstr_good str_good symbol_good
  variant_good vmap_good string_variant_map_good fields_good filter_set_good symbols_good role_good sender_settle_mode_good
  receiver_settle_mode_good sasl_code_good terminus_durability_good terminus_expiry_policy_good error_condition_good
  distribution_mode_good message_id_good list_good : goods.
Ltac nodup := vm_compute; repeat (apply NoDup_cons; [cbv; intuition discriminate|]); apply NoDup_nil.
Ltac alts_tac A :=
  constructor;
  [ nodup | nodup
  | unfold A; repeat (apply Forall_cons;
      [cbn [a_prj a_inj]; intros v x; (split; [destruct v; intros E; try discriminate E; injection E as ->; reflexivity|intros ->; reflexivity])|]);
    apply Forall_nil
  | unfold A; repeat (apply FOP_cons; [repeat (apply Forall_cons; [reflexivity|]); apply Forall_nil|]); apply FOP_nil ].
Lemma error_fields : good_fields (k_fields error_K). Proof. unfold error_K. fields_good_tac. Qed.
Lemma error_D : good_D (composite_D error_K). Proof. exact (composite_good_D _ error_tr error_fields). Qed.
Lemma error_good : good error_S. Proof. exact (composite_good _ error_tr error_fields). Qed.
#[export] Hint Resolve error_D error_good : goods.
Lemma received_fields : good_fields (k_fields received_K). Proof. unfold received_K. fields_good_tac. Qed.
Lemma received_D : good_D (composite_D received_K). Proof. exact (composite_good_D _ received_tr received_fields). Qed.
Lemma received_good : good received_S. Proof. exact (composite_good _ received_tr received_fields). Qed.
#[export] Hint Resolve received_D received_good : goods.
Lemma accepted_fields : good_fields (k_fields accepted_K). Proof. unfold accepted_K. fields_good_tac. Qed.
Lemma accepted_D : good_D (composite_D accepted_K). Proof. exact (composite_good_D _ accepted_tr accepted_fields). Qed.
Lemma accepted_good : good accepted_S. Proof. exact (composite_good _ accepted_tr accepted_fields). Qed.
#[export] Hint Resolve accepted_D accepted_good : goods.
Lemma rejected_fields : good_fields (k_fields rejected_K). Proof. unfold rejected_K. fields_good_tac. Qed.
Lemma rejected_D : good_D (composite_D rejected_K). Proof. exact (composite_good_D _ rejected_tr rejected_fields). Qed.
Lemma rejected_good : good rejected_S. Proof. exact (composite_good _ rejected_tr rejected_fields). Qed.
#[export] Hint Resolve rejected_D rejected_good : goods.
Lemma released_fields : good_fields (k_fields released_K). Proof. unfold released_K. fields_good_tac. Qed.
Lemma released_D : good_D (composite_D released_K). Proof. exact (composite_good_D _ released_tr released_fields). Qed.
Lemma released_good : good released_S. Proof. exact (composite_good _ released_tr released_fields). Qed.
#[export] Hint Resolve released_D released_good : goods.
Lemma modified_fields : good_fields (k_fields modified_K). Proof. unfold modified_K. fields_good_tac. Qed.
Lemma modified_D : good_D (composite_D modified_K). Proof. exact (composite_good_D _ modified_tr modified_fields). Qed.
Lemma modified_good : good modified_S. Proof. exact (composite_good _ modified_tr modified_fields). Qed.
#[export] Hint Resolve modified_D modified_good : goods.
Lemma delivery_state_alts_ok : alts_ok delivery_state_alts. Proof. alts_tac delivery_state_alts. Qed.
Lemma delivery_state_alts_good : Forall (fun a => good_D (a_D a)) delivery_state_alts.
Proof. unfold delivery_state_alts. repeat (apply Forall_cons; [cbn [a_D]; eauto with goods|]); apply Forall_nil. Qed.
Lemma delivery_state_good : good delivery_state_S.
Proof.
  apply (union_good _ _ delivery_state_select delivery_state_alts_ok delivery_state_alts_good).
  - unfold delivery_state_alts. repeat (apply Forall_cons; [now split|]); apply Forall_nil.
  - reflexivity.
  - intros md [c|a] inp; reflexivity.
Qed.
#[export] Hint Resolve delivery_state_good : goods.
Lemma outcome_alts_ok : alts_ok outcome_alts. Proof. alts_tac outcome_alts. Qed.
Lemma outcome_alts_good : Forall (fun a => good_D (a_D a)) outcome_alts.
Proof. unfold outcome_alts. repeat (apply Forall_cons; [cbn [a_D]; eauto with goods|]); apply Forall_nil. Qed.
Lemma outcome_good : good outcome_S.
Proof.
  apply (union_good _ _ outcome_select outcome_alts_ok outcome_alts_good).
  - unfold outcome_alts. repeat (apply Forall_cons; [now split|]); apply Forall_nil.
  - reflexivity.
  - intros md [c|a] inp; reflexivity.
Qed.
#[export] Hint Resolve outcome_good : goods.
Lemma source_fields : good_fields (k_fields source_K). Proof. unfold source_K. fields_good_tac. Qed.
Lemma source_D : good_D (composite_D source_K). Proof. exact (composite_good_D _ source_tr source_fields). Qed.
Lemma source_good : good source_S. Proof. exact (composite_good _ source_tr source_fields). Qed.
#[export] Hint Resolve source_D source_good : goods.
Lemma target_fields : good_fields (k_fields target_K). Proof. unfold target_K. fields_good_tac. Qed.
Lemma target_D : good_D (composite_D target_K). Proof. exact (composite_good_D _ target_tr target_fields). Qed.
Lemma target_good : good target_S. Proof. exact (composite_good _ target_tr target_fields). Qed.
#[export] Hint Resolve target_D target_good : goods.
Lemma open_fields : good_fields (k_fields open_K). Proof. unfold open_K. fields_good_tac. Qed.
Lemma open_D : good_D (composite_D open_K). Proof. exact (composite_good_D _ open_tr open_fields). Qed.
Lemma open_good : good open_S. Proof. exact (composite_good _ open_tr open_fields). Qed.
#[export] Hint Resolve open_D open_good : goods.
Lemma begin_fields : good_fields (k_fields begin_K). Proof. unfold begin_K. fields_good_tac. Qed.
Lemma begin_D : good_D (composite_D begin_K). Proof. exact (composite_good_D _ begin_tr begin_fields). Qed.
Lemma begin_good : good begin_S. Proof. exact (composite_good _ begin_tr begin_fields). Qed.
#[export] Hint Resolve begin_D begin_good : goods.
Lemma attach_fields : good_fields (k_fields attach_K). Proof. unfold attach_K. fields_good_tac. Qed.
Lemma attach_D : good_D (composite_D attach_K). Proof. exact (composite_good_D _ attach_tr attach_fields). Qed.
Lemma attach_good : good attach_S. Proof. exact (composite_good _ attach_tr attach_fields). Qed.
#[export] Hint Resolve attach_D attach_good : goods.
Lemma flow_fields : good_fields (k_fields flow_K). Proof. unfold flow_K. fields_good_tac. Qed.
Lemma flow_D : good_D (composite_D flow_K). Proof. exact (composite_good_D _ flow_tr flow_fields). Qed.
Lemma flow_good : good flow_S. Proof. exact (composite_good _ flow_tr flow_fields). Qed.
#[export] Hint Resolve flow_D flow_good : goods.
Lemma disposition_fields : good_fields (k_fields disposition_K). Proof. unfold disposition_K. fields_good_tac. Qed.
Lemma disposition_D : good_D (composite_D disposition_K). Proof. exact (composite_good_D _ disposition_tr disposition_fields). Qed.
Lemma disposition_good : good disposition_S. Proof. exact (composite_good _ disposition_tr disposition_fields). Qed.
#[export] Hint Resolve disposition_D disposition_good : goods.
Lemma detach_fields : good_fields (k_fields detach_K). Proof. unfold detach_K. fields_good_tac. Qed.
Lemma detach_D : good_D (composite_D detach_K). Proof. exact (composite_good_D _ detach_tr detach_fields). Qed.
Lemma detach_good : good detach_S. Proof. exact (composite_good _ detach_tr detach_fields). Qed.
#[export] Hint Resolve detach_D detach_good : goods.
Lemma end_fields : good_fields (k_fields end_K). Proof. unfold end_K. fields_good_tac. Qed.
Lemma end_D : good_D (composite_D end_K). Proof. exact (composite_good_D _ end_tr end_fields). Qed.
Lemma end_good : good end_S. Proof. exact (composite_good _ end_tr end_fields). Qed.
#[export] Hint Resolve end_D end_good : goods.
Lemma close_fields : good_fields (k_fields close_K). Proof. unfold close_K. fields_good_tac. Qed.
Lemma close_D : good_D (composite_D close_K). Proof. exact (composite_good_D _ close_tr close_fields). Qed.
Lemma close_good : good close_S. Proof. exact (composite_good _ close_tr close_fields). Qed.
#[export] Hint Resolve close_D close_good : goods.
Lemma sasl_mechanisms_fields : good_fields (k_fields sasl_mechanisms_K). Proof. unfold sasl_mechanisms_K. fields_good_tac. Qed.
Lemma sasl_mechanisms_D : good_D (composite_D sasl_mechanisms_K). Proof. exact (composite_good_D _ sasl_mechanisms_tr sasl_mechanisms_fields). Qed.
Lemma sasl_mechanisms_good : good sasl_mechanisms_S. Proof. exact (composite_good _ sasl_mechanisms_tr sasl_mechanisms_fields). Qed.
#[export] Hint Resolve sasl_mechanisms_D sasl_mechanisms_good : goods.
Lemma sasl_init_fields : good_fields (k_fields sasl_init_K). Proof. unfold sasl_init_K. fields_good_tac. Qed.
Lemma sasl_init_D : good_D (composite_D sasl_init_K). Proof. exact (composite_good_D _ sasl_init_tr sasl_init_fields). Qed.
Lemma sasl_init_good : good sasl_init_S. Proof. exact (composite_good _ sasl_init_tr sasl_init_fields). Qed.
#[export] Hint Resolve sasl_init_D sasl_init_good : goods.
Lemma sasl_challenge_fields : good_fields (k_fields sasl_challenge_K). Proof. unfold sasl_challenge_K. fields_good_tac. Qed.
Lemma sasl_challenge_D : good_D (composite_D sasl_challenge_K). Proof. exact (composite_good_D _ sasl_challenge_tr sasl_challenge_fields). Qed.
Lemma sasl_challenge_good : good sasl_challenge_S. Proof. exact (composite_good _ sasl_challenge_tr sasl_challenge_fields). Qed.
#[export] Hint Resolve sasl_challenge_D sasl_challenge_good : goods.
Lemma sasl_response_fields : good_fields (k_fields sasl_response_K). Proof. unfold sasl_response_K. fields_good_tac. Qed.
Lemma sasl_response_D : good_D (composite_D sasl_response_K). Proof. exact (composite_good_D _ sasl_response_tr sasl_response_fields). Qed.
Lemma sasl_response_good : good sasl_response_S. Proof. exact (composite_good _ sasl_response_tr sasl_response_fields). Qed.
#[export] Hint Resolve sasl_response_D sasl_response_good : goods.
Lemma sasl_outcome_fields : good_fields (k_fields sasl_outcome_K). Proof. unfold sasl_outcome_K. fields_good_tac. Qed.
Lemma sasl_outcome_D : good_D (composite_D sasl_outcome_K). Proof. exact (composite_good_D _ sasl_outcome_tr sasl_outcome_fields). Qed.
Lemma sasl_outcome_good : good sasl_outcome_S. Proof. exact (composite_good _ sasl_outcome_tr sasl_outcome_fields). Qed.
#[export] Hint Resolve sasl_outcome_D sasl_outcome_good : goods.
Lemma sasl_frame_body_alts_ok : alts_ok sasl_frame_body_alts. Proof. alts_tac sasl_frame_body_alts. Qed.
Lemma sasl_frame_body_alts_good : Forall (fun a => good_D (a_D a)) sasl_frame_body_alts.
Proof. unfold sasl_frame_body_alts. repeat (apply Forall_cons; [cbn [a_D]; eauto with goods|]); apply Forall_nil. Qed.
Lemma sasl_frame_body_good : good sasl_frame_body_S.
Proof.
  apply (union_good _ _ sasl_frame_body_select sasl_frame_body_alts_ok sasl_frame_body_alts_good).
  - unfold sasl_frame_body_alts. repeat (apply Forall_cons; [now split|]); apply Forall_nil.
  - reflexivity.
  - intros md [c|a] inp; reflexivity.
Qed.
#[export] Hint Resolve sasl_frame_body_good : goods.
Lemma header_fields : good_fields (k_fields header_K). Proof. unfold header_K. fields_good_tac. Qed.
Lemma header_D : good_D (composite_D header_K). Proof. exact (composite_good_D _ header_tr header_fields). Qed.
Lemma header_good : good header_S. Proof. exact (composite_good _ header_tr header_fields). Qed.
#[export] Hint Resolve header_D header_good : goods.
Lemma properties_fields : good_fields (k_fields properties_K). Proof. unfold properties_K. fields_good_tac. Qed.
Lemma properties_D : good_D (composite_D properties_K). Proof. exact (composite_good_D _ properties_tr properties_fields). Qed.
Lemma properties_good : good properties_S. Proof. exact (composite_good _ properties_tr properties_fields). Qed.
#[export] Hint Resolve properties_D properties_good : goods.
Lemma delivery_annotations_D : good_D (section_D 0x71 "amqp:delivery-annotations:map" fields_S delivery_annotations_size delivery_annotations_enc decode_delivery_annotations_inner).
Proof. apply section_good_D; [lia|eauto with goods|reflexivity|reflexivity|reflexivity]. Qed.
#[export] Hint Resolve delivery_annotations_D : goods.
Lemma message_annotations_D : good_D (section_D 0x72 "amqp:message-annotations:map" fields_S message_annotations_size message_annotations_enc decode_message_annotations_inner).
Proof. apply section_good_D; [lia|eauto with goods|reflexivity|reflexivity|reflexivity]. Qed.
#[export] Hint Resolve message_annotations_D : goods.
Lemma application_properties_D : good_D (section_D 0x74 "amqp:application-properties:map" string_variant_map_S application_properties_size application_properties_enc decode_application_properties_inner).
Proof. apply section_good_D; [lia|eauto with goods|reflexivity|reflexivity|reflexivity]. Qed.
#[export] Hint Resolve application_properties_D : goods.
Lemma data_D : good_D (section_D 0x75 "amqp:data:binary" bin_S data_size data_enc decode_data_inner).
Proof. apply section_good_D; [lia|eauto with goods|reflexivity|reflexivity|reflexivity]. Qed.
#[export] Hint Resolve data_D : goods.
Lemma amqp_sequence_D : good_D (section_D 0x76 "amqp:amqp-sequence:list" list_S amqp_sequence_size amqp_sequence_enc decode_amqp_sequence_inner).
Proof. apply section_good_D; [lia|eauto with goods|reflexivity|reflexivity|reflexivity]. Qed.
#[export] Hint Resolve amqp_sequence_D : goods.
Lemma amqp_value_D : good_D (section_D 0x77 "amqp:amqp-value:*" variant_S amqp_value_size amqp_value_enc decode_amqp_value_inner).
Proof. apply section_good_D; [lia|eauto with goods|reflexivity|reflexivity|reflexivity]. Qed.
#[export] Hint Resolve amqp_value_D : goods.
Lemma footer_D : good_D (section_D 0x78 "amqp:footer:map" fields_S footer_size footer_enc decode_footer_inner).
Proof. apply section_good_D; [lia|eauto with goods|reflexivity|reflexivity|reflexivity]. Qed.
#[export] Hint Resolve footer_D : goods.
Lemma section_alts_ok : alts_ok section_alts. Proof. alts_tac section_alts. Qed.
Lemma section_alts_good : Forall (fun a => good_D (a_D a)) section_alts.
Proof. unfold section_alts. repeat (apply Forall_cons; [cbn [a_D]; eauto with goods|]); apply Forall_nil. Qed.
Lemma section_good : good section_S.
Proof.
  apply (union_good _ _ section_select section_alts_ok section_alts_good).
  - unfold section_alts. repeat (apply Forall_cons;
      [intros x; split; lazy [section_C c_E e_size e_enc section_size section_enc a_inj a_D d_E composite_D section_D k_codec header_K
         properties_K header_C properties_C]; reflexivity|]); apply Forall_nil.
  - reflexivity.
  - intros md [c|a] inp; reflexivity.
Qed.
#[export] Hint Resolve section_good : goods.
