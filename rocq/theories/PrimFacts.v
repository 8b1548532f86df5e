(** Encoders write, and decoders accept, the encodings of the standard: primitive types. *)

From Verif Require Import Decode BaseFacts Utf8Spec Utf8Facts Valid Wire.
From Coq Require Import ZifyBool.
Ltac Zify.zify_post_hook ::= Z.div_mod_to_equations.

(** [d] reads [v] from [bs], whatever follows. *)
Definition decodes (md : mode) {T} (d : dec T) (bs : bytes) (v : T) : Prop :=
  forall rest, decode d md (bs ++ rest) = Ok (rest, v).

Lemma read_u8_cons b r : read_u8 (b :: r) = Ok (r, b).
Proof.
  unfold read_u8. rewrite check_len_true by (rewrite zlen_cons; pose proof (zlen_nonneg r); lia). reflexivity.
Qed.
Lemma decode_cons {T} (d : dec T) md c r : decode d md (c :: r) = d md r c.
Proof. unfold decode, decode_format_code. rewrite read_u8_cons. reflexivity. Qed.
Lemma decodes_cons {T} (d : dec T) md c bs v : (forall rest, d md (bs ++ rest) c = Ok (rest, v)) -> decodes md d (c :: bs) v.
Proof. intros H rest. cbn [app]. rewrite decode_cons. apply H. Qed.

(** ** Big-endian *)
Lemma be_bytes_be2 v : be_bytes 2 v = be2 v.
Proof. reflexivity. Qed.
Lemma be_bytes_be4 v : be_bytes 4 v = be4 v.
Proof.
  unfold be4. cbn [be_bytes app]. rewrite !Z.div_div by lia. reflexivity.
Qed.
Lemma be_bytes_be8 v : be_bytes 8 v = be8 v.
Proof.
  unfold be8. cbn [be_bytes app]. rewrite !Z.div_div by lia. reflexivity.
Qed.
Lemma be_read_bytes n v rest : be_read (be_bytes n v ++ rest) (Z.of_nat n) = Ok (rest, v mod 256 ^ Z.of_nat n).
Proof.
  unfold be_read. rewrite check_len_true.
  - cbn [bind]. rewrite ztake_app, zdrop_app by apply zlen_be_bytes. now rewrite be_val_be_bytes.
  - rewrite zlen_app, zlen_be_bytes. pose proof (zlen_nonneg rest). lia.
Qed.
Lemma be_read_be2 v rest : 0 <= v < 2 ^ 16 -> be_read (be2 v ++ rest) 2 = Ok (rest, v).
Proof. intros. rewrite <- be_bytes_be2. etransitivity; [apply (be_read_bytes 2)|]. do 2 f_equal. apply Z.mod_small. lia. Qed.
Lemma be_read_be4 v rest : 0 <= v < 2 ^ 32 -> be_read (be4 v ++ rest) 4 = Ok (rest, v).
Proof. intros. rewrite <- be_bytes_be4. etransitivity; [apply (be_read_bytes 4)|]. do 2 f_equal. apply Z.mod_small. lia. Qed.
Lemma be_read_be8 v rest : 0 <= v < 2 ^ 64 -> be_read (be8 v ++ rest) 8 = Ok (rest, v).
Proof. intros. rewrite <- be_bytes_be8. etransitivity; [apply (be_read_bytes 8)|]. do 2 f_equal. apply Z.mod_small. lia. Qed.
Lemma be_read_signed_be2 v rest : - 2 ^ 15 <= v < 2 ^ 15 -> be_read_signed (be2 v ++ rest) 2 = Ok (rest, v).
Proof.
  intros H. unfold be_read_signed. rewrite <- be_bytes_be2.
  replace (be_read _ 2) with (be_read (be_bytes 2 v ++ rest) (Z.of_nat 2)) by reflexivity.
  rewrite be_read_bytes. cbn [bind]. do 2 f_equal. apply (to_signed_mod 16); lia.
Qed.
Lemma be_read_signed_be4 v rest : - 2 ^ 31 <= v < 2 ^ 31 -> be_read_signed (be4 v ++ rest) 4 = Ok (rest, v).
Proof.
  intros H. unfold be_read_signed. rewrite <- be_bytes_be4.
  replace (be_read _ 4) with (be_read (be_bytes 4 v ++ rest) (Z.of_nat 4)) by reflexivity.
  rewrite be_read_bytes. cbn [bind]. do 2 f_equal. apply (to_signed_mod 32); lia.
Qed.
Lemma be_read_signed_be8 v rest : - 2 ^ 63 <= v < 2 ^ 63 -> be_read_signed (be8 v ++ rest) 8 = Ok (rest, v).
Proof.
  intros H. unfold be_read_signed. rewrite <- be_bytes_be8.
  replace (be_read _ 8) with (be_read (be_bytes 8 v ++ rest) (Z.of_nat 8)) by reflexivity.
  rewrite be_read_bytes. cbn [bind]. do 2 f_equal. apply (to_signed_mod 64); lia.
Qed.
Lemma read_i8_mod v rest : -128 <= v < 128 -> read_i8 (v mod 256 :: rest) = Ok (rest, v).
Proof. intros. unfold read_i8. rewrite read_u8_cons. cbn [bind]. do 2 f_equal. apply (to_signed_mod 8); lia. Qed.

Lemma zlen_be2 v : zlen (be2 v) = 2. Proof. reflexivity. Qed.
Lemma zlen_be4 v : zlen (be4 v) = 4. Proof. reflexivity. Qed.
Lemma zlen_be8 v : zlen (be8 v) = 8. Proof. reflexivity. Qed.
Lemma be2_ok v : bytes_ok (be2 v). Proof. rewrite <- be_bytes_be2. apply be_bytes_ok. Qed.
Lemma be4_ok v : bytes_ok (be4 v). Proof. rewrite <- be_bytes_be4. apply be_bytes_ok. Qed.
Lemma be8_ok v : bytes_ok (be8 v). Proof. rewrite <- be_bytes_be8. apply be_bytes_ok. Qed.

(** ** Decoders accept every encoding *)
Section Accept.
  Context (md : mode).

  Lemma bool_accepts b bs : wire_boolean b bs -> decodes md bool_dec bs b.
  Proof.
    destruct 1; apply decodes_cons; intros rest; try reflexivity;
      unfold bool_dec; cbn [FC_BOOLEAN Z.eqb Pos.eqb app]; now rewrite read_u8_cons.
  Qed.
  Lemma u8_accepts v : 0 <= v < 2 ^ 8 -> decodes md u8_dec [0x50; v] v.
  Proof. intros; apply decodes_cons; intros rest. apply read_u8_cons. Qed.
  Lemma u16_accepts v : 0 <= v < 2 ^ 16 -> decodes md u16_dec (0x60 :: be2 v) v.
  Proof. intros; apply decodes_cons; intros rest. now apply be_read_be2. Qed.
  Lemma u32_accepts v bs : wire_uint v bs -> decodes md u32_dec bs v.
  Proof.
    destruct 1; apply decodes_cons; intros rest; [reflexivity|apply read_u8_cons|now apply be_read_be4].
  Qed.
  Lemma u64_accepts v bs : wire_ulong v bs -> decodes md u64_dec bs v.
  Proof.
    destruct 1; apply decodes_cons; intros rest; [reflexivity|apply read_u8_cons|now apply be_read_be8].
  Qed.
  Lemma i8_accepts v : - 2 ^ 7 <= v < 2 ^ 7 -> decodes md i8_dec [0x51; v mod 256] v.
  Proof. intros; apply decodes_cons; intros rest. apply read_i8_mod. lia. Qed.
  Lemma i16_accepts v : - 2 ^ 15 <= v < 2 ^ 15 -> decodes md i16_dec (0x61 :: be2 v) v.
  Proof. intros; apply decodes_cons; intros rest. now apply be_read_signed_be2. Qed.
  Lemma i32_accepts v bs : wire_int v bs -> decodes md i32_dec bs v.
  Proof.
    destruct 1; apply decodes_cons; intros rest; [now apply read_i8_mod|now apply be_read_signed_be4].
  Qed.
  Lemma i64_accepts v bs : wire_long v bs -> decodes md i64_dec bs v.
  Proof.
    destruct 1; apply decodes_cons; intros rest; [now apply read_i8_mod|now apply be_read_signed_be8].
  Qed.
  Lemma f32_accepts v : 0 <= v < 2 ^ 32 -> decodes md f32_dec (0x72 :: be4 v) v.
  Proof. intros; apply decodes_cons; intros rest. now apply be_read_be4. Qed.
  Lemma f64_accepts v : 0 <= v < 2 ^ 64 -> decodes md f64_dec (0x82 :: be8 v) v.
  Proof. intros; apply decodes_cons; intros rest. now apply be_read_be8. Qed.
  Lemma char_accepts c : scalar c -> decodes md char_dec (0x73 :: be4 c) c.
  Proof.
    intros H; apply decodes_cons; intros rest. unfold char_dec. cbn [validate_code FC_CHAR Z.eqb Pos.eqb bind].
    rewrite be_read_be4 by (unfold scalar in H; lia). cbn [bind].
    apply char_ok_spec in H. now rewrite H.
  Qed.

  Lemma datetime_from_instant ms :
    timestamp_supported (instant ms) -> datetime_from_millis ms = Ok (instant ms).
  Proof.
    unfold timestamp_supported, instant, datetime_from_millis, utc_timestamp. cbn [dt_secs dt_nanos].
    unfold chrono_min_secs, chrono_max_secs. intros [H1 H2].
    pose proof (Z.quot_rem' ms 1000) as Hq. pose proof (Z.rem_bound_abs ms 1000 ltac:(lia)) as Hr.
    change (Z.abs 1000) with 1000 in Hr.
    destruct (Z_lt_le_dec ms 0) as [Hneg|Hpos].
    - assert (Hs : Z.rem ms 1000 <= 0) by (apply Z.rem_nonpos; lia).
      assert (Hlt : Z.quot ms 1000 < 0) by lia.
      destruct (Z.ltb_spec (Z.quot ms 1000) 0); [|lia].
      replace (Z.quot ms 1000 - 1) with (ms / 1000) by lia.
      replace (Z.abs ((1000 + (ms - Z.quot ms 1000 * 1000)) * 1000000) mod 2 ^ 32) with (ms mod 1000 * 1000000).
      + destruct (Z.leb_spec (-8334632851200) (ms / 1000)); [|lia].
        destruct (Z.leb_spec (ms / 1000) 8210298412799); [|lia].
        destruct (Z.ltb_spec (ms mod 1000 * 1000000) 2000000000); [reflexivity|lia].
      + assert (E : ms - Z.quot ms 1000 * 1000 = Z.rem ms 1000) by lia.
        rewrite E, Z.abs_eq by lia. change (2 ^ 32) with 4294967296.
        assert (0 <= (1000 + Z.rem ms 1000) * 1000000 < 4294967296) by (clear - Hr Hs; lia).
        rewrite (Z.mod_small (_ * 1000000)) by easy. lia.
    - assert (Hs : 0 <= Z.rem ms 1000) by (apply Z.rem_nonneg; lia).
      destruct (Z.ltb_spec (Z.quot ms 1000) 0); [lia|].
      replace (Z.quot ms 1000) with (ms / 1000) by lia.
      replace (Z.abs ((ms - ms / 1000 * 1000) * 1000000) mod 2 ^ 32) with (ms mod 1000 * 1000000).
      + destruct (Z.leb_spec (-8334632851200) (ms / 1000)); [|lia].
        destruct (Z.leb_spec (ms / 1000) 8210298412799); [|lia].
        destruct (Z.ltb_spec (ms mod 1000 * 1000000) 2000000000); [reflexivity|lia].
      + rewrite Z.abs_eq by lia. rewrite (Z.mod_small (_ * 1000000) (2 ^ 32)) by lia. lia.
  Qed.
  Lemma datetime_accepts ms :
    - 2 ^ 63 <= ms < 2 ^ 63 -> timestamp_supported (instant ms) -> decodes md datetime_dec (0x83 :: be8 ms) (instant ms).
  Proof.
    intros H Hs; apply decodes_cons; intros rest. unfold datetime_dec.
    cbn [validate_code FC_TIMESTAMP Z.eqb Pos.eqb bind].
    rewrite be_read_signed_be8 by easy. cbn [bind]. now rewrite datetime_from_instant.
  Qed.
  Lemma uuid_accepts u : zlen u = 16 -> decodes md uuid_dec (0x98 :: u) u.
  Proof.
    intros H; apply decodes_cons; intros rest. unfold uuid_dec. cbn [validate_code FC_UUID Z.eqb Pos.eqb bind].
    rewrite check_len_true by (rewrite zlen_app; pose proof (zlen_nonneg rest); lia). cbn [bind].
    now rewrite ztake_app, zdrop_app.
  Qed.
  Lemma read_bytes_u8_app b rest : zlen b < 2 ^ 8 -> read_bytes_u8 (zlen b :: b ++ rest) = Ok (rest, b).
  Proof.
    intros H. unfold read_bytes_u8. rewrite read_u8_cons. cbn [bind].
    rewrite check_len_true by (rewrite zlen_app; pose proof (zlen_nonneg rest); lia). cbn [bind].
    now rewrite ztake_app, zdrop_app.
  Qed.
  Lemma read_bytes_u32_app b rest : zlen b < 2 ^ 32 -> read_bytes_u32 (be4 (zlen b) ++ b ++ rest) = Ok (rest, b).
  Proof.
    intros H. unfold read_bytes_u32. rewrite be_read_be4 by (pose proof (zlen_nonneg b); lia). cbn [bind].
    rewrite check_len_true by (rewrite zlen_app; pose proof (zlen_nonneg rest); lia). cbn [bind].
    now rewrite ztake_app, zdrop_app.
  Qed.
  Lemma bin_accepts b bs : wire_binary b bs -> decodes md bin_dec bs b.
  Proof.
    intros [_ H]. destruct H; apply decodes_cons; intros rest; unfold bin_dec.
    - cbn [FC_BINARY8 Z.eqb Pos.eqb]. cbn [app]. now apply read_bytes_u8_app.
    - cbn [FC_BINARY8 FC_BINARY32 Z.eqb Pos.eqb]. rewrite <- app_assoc. now apply read_bytes_u32_app.
  Qed.
  Lemma from_utf8_ok b : is_utf8 b -> from_utf8 b = Ok b.
  Proof. intros H. unfold from_utf8. now rewrite is_utf8_valid. Qed.
  Lemma bstr_accepts b bs : wire_string b bs -> decodes md bstr_dec bs b.
  Proof.
    intros [Hu H]. destruct H; apply decodes_cons; intros rest; unfold bstr_dec.
    - cbn [FC_STRING8 Z.eqb Pos.eqb]. cbn [app]. rewrite read_bytes_u8_app by easy. cbn [bind].
      now rewrite from_utf8_ok.
    - cbn [FC_STRING8 FC_STRING32 Z.eqb Pos.eqb]. rewrite <- app_assoc. rewrite read_bytes_u32_app by easy. cbn [bind].
      now rewrite from_utf8_ok.
  Qed.
  Lemma str_accepts b bs : wire_string b bs -> decodes md str_dec bs (SByteStr b).
  Proof.
    intros [Hu H]. destruct H; apply decodes_cons; intros rest; unfold str_dec.
    - cbn [FC_STRING8 Z.eqb Pos.eqb]. cbn [app]. rewrite read_bytes_u8_app by easy. cbn [bind].
      now rewrite from_utf8_ok.
    - cbn [FC_STRING8 FC_STRING32 Z.eqb Pos.eqb]. rewrite <- app_assoc. rewrite read_bytes_u32_app by easy. cbn [bind].
      now rewrite from_utf8_ok.
  Qed.
  Lemma symbol_accepts b bs : wire_symbol b bs -> decodes md symbol_dec bs (SByteStr b).
  Proof.
    intros [Hu H]. destruct H; apply decodes_cons; intros rest; unfold symbol_dec.
    - cbn [FC_SYMBOL8 Z.eqb Pos.eqb]. cbn [app]. rewrite read_bytes_u8_app by easy. cbn [bind].
      now rewrite from_utf8_ok.
    - cbn [FC_SYMBOL8 FC_SYMBOL32 Z.eqb Pos.eqb]. rewrite <- app_assoc. rewrite read_bytes_u32_app by easy. cbn [bind].
      now rewrite from_utf8_ok.
  Qed.
  Lemma descriptor_accepts d bs : d <> DUlong 0 -> wire_descriptor d bs -> decodes md descriptor_dec bs d.
  Proof.
    intros Hd H. destruct H as [v bs H|b bs H].
    - destruct H as [|v H|v H]; [now destruct Hd| |]; apply decodes_cons; intros rest; unfold descriptor_dec.
      + pose proof (u64_accepts v [0x53; v] (WUL_8 v H) rest) as E. cbn [app] in E. rewrite decode_cons in E.
        cbn [FC_SMALLULONG Z.eqb Pos.eqb]. cbn [app] in E |- *. now rewrite E.
      + pose proof (u64_accepts v (0x80 :: be8 v) (WUL_64 v H) rest) as E. cbn [app] in E. rewrite decode_cons in E.
        cbn [FC_SMALLULONG FC_ULONG Z.eqb Pos.eqb]. now rewrite E.
    - pose proof (symbol_accepts b bs H) as E. destruct H as [_ H].
      destruct H as [b H|b H]; apply decodes_cons; intros rest; specialize (E rest); cbn [app] in E; rewrite decode_cons in E;
        unfold descriptor_dec; cbn [FC_SMALLULONG FC_ULONG FC_SYMBOL8 FC_SYMBOL32 Z.eqb Pos.eqb app]; now rewrite E.
  Qed.
End Accept.

(** ** Encoders write one of them *)

Lemma wop_put_u8 v : wop_bytes (put_u8 v) = [v mod 256].
Proof. reflexivity. Qed.
Lemma wop_put_u16 v : wop_bytes (put_u16_be v) = be2 v.
Proof. reflexivity. Qed.
Lemma wop_put_u32 v : wop_bytes (put_u32_be v) = be4 v.
Proof. apply be_bytes_be4. Qed.
Lemma wop_put_u64 v : wop_bytes (put_u64_be v) = be8 v.
Proof. apply be_bytes_be8. Qed.
#[global] Opaque be_bytes.
Ltac wb := rewrite ?wbytes_app, ?wbytes_cons, ?wbytes_nil, ?wop_put_u8, ?wop_put_u16, ?wop_put_u32, ?wop_put_u64,
                   ?app_nil_r; cbn [wop_bytes app].
Ltac byte_small := rewrite ?Z.mod_small by lia.

Lemma bool_emits b : wire_boolean b (wbytes (bool_enc b)).
Proof. destruct b; constructor. Qed.
Lemma u8_emits v : 0 <= v < 2 ^ 8 -> wbytes (fixed_enc u8_A v) = [0x50; v].
Proof. intros. unfold fixed_enc, u8_A. cbn [a_enc a_code]. wb. now rewrite !Z.mod_small by (unfold FC_UBYTE; lia). Qed.
Lemma u16_emits v : wbytes (fixed_enc u16_A v) = 0x60 :: be2 v.
Proof. reflexivity. Qed.
Lemma u32_emits v : 0 <= v < 2 ^ 32 -> wire_uint v (wbytes (u32_enc v)).
Proof.
  intros H. unfold u32_enc. destruct (Z.eqb_spec v 0) as [->|H0]; [constructor|].
  destruct (Z.ltb_spec 255 v); wb.
  - change (FC_UINT mod 256) with 0x70. now constructor.
  - change (FC_SMALLUINT mod 256) with 0x52. byte_small. constructor. lia.
Qed.
Lemma u64_emits v : 0 <= v < 2 ^ 64 -> wire_ulong v (wbytes (u64_enc v)).
Proof.
  intros H. unfold u64_enc. destruct (Z.eqb_spec v 0) as [->|H0]; [constructor|].
  destruct (Z.ltb_spec 255 v); wb.
  - change (FC_ULONG mod 256) with 0x80. now constructor.
  - change (FC_SMALLULONG mod 256) with 0x53. byte_small. constructor. lia.
Qed.
Lemma i8_emits v : wbytes (fixed_enc i8_A v) = [0x51; v mod 256].
Proof. reflexivity. Qed.
Lemma i16_emits v : wbytes (fixed_enc i16_A v) = 0x61 :: be2 v.
Proof. reflexivity. Qed.
Lemma i32_emits v : - 2 ^ 31 <= v < 2 ^ 31 -> wire_int v (wbytes (i32_enc v)).
Proof.
  intros H. unfold i32_enc. destruct ((127 <? v) || (v <? -128)) eqn:E; wb.
  - change (FC_INT mod 256) with 0x71. now constructor.
  - change (FC_SMALLINT mod 256) with 0x54. constructor. lia.
Qed.
Lemma i64_emits v : - 2 ^ 63 <= v < 2 ^ 63 -> wire_long v (wbytes (i64_enc v)).
Proof.
  intros H. unfold i64_enc. destruct ((127 <? v) || (v <? -128)) eqn:E; wb.
  - change (FC_LONG mod 256) with 0x81. now constructor.
  - change (FC_SMALLLONG mod 256) with 0x55. constructor. lia.
Qed.
Lemma f32_emits v : wbytes (fixed_enc f32_A v) = 0x72 :: be4 v.
Proof. unfold fixed_enc, f32_A. cbn [a_enc a_code]. now wb. Qed.
Lemma f64_emits v : wbytes (fixed_enc f64_A v) = 0x82 :: be8 v.
Proof. unfold fixed_enc, f64_A. cbn [a_enc a_code]. now wb. Qed.
Lemma char_emits v : wbytes (fixed_enc char_A v) = 0x73 :: be4 v.
Proof. unfold fixed_enc, char_A. cbn [a_enc a_code]. now wb. Qed.
Lemma datetime_emits t : wbytes (fixed_enc datetime_A t) = 0x83 :: be8 (millis t).
Proof. unfold fixed_enc, datetime_A. cbn [a_enc a_code]. now wb. Qed.
Lemma uuid_emits u : wbytes (fixed_enc uuid_A u) = 0x98 :: u.
Proof. unfold fixed_enc, uuid_A. cbn [a_enc a_code]. now wb. Qed.
Lemma var_emits c8 c32 b : 0 <= c8 < 256 -> 0 <= c32 < 256 -> zlen b < 2 ^ 32 -> wire_var c8 c32 b (wbytes (var_enc c8 c32 (zlen b) b)).
Proof.
  intros H8 H32 Hb. unfold var_enc. pose proof (zlen_nonneg b).
  destruct (Z.ltb_spec 255 (zlen b)); wb; byte_small; constructor; lia.
Qed.
Lemma bin_emits b : bytes_ok b -> zlen b < 2 ^ 32 -> wire_binary b (wbytes (bin_enc b)).
Proof. intros Hb H. split; [easy|]. apply var_emits; unfold FC_BINARY8, FC_BINARY32; lia. Qed.
Lemma bstr_emits b : is_utf8 b -> zlen b < 2 ^ 32 -> wire_string b (wbytes (bstr_enc b)).
Proof. intros Hb H. split; [easy|]. apply var_emits; unfold FC_STRING8, FC_STRING32; lia. Qed.
Lemma str_bytes_ok s : str_ok s -> is_utf8 (str_bytes s).
Proof. now destruct s. Qed.
Lemma str_len_bytes s : str_len s = zlen (str_bytes s).
Proof. now destruct s. Qed.
Lemma str_emits s : str_ok s -> str_len s < 2 ^ 32 -> wire_string (str_bytes s) (wbytes (str_enc s)).
Proof. rewrite str_len_bytes. intros Hb H. split; [now apply str_bytes_ok|]. apply var_emits; unfold FC_STRING8, FC_STRING32; lia. Qed.
Lemma symbol_emits s : symbol_ok s -> str_len s < 2 ^ 32 -> wire_symbol (str_bytes s) (wbytes (symbol_enc s)).
Proof. rewrite str_len_bytes. intros Hb H. split; [now apply str_bytes_ok|]. apply var_emits; unfold FC_SYMBOL8, FC_SYMBOL32; lia. Qed.
Lemma static_symbol_emits b : text_ok b -> zlen b < 2 ^ 32 -> wire_symbol b (wbytes (static_symbol_enc b)).
Proof. intros Hb H. split; [easy|]. apply var_emits; unfold FC_SYMBOL8, FC_SYMBOL32; lia. Qed.
Lemma descriptor_emits d : descriptor_ok d -> descriptor_size d < 2 ^ 32 ->
  exists bs, wbytes (descriptor_enc d) = 0x00 :: bs /\ wire_descriptor (canon_descriptor d) bs.
Proof.
  intros Hd H. unfold descriptor_enc, descriptor_size in *. destruct d as [v|s]; wb; change (FC_DESCRIBED mod 256) with 0x00; eexists; (split; [reflexivity|]).
  - constructor. now apply u64_emits.
  - constructor. apply symbol_emits; [easy|]. unfold symbol_size, var_size in H. pose proof (zlen_nonneg (str_bytes s)). rewrite str_len_bytes in *.
    destruct (255 <? zlen (str_bytes s)); lia.
Qed.
