(** Facts about texts, sequences, timestamps and sizes of decoded values. *)

From Coq Require Import String.
From Verif Require Import Definitions BaseFacts Utf8Spec Utf8Facts Valid Wire PrimFacts DecLaws EncLaws VariantFacts TypeSpec TypeFacts
  CompositeSpec CompositeFacts AllTypes AllTypesFacts CodecSpec EqFacts CodecFacts MapFacts.
From Coq Require Import ZifyBool.
Ltac Zify.zify_post_hook ::= Z.div_mod_to_equations.
Open Scope Z_scope.

(** ** Texts *)
Lemma from_utf8_spec b : bytes_ok b -> (is_utf8 b -> from_utf8 b = Ok b) /\ (~ is_utf8 b -> from_utf8 b = Err EUtf8Error).
Proof.
  intros Hb. unfold from_utf8. split.
  - intros H. now rewrite is_utf8_valid.
  - intros H. destruct (utf8_valid b) eqn:E; [|reflexivity]. destruct H. now apply (utf8_valid_text (length b)).
Qed.
Lemma read_var_u8 b rest : zlen b < 2 ^ 8 -> read_bytes_u8 (zlen b :: b ++ rest) = Ok (rest, b).
Proof.
  intros _. unfold read_bytes_u8, read_u8. rewrite check_len_true by (rewrite zlen_cons; pose proof (zlen_nonneg (b ++ rest)); lia).
  cbn [bind]. rewrite check_len_true by (rewrite zlen_app; pose proof (zlen_nonneg rest); lia).
  cbn [bind]. now rewrite ztake_app, zdrop_app.
Qed.
Lemma read_var_u32 b rest : zlen b < 2 ^ 32 -> read_bytes_u32 (be4 (zlen b) ++ b ++ rest) = Ok (rest, b).
Proof.
  intros H. unfold read_bytes_u32. pose proof (zlen_nonneg b). rewrite be_read_be4 by lia. cbn [bind].
  rewrite check_len_true by (rewrite zlen_app; pose proof (zlen_nonneg rest); lia). cbn [bind]. now rewrite ztake_app, zdrop_app.
Qed.
Lemma text_read {T} (f : bytes -> T) (r : bytes -> res (bytes * bytes)) inp b rest : bytes_ok b -> r inp = Ok (rest, b) ->
  (is_utf8 b -> ('(i, b) <- r inp ;; s <- from_utf8 b ;; Ok (i, f s)) = Ok (rest, f b)) /\
  (~ is_utf8 b -> ('(i, b) <- r inp ;; s <- from_utf8 b ;; Ok (i, f s)) = Err EUtf8Error).
Proof.
  intros Hb E. rewrite E. cbn [bind]. destruct (from_utf8_spec b Hb) as [H1 H2].
  split; intros H; [rewrite H1|rewrite H2]; auto.
Qed.
Lemma bstr_read md b hdr rest : bytes_ok b -> var_header 0xa1 0xb1 (zlen b) hdr ->
  (is_utf8 b -> decode bstr_dec md (hdr ++ b ++ rest) = Ok (rest, b)) /\
  (~ is_utf8 b -> decode bstr_dec md (hdr ++ b ++ rest) = Err EUtf8Error).
Proof.
  intros Hb [[H ->]|[H ->]]; cbn [app]; rewrite decode_cons.
  - apply (text_read (fun s => s) read_bytes_u8); auto. now apply read_var_u8.
  - apply (text_read (fun s => s) read_bytes_u32); auto. now apply read_var_u32.
Qed.
Lemma str_read md b hdr rest : bytes_ok b -> var_header 0xa1 0xb1 (zlen b) hdr ->
  (is_utf8 b -> decode str_dec md (hdr ++ b ++ rest) = Ok (rest, SByteStr b)) /\
  (~ is_utf8 b -> decode str_dec md (hdr ++ b ++ rest) = Err EUtf8Error).
Proof.
  intros Hb [[H ->]|[H ->]]; cbn [app]; rewrite decode_cons.
  - apply (text_read SByteStr read_bytes_u8); auto. now apply read_var_u8.
  - apply (text_read SByteStr read_bytes_u32); auto. now apply read_var_u32.
Qed.
Lemma symbol_read md b hdr rest : bytes_ok b -> var_header 0xa3 0xb3 (zlen b) hdr ->
  (is_utf8 b -> decode symbol_dec md (hdr ++ b ++ rest) = Ok (rest, SByteStr b)) /\
  (~ is_utf8 b -> decode symbol_dec md (hdr ++ b ++ rest) = Err EUtf8Error).
Proof.
  intros Hb [[H ->]|[H ->]]; cbn [app]; rewrite decode_cons.
  - apply (text_read SByteStr read_bytes_u8); auto. now apply read_var_u8.
  - apply (text_read SByteStr read_bytes_u32); auto. now apply read_var_u32.
Qed.

(** ** [VecVariantMap] *)
Lemma vecmap_iter_reads md n : forall inp acc r m,
  iter_res n (vecmap_step (decode str_dec md) (decode variant_dec md)) (inp, acc) = Ok (r, m) ->
  exists ps content, inp = content ++ r /\ length ps = n /\ reads_pairs str_dec variant_dec md ps content /\ m = acc ++ ps.
Proof.
  induction n as [|n IH]; intros inp acc r m E.
  - cbn in E. injection E as <- <-. exists [], []. rewrite app_nil_r. repeat split; constructor.
  - cbn [iter_res vecmap_step] in E. apply bind_ok in E as [[i a] [E1 E2]].
    apply bind_ok in E1 as [[i1 k] [Ek E1]]. apply bind_ok in E1 as [[i2 v] [Ev E1]]. injection E1 as <- <-.
    destruct (type_lawful str_S md ty_str _ _ _ Ek) as [(pk & -> & Hk) _].
    destruct (type_lawful variant_S md ty_variant _ _ _ Ev) as [(pv & -> & Hv) _].
    destruct (IH _ _ _ _ E2) as (ps & content & -> & HL & HR & ->).
    exists ((k, v) :: ps), (pk ++ pv ++ content). repeat split.
    + now rewrite <- !app_assoc.
    + cbn [length]. now rewrite HL.
    + constructor; [exact Hk|exact Hv|exact HR].
    + now rewrite <- app_assoc.
Qed.
Lemma vecmap_reads_iter md ps content : reads_pairs str_dec variant_dec md ps content -> forall r acc,
  iter_res (length ps) (vecmap_step (decode str_dec md) (decode variant_dec md)) (content ++ r, acc) = Ok (r, acc ++ ps).
Proof.
  induction 1 as [|k v ps bk bv bs Hk Hv Hps IH]; intros r acc; [cbn; now rewrite app_nil_r|].
  cbn [length iter_res vecmap_step]. rewrite <- !app_assoc. rewrite Hk. cbn [bind]. rewrite Hv. cbn [bind].
  etransitivity; [apply IH|]. now rewrite <- app_assoc.
Qed.
Lemma map_header_inv md i c i1 h : bytes_ok i -> decode_map_header md i c = Ok (i1, h) ->
  exists hdr, c :: i = hdr ++ i1 /\ map_header md (ch_count h) (ch_size h) hdr.
Proof.
  intros Hi E1. unfold decode_map_header in E1. destruct (Z.eqb_spec c FC_MAP8) as [->|_].
  - apply compound8_inv in E1 as (S & N & ->); [|exact Hi]. eexists [_; _; _]. split; [reflexivity|]. left. auto.
  - destruct (Z.eqb_spec c FC_MAP32) as [->|_]; [|discriminate].
    apply compound32_inv in E1 as (S & N & ->); [|exact Hi]. eexists (_ :: _ ++ _). split.
    + cbn [app]. rewrite <- app_assoc. reflexivity.
    + right. auto.
Qed.
Lemma vecmap_read md inp rest m : bytes_ok inp -> decode (s_dec vecmap_S) md inp = Ok (rest, m) ->
  exists hdr n content junk,
    inp = hdr ++ content ++ junk ++ rest /\ map_header md n (zlen (content ++ junk)) hdr /\ zlen m = n / 2 /\
    reads_pairs str_dec variant_dec md m content.
Proof.
  intros Hb E. destruct inp as [|c i]; [discriminate|]. rewrite decode_cons in E. inversion Hb as [|? ? Hc Hi]; subst.
  change (vecmap_dec md i c = Ok (rest, m)) in E. unfold vecmap_dec in E.
  apply bind_ok in E as [[i1 h] [E1 E]]. apply bind_ok in E as [s [E2 E]]. apply bind_ok in E as [[r m'] [E3 E]]. injection E as <- <-.
  unfold slice_to in E2. destruct (Z.ltb_spec (zlen i1) (ch_size h)) as [|HS]; [discriminate|]. injection E2 as <-.
  destruct (map_header_inv _ _ _ _ _ Hi E1) as (hdr & EH & MH). rewrite EH.
  assert (Hn : 0 <= ch_size h /\ 0 <= ch_count h) by (destruct MH as [(? & [? _] & _)|(? & [? _] & _)]; lia).
  rewrite loop_n_iter in E3. apply vecmap_iter_reads in E3 as (ps & content & ES & HL & HR & ->); auto.
  exists hdr, (ch_count h), content, r. cbn [app]. rewrite <- ES.
  split; [|split; [|split; [|exact HR]]].
  - f_equal. rewrite app_assoc, <- ES. now rewrite ztake_zdrop.
  - rewrite zlen_ztake by lia. exact MH.
  - unfold zlen. rewrite HL. rewrite Z2Nat.id; [reflexivity|]. apply Z.div_pos; lia.
Qed.

(** ** Lists and arrays: the declared size is not used *)
Section Sequences.
  Context {T : Type} (read : bytes -> res (bytes * T)) (L : lawful any read).
  Lemma vec_iter_reads n : forall inp acc r l, iter_res n (vec_step read) (inp, acc) = Ok (r, l) ->
    exists l' content, inp = content ++ r /\ length l' = n /\ reads_all read l' content /\ l = acc ++ l'.
  Proof.
    induction n as [|n IH]; intros inp acc r l E.
    - cbn in E. injection E as <- <-. exists [], []. rewrite app_nil_r. repeat split; constructor.
    - cbn [iter_res vec_step] in E. apply bind_ok in E as [[i a] [E1 E2]]. apply bind_ok in E1 as [[i1 x] [Ex E1]].
      injection E1 as <- <-. destruct (L _ _ _ Ex) as [(p & -> & Hp) _].
      destruct (IH _ _ _ _ E2) as (l' & content & -> & HL & HR & ->).
      exists (x :: l'), (p ++ content). repeat split.
      + now rewrite <- app_assoc.
      + cbn [length]. now rewrite HL.
      + constructor; [exact Hp|exact HR].
      + now rewrite <- app_assoc.
  Qed.
  Lemma vec_reads_iter l content : reads_all read l content -> forall r acc,
    iter_res (length l) (vec_step read) (content ++ r, acc) = Ok (r, acc ++ l).
  Proof.
    induction 1 as [|x l b bs Hx Hl IH]; intros r acc; [cbn; now rewrite app_nil_r|].
    cbn [length iter_res vec_step]. rewrite <- app_assoc. rewrite Hx. cbn [bind].
    etransitivity; [apply IH|]. now rewrite <- app_assoc.
  Qed.
End Sequences.
Lemma list_header_inv md i c i1 h : bytes_ok i -> decode_list_header md i c = Ok (i1, h) ->
  exists hdr, c :: i = hdr ++ i1 /\ list_header md (ch_count h) (ch_size h) hdr.
Proof.
  intros Hi E1. unfold decode_list_header in E1. destruct (Z.eqb_spec c FC_LIST0) as [->|_].
  { injection E1 as <- <-. exists [0x45]. split; [reflexivity|]. now left. }
  destruct (Z.eqb_spec c FC_LIST8) as [->|_].
  - apply compound8_inv in E1 as (S & N & ->); [|exact Hi]. eexists [_; _; _]. split; [reflexivity|]. right; left. auto.
  - destruct (Z.eqb_spec c FC_LIST32) as [->|_]; [|discriminate].
    apply compound32_inv in E1 as (S & N & ->); [|exact Hi]. eexists (_ :: _ ++ _). split.
    + cbn [app]. rewrite <- app_assoc. reflexivity.
    + right; right. auto.
Qed.
Lemma list_header_read md n len hdr r : list_header md n len hdr ->
  exists c h, hdr ++ r = c :: h /\ decode_list_header md h c = Ok (r, MkCH len n).
Proof.
  intros [(-> & -> & ->)|[(H & S & ->)|(H & S & ->)]].
  - now exists 0x45, r.
  - eexists 0xc0, _. split; [reflexivity|]. exact (compound8_header md len n r S).
  - exists 0xd0, (be4 ((len + 4) mod 2 ^ 32) ++ be4 n ++ r). split; [cbn [app]; now rewrite <- app_assoc|]. exact (compound32_header md len n r S H).
Qed.
Lemma array_header_inv md i c i1 h : bytes_ok i -> decode_array_header md i c = Ok (i1, h) ->
  exists hdr, c :: i = hdr ++ i1 /\ array_header md (ch_count h) (ch_size h) hdr.
Proof.
  intros Hi E1. unfold decode_array_header in E1. destruct (Z.eqb_spec c FC_ARRAY8) as [->|_].
  - apply compound8_inv in E1 as (S & N & ->); [|exact Hi]. eexists [_; _; _]. split; [reflexivity|]. left. auto.
  - destruct (Z.eqb_spec c FC_ARRAY32) as [->|_]; [|discriminate].
    apply compound32_inv in E1 as (S & N & ->); [|exact Hi]. eexists (_ :: _ ++ _). split.
    + cbn [app]. rewrite <- app_assoc. reflexivity.
    + right. auto.
Qed.
Lemma array_header_read md n len hdr r : array_header md n len hdr ->
  exists c h, hdr ++ r = c :: h /\ decode_array_header md h c = Ok (r, MkCH len n).
Proof.
  intros [(H & S & ->)|(H & S & ->)].
  - eexists 0xe0, _. split; [reflexivity|]. exact (compound8_header md len n r S).
  - exists 0xf0, (be4 ((len + 4) mod 2 ^ 32) ++ be4 n ++ r). split; [cbn [app]; now rewrite <- app_assoc|]. exact (compound32_header md len n r S H).
Qed.
Lemma list_read md inp rest l : bytes_ok inp -> decode (list_dec variant_dec) md inp = Ok (rest, l) ->
  exists hdr len content, inp = hdr ++ content ++ rest /\ list_header md (zlen l) len hdr /\ reads_all (decode variant_dec md) l content.
Proof.
  intros Hb E. destruct inp as [|c i]; [discriminate|]. rewrite decode_cons in E. inversion Hb as [|? ? Hc Hi]; subst.
  unfold list_dec in E. apply bind_ok in E as [[i1 h] [E1 E]].
  destruct (list_header_inv _ _ _ _ _ Hi E1) as (hdr & EH & MH). rewrite EH.
  assert (Hn : 0 <= ch_count h) by (destruct MH as [(? & _)|[(? & _)|(? & _)]]; lia).
  rewrite loop_n_iter in E. apply vec_iter_reads in E as (l' & content & -> & HL & HR & ->);
    [|apply (lawful_weaken variant_ok); [easy|exact (type_lawful variant_S md ty_variant)]].
  exists hdr, (ch_size h), content. cbn [app]. split; [reflexivity|]. split; [|exact HR].
  unfold zlen. rewrite HL, Z2Nat.id by lia. exact MH.
Qed.
Lemma list_accepts_any_size md l len hdr content rest :
  list_header md (zlen l) len hdr -> reads_all (decode variant_dec md) l content ->
  decode (list_dec variant_dec) md (hdr ++ content ++ rest) = Ok (rest, l).
Proof.
  intros H R. destruct (list_header_read md _ _ _ (content ++ rest) H) as (c & i & -> & E). rewrite decode_cons.
  unfold list_dec. rewrite E. cbn [bind ch_count]. rewrite loop_zlen. now apply vec_reads_iter.
Qed.
Lemma vec_read {T} A width (S : tspec T) : element A width S -> forall md inp rest l, bytes_ok inp ->
  decode (vec_dec (s_dec S)) md inp = Ok (rest, l) ->
  exists hdr len code content, inp = hdr ++ code :: content ++ rest /\ array_header md (zlen l) len hdr /\
    reads_all (fun i => s_dec S md i code) l content.
Proof.
  intros EL md inp rest l Hb E. destruct inp as [|c i]; [discriminate|]. rewrite decode_cons in E. inversion Hb as [|? ? Hc Hi]; subst.
  unfold vec_dec in E. apply bind_ok in E as [[i1 h] [E1 E]]. destruct i1 as [|code i2]; [discriminate|].
  destruct (array_header_inv _ _ _ _ _ Hi E1) as (hdr & EH & MH). rewrite EH.
  assert (Hn : 0 <= ch_count h) by (destruct MH as [(? & _)|(? & _)]; lia).
  rewrite loop_n_iter in E. apply vec_iter_reads in E as (l' & content & -> & HL & HR & ->);
    [|apply (lawful_weaken (s_valid S)); [easy|apply (g_dec S), (ge_good _ _ _ (element_good _ _ _ EL))]].
  exists hdr, (ch_size h), code, content. cbn [app]. split; [reflexivity|]. split; [|exact HR].
  unfold zlen. rewrite HL, Z2Nat.id by lia. exact MH.
Qed.
Lemma vec_accepts_any_size {T} (d : dec T) md l len hdr code content rest :
  array_header md (zlen l) len hdr -> reads_all (fun i => d md i code) l content ->
  decode (vec_dec d) md (hdr ++ code :: content ++ rest) = Ok (rest, l).
Proof.
  intros H R. destruct (array_header_read md _ _ _ (code :: content ++ rest) H) as (c & i & -> & E). rewrite decode_cons.
  unfold vec_dec. rewrite E. cbn [bind ch_count]. rewrite loop_zlen. exact (vec_reads_iter (fun i => d md i code) l content R rest []).
Qed.

(** Arrays whose elements take 254 bytes. *)
Lemma vec_254 {T} A width (S : tspec T) : element A width S -> forall l rest,
  Forall (s_valid S) l -> Forall (s_encodable S) l -> Forall (s_decodable S) (map (s_canon S) l) -> total_width width l = 254 ->
  (exists r, s_bytes (vec_S A width S) l = 0xe0 :: 0 :: zlen l :: r /\ zlen r = 255) /\
  decode (s_dec (vec_S A width S)) Debug (s_bytes (vec_S A width S) l ++ rest) = Panic PArith /\
  decode (s_dec (vec_S A width S)) Release (s_bytes (vec_S A width S) l ++ rest) = Ok (rest, map (s_canon S) l).
Proof.
  intros EL l rest Hv He Hd Hw. destruct (element_good _ _ _ EL) as [G HA HC HW HE].
  destruct (total_width_size A width S HW HE l Hv) as [W1 W2]. pose proof (zlen_nonneg l).
  pose proof (bodies_emits A width S HW HE l Hv He ltac:(lia)) as B.
  destruct (vec_fits _ _ _ HA Hv) as [F _]. rewrite wbytes_flat_map, flat_map_concat_map in F.
  set (bodies := map (fun x => wbytes (a_enc A x)) l) in *.
  assert (E : s_bytes (vec_S A width S) l = 0xe0 :: 0 :: zlen l :: a_code A :: concat bodies).
  { change (wbytes (vec_enc A l) = 0xe0 :: 0 :: zlen l :: a_code A :: concat bodies). unfold vec_enc. rewrite W1, Hw.
    change (255 <? 254 + 1) with false. cbn iota. rewrite !wbytes_app, wbytes_flat_map, flat_map_concat_map. wb. unfold byte_ok in HC.
    rewrite (Z.mod_small (a_code A)) by lia. rewrite (Z.mod_small (zlen l)) by lia. reflexivity. }
  rewrite E. cbn [app]. change (s_dec (vec_S A width S)) with (vec_dec (s_dec S)). rewrite !decode_cons.
  split; [|split].
  - eexists. split; [reflexivity|]. rewrite zlen_cons. change (zlen (concat bodies) = array_encoded_size A l) in F. lia.
  - unfold vec_dec, decode_array_header. change (0xe0 =? FC_ARRAY8) with true. cbn iota. unfold decode_compound8.
    rewrite check_len_true; [reflexivity|]. rewrite !zlen_cons. pose proof (zlen_nonneg (concat bodies ++ rest)). lia.
  - unfold vec_dec, decode_array_header. change (0xe0 =? FC_ARRAY8) with true. cbn iota. unfold decode_compound8.
    rewrite check_len_true by (rewrite !zlen_cons; pose proof (zlen_nonneg (concat bodies ++ rest)); lia).
    cbn [bind usub]. change (usub Release 8 0 1) with (@Ok Z 255). cbn [bind ch_count].
    rewrite <- (zlen_map (s_canon S) l), loop_zlen. exact (bodies_accepts S G Release (a_code A) _ bodies B Hd [] rest).
Qed.

(** ** Timestamps *)
Lemma datetime_read md ms rest : - 2 ^ 63 <= ms < 2 ^ 63 ->
  decode datetime_dec md (0x83 :: be8 ms ++ rest) =
  (t <- datetime_from_millis ms ;; Ok (rest, t)).
Proof.
  intros H. rewrite decode_cons. unfold datetime_dec. cbn [validate_code FC_TIMESTAMP Z.eqb Pos.eqb bind].
  rewrite be_read_signed_be8 by easy. reflexivity.
Qed.
Lemma from_millis_late ms : 0 <= ms -> datetime_from_millis ms = if ms / 1000 <=? chrono_max_secs then Ok (instant ms) else Panic PChrono.
Proof.
  intros H. destruct (Z.leb_spec (ms / 1000) chrono_max_secs) as [HM|HM].
  - apply datetime_from_instant. unfold timestamp_supported, instant, chrono_min_secs in *. cbn [dt_secs dt_nanos]. lia.
  - unfold datetime_from_millis, utc_timestamp. pose proof (Z.quot_div_nonneg ms 1000 H ltac:(lia)) as Q. rewrite Q.
    destruct (Z.ltb_spec (ms / 1000) 0); [lia|].
    destruct (Z.leb_spec (ms / 1000) chrono_max_secs); [lia|]. now rewrite andb_false_r.
Qed.
Lemma from_millis_mirrored ms : -1000 < ms < 0 -> datetime_from_millis ms = Ok (instant (- ms)).
Proof.
  intros H. unfold datetime_from_millis, instant. assert (Z.quot ms 1000 = 0) as ->.
  { pose proof (Z.quot_rem' ms 1000). pose proof (Z.rem_bound_abs ms 1000 ltac:(lia)).
    assert (Z.rem ms 1000 <= 0) by (apply Z.rem_nonpos; lia). change (Z.abs 1000) with 1000 in *. lia. }
  change (0 <? 0) with false. cbn iota. unfold utc_timestamp. change (chrono_min_secs <=? 0) with true. change (0 <=? chrono_max_secs) with true.
  replace (Z.abs ((ms - 0 * 1000) * 1000000) mod 2 ^ 32) with (- ms * 1000000).
  - destruct (Z.ltb_spec (- ms * 1000000) 2000000000); [|lia]. cbn [andb]. do 2 f_equal; lia.
  - rewrite Z.abs_neq by lia. rewrite Z.mod_small; lia.
Qed.
Lemma from_millis_early ms : ms <= -1000 -> datetime_from_millis ms =
  if chrono_min_secs <=? (if ms mod 1000 =? 0 then ms / 1000 - 1 else ms / 1000) then
    Ok (if ms mod 1000 =? 0 then MkDT (ms / 1000 - 1) 1000000000 else instant ms)
  else Panic PChrono.
Proof.
  intros H. unfold datetime_from_millis, utc_timestamp, instant.
  pose proof (Z.quot_rem' ms 1000) as Hq. pose proof (Z.rem_bound_abs ms 1000 ltac:(lia)) as Hr. change (Z.abs 1000) with 1000 in Hr.
  assert (Hs : Z.rem ms 1000 <= 0) by (apply Z.rem_nonpos; lia).
  destruct (Z.ltb_spec (Z.quot ms 1000) 0); [|lia].
  assert (E : ms - Z.quot ms 1000 * 1000 = Z.rem ms 1000) by lia. rewrite E. clear E.
  rewrite Z.abs_eq by lia. change (2 ^ 32) with 4294967296.
  assert (0 <= (1000 + Z.rem ms 1000) * 1000000 < 4294967296) by (clear - Hr Hs; lia).
  rewrite (Z.mod_small (_ * 1000000)) by easy.
  assert (Z.quot ms 1000 - 1 <=? chrono_max_secs = true) as -> by (unfold chrono_max_secs; lia).
  assert ((1000 + Z.rem ms 1000) * 1000000 <? 2000000000 = true) as -> by lia. rewrite !andb_true_r.
  destruct (Z.eqb_spec (ms mod 1000) 0) as [Hm|Hm].
  - assert (Z.rem ms 1000 = 0) as -> by lia. replace (Z.quot ms 1000) with (ms / 1000) by lia. reflexivity.
  - replace (Z.quot ms 1000 - 1) with (ms / 1000) by lia. replace (1000 + Z.rem ms 1000) with (ms mod 1000) by lia. reflexivity.
Qed.

(** ** Size of decoded values *)
Lemma nodes_pos v : 1 <= nodes v.
Proof.
  induction v using variant_ind'; cbn [nodes]; try lia.
  - assert (0 <= fold_right Z.add 0 (map nodes l)); [|lia]. induction H; cbn [map fold_right]; lia.
  - match goal with |- 1 <= 1 + ?x => assert (0 <= x); [|lia] end. induction H as [|[k w] m [H1 H2] _ IH]; cbn [map fold_right fst snd] in *; lia.
Qed.
Lemma depth_nodes v : depth v <= nodes v.
Proof.
  induction v using variant_ind'; cbn [depth nodes]; try lia.
  - assert (fold_right Z.max 0 (map depth l) <= fold_right Z.add 0 (map nodes l)); [|lia].
    induction H as [|x l Hx _ IH]; cbn [map fold_right]; [lia|]. pose proof (nodes_pos x).
    assert (0 <= fold_right Z.add 0 (map nodes l)) by (clear; induction l as [|y l IH]; cbn [map fold_right]; [lia|]; pose proof (nodes_pos y); lia).
    lia.
  - match goal with |- 1 + ?x <= 1 + ?y => assert (x <= y); [|lia] end.
    induction H as [|[k w] m [H1 H2] _ IH]; cbn [map fold_right fst snd] in *; [lia|]. pose proof (nodes_pos k). pose proof (nodes_pos w).
    match goal with |- _ <= _ + ?y => assert (0 <= y) end.
    { clear - m. induction m as [|[a b] l IH]; cbn [map fold_right]; [lia|]; pose proof (nodes_pos a); pose proof (nodes_pos b); lia. }
    lia.
Qed.
Definition list_nodes (l : list variant) : Z := fold_right Z.add 0 (map nodes l).
Definition map_nodes (m : list (variant * variant)) : Z :=
  fold_right Z.add 0 (map (fun kv : variant * variant => let (k, w) := kv in nodes k + nodes w) m).
Lemma list_nodes_app a b : list_nodes (a ++ b) = list_nodes a + list_nodes b.
Proof. unfold list_nodes. rewrite map_app. induction a as [|x a IH]; cbn [map app fold_right]; lia. Qed.
Lemma map_nodes_insert k v m : map_nodes (hm_insert variant_eqb k v m) <= map_nodes m + nodes k + nodes v.
Proof.
  induction m as [|[k' v'] m IH]; [unfold map_nodes; cbn; lia|]. cbn [hm_insert].
  pose proof (nodes_pos k). pose proof (nodes_pos v'). unfold map_nodes in *.
  destruct (variant_eqb k k'); cbn [map fold_right] in *; lia.
Qed.
Definition frugal (d : dec variant) : Prop := forall md inp fmt rest v, d md inp fmt = Ok (rest, v) -> nodes v <= 1 + (zlen inp - zlen rest).
Lemma frugal_decode d md inp rest v : frugal d -> decode d md inp = Ok (rest, v) -> nodes v <= zlen inp - zlen rest.
Proof.
  intros F E. destruct inp as [|c i]; [discriminate|]. rewrite decode_cons in E. apply F in E. rewrite zlen_cons. lia.
Qed.
Lemma frugal_list_iter d md n : frugal d -> forall inp acc rest l,
  iter_res n (vec_step (decode d md)) (inp, acc) = Ok (rest, l) -> list_nodes l <= list_nodes acc + (zlen inp - zlen rest).
Proof.
  intros F. induction n as [|n IH]; intros inp acc rest l E; [cbn in E; injection E as <- <-; lia|].
  cbn [iter_res vec_step] in E. apply bind_ok in E as [[i a] [E1 E2]]. apply bind_ok in E1 as [[i1 x] [Ex E1]]. injection E1 as <- <-.
  apply IH in E2. apply frugal_decode in Ex; [|exact F]. rewrite list_nodes_app in E2. unfold list_nodes at 3 in E2. cbn [map fold_right] in E2. lia.
Qed.
Lemma frugal_map_iter d md n : frugal d -> forall inp acc rest m,
  iter_res n (map_step variant_key (decode d md) (decode d md)) (inp, acc) = Ok (rest, m) -> map_nodes m <= map_nodes acc + (zlen inp - zlen rest).
Proof.
  intros F. induction n as [|n IH]; intros inp acc rest l E; [cbn in E; injection E as <- <-; lia|].
  cbn [iter_res map_step] in E. apply bind_ok in E as [[i a] [E1 E2]]. apply bind_ok in E1 as [[i1 k] [Ek E1]].
  apply bind_ok in E1 as [[i2 x] [Ex E1]]. destruct (k_hashable variant_key k); [|discriminate]. injection E1 as <- <-.
  apply IH in E2. apply frugal_decode in Ek; [|exact F]. apply frugal_decode in Ex; [|exact F].
  pose proof (map_nodes_insert k x acc). cbn [variant_key k_eqb] in *. lia.
Qed.
Lemma frugal_map_res {A} (f : A -> variant) (x : res (bytes * A)) (inp : bytes) (L : forall r a, x = Ok (r, a) -> zlen r <= zlen inp)
  (N : forall a, nodes (f a) = 1) rest v : map_res f x = Ok (rest, v) -> nodes v <= 1 + (zlen inp - zlen rest).
Proof. intros E. apply map_res_ok in E as (a & E & ->). apply L in E. rewrite N. lia. Qed.
Lemma lawful_shrinks {T} (P : T -> Prop) (d : dec T) md inp fmt : dec_lawful P d -> forall r a, d md inp fmt = Ok (r, a) -> zlen r <= zlen inp.
Proof. intros L r a E. exact (lawful_len P (fun i => d md i fmt) inp r a (L md fmt) E). Qed.
Lemma frugal_body d : dec_lawful any d -> frugal d -> frugal (variant_body d).
Proof.
  intros LD F md inp fmt rest v E. unfold variant_body in E.
  assert (HL : forall c, map_res VList (list_dec d md inp c) = Ok (rest, v) -> nodes v <= 1 + (zlen inp - zlen rest)).
  { intros c E'. apply map_res_ok in E' as (l & E' & ->). unfold list_dec in E'. apply bind_ok in E' as [[i h] [E1 E2]].
    pose proof (lawful_len _ _ _ _ _ (list_header_lawful md c) E1). rewrite loop_n_iter in E2. apply frugal_list_iter in E2; [|exact F].
    change (nodes (VList l)) with (1 + list_nodes l). change (list_nodes []) with 0 in E2. lia. }
  assert (HM : forall c, map_res VMap (map_dec variant_key d d md inp c) = Ok (rest, v) -> nodes v <= 1 + (zlen inp - zlen rest)).
  { intros c E'. apply map_res_ok in E' as (m & E' & ->). unfold map_dec in E'. apply bind_ok in E' as [[i h] [E1 E2]].
    pose proof (lawful_len _ _ _ _ _ (map_header_lawful md c) E1). apply bind_ok in E2 as [s [E2 E3]].
    unfold slice_to in E2. destruct (Z.ltb_spec (zlen i) (ch_size h)); [discriminate|]. injection E2 as <-.
    apply bind_ok in E3 as [[r m'] [E3 E4]]. injection E4 as <- <-. rewrite loop_n_iter in E3. apply frugal_map_iter in E3; [|exact F].
    pose proof (zlen_nonneg r). change (nodes (VMap m')) with (1 + map_nodes m'). change (map_nodes []) with 0 in E3.
    assert (zlen i = zlen (ztake (ch_size h) i) + zlen (zdrop (ch_size h) i)) by (rewrite <- zlen_app, ztake_zdrop; reflexivity). lia. }
  repeat match type of E with
  | (if ?c then _ else _) = _ => destruct c; [first
      [ now apply HL in E | now apply HM in E
      | injection E as <- <-; cbn [nodes map fold_right]; lia
      | (refine (frugal_map_res _ _ inp _ _ _ _ E); [|intros; reflexivity]);
        solve [eapply lawful_shrinks; eauto using bool_lawful, u8_lawful, u16_lawful, u32_lawful, u64_lawful, i8_lawful, i16_lawful, i32_lawful, i64_lawful,
          f32_lawful, f64_lawful, char_lawful, datetime_lawful, uuid_lawful, bin_lawful, bstr_lawful, symbol_lawful]
      | idtac ]|]
  end.
  - apply bind_ok in E as [[i1 ds] [E1 E]]. apply bind_ok in E as [[i2 w] [E2 E]]. injection E as <- <-.
    pose proof (lawful_len _ _ _ _ _ (decode_lawful _ _ md descriptor_lawful) E1). apply frugal_decode in E2; [|exact F]. cbn [nodes]. lia.
  - discriminate.
Qed.
Lemma frugal_fuel f : frugal (variant_dec_fuel f).
Proof.
  induction f as [|f IH]; intros md inp fmt rest v E; [discriminate|]. rewrite variant_dec_fuel_S in E.
  apply (frugal_body (variant_dec_fuel f)) in E; auto. apply (dec_lawful_any variant_ok), variant_fuel_lawful.
Qed.
Lemma decoded_nodes md inp rest v : decode variant_dec md inp = Ok (rest, v) -> nodes v <= zlen inp - zlen rest.
Proof. apply frugal_decode. intros md' i c r w E. exact (frugal_fuel _ md' i c r w E). Qed.
Lemma decoded_depth md inp rest v : decode variant_dec md inp = Ok (rest, v) -> depth v <= zlen inp - zlen rest.
Proof. intros E. apply decoded_nodes in E. pose proof (depth_nodes v). lia. Qed.
Lemma nested_read md n rest : decode variant_dec md (nested_bytes n ++ rest) = Ok (rest, nested n).
Proof.
  induction n as [|n IH]; cbn [nested_bytes app]; rewrite decode_cons, variant_dec_unfold; [reflexivity|].
  change ('(inp1, d) <- decode descriptor_dec md (0x53 :: 0x01 :: nested_bytes n ++ rest) ;;
      '(inp2, v) <- decode variant_dec md inp1 ;; Ok (inp2, VDescribed d v) = Ok (rest, nested (S n))).
  assert (decode descriptor_dec md (0x53 :: 0x01 :: nested_bytes n ++ rest) = Ok (nested_bytes n ++ rest, DUlong 1)) as ->.
  { apply (descriptor_accepts md (DUlong 1) [0x53; 0x01]); [discriminate|]. constructor. constructor. lia. }
  cbn [bind]. rewrite IH. reflexivity.
Qed.
Lemma nested_depth n : depth (nested n) = Z.of_nat n + 1 /\ zlen (nested_bytes n) = 3 * Z.of_nat n + 1.
Proof. induction n as [|n [IH1 IH2]]; [now split|]. cbn [nested depth nested_bytes]. rewrite !zlen_cons. lia. Qed.
Lemma array_amplification md n rest : 0 <= n < 2 ^ 32 ->
  decode (vec_dec bool_dec) md (0xf0 :: be4 5 ++ be4 n ++ 0x41 :: rest) = Ok (rest, repeat true (Z.to_nat n)).
Proof.
  intros Hn.
  assert (E : n = zlen (repeat true (Z.to_nat n))) by (unfold zlen; rewrite repeat_length; lia).
  pose proof (vec_accepts_any_size bool_dec md (repeat true (Z.to_nat n)) 1 (0xf0 :: be4 5 ++ be4 n) 0x41 [] rest) as H.
  cbn [app] in H. rewrite <- app_assoc in H. apply H.
  - right. rewrite <- E. split; [exact Hn|]. split; [split; [lia|intros _; lia]|]. reflexivity.
  - clear. induction (Z.to_nat n) as [|k IH]; [constructor|]. cbn [repeat]. apply (RA_cons _ true _ [] []); [reflexivity|exact IH].
Qed.
