(** Facts about maps as they are read. *)

From Coq Require Import String.
From Verif Require Import Definitions BaseFacts Valid Wire PrimFacts DecLaws EncLaws VariantFacts TypeSpec TypeFacts CompositeFacts AllTypes AllTypesFacts CodecSpec EqFacts CodecFacts.
From Coq Require Import ZifyBool.
Ltac Zify.zify_post_hook ::= Z.div_mod_to_equations.
Open Scope Z_scope.

Section Keys.
  Context {K V : Type} (KO : key K) (KE : key_equivalence KO).
  Local Notation eqb := (k_eqb KO).
  Local Notation hashable m := (Forall (fun kv : K * V => k_hashable KO (fst kv) = true) m).

  Lemma hm_insert_hashable k v (m : list (K * V)) : k_hashable KO k = true -> hashable m -> hashable (hm_insert eqb k v m).
  Proof. intros Hk H. apply hm_insert_forall; auto. Qed.
  Lemma hm_get_insert k0 k v (m : list (K * V)) : k_hashable KO k0 = true -> k_hashable KO k = true -> hashable m ->
    hm_get eqb k0 (hm_insert eqb k v m) = if eqb k0 k then Some v else hm_get eqb k0 m.
  Proof.
    intros H0 Hk. induction 1 as [|[k' v'] m Hx Hm IH]; cbn [hm_insert hm_get]; [reflexivity|]. cbn [fst] in Hx.
    destruct (eqb k k') eqn:E; cbn [hm_get].
    - destruct (eqb k0 k) eqn:E0.
      + now rewrite (ke_trans KO KE k0 k k') by auto.
      + destruct (eqb k0 k') eqn:E1; [|reflexivity].
        rewrite (ke_trans KO KE k0 k' k) in E0; auto; [discriminate|]. now apply (ke_sym KO KE).
    - destruct (eqb k0 k') eqn:E1; [|exact IH]. destruct (eqb k0 k) eqn:E0; [|reflexivity].
      rewrite (ke_trans KO KE k k0 k') in E; auto; [discriminate|]. now apply (ke_sym KO KE).
  Qed.
  Lemma maps_to_get k v (m : list (K * V)) : k_hashable KO k = true -> hashable m -> distinct_keys eqb m ->
    (maps_to eqb m k v <-> hm_get eqb k m = Some v).
  Proof.
    intros Hk Hm Hd. split.
    - intros (k' & Hin & E). induction m as [|[k1 v1] m IH]; [destruct Hin|]. cbn [hm_get].
      inversion Hm as [|? ? Hx Hm']; subst. inversion Hd as [|? ? Hd1 Hd2]; subst. cbn [fst] in *.
      destruct Hin as [[= -> ->]|Hin]; [now rewrite E|]. destruct (eqb k k1) eqn:E1; [|now apply IH].
      rewrite Forall_forall in Hd1, Hm'. specialize (Hd1 _ Hin). specialize (Hm' _ Hin). cbn [fst] in *.
      rewrite (ke_trans KO KE k' k k1) in Hd1; auto; [discriminate|]. now apply (ke_sym KO KE).
    - clear Hm Hd. intros E. induction m as [|[k1 v1] m IH]; [discriminate|]. cbn [hm_get] in E.
      destruct (eqb k k1) eqn:E1.
      + injection E as ->. exists k1. split; [now left|easy].
      + destruct (IH E) as (k' & Hin & E'). exists k'. split; [now right|easy].
  Qed.
  Definition insert_all (ps acc : list (K * V)) : list (K * V) := fold_left (fun m kv => hm_insert eqb (fst kv) (snd kv) m) ps acc.
  Lemma insert_all_hashable ps acc : hashable ps -> hashable acc -> hashable (insert_all ps acc).
  Proof.
    intros H. revert acc. induction H as [|[k v] ps Hk Hps IH]; intros acc Ha; [exact Ha|]. cbn [insert_all fold_left fst snd].
    apply IH. now apply hm_insert_hashable.
  Qed.
  Lemma insert_all_get k ps acc : k_hashable KO k = true -> hashable ps -> hashable acc ->
    hm_get eqb k (insert_all ps acc) = match last_value eqb k ps with Some w => Some w | None => hm_get eqb k acc end.
  Proof.
    intros Hk H. revert acc. induction H as [|[k1 v1] ps Hk1 Hps IH]; intros acc Ha; [reflexivity|].
    cbn [insert_all fold_left fst snd last_value]. etransitivity; [apply IH; now apply hm_insert_hashable|].
    destruct (last_value eqb k ps); [reflexivity|]. rewrite hm_get_insert by auto. now destruct (eqb k k1).
  Qed.
  Lemma insert_all_distinct ps acc : distinct_keys eqb acc -> distinct_keys eqb (insert_all ps acc).
  Proof.
    revert acc. induction ps as [|[k v] ps IH]; intros acc Ha; [exact Ha|]. cbn [insert_all fold_left fst snd].
    apply IH. now apply hm_insert_distinct.
  Qed.
  Lemma insert_all_map_of ps : hashable ps -> map_of KO ps (insert_all ps []).
  Proof.
    intros H. split; [apply insert_all_distinct; constructor|]. intros k v Hk.
    rewrite maps_to_get; [|exact Hk|now apply insert_all_hashable|apply insert_all_distinct; constructor].
    rewrite insert_all_get by auto. cbn [hm_get]. destruct (last_value eqb k ps); intuition congruence.
  Qed.
End Keys.

Lemma str_key_equivalence : key_equivalence str_key.
Proof.
  constructor; cbn [str_key k_eqb k_hashable]; intros.
  - apply str_eqb_refl.
  - now rewrite str_eqb_sym.
  - eapply str_eqb_trans; eauto.
Qed.
Lemma variant_key_equivalence : key_equivalence variant_key.
Proof.
  constructor; cbn [variant_key k_eqb k_hashable]; intros.
  - now apply eqb_norm.
  - apply eqb_norm; auto. symmetry. now apply eqb_norm.
  - apply eqb_norm; auto. transitivity (norm b); apply eqb_norm; auto.
Qed.

Section Read.
  Context {K V : Type} (KO : key K) (dk : dec K) (dv : dec V) (md : mode).
  Context (LK : lawful any (decode dk md)) (LV : lawful any (decode dv md)).

  Lemma iter_reads n : forall inp acc r m,
    iter_res n (map_step KO (decode dk md) (decode dv md)) (inp, acc) = Ok (r, m) ->
    exists ps content, inp = content ++ r /\ length ps = n /\ reads_pairs dk dv md ps content /\
      Forall (fun kv => k_hashable KO (fst kv) = true) ps /\ m = insert_all KO ps acc.
  Proof.
    induction n as [|n IH]; intros inp acc r m E.
    - cbn in E. injection E as <- <-. exists [], []. repeat split; constructor.
    - cbn [iter_res map_step] in E. apply bind_ok in E as [[i a] [E1 E2]].
      apply bind_ok in E1 as [[i1 k] [Ek E1]]. apply bind_ok in E1 as [[i2 v] [Ev E1]].
      destruct (k_hashable KO k) eqn:Eh; [|discriminate]. injection E1 as <- <-.
      destruct (LK _ _ _ Ek) as [(pk & -> & Hk) _]. destruct (LV _ _ _ Ev) as [(pv & -> & Hv) _].
      destruct (IH _ _ _ _ E2) as (ps & content & -> & HL & HR & HH & ->).
      exists ((k, v) :: ps), (pk ++ pv ++ content). repeat split.
      + now rewrite <- !app_assoc.
      + cbn [length]. now rewrite HL.
      + constructor; [exact Hk|exact Hv|exact HR].
      + constructor; auto.
  Qed.
  Lemma reads_iter ps content : reads_pairs dk dv md ps content -> Forall (fun kv => k_hashable KO (fst kv) = true) ps ->
    forall r acc, iter_res (length ps) (map_step KO (decode dk md) (decode dv md)) (content ++ r, acc) = Ok (r, insert_all KO ps acc).
  Proof.
    induction 1 as [|k v ps bk bv bs Hk Hv Hps IH]; intros HH r acc; [reflexivity|]. inversion HH as [|? ? Hh HH']; subst. cbn [fst] in Hh.
    cbn [length iter_res map_step]. rewrite <- !app_assoc. rewrite Hk. cbn [bind]. rewrite Hv. cbn [bind]. rewrite Hh. cbn [bind].
    now apply IH.
  Qed.
End Read.

Lemma be4_be_val l : bytes_ok l -> zlen l = 4 -> be4 (be_val l) = l /\ 0 <= be_val l < 2 ^ 32.
Proof.
  intros H L. split.
  - rewrite <- be_bytes_be4. rewrite <- (be_bytes_be_val l H) at 2. f_equal. unfold zlen in L. lia.
  - apply be_val_range in H. now rewrite L in H.
Qed.
Lemma compound8_inv md inp r h : bytes_ok inp -> decode_compound8 md inp = Ok (r, h) ->
  size_field md 8 1 (ch_size h) /\ 0 <= ch_count h < 2 ^ 8 /\ inp = (ch_size h + 1) mod 2 ^ 8 :: ch_count h :: r.
Proof.
  intros Hb E. unfold decode_compound8 in E. apply bind_ok in E as [u [_ E]]. destruct inp as [|b0 [|b1 i]]; try discriminate.
  apply bind_ok in E as [n [E1 E2]]. injection E2 as <- <-. inversion Hb as [|? ? H0 Hb']; subst. inversion Hb' as [|? ? H1 _]; subst.
  unfold byte_ok in *. cbn [ch_size ch_count]. unfold usub in E1. unfold size_field.
  destruct (Z.ltb_spec b0 1) as [H|H].
  - destruct md; [discriminate|]. injection E1 as <-. assert (b0 = 0) as -> by lia. repeat split; try lia; try easy.
  - injection E1 as <-. repeat split; try lia. f_equal. replace (b0 - 1 + 1) with b0 by lia. now rewrite Z.mod_small.
Qed.
Lemma compound32_inv md inp r h : bytes_ok inp -> decode_compound32 md inp = Ok (r, h) ->
  size_field md 32 4 (ch_size h) /\ 0 <= ch_count h < 2 ^ 32 /\ inp = be4 ((ch_size h + 4) mod 2 ^ 32) ++ be4 (ch_count h) ++ r.
Proof.
  intros Hb E. unfold decode_compound32 in E. apply bind_ok in E as [u [E0 E]]. apply check_len_ok in E0.
  apply bind_ok in E as [n [E1 E2]]. injection E2 as <- <-. cbn [ch_size ch_count].
  destruct (be4_be_val (ztake 4 inp)) as [B1 R1]; [now apply bytes_ok_ztake|apply zlen_ztake; lia|].
  destruct (be4_be_val (ztake 4 (zdrop 4 inp))) as [B2 R2];
    [now apply bytes_ok_ztake, bytes_ok_zdrop|apply zlen_ztake; rewrite zlen_zdrop; lia|].
  assert (S : size_field md 32 4 n /\ (n + 4) mod 2 ^ 32 = be_val (ztake 4 inp)).
  { unfold usub in E1. unfold size_field. destruct (Z.ltb_spec (be_val (ztake 4 inp)) 4).
    - destruct md; [discriminate|]. injection E1 as <-. repeat split; try lia. easy.
    - injection E1 as <-. repeat split; lia. }
  destruct S as [S ->]. split; [exact S|]. split; [exact R2|]. rewrite B1, B2.
  rewrite <- (ztake_zdrop 4 inp) at 1. f_equal. rewrite <- (ztake_zdrop 4 (zdrop 4 inp)) at 1. f_equal.
  unfold zdrop. change (Z.to_nat 4) with 4%nat. change (Z.to_nat 8) with 8%nat. now destruct inp as [|? [|? [|? [|? ?]]]].
Qed.
Lemma compound8_header md len n r : size_field md 8 1 len ->
  decode_compound8 md ((len + 1) mod 2 ^ 8 :: n :: r) = Ok (r, MkCH len n).
Proof.
  intros [H1 H2]. destruct (Z.eq_dec len 255) as [->|Hl].
  - unfold decode_compound8. rewrite check_len_true by (rewrite !zlen_cons; pose proof (zlen_nonneg r); lia).
    destruct md; [specialize (H2 eq_refl); lia|]. reflexivity.
  - rewrite Z.mod_small by lia. rewrite compound8_read by lia. do 3 f_equal. lia.
Qed.
Lemma compound32_header md len n r : size_field md 32 4 len -> 0 <= n < 2 ^ 32 ->
  decode_compound32 md (be4 ((len + 4) mod 2 ^ 32) ++ be4 n ++ r) = Ok (r, MkCH len n).
Proof.
  intros [H1 H2] Hn. destruct (Z_lt_le_dec (len + 4) (2 ^ 32)) as [Hl|Hl].
  - rewrite Z.mod_small by lia. rewrite compound32_read by lia. do 3 f_equal. lia.
  - unfold decode_compound32.
    rewrite check_len_true by (rewrite !zlen_app, !zlen_be4; pose proof (zlen_nonneg r); lia). cbn [bind].
    rewrite (ztake_app 4), (zdrop_app 4), (ztake_app 4 (be4 n)) by apply zlen_be4.
    rewrite app_assoc, (zdrop_app 8) by (rewrite zlen_app, !zlen_be4; lia).
    rewrite <- !be_bytes_be4, !be_val_be_bytes. change (256 ^ Z.of_nat 4) with (2 ^ 32). rewrite Z.mod_mod by lia.
    rewrite (Z.mod_small n) by lia. unfold usub. destruct md; [specialize (H2 eq_refl); lia|].
    destruct (Z.ltb_spec ((len + 4) mod 2 ^ 32) 4); [|lia]. cbn [bind]. do 3 f_equal. lia.
Qed.
Lemma size_field_nonneg md bits w len : size_field md bits w len -> 0 <= len. Proof. now intros [? _]. Qed.

Section MapDec.
  Context {K V : Type} (KO : key K) (dk : dec K) (dv : dec V) (md : mode).
  Context (LK : lawful any (decode dk md)) (LV : lawful any (decode dv md)).

  Lemma map_dec_read inp rest m : bytes_ok inp -> decode (map_dec KO dk dv) md inp = Ok (rest, m) ->
    exists hdr n ps content junk,
      inp = hdr ++ content ++ junk ++ rest /\ map_header md n (zlen (content ++ junk)) hdr /\ zlen ps = n / 2 /\
      reads_pairs dk dv md ps content /\ Forall (fun kv => k_hashable KO (fst kv) = true) ps /\ m = insert_all KO ps [].
  Proof.
    intros Hb E. destruct inp as [|c i]; [discriminate|]. rewrite decode_cons in E. inversion Hb as [|? ? Hc Hi]; subst.
    unfold map_dec in E.
    apply bind_ok in E as [[i1 h] [E1 E]]. apply bind_ok in E as [s [E2 E]]. apply bind_ok in E as [[r m'] [E3 E]]. injection E as <- <-.
    unfold slice_to in E2. destruct (Z.ltb_spec (zlen i1) (ch_size h)) as [|HS]; [discriminate|]. injection E2 as <-.
    assert (H : exists hdr, c :: i = hdr ++ i1 /\ map_header md (ch_count h) (ch_size h) hdr).
    { unfold decode_map_header in E1. destruct (Z.eqb_spec c FC_MAP8) as [->|_].
      - apply compound8_inv in E1 as (S & N & ->); [|exact Hi]. eexists [_; _; _]. split; [reflexivity|]. left. auto.
      - destruct (Z.eqb_spec c FC_MAP32) as [->|_]; [|discriminate].
        apply compound32_inv in E1 as (S & N & ->); [|exact Hi]. eexists (_ :: _ ++ _). split.
        + cbn [app]. rewrite <- app_assoc. reflexivity.
        + right. auto. }
    destruct H as (hdr & EH & MH). rewrite EH.
    assert (Hn : 0 <= ch_size h /\ 0 <= ch_count h) by (destruct MH as [(? & [? _] & _)|(? & [? _] & _)]; lia).
    rewrite loop_n_iter in E3. apply iter_reads in E3 as (ps & content & ES & HL & HR & HH & ->); auto.
    exists hdr, (ch_count h), ps, content, r. rewrite <- ES.
    split; [|split; [|split; [|split; [exact HR|split; [exact HH|reflexivity]]]]].
    - f_equal. rewrite app_assoc, <- ES. now rewrite ztake_zdrop.
    - rewrite zlen_ztake by lia. exact MH.
    - unfold zlen. rewrite HL. rewrite Z2Nat.id; [reflexivity|]. apply Z.div_pos; lia.
  Qed.

  Lemma map_dec_accepts hdr n ps content junk rest :
    map_header md n (zlen (content ++ junk)) hdr -> zlen ps = n / 2 ->
    reads_pairs dk dv md ps content -> Forall (fun kv => k_hashable KO (fst kv) = true) ps ->
    decode (map_dec KO dk dv) md (hdr ++ content ++ junk ++ rest) = Ok (rest, insert_all KO ps []).
  Proof.
    intros MH HL HR HH.
    assert (Key : slice_to (content ++ junk ++ rest) (zlen (content ++ junk)) = Ok (content ++ junk) /\
      zdrop (zlen (content ++ junk)) (content ++ junk ++ rest) = rest).
    { rewrite app_assoc. unfold slice_to. rewrite (zlen_app (content ++ junk)). pose proof (zlen_nonneg rest).
      destruct (Z.ltb_spec (zlen (content ++ junk) + zlen rest) (zlen (content ++ junk))); [lia|].
      rewrite ztake_app, zdrop_app by reflexivity. easy. }
    destruct Key as [Key1 Key2].
    assert (Loop : loop_n (n / 2) (map_step KO (decode dk md) (decode dv md)) (content ++ junk, []) = Ok (junk, insert_all KO ps [])).
    { rewrite <- HL, loop_n_iter. unfold zlen. rewrite Nat2Z.id. now apply reads_iter. }
    destruct MH as [(Hn & S & ->)|(Hn & S & ->)]; cbn [app]; rewrite decode_cons.
    - change (map_dec KO dk dv md ((zlen (content ++ junk) + 1) mod 2 ^ 8 :: n :: content ++ junk ++ rest) FC_MAP8 = Ok (rest, insert_all KO ps [])).
      unfold map_dec, decode_map_header. change (FC_MAP8 =? FC_MAP8) with true. cbn iota. rewrite compound8_header by exact S.
      cbn [bind ch_size ch_count]. rewrite Key1. cbn [bind]. etransitivity; [apply (bind_eq _ _ _ Loop)|]. cbn beta iota. now rewrite Key2.
    - rewrite <- app_assoc.
      change (map_dec KO dk dv md (be4 ((zlen (content ++ junk) + 4) mod 2 ^ 32) ++ be4 n ++ content ++ junk ++ rest) FC_MAP32 = Ok (rest, insert_all KO ps [])).
      unfold map_dec, decode_map_header. change (FC_MAP32 =? FC_MAP8) with false. change (FC_MAP32 =? FC_MAP32) with true.
      cbn iota. rewrite compound32_header by auto.
      cbn [bind ch_size ch_count]. rewrite Key1. cbn [bind]. etransitivity; [apply (bind_eq _ _ _ Loop)|]. cbn beta iota. now rewrite Key2.
  Qed.
End MapDec.

Section Maps.
  Context {K V : Type} (KO : key K) (SK : tspec K) (SV : tspec V) (TK : amqp_type SK) (TV : amqp_type SV).
  Context (KE : key_equivalence KO).
  Let LK md : lawful any (decode (s_dec SK) md).
  Proof. apply (lawful_weaken (s_valid SK)); [easy|]. now apply type_lawful. Qed.
  Let LV md : lawful any (decode (s_dec SV) md).
  Proof. apply (lawful_weaken (s_valid SV)); [easy|]. now apply type_lawful. Qed.

  Lemma map_read md inp rest m : bytes_ok inp -> decode (s_dec (map_S KO SK SV)) md inp = Ok (rest, m) ->
    exists hdr n ps content junk,
      inp = hdr ++ content ++ junk ++ rest /\ map_header md n (zlen (content ++ junk)) hdr /\ zlen ps = n / 2 /\
      reads_pairs (s_dec SK) (s_dec SV) md ps content /\ Forall (fun kv => k_hashable KO (fst kv) = true) ps /\ map_of KO ps m.
  Proof.
    intros Hb E. destruct (map_dec_read KO (s_dec SK) (s_dec SV) md (LK md) (LV md) inp rest m Hb E) as (hdr & n & ps & content & junk & H1 & H2 & H3 & H4 & H5 & ->).
    exists hdr, n, ps, content, junk. repeat (split; [assumption|]). now apply insert_all_map_of.
  Qed.

  Lemma map_accepts md hdr n ps content junk rest :
    map_header md n (zlen (content ++ junk)) hdr -> zlen ps = n / 2 ->
    reads_pairs (s_dec SK) (s_dec SV) md ps content -> Forall (fun kv => k_hashable KO (fst kv) = true) ps ->
    exists m, decode (s_dec (map_S KO SK SV)) md (hdr ++ content ++ junk ++ rest) = Ok (rest, m) /\ map_of KO ps m.
  Proof.
    intros MH HL HR HH. exists (insert_all KO ps []). split; [|now apply insert_all_map_of].
    exact (map_dec_accepts KO (s_dec SK) (s_dec SV) md hdr n ps content junk rest MH HL HR HH).
  Qed.
End Maps.
