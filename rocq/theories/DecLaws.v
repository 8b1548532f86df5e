(** Laws shared by the decoders.

    [lawful P r]: when [r] succeeds it has consumed a prefix of its input that alone determines the result, whatever
    follows; and the value it returns satisfies [P] if the input consists of bytes. *)

From Verif Require Import Decode BaseFacts Utf8Spec Utf8Facts Valid Wire PrimFacts.
From Coq Require Import ZifyBool.
Ltac Zify.zify_post_hook ::= Z.div_mod_to_equations.

Definition lawful {T} (P : T -> Prop) (r : bytes -> res (bytes * T)) : Prop :=
  forall inp rest v, r inp = Ok (rest, v) ->
    (exists p, inp = p ++ rest /\ forall ex, r (p ++ ex) = Ok (ex, v)) /\ (bytes_ok inp -> P v).

Definition dec_lawful {T} (P : T -> Prop) (d : dec T) : Prop := forall md fmt, lawful P (fun inp => d md inp fmt).

Lemma lawful_weaken {T} (P Q : T -> Prop) r : (forall v, P v -> Q v) -> lawful P r -> lawful Q r.
Proof. intros H L inp rest v E. destruct (L _ _ _ E) as [H1 H2]. split; auto. Qed.

Lemma lawful_ext {T} (P : T -> Prop) r r' : (forall inp, r inp = r' inp) -> lawful P r -> lawful P r'.
Proof.
  intros H L inp rest v E. rewrite <- H in E. destruct (L _ _ _ E) as [(p & -> & Hp) H2].
  split; [|easy]. exists p. split; [easy|]. intros ex. rewrite <- H. apply Hp.
Qed.

Lemma lawful_bytes_ok {T} (P : T -> Prop) r inp rest v : lawful P r -> r inp = Ok (rest, v) -> bytes_ok inp -> bytes_ok rest.
Proof. intros L E H. destruct (L _ _ _ E) as [(p & -> & _) _]. now apply bytes_ok_app in H. Qed.
Lemma lawful_len {T} (P : T -> Prop) r inp rest v : lawful P r -> r inp = Ok (rest, v) -> zlen rest <= zlen inp.
Proof. intros L E. destruct (L _ _ _ E) as [(p & -> & _) _]. rewrite zlen_app. pose proof (zlen_nonneg p). lia. Qed.

Lemma lawful_ret {T} (P : T -> Prop) v : P v -> lawful P (fun inp => Ok (inp, v)).
Proof.
  intros HP inp rest w E. injection E as <- <-. split; [|easy].
  exists []. split; [easy|]. intros ex. reflexivity.
Qed.
Lemma lawful_err {T} (P : T -> Prop) e : lawful P (fun _ : bytes => @Err (bytes * T) e).
Proof. intros inp rest v E. discriminate. Qed.
Lemma lawful_panic {T} (P : T -> Prop) e : lawful P (fun _ : bytes => @Panic (bytes * T) e).
Proof. intros inp rest v E. discriminate. Qed.
Lemma lawful_oof {T} (P : T -> Prop) : lawful P (fun _ : bytes => @Oof (bytes * T)).
Proof. intros inp rest v E. discriminate. Qed.
Lemma lawful_if {T} (P : T -> Prop) (b : bool) r1 r2 :
  lawful P r1 -> lawful P r2 -> lawful P (fun inp => if b then r1 inp else r2 inp).
Proof. destruct b; auto. Qed.

Lemma lawful_bind {T U} (P : T -> Prop) (Q : U -> Prop) r (k : T -> bytes -> res (bytes * U)) :
  lawful P r -> (forall x, P x -> lawful Q (k x)) -> (forall x, lawful (fun _ => True) (k x)) ->
  lawful Q (fun inp => '(i, x) <- r inp ;; k x i).
Proof.
  intros L1 L2 L3 inp rest v E. apply bind_ok in E as [[i x] [E1 E2]].
  pose proof (lawful_bytes_ok _ _ _ _ _ L1 E1) as Hb.
  destruct (L1 _ _ _ E1) as [(p & -> & Hp) HP].
  destruct (L3 x _ _ _ E2) as [(q & -> & Hq) _].
  split.
  - exists (p ++ q). split; [now rewrite app_assoc|]. intros ex. rewrite <- app_assoc, Hp. cbn [bind]. apply Hq.
  - intros Hok. destruct (L2 x (HP Hok) _ _ _ E2) as [_ HQ]. apply HQ. auto.
Qed.
Lemma lawful_bind' {T U} (P : T -> Prop) (Q : U -> Prop) r (k : T -> bytes -> res (bytes * U)) :
  lawful P r -> (forall x, lawful Q (k x)) ->
  lawful Q (fun inp => '(i, x) <- r inp ;; k x i).
Proof.
  intros L1 L2. apply (lawful_bind P); auto. intros x. eapply lawful_weaken; [|apply L2]. easy.
Qed.
(** a check that does not look at the input *)
Lemma lawful_guard {T U} (P : T -> Prop) (c : res U) (k : U -> bytes -> res (bytes * T)) :
  (forall x, c = Ok x -> lawful P (k x)) -> lawful P (fun inp => x <- c ;; k x inp).
Proof.
  intros H. destruct c as [x| | |]; cbn [bind]; auto using lawful_err, lawful_panic, lawful_oof.
Qed.
Lemma lawful_map {T U} (P : T -> Prop) (Q : U -> Prop) (f : T -> U) r :
  lawful P r -> (forall x, P x -> Q (f x)) -> lawful Q (fun inp => map_res f (r inp)).
Proof.
  intros L H inp rest v E. apply map_res_ok in E as (x & E & ->).
  destruct (L _ _ _ E) as [(p & -> & Hp) HP]. split; [|auto].
  exists p. split; [easy|]. intros ex. unfold map_res. now rewrite Hp.
Qed.
(** a post-processing step that may fail *)
Lemma lawful_post {T U} (P : T -> Prop) (Q : U -> Prop) (f : T -> res U) r :
  lawful P r -> (forall x y, P x -> f x = Ok y -> Q y) ->
  lawful Q (fun inp => '(i, x) <- r inp ;; y <- f x ;; Ok (i, y)).
Proof.
  intros L H inp rest v E. apply bind_ok in E as [[i x] [E1 E2]]. apply bind_ok in E2 as [y [E2 E3]].
  injection E3 as <- <-. destruct (L _ _ _ E1) as [(p & -> & Hp) HP]. split; [|eauto].
  exists p. split; [easy|]. intros ex. rewrite Hp. cbn [bind]. rewrite E2. reflexivity.
Qed.

(** ** Primitive readers *)

Lemma take_lawful n : 0 <= n ->
  lawful (fun b => bytes_ok b /\ zlen b = n) (fun inp => _ <- check_len inp n ;; Ok (zdrop n inp, ztake n inp)).
Proof.
  intros Hn inp rest v E. apply bind_ok in E as [u [E1 E2]]. apply check_len_ok in E1. injection E2 as <- <-. split.
  - exists (ztake n inp). split; [now rewrite ztake_zdrop|]. intros ex.
    assert (L : zlen (ztake n inp) = n) by (apply zlen_ztake; lia).
    rewrite check_len_true by (rewrite zlen_app; pose proof (zlen_nonneg ex); lia). cbn [bind].
    now rewrite ztake_app, zdrop_app.
  - intros Hok. split; [now apply bytes_ok_ztake|apply zlen_ztake; lia].
Qed.

Lemma read_u8_lawful : lawful byte_ok read_u8.
Proof.
  intros inp rest v E. unfold read_u8 in E. apply bind_ok in E as [u [E1 E2]].
  destruct inp as [|b r]; [discriminate|]. injection E2 as <- <-. split.
  - exists [b]. split; [easy|]. intros ex. apply read_u8_cons.
  - intros Hok. now inversion Hok.
Qed.

Lemma be_read_lawful n : 0 <= n -> lawful (fun v => 0 <= v < 2 ^ (8 * n)) (fun inp => be_read inp n).
Proof.
  intros Hn.
  pose proof (lawful_map _ (fun v => 0 <= v < 2 ^ (8 * n)) be_val _ (take_lawful n Hn)) as L.
  eapply lawful_ext; [|apply L].
  - intros inp. unfold be_read, map_res. destruct (check_len inp n); reflexivity.
  - intros b [Hb Hl]. rewrite <- Hl. apply be_val_range in Hb.
    replace (2 ^ (8 * zlen b)) with (256 ^ zlen b); [easy|].
    rewrite Z.pow_mul_r by (pose proof (zlen_nonneg b); lia). reflexivity.
Qed.
Lemma be_read_signed_lawful n : 0 < n ->
  lawful (fun v => - 2 ^ (8 * n - 1) <= v < 2 ^ (8 * n - 1)) (fun inp => be_read_signed inp n).
Proof.
  intros Hn. unfold be_read_signed.
  eapply (lawful_bind _ _ _ (fun o i => Ok (i, to_signed (8 * n) o))).
  - apply be_read_lawful. lia.
  - intros x Hx. apply lawful_ret. apply to_signed_range; [lia|easy].
  - intros x. now apply lawful_ret.
Qed.
Lemma read_i8_lawful : lawful (fun v => - 2 ^ 7 <= v < 2 ^ 7) read_i8.
Proof.
  unfold read_i8. eapply (lawful_bind _ _ _ (fun o i => Ok (i, to_signed 8 o))).
  - apply read_u8_lawful.
  - intros x Hx. apply lawful_ret. apply (to_signed_range 8); [lia|exact Hx].
  - intros x. now apply lawful_ret.
Qed.
Lemma read_bytes_u8_lawful : lawful bytes_ok read_bytes_u8.
Proof.
  intros inp rest v E. unfold read_bytes_u8 in E. apply bind_ok in E as [[i n] [E1 E2]].
  destruct (read_u8_lawful _ _ _ E1) as [(p & -> & Hp) HP].
  apply bind_ok in E2 as [u [E2 E3]]. apply check_len_ok in E2. injection E3 as <- <-. split.
  - exists (p ++ ztake n i). split; [now rewrite <- app_assoc, ztake_zdrop|].
    intros ex. rewrite <- app_assoc. unfold read_bytes_u8. rewrite Hp. cbn [bind].
    destruct (Z_lt_le_dec n 0) as [Hn|Hn].
    + replace (ztake n i) with (@nil Z) by (unfold ztake; now replace (Z.to_nat n) with O by lia). cbn [app].
      rewrite check_len_true by (pose proof (zlen_nonneg ex); lia). cbn [bind].
      unfold ztake, zdrop. replace (Z.to_nat n) with O by lia. reflexivity.
    + assert (L : zlen (ztake n i) = n) by (apply zlen_ztake; lia).
      rewrite check_len_true by (rewrite zlen_app; pose proof (zlen_nonneg ex); lia). cbn [bind].
      now rewrite ztake_app, zdrop_app.
  - intros Hok. apply bytes_ok_app in Hok as [_ Hok]. now apply bytes_ok_ztake.
Qed.
Lemma read_bytes_u32_lawful : lawful bytes_ok read_bytes_u32.
Proof.
  intros inp rest v E. unfold read_bytes_u32 in E. apply bind_ok in E as [[i n] [E1 E2]].
  destruct (be_read_lawful 4 ltac:(lia) _ _ _ E1) as [(p & -> & Hp) HP].
  apply bind_ok in E2 as [u [E2 E3]]. apply check_len_ok in E2. injection E3 as <- <-. split.
  - exists (p ++ ztake n i). split; [now rewrite <- app_assoc, ztake_zdrop|].
    intros ex. rewrite <- app_assoc. unfold read_bytes_u32. rewrite Hp. cbn [bind].
    destruct (Z_lt_le_dec n 0) as [Hn|Hn].
    + replace (ztake n i) with (@nil Z) by (unfold ztake; now replace (Z.to_nat n) with O by lia). cbn [app].
      rewrite check_len_true by (pose proof (zlen_nonneg ex); lia). cbn [bind].
      unfold ztake, zdrop. replace (Z.to_nat n) with O by lia. reflexivity.
    + assert (L : zlen (ztake n i) = n) by (apply zlen_ztake; lia).
      rewrite check_len_true by (rewrite zlen_app; pose proof (zlen_nonneg ex); lia). cbn [bind].
      now rewrite ztake_app, zdrop_app.
  - intros Hok. apply bytes_ok_app in Hok as [_ Hok]. now apply bytes_ok_ztake.
Qed.

(** ** Decoders of the primitive types *)

Lemma lawful_validate {T} (P : T -> Prop) fmt c r : lawful P r -> lawful P (fun inp => _ <- validate_code fmt c ;; r inp).
Proof. intros H. apply (lawful_guard P (validate_code fmt c) (fun _ => r)). auto. Qed.

Lemma bool_lawful : dec_lawful (fun _ => True) bool_dec.
Proof.
  intros md fmt. unfold bool_dec. apply lawful_if.
  - apply (lawful_bind' byte_ok _ _ (fun o i => Ok (i, negb (o =? 0)))); [apply read_u8_lawful|].
    intros x. now apply lawful_ret.
  - repeat apply lawful_if; auto using lawful_ret, lawful_err.
Qed.
Lemma u8_lawful : dec_lawful u8_ok u8_dec.
Proof. intros md fmt. apply lawful_validate, read_u8_lawful. Qed.
Lemma u16_lawful : dec_lawful u16_ok u16_dec.
Proof. intros md fmt. apply lawful_validate. apply (be_read_lawful 2). lia. Qed.
Lemma u32_lawful : dec_lawful u32_ok u32_dec.
Proof.
  intros md fmt. unfold u32_dec. repeat apply lawful_if.
  - apply (be_read_lawful 4). lia.
  - eapply lawful_weaken; [|apply read_u8_lawful]. unfold byte_ok, u32_ok. lia.
  - apply lawful_ret. unfold u32_ok. lia.
  - apply lawful_err.
Qed.
Lemma u64_lawful : dec_lawful u64_ok u64_dec.
Proof.
  intros md fmt. unfold u64_dec. repeat apply lawful_if.
  - apply (be_read_lawful 8). lia.
  - eapply lawful_weaken; [|apply read_u8_lawful]. unfold byte_ok, u64_ok. lia.
  - apply lawful_ret. unfold u64_ok. lia.
  - apply lawful_err.
Qed.
Lemma i8_lawful : dec_lawful i8_ok i8_dec.
Proof. intros md fmt. apply lawful_validate, read_i8_lawful. Qed.
Lemma i16_lawful : dec_lawful i16_ok i16_dec.
Proof. intros md fmt. apply lawful_validate. apply (be_read_signed_lawful 2). lia. Qed.
Lemma i32_lawful : dec_lawful i32_ok i32_dec.
Proof.
  intros md fmt. unfold i32_dec. repeat apply lawful_if.
  - apply (be_read_signed_lawful 4). lia.
  - eapply lawful_weaken; [|apply read_i8_lawful]. unfold i32_ok. lia.
  - apply lawful_err.
Qed.
Lemma i64_lawful : dec_lawful i64_ok i64_dec.
Proof.
  intros md fmt. unfold i64_dec. repeat apply lawful_if.
  - apply (be_read_signed_lawful 8). lia.
  - eapply lawful_weaken; [|apply read_i8_lawful]. unfold i64_ok. lia.
  - apply lawful_err.
Qed.
Lemma f32_lawful : dec_lawful u32_ok f32_dec.
Proof. intros md fmt. apply lawful_validate. apply (be_read_lawful 4). lia. Qed.
Lemma f64_lawful : dec_lawful u64_ok f64_dec.
Proof. intros md fmt. apply lawful_validate. apply (be_read_lawful 8). lia. Qed.
Lemma char_lawful : dec_lawful scalar char_dec.
Proof.
  intros md fmt. apply lawful_validate.
  eapply (lawful_bind' _ _ _ (fun o i => if char_ok o then Ok (i, o) else Err (EInvalidChar o))).
  - apply (be_read_lawful 4). lia.
  - intros x. destruct (char_ok x) eqn:E; [|apply lawful_err]. apply lawful_ret. now apply char_ok_spec.
Qed.
Lemma datetime_from_millis_ok ms t : - 2 ^ 63 <= ms < 2 ^ 63 -> datetime_from_millis ms = Ok t -> datetime_ok t.
Proof.
  intros Hms. unfold datetime_from_millis, utc_timestamp.
  assert (H : forall x y, (if (chrono_min_secs <=? x) && (x <=? chrono_max_secs) && (y mod 2 ^ 32 <? 2000000000)
                      then Ok (MkDT x (y mod 2 ^ 32)) else Panic PChrono) = Ok t -> datetime_ok t).
  { intros x y. destruct (_ && _) eqn:E; [|discriminate]. intros [= <-]. unfold datetime_ok. cbn [dt_secs dt_nanos].
    pose proof (Z.mod_pos_bound y (2 ^ 32) ltac:(lia)). lia. }
  destruct (Z.quot ms 1000 <? 0); apply H.
Qed.
Lemma datetime_lawful : dec_lawful datetime_ok datetime_dec.
Proof.
  intros md fmt. apply lawful_validate.
  eapply lawful_post; [apply (be_read_signed_lawful 8); lia|].
  intros x y Hx. now apply datetime_from_millis_ok.
Qed.
Lemma uuid_lawful : dec_lawful uuid_ok uuid_dec.
Proof. intros md fmt. apply lawful_validate. apply take_lawful. lia. Qed.
Lemma bin_lawful : dec_lawful bytes_ok bin_dec.
Proof.
  intros md fmt. unfold bin_dec. repeat apply lawful_if;
    auto using read_bytes_u8_lawful, read_bytes_u32_lawful, lawful_err.
Qed.
Lemma from_utf8_text b c : bytes_ok b -> from_utf8 b = Ok c -> c = b /\ is_utf8 b.
Proof.
  intros Hb. unfold from_utf8. destruct (utf8_valid b) eqn:E; [|discriminate].
  intros [= <-]. split; [easy|]. now apply utf8_valid_spec.
Qed.
Lemma text_lawful {T} (P : T -> Prop) (f : bytes -> T) r :
  lawful bytes_ok r -> (forall b, is_utf8 b -> P (f b)) ->
  lawful P (fun inp => '(i, b) <- r inp ;; s <- from_utf8 b ;; Ok (i, f s)).
Proof.
  intros L H.
  eapply lawful_ext; [|apply (lawful_post bytes_ok P (fun b => s <- from_utf8 b ;; Ok (f s)) r L)].
  - intros inp. cbn beta. destruct (r inp) as [[i b]| | |]; cbn [bind]; try reflexivity. destruct (from_utf8 b); reflexivity.
  - intros b y Hb E. apply bind_ok in E as [s [E1 E2]]. injection E2 as <-.
    apply from_utf8_text in E1 as [-> E1]; auto.
Qed.
Lemma bstr_lawful : dec_lawful text_ok bstr_dec.
Proof.
  intros md fmt. unfold bstr_dec. repeat apply lawful_if; try apply lawful_err;
    apply (text_lawful _ (fun s => s)); auto using read_bytes_u8_lawful, read_bytes_u32_lawful.
Qed.
Lemma str_lawful : dec_lawful str_ok str_dec.
Proof.
  intros md fmt. unfold str_dec. repeat apply lawful_if; try apply lawful_err;
    apply (text_lawful _ str_from_str); auto using read_bytes_u8_lawful, read_bytes_u32_lawful.
Qed.
Lemma symbol_lawful : dec_lawful symbol_ok symbol_dec.
Proof.
  intros md fmt. unfold symbol_dec. repeat apply lawful_if; try apply lawful_err;
    apply (text_lawful _ symbol_from_slice); auto using read_bytes_u8_lawful, read_bytes_u32_lawful.
Qed.
Lemma descriptor_lawful : dec_lawful descriptor_ok descriptor_dec.
Proof.
  intros md fmt. unfold descriptor_dec. repeat apply lawful_if; try apply lawful_err.
  1,2: eapply lawful_map; [apply u64_lawful|auto].
  1,2: eapply lawful_map; [apply symbol_lawful|auto].
Qed.

(** ** Combinators *)

Lemma decode_lawful {T} (P : T -> Prop) (d : dec T) md : dec_lawful P d -> lawful P (decode d md).
Proof.
  intros H. unfold decode, decode_format_code.
  apply (lawful_bind' byte_ok P read_u8 (fun f i => d md i f)); [apply read_u8_lawful|]. intros x. apply H.
Qed.
Lemma option_lawful {T} (P : T -> Prop) (d : dec T) :
  dec_lawful P d -> dec_lawful (fun o => match o with Some v => P v | None => True end) (option_dec d).
Proof.
  intros H md fmt. unfold option_dec. apply lawful_if; [now apply lawful_ret|].
  eapply lawful_map; [apply H|auto].
Qed.

Definition header_ok (h : compound_header) : Prop := 0 <= ch_size h < 2 ^ 32 /\ 0 <= ch_count h < 2 ^ 32.
Lemma usub_range md bits a b n : 0 < bits -> 0 <= a < 2 ^ bits -> 0 <= b -> usub md bits a b = Ok n -> 0 <= n < 2 ^ bits.
Proof.
  intros Hb Ha Hb0. unfold usub. destruct (Z.ltb_spec a b).
  - destruct md; [discriminate|]. intros [= <-]. apply Z.mod_pos_bound. apply Z.pow_pos_nonneg; lia.
  - intros [= <-]. lia.
Qed.
Lemma compound8_lawful md : lawful header_ok (decode_compound8 md).
Proof.
  intros inp rest h E. unfold decode_compound8 in E. apply bind_ok in E as [u [E1 E2]].
  destruct inp as [|b0 [|b1 r]]; try discriminate.
  apply bind_ok in E2 as [size [E2 E3]]. injection E3 as <- <-. split.
  - exists [b0; b1]. split; [easy|]. intros ex. unfold decode_compound8. cbn [app].
    rewrite check_len_true by (rewrite !zlen_cons; pose proof (zlen_nonneg ex); lia). cbn [bind].
    now rewrite E2.
  - intros Hok. inversion Hok as [|? ? H0 Hok1]; subst. inversion Hok1 as [|? ? H1 _]; subst.
    unfold byte_ok in *. apply usub_range in E2; try lia. unfold header_ok. cbn [ch_size ch_count]. lia.
Qed.
Lemma compound32_lawful md : lawful header_ok (decode_compound32 md).
Proof.
  intros inp rest h E. unfold decode_compound32 in E. apply bind_ok in E as [u [E1 E2]]. apply check_len_ok in E1.
  apply bind_ok in E2 as [size [E2 E3]]. injection E3 as <- <-. split.
  - exists (ztake 8 inp). split; [now rewrite ztake_zdrop|]. intros ex.
    assert (L : zlen (ztake 8 inp) = 8) by (apply zlen_ztake; lia).
    unfold decode_compound32. rewrite check_len_true by (rewrite zlen_app; pose proof (zlen_nonneg ex); lia).
    cbn [bind]. rewrite zdrop_app by easy.
    rewrite (ztake_app_le 4 (ztake 8 inp)) by lia. rewrite (zdrop_app_le 4 (ztake 8 inp)) by lia.
    rewrite (ztake_app_le 4 (zdrop 4 (ztake 8 inp))) by (rewrite zlen_zdrop; lia).
    assert (T1 : ztake 4 (ztake 8 inp) = ztake 4 inp).
    { unfold ztake. rewrite firstn_firstn. f_equal. }
    assert (T2 : ztake 4 (zdrop 4 (ztake 8 inp)) = ztake 4 (zdrop 4 inp)).
    { unfold ztake, zdrop. change (Z.to_nat 4) with 4%nat. change (Z.to_nat 8) with 8%nat.
      destruct inp as [|a [|b [|c [|d r]]]]; try reflexivity.
      cbn [firstn skipn]. destruct r as [|e [|f [|g [|h r]]]]; reflexivity. }
    rewrite T1, T2, E2. reflexivity.
  - intros Hok. assert (R : forall l, bytes_ok l -> zlen l = 4 -> 0 <= be_val l < 2 ^ 32).
    { intros l H1 H2. apply be_val_range in H1. rewrite H2 in H1. exact H1. }
    assert (H4 : 0 <= be_val (ztake 4 inp) < 2 ^ 32).
    { apply R; [now apply bytes_ok_ztake|apply zlen_ztake; lia]. }
    apply usub_range in E2; try lia. split; cbn [ch_size ch_count]; [exact E2|].
    apply R; [now apply bytes_ok_ztake, bytes_ok_zdrop|]. apply zlen_ztake. rewrite zlen_zdrop; lia.
Qed.
Lemma array_header_lawful md fmt : lawful header_ok (fun inp => decode_array_header md inp fmt).
Proof. unfold decode_array_header. repeat apply lawful_if; auto using compound8_lawful, compound32_lawful, lawful_err. Qed.
Lemma list_header_lawful md fmt : lawful header_ok (fun inp => decode_list_header md inp fmt).
Proof.
  unfold decode_list_header. repeat apply lawful_if; auto using compound8_lawful, compound32_lawful, lawful_err.
  apply lawful_ret. unfold header_ok. cbn. lia.
Qed.
Lemma map_header_lawful md fmt : lawful header_ok (fun inp => decode_map_header md inp fmt).
Proof. unfold decode_map_header. repeat apply lawful_if; auto using compound8_lawful, compound32_lawful, lawful_err. Qed.

(** Reading a number of items one after the other. *)
Lemma vec_iter_lawful {T} (P : T -> Prop) (r : bytes -> res (bytes * T)) n acc :
  lawful P r -> Forall P acc -> lawful (Forall P) (fun inp => iter_res n (vec_step r) (inp, acc)).
Proof.
  intros L. revert acc. induction n as [|n IH]; intros acc Hacc.
  - now apply lawful_ret.
  - cbn [iter_res vec_step].
    eapply lawful_ext; [|apply (lawful_bind P (Forall P) r (fun x i => iter_res n (vec_step r) (i, acc ++ [x])))]; auto.
    + intros inp. cbn beta. destruct (r inp) as [[i x]| | |]; reflexivity.
    + intros x Hx. apply IH. apply Forall_app. auto.
    + intros x.
      assert (W : forall m a, lawful (fun _ : list T => True) (fun inp => iter_res m (vec_step r) (inp, a))).
      { clear - L. induction m as [|m IH]; intros a; [now apply lawful_ret|].
        cbn [iter_res vec_step].
        eapply lawful_ext; [|apply (lawful_bind' P _ r (fun x i => iter_res m (vec_step r) (i, a ++ [x])))]; auto.
        intros inp. cbn beta. destruct (r inp) as [[i x]| | |]; reflexivity. }
      apply W.
Qed.
Lemma vec_loop_lawful {T} (P : T -> Prop) (r : bytes -> res (bytes * T)) n :
  lawful P r -> lawful (Forall P) (fun inp => loop_n n (vec_step r) (inp, [])).
Proof.
  intros L. eapply lawful_ext; [|apply (vec_iter_lawful P r (Z.to_nat n) [] L)]; [|constructor].
  intros inp. now rewrite loop_n_iter.
Qed.

Lemma list_lawful {T} (P : T -> Prop) (d : dec T) : dec_lawful P d -> dec_lawful (Forall P) (list_dec d).
Proof.
  intros H md fmt. unfold list_dec.
  apply (lawful_bind' header_ok _ _ (fun h i => loop_n (ch_count h) (vec_step (decode d md)) (i, []))).
  - apply list_header_lawful.
  - intros h. apply vec_loop_lawful. now apply decode_lawful.
Qed.
Lemma vec_lawful {T} (P : T -> Prop) (d : dec T) : dec_lawful P d -> dec_lawful (Forall P) (vec_dec d).
Proof.
  intros H md fmt. unfold vec_dec.
  apply (lawful_bind' header_ok (Forall P) (fun inp => decode_array_header md inp fmt)
    (fun h i => match i with
                | [] => Panic PSlice
                | item_fmt :: inp2 => loop_n (ch_count h) (vec_step (fun i => d md i item_fmt)) (inp2, [])
                end)).
  - apply array_header_lawful.
  - intros h. intros inp rest v E. destruct inp as [|f inp]; [discriminate|].
    destruct (vec_loop_lawful P (fun i => d md i f) (ch_count h) (H md f) _ _ _ E) as [(p & -> & Hp) HP].
    split.
    + exists (f :: p). split; [easy|]. intros ex. cbn [app]. apply Hp.
    + intros Hok. inversion Hok; auto.
Qed.
Lemma multiple_lawful {T} (P : T -> Prop) (d : dec T) : dec_lawful P d -> dec_lawful (Forall P) (multiple_dec d).
Proof.
  intros H md fmt. unfold multiple_dec. apply lawful_if; [now apply vec_lawful|].
  apply (lawful_bind P (Forall P) (fun inp => d md inp fmt) (fun x i => Ok (i, [x]))); [apply H| |].
  - intros x Hx. apply lawful_ret. auto.
  - intros x. now apply lawful_ret.
Qed.

(** Maps: the entries are read from a slice of the declared size. *)
Lemma slice_lawful {T} (P : T -> Prop) n (f : bytes -> res T) :
  (forall b x, bytes_ok b -> f b = Ok x -> P x) ->
  lawful P (fun inp => s <- slice_to inp n ;; x <- f s ;; Ok (zdrop n inp, x)).
Proof.
  intros H inp rest v E. apply bind_ok in E as [s [E1 E2]]. unfold slice_to in E1.
  destruct (Z.ltb_spec (zlen inp) n); [discriminate|]. injection E1 as <-.
  apply bind_ok in E2 as [x [E2 E3]]. injection E3 as <- <-. split.
  - exists (ztake n inp). split; [now rewrite ztake_zdrop|]. intros ex.
    unfold slice_to. destruct (Z_lt_le_dec n 0) as [Hn|Hn].
    + assert (T0 : forall l : bytes, ztake n l = []) by (intros l; unfold ztake; now replace (Z.to_nat n) with O by lia).
      assert (D0 : forall l : bytes, zdrop n l = l) by (intros l; unfold zdrop; now replace (Z.to_nat n) with O by lia).
      rewrite T0 in E2. rewrite !T0, D0. cbn [app].
      destruct (Z.ltb_spec (zlen ex) n); [pose proof (zlen_nonneg ex); lia|]. cbn [bind]. now rewrite E2.
    + assert (L : zlen (ztake n inp) = n) by (apply zlen_ztake; lia).
      destruct (Z.ltb_spec (zlen (ztake n inp ++ ex)) n).
      * rewrite zlen_app in *. pose proof (zlen_nonneg ex). lia.
      * cbn [bind]. rewrite ztake_app, zdrop_app by easy. now rewrite E2.
  - intros Hok. eapply H; [|exact E2]. now apply bytes_ok_ztake.
Qed.

(** What holds of every map built by insertion. *)
Definition map_ok {K V} (KO : key K) (PK : K -> Prop) (PV : V -> Prop) (m : list (K * V)) : Prop :=
  Forall (fun kv => PK (fst kv) /\ k_hashable KO (fst kv) = true /\ PV (snd kv)) m /\ distinct_keys (k_eqb KO) m.

Lemma hm_insert_keys {K V} (eqb : K -> K -> bool) k (v : V) m :
  map fst (hm_insert eqb k v m) =
  if existsb (fun k' => eqb k k') (map fst m) then map fst m else map fst m ++ [k].
Proof.
  induction m as [|[k' v'] m IH]; cbn [hm_insert map existsb fst]; [reflexivity|].
  destruct (eqb k k'); cbn [orb map fst]; [reflexivity|]. rewrite IH.
  destruct (existsb _ _); reflexivity.
Qed.
Lemma hm_insert_forall {K V} (eqb : K -> K -> bool) (P : K * V -> Prop) k (v : V) m :
  (forall k' v', P (k', v') -> eqb k k' = true -> P (k', v)) -> P (k, v) -> Forall P m -> Forall P (hm_insert eqb k v m).
Proof.
  intros H Hkv. induction 1 as [|[k' v'] m Hx Hm IH]; cbn [hm_insert]; [auto|].
  destruct (eqb k k') eqn:E; constructor; eauto.
Qed.
Lemma ForallOrdPairs_map {A B} (f : A -> B) (R : B -> B -> Prop) l :
  ForallOrdPairs (fun a b => R (f a) (f b)) l <-> ForallOrdPairs R (map f l).
Proof.
  induction l as [|x l IH]; cbn [map]; split; intros H; inversion H; subst; constructor; try apply IH; auto.
  - apply Forall_map. auto.
  - now apply Forall_map.
Qed.
Lemma ForallOrdPairs_snoc {A} (R : A -> A -> Prop) l x :
  ForallOrdPairs R (l ++ [x]) <-> ForallOrdPairs R l /\ Forall (fun y => R y x) l.
Proof.
  induction l as [|y l IH]; cbn [app].
  - split; [intros _; split; constructor|intros _; constructor; constructor].
  - split.
    + intros H. inversion H as [|? ? H1 H2]; subst. apply IH in H2 as [H2 H3].
      apply Forall_app in H1 as [H1 H4]. inversion H4; subst. split; constructor; auto.
    + intros [H1 H2]. inversion H1; subst. inversion H2; subst. constructor; [|apply IH; auto].
      apply Forall_app. auto.
Qed.
Lemma distinct_keys_fst {K V} (eqb : K -> K -> bool) (m : list (K * V)) :
  distinct_keys eqb m <-> ForallOrdPairs (fun a b => eqb b a = false) (map fst m).
Proof. unfold distinct_keys. apply (ForallOrdPairs_map fst (fun a b => eqb b a = false)). Qed.
Lemma existsb_false {A} (f : A -> bool) l : existsb f l = false <-> Forall (fun x => f x = false) l.
Proof.
  induction l as [|x l IH]; cbn [existsb]; [split; auto|]. rewrite orb_false_iff, IH. split.
  - intros [? ?]; auto.
  - intros H; inversion H; auto.
Qed.
Lemma hm_insert_distinct {K V} (eqb : K -> K -> bool) k (v : V) m :
  distinct_keys eqb m -> distinct_keys eqb (hm_insert eqb k v m).
Proof.
  rewrite !distinct_keys_fst, hm_insert_keys. intros H.
  destruct (existsb _ _) eqn:E; [easy|]. apply existsb_false in E.
  apply ForallOrdPairs_snoc. auto.
Qed.

Lemma map_iter_ok {K V} (KO : key K) (PK : K -> Prop) (PV : V -> Prop) dk dv n s s' :
  lawful PK dk -> lawful PV dv -> bytes_ok (fst s) -> map_ok KO PK PV (snd s) ->
  iter_res n (map_step KO dk dv) s = Ok s' -> map_ok KO PK PV (snd s').
Proof.
  intros LK LV Hb Hm E.
  refine (proj2 (iter_res_inv (fun s => bytes_ok (fst s) /\ map_ok KO PK PV (snd s)) n _ s s' _ (conj Hb Hm) E)).
  clear - LK LV. intros [i m] [i' m'] [Hb Hm] E. cbn [fst snd] in *. unfold map_step in E.
  apply bind_ok in E as [[i1 k] [E1 E2]]. apply bind_ok in E2 as [[i2 v] [E2 E3]].
  destruct (k_hashable KO k) eqn:Eh; [|discriminate]. injection E3 as <- <-.
  pose proof (lawful_bytes_ok _ _ _ _ _ LK E1 Hb) as Hb1. pose proof (lawful_bytes_ok _ _ _ _ _ LV E2 Hb1) as Hb2.
  destruct (LK _ _ _ E1) as [_ HK]. destruct (LV _ _ _ E2) as [_ HV].
  split; [exact Hb2|]. destruct Hm as [Hm1 Hm2]. split; [|now apply hm_insert_distinct].
  apply hm_insert_forall; cbn [fst snd]; auto. intros k' v' (? & ? & ?) _. auto.
Qed.

Lemma map_lawful {K V} (KO : key K) (PK : K -> Prop) (PV : V -> Prop) (dk : dec K) (dv : dec V) :
  dec_lawful PK dk -> dec_lawful PV dv -> dec_lawful (map_ok KO PK PV) (map_dec KO dk dv).
Proof.
  intros LK LV md fmt. unfold map_dec.
  apply (lawful_bind' header_ok _ (fun inp => decode_map_header md inp fmt)
    (fun header inp1 => map_input <- slice_to inp1 (ch_size header) ;;
       '(_, m) <- loop_n (ch_count header / 2) (map_step KO (decode dk md) (decode dv md)) (map_input, []) ;;
       Ok (zdrop (ch_size header) inp1, m))).
  - apply map_header_lawful.
  - intros h.
    eapply lawful_ext; [|apply (slice_lawful (map_ok KO PK PV) (ch_size h)
      (fun b => '(_, m) <- loop_n (ch_count h / 2) (map_step KO (decode dk md) (decode dv md)) (b, []) ;; Ok m))].
    + intros inp. cbn beta. destruct (slice_to inp (ch_size h)); cbn [bind]; try reflexivity.
      destruct (loop_n _ _ _) as [[? ?]| | |]; reflexivity.
    + intros b m Hb E. apply bind_ok in E as [[r m'] [E1 E2]]. injection E2 as <-.
      rewrite loop_n_iter in E1.
      apply (map_iter_ok KO PK PV _ _ _ _ _ (decode_lawful _ _ _ LK) (decode_lawful _ _ _ LV)) in E1; auto.
      split; constructor.
Qed.

(** ** Success with nothing left over: prefix-freeness *)
Lemma lawful_prefix_free {T} (P : T -> Prop) (r : bytes -> res (bytes * T)) a b rest v w :
  lawful P r -> r (a ++ b) = Ok ([], v) -> r a = Ok (rest, w) -> b = [].
Proof.
  intros L E1 E2. destruct (L _ _ _ E2) as [(p & -> & Hp) _].
  rewrite <- app_assoc, Hp in E1. injection E1 as E1 _. now apply app_eq_nil in E1.
Qed.
