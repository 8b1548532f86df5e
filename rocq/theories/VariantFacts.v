(** The decoder of variants: fuel is never exhausted, the recursion equation, its laws, acceptance of every standard
    encoding; and the encodings the encoder writes. *)

From Verif Require Import Decode BaseFacts Utf8Spec Utf8Facts Valid Wire PrimFacts DecLaws EncLaws.
From Coq Require Import ZifyBool.
Ltac Zify.zify_post_hook ::= Z.div_mod_to_equations.

(** ** The recursion equation *)

(** One level of [Variant::decode_with_format], over the recursive calls. *)
Definition variant_body (rec : dec variant) : dec variant := fun md inp fmt =>
    if fmt =? FC_NULL then Ok (inp, VNull)
    else if fmt =? FC_BOOLEAN then map_res VBoolean (bool_dec md inp fmt)
    else if fmt =? FC_BOOLEAN_FALSE then Ok (inp, VBoolean false)
    else if fmt =? FC_BOOLEAN_TRUE then Ok (inp, VBoolean true)
    else if fmt =? FC_UINT_0 then Ok (inp, VUint 0)
    else if fmt =? FC_ULONG_0 then Ok (inp, VUlong 0)
    else if fmt =? FC_UBYTE then map_res VUbyte (u8_dec md inp fmt)
    else if fmt =? FC_USHORT then map_res VUshort (u16_dec md inp fmt)
    else if fmt =? FC_UINT then map_res VUint (u32_dec md inp fmt)
    else if fmt =? FC_ULONG then map_res VUlong (u64_dec md inp fmt)
    else if fmt =? FC_BYTE then map_res VByte (i8_dec md inp fmt)
    else if fmt =? FC_SHORT then map_res VShort (i16_dec md inp fmt)
    else if fmt =? FC_INT then map_res VInt (i32_dec md inp fmt)
    else if fmt =? FC_LONG then map_res VLong (i64_dec md inp fmt)
    else if fmt =? FC_SMALLUINT then map_res VUint (u32_dec md inp fmt)
    else if fmt =? FC_SMALLULONG then map_res VUlong (u64_dec md inp fmt)
    else if fmt =? FC_SMALLINT then map_res VInt (i32_dec md inp fmt)
    else if fmt =? FC_SMALLLONG then map_res VLong (i64_dec md inp fmt)
    else if fmt =? FC_FLOAT then map_res VFloat (f32_dec md inp fmt)
    else if fmt =? FC_DOUBLE then map_res VDouble (f64_dec md inp fmt)
    else if fmt =? FC_CHAR then map_res VChar (char_dec md inp fmt)
    else if fmt =? FC_TIMESTAMP then map_res VTimestamp (datetime_dec md inp fmt)
    else if fmt =? FC_UUID then map_res VUuid (uuid_dec md inp fmt)
    else if fmt =? FC_BINARY8 then map_res VBinary (bin_dec md inp fmt)
    else if fmt =? FC_BINARY32 then map_res VBinary (bin_dec md inp fmt)
    else if fmt =? FC_STRING8 then map_res (fun s => VString (str_from_bytestr s)) (bstr_dec md inp fmt)
    else if fmt =? FC_STRING32 then map_res (fun s => VString (str_from_bytestr s)) (bstr_dec md inp fmt)
    else if fmt =? FC_SYMBOL8 then map_res VSymbol (symbol_dec md inp fmt)
    else if fmt =? FC_SYMBOL32 then map_res VSymbol (symbol_dec md inp fmt)
    else if fmt =? FC_LIST0 then Ok (inp, VList [])
    else if fmt =? FC_LIST8 then map_res VList (list_dec rec md inp fmt)
    else if fmt =? FC_LIST32 then map_res VList (list_dec rec md inp fmt)
    else if fmt =? FC_MAP8 then map_res VMap (map_dec variant_key rec rec md inp fmt)
    else if fmt =? FC_MAP32 then map_res VMap (map_dec variant_key rec rec md inp fmt)
    else if fmt =? FC_DESCRIBED then
      '(inp1, d) <- decode descriptor_dec md inp ;;
      '(inp2, v) <- decode rec md inp1 ;;
      Ok (inp2, VDescribed d v)
    else Err (EInvalidFormatCode fmt).

Lemma variant_dec_fuel_S f md inp fmt : variant_dec_fuel (S f) md inp fmt = variant_body (variant_dec_fuel f) md inp fmt.
Proof. reflexivity. Qed.

(** ** Laws of one level *)

Lemma map_ok_variant m : map_ok variant_key variant_ok variant_ok m -> variant_ok (VMap m).
Proof.
  intros [H1 H2]. cbn [variant_ok]. split; [|exact H2].
  apply (all_prop_pair _ _ (fun k w => variant_ok k /\ variant_hashable k = true /\ variant_ok w)); [easy|exact H1].
Qed.
Lemma list_ok_variant l : Forall variant_ok l -> variant_ok (VList l).
Proof. intros H. now apply all_prop_Forall. Qed.

Lemma variant_body_lawful rec : dec_lawful variant_ok rec -> dec_lawful variant_ok (variant_body rec).
Proof.
  intros L md fmt. unfold variant_body.
  repeat (first [apply lawful_if | apply lawful_ret; cbn; auto; lia]).
  1: eapply lawful_map; [apply bool_lawful|easy].
  1: eapply lawful_map; [apply u8_lawful|easy].
  1: eapply lawful_map; [apply u16_lawful|easy].
  1: eapply lawful_map; [apply u32_lawful|easy].
  1: eapply lawful_map; [apply u64_lawful|easy].
  1: eapply lawful_map; [apply i8_lawful|easy].
  1: eapply lawful_map; [apply i16_lawful|easy].
  1: eapply lawful_map; [apply i32_lawful|easy].
  1: eapply lawful_map; [apply i64_lawful|easy].
  1: eapply lawful_map; [apply u32_lawful|easy].
  1: eapply lawful_map; [apply u64_lawful|easy].
  1: eapply lawful_map; [apply i32_lawful|easy].
  1: eapply lawful_map; [apply i64_lawful|easy].
  1: eapply lawful_map; [apply f32_lawful|easy].
  1: eapply lawful_map; [apply f64_lawful|easy].
  1: eapply lawful_map; [apply char_lawful|easy].
  1: eapply lawful_map; [apply datetime_lawful|easy].
  1: eapply lawful_map; [apply uuid_lawful|easy].
  1,2: eapply lawful_map; [apply bin_lawful|easy].
  1,2: eapply lawful_map; [apply bstr_lawful|easy].
  1,2: eapply lawful_map; [apply symbol_lawful|easy].
  1,2: eapply lawful_map; [apply list_lawful; exact L|apply list_ok_variant].
  1,2: eapply lawful_map; [apply map_lawful; exact L|apply map_ok_variant].
  - eapply (lawful_bind descriptor_ok variant_ok (decode descriptor_dec md)
      (fun d inp1 => '(inp2, v) <- decode rec md inp1 ;; Ok (inp2, VDescribed d v))).
    + apply decode_lawful, descriptor_lawful.
    + intros d Hd. apply (lawful_bind variant_ok variant_ok (decode rec md) (fun v inp2 => Ok (inp2, VDescribed d v))).
      * now apply decode_lawful.
      * intros v Hv. apply lawful_ret. now split.
      * intros v. now apply lawful_ret.
    + intros d. apply (lawful_bind' variant_ok _ (decode rec md) (fun v inp2 => Ok (inp2, VDescribed d v))).
      * now apply decode_lawful.
      * intros v. now apply lawful_ret.
  - apply lawful_err.
Qed.

Lemma variant_fuel_lawful f : dec_lawful variant_ok (variant_dec_fuel f).
Proof.
  induction f as [|f IH]; [intros md fmt; apply lawful_oof|]. exact (variant_body_lawful _ IH).
Qed.

(** ** More fuel does not change a result *)

Definition below {A} (x y : res A) : Prop := x = Oof \/ x = y.
Lemma below_refl {A} (x : res A) : below x x.
Proof. now right. Qed.
Lemma below_bind {A B} (x y : res A) (f g : A -> res B) :
  below x y -> (forall a, below (f a) (g a)) -> below (bind x f) (bind y g).
Proof. intros [->| ->] H; [now left|]. destruct y; cbn [bind]; auto using below_refl. Qed.
Lemma below_map {A B} (f : A -> B) x y : below x y -> below (map_res f x) (map_res f y).
Proof. intros H. apply below_bind; [exact H|]. intros [i o]. apply below_refl. Qed.
Lemma below_trans {A} (x y z : res A) : below x y -> below y z -> below x z.
Proof. intros [->| ->] H; [now left|exact H]. Qed.
Lemma below_iter {S} n (f g : S -> res S) s : (forall s, below (f s) (g s)) -> below (iter_res n f s) (iter_res n g s).
Proof. intros H. revert s. induction n as [|n IH]; intros s; cbn [iter_res]; [apply below_refl|]. now apply below_bind. Qed.
Lemma below_loop {S} n (f g : S -> res S) s : (forall s, below (f s) (g s)) -> below (loop_n n f s) (loop_n n g s).
Proof. intros H. rewrite !loop_n_iter. now apply below_iter. Qed.
Definition dec_below {T} (d e : dec T) : Prop := forall md inp fmt, below (d md inp fmt) (e md inp fmt).
Lemma below_decode {T} (d e : dec T) md inp : dec_below d e -> below (decode d md inp) (decode e md inp).
Proof. intros H. apply below_bind; [apply below_refl|]. intros [i f]. apply H. Qed.
Lemma below_list {T} (d e : dec T) : dec_below d e -> dec_below (list_dec d) (list_dec e).
Proof.
  intros H md inp fmt. apply below_bind; [apply below_refl|]. intros [i h]. apply below_loop. intros [j acc].
  apply below_bind; [now apply below_decode|]. intros [k x]. apply below_refl.
Qed.
Lemma below_map_dec {K V} (KO : key K) (dk ek : dec K) (dv ev : dec V) :
  dec_below dk ek -> dec_below dv ev -> dec_below (map_dec KO dk dv) (map_dec KO ek ev).
Proof.
  intros HK HV md inp fmt. apply below_bind; [apply below_refl|]. intros [i h].
  apply below_bind; [apply below_refl|]. intros s. apply below_bind; [|intros [j m]; apply below_refl].
  apply below_loop. intros [j acc]. apply below_bind; [now apply below_decode|]. intros [k x].
  apply below_bind; [now apply below_decode|]. intros [l y]. apply below_refl.
Qed.
Lemma below_if {A} (b : bool) (x y x' y' : res A) : below x x' -> below y y' -> below (if b then x else y) (if b then x' else y').
Proof. now destruct b. Qed.
Lemma below_body d e : dec_below d e -> dec_below (variant_body d) (variant_body e).
Proof.
  intros H md inp fmt. unfold variant_body.
  repeat match goal with
         | |- below (if _ then _ else _) _ => apply below_if
         | |- below (map_res _ ?x) (map_res _ ?x) => apply below_refl
         | |- below (map_res _ _) (map_res _ _) => apply below_map
         | |- below ?x ?x => apply below_refl
         end.
  1,2: now apply below_list.
  1,2: now apply below_map_dec.
  apply below_bind; [apply below_refl|]. intros [i x]. apply below_bind; [now apply below_decode|]. intros [j y].
  apply below_refl.
Qed.
Lemma fuel_below f g : (f <= g)%nat -> dec_below (variant_dec_fuel f) (variant_dec_fuel g).
Proof.
  revert g. induction f as [|f IH]; intros g H; [intros md inp fmt; now left|].
  destruct g as [|g]; [lia|]. intros md inp fmt. rewrite !variant_dec_fuel_S. apply below_body. apply IH. lia.
Qed.

(** ** Fuel above the length of the input is enough *)

Lemma bind_oof {A B} (x : res A) (f : A -> res B) : bind x f = Oof -> x = Oof \/ exists a, x = Ok a /\ f a = Oof.
Proof. destruct x; cbn [bind]; try discriminate; eauto. Qed.
Lemma map_res_oof {A B} (f : A -> B) x : map_res f x = Oof -> x = Oof.
Proof. intros H. apply bind_oof in H as [H|([i o] & _ & H)]; [exact H|discriminate]. Qed.
Lemma iter_res_oof {S} (I : S -> Prop) n f s :
  (forall s s', I s -> f s = Ok s' -> I s') -> (forall s, I s -> f s <> Oof) -> I s -> iter_res n f s <> Oof.
Proof.
  intros H1 H2. revert s. induction n as [|n IH]; intros s Hs; cbn [iter_res]; [discriminate|].
  intros E. apply bind_oof in E as [E|(a & E1 & E2)]; [now apply (H2 s)|]. apply (IH a); eauto.
Qed.
Lemma check_len_oof inp n : check_len inp n <> Oof.
Proof. unfold check_len. now destruct (_ <? _). Qed.
Lemma read_u8_oof inp : read_u8 inp <> Oof.
Proof. unfold read_u8. intros E. apply bind_oof in E as [E|(u & _ & E)]; [now apply check_len_oof in E|]. now destruct inp. Qed.
Lemma be_read_oof inp n : be_read inp n <> Oof.
Proof. unfold be_read. intros E. apply bind_oof in E as [E|(u & _ & E)]; [now apply check_len_oof in E|discriminate]. Qed.
Ltac oof_step H :=
  match type of H with
  | bind _ _ = Oof =>
    let a := fresh "a" in apply bind_oof in H as [H|(a & _ & H)]; [|lazymatch type of a with (_ * _)%type => destruct a as [? ?] | _ => idtac end]
  | map_res _ _ = Oof => apply map_res_oof in H
  | (if ?b then _ else _) = Oof => destruct b
  | check_len _ _ = Oof => now apply check_len_oof in H
  | read_u8 _ = Oof => now apply read_u8_oof in H
  | be_read _ _ = Oof => now apply be_read_oof in H
  | (match ?l with _ => _ end) = Oof => destruct l
  end; try discriminate H.
Ltac oof_unfold H :=
  unfold validate_code, read_bytes_u8, read_bytes_u32, be_read_signed, read_i8, from_utf8, datetime_from_millis,
    utc_timestamp, decode_format_code, usub in H.
Ltac no_oof := intros E; oof_unfold E; repeat (oof_step E; oof_unfold E).

Definition total {T} (d : dec T) : Prop := forall md inp fmt, d md inp fmt <> Oof.
Lemma bool_total : total bool_dec. Proof. intros md inp fmt. unfold bool_dec. no_oof. Qed.
Lemma u8_total : total u8_dec. Proof. intros md inp fmt. unfold u8_dec. no_oof. Qed.
Lemma u16_total : total u16_dec. Proof. intros md inp fmt. unfold u16_dec. no_oof. Qed.
Lemma u32_total : total u32_dec. Proof. intros md inp fmt. unfold u32_dec. no_oof. Qed.
Lemma u64_total : total u64_dec. Proof. intros md inp fmt. unfold u64_dec. no_oof. Qed.
Lemma i8_total : total i8_dec. Proof. intros md inp fmt. unfold i8_dec. no_oof. Qed.
Lemma i16_total : total i16_dec. Proof. intros md inp fmt. unfold i16_dec. no_oof. Qed.
Lemma i32_total : total i32_dec. Proof. intros md inp fmt. unfold i32_dec. no_oof. Qed.
Lemma i64_total : total i64_dec. Proof. intros md inp fmt. unfold i64_dec. no_oof. Qed.
Lemma f32_total : total f32_dec. Proof. intros md inp fmt. unfold f32_dec. no_oof. Qed.
Lemma f64_total : total f64_dec. Proof. intros md inp fmt. unfold f64_dec. no_oof. Qed.
Lemma char_total : total char_dec. Proof. intros md inp fmt. unfold char_dec. no_oof. Qed.
Lemma datetime_total : total datetime_dec. Proof. intros md inp fmt. unfold datetime_dec. no_oof. Qed.
Lemma uuid_total : total uuid_dec. Proof. intros md inp fmt. unfold uuid_dec. no_oof. Qed.
Lemma bin_total : total bin_dec. Proof. intros md inp fmt. unfold bin_dec. no_oof. Qed.
Lemma bstr_total : total bstr_dec. Proof. intros md inp fmt. unfold bstr_dec. no_oof. Qed.
Lemma str_total : total str_dec. Proof. intros md inp fmt. unfold str_dec. no_oof. Qed.
Lemma symbol_total : total symbol_dec. Proof. intros md inp fmt. unfold symbol_dec. no_oof. Qed.
Lemma descriptor_total : total descriptor_dec.
Proof. intros md inp fmt. unfold descriptor_dec. no_oof; try (now apply u64_total in E); now apply symbol_total in E. Qed.
Lemma compound8_total md inp : decode_compound8 md inp <> Oof.
Proof.
  unfold decode_compound8. no_oof.
Qed.
Lemma compound32_total md inp : decode_compound32 md inp <> Oof.
Proof. unfold decode_compound32. no_oof. Qed.
Lemma list_header_total md inp fmt : decode_list_header md inp fmt <> Oof.
Proof. unfold decode_list_header. no_oof; [now apply compound8_total in E|now apply compound32_total in E]. Qed.
Lemma map_header_total md inp fmt : decode_map_header md inp fmt <> Oof.
Proof. unfold decode_map_header. no_oof; [now apply compound8_total in E|now apply compound32_total in E]. Qed.
Lemma array_header_total md inp fmt : decode_array_header md inp fmt <> Oof.
Proof. unfold decode_array_header. no_oof; [now apply compound8_total in E|now apply compound32_total in E]. Qed.

(** [d] does not run out of fuel on inputs shorter than [n]. *)
Definition total_below {T} (n : nat) (d : dec T) : Prop :=
  forall md inp fmt, (length inp < n)%nat -> d md inp fmt <> Oof.
Lemma total_total_below {T} n (d : dec T) : total d -> total_below n d.
Proof. intros H md inp fmt _. apply H. Qed.
Lemma decode_total_below {T} n (d : dec T) md inp : total_below n d -> (length inp <= n)%nat -> decode d md inp <> Oof.
Proof.
  intros H Hl. unfold decode, decode_format_code. intros E. apply bind_oof in E as [E|([i f] & E1 & E2)].
  - now apply read_u8_oof in E.
  - destruct inp as [|b r]; [discriminate|]. rewrite read_u8_cons in E1. injection E1 as <- <-.
    apply (H md r b); [|exact E2]. cbn [length] in Hl. lia.
Qed.
Lemma lawful_length {T} (P : T -> Prop) r inp rest v : lawful P r -> r inp = Ok (rest, v) -> (length rest <= length inp)%nat.
Proof. intros L E. apply (lawful_len _ _ _ _ _ L) in E. unfold zlen in E. lia. Qed.
Lemma list_total_below {T} (P : T -> Prop) n (d : dec T) :
  dec_lawful P d -> total_below n d -> total_below (S n) (list_dec d).
Proof.
  intros L H md inp fmt Hl. unfold list_dec. intros E. apply bind_oof in E as [E|([i h] & E1 & E2)].
  - now apply list_header_total in E.
  - apply (lawful_length _ _ _ _ _ (list_header_lawful md fmt)) in E1.
    rewrite loop_n_iter in E2. revert E2.
    apply (iter_res_oof (fun s : bytes * list T => (length (fst s) <= n)%nat)); [| |cbn; lia].
    + intros [j acc] [j' acc'] Hj E. unfold vec_step in E. apply bind_ok in E as [[k x] [E3 E4]]. injection E4 as <- <-.
      apply (lawful_length _ _ _ _ _ (decode_lawful _ _ _ L)) in E3. cbn [fst] in *. lia.
    + intros [j acc] Hj E. unfold vec_step in E. apply bind_oof in E as [E|([k x] & _ & E)]; [|discriminate].
      now apply (decode_total_below n) in E.
Qed.
Lemma map_total_below {K V} (KO : key K) (PK : K -> Prop) (PV : V -> Prop) n dk dv :
  dec_lawful PK dk -> dec_lawful PV dv -> total_below n dk -> total_below n dv -> total_below (S n) (map_dec KO dk dv).
Proof.
  intros LK LV HK HV md inp fmt Hl. unfold map_dec. intros E. apply bind_oof in E as [E|([i h] & E1 & E2)].
  - now apply map_header_total in E.
  - apply (lawful_length _ _ _ _ _ (map_header_lawful md fmt)) in E1.
    apply bind_oof in E2 as [E|(s & E2 & E3)].
    + unfold slice_to in E. destruct (_ <? _); discriminate.
    + unfold slice_to in E2. destruct (_ <? _); [discriminate|]. injection E2 as <-.
      apply bind_oof in E3 as [E|([j m] & _ & E)]; [|discriminate].
      rewrite loop_n_iter in E. revert E.
      apply (iter_res_oof (fun s : bytes * list (K * V) => (length (fst s) <= n)%nat)).
      * intros [j acc] [j' acc'] Hj E. unfold map_step in E.
        apply bind_ok in E as [[k x] [E3 E4]]. apply bind_ok in E4 as [[k' x'] [E4 E5]].
        destruct (k_hashable KO x); [|discriminate]. injection E5 as <- <-.
        apply (lawful_length _ _ _ _ _ (decode_lawful _ _ _ LK)) in E3.
        apply (lawful_length _ _ _ _ _ (decode_lawful _ _ _ LV)) in E4. cbn [fst] in *. lia.
      * intros [j acc] Hj E. unfold map_step in E. apply bind_oof in E as [E|([k x] & E3 & E)].
        -- now apply (decode_total_below n) in E.
        -- apply (lawful_length _ _ _ _ _ (decode_lawful _ _ _ LK)) in E3. cbn [fst] in *.
           apply bind_oof in E as [E|([k' x'] & _ & E)]; [apply (decode_total_below n) in E; auto; lia|].
           destruct (k_hashable KO x); discriminate.
      * cbn [fst]. unfold ztake. rewrite firstn_length. lia.
Qed.
Lemma body_total_below n rec : dec_lawful variant_ok rec -> total_below n rec -> total_below (S n) (variant_body rec).
Proof.
  intros L H md inp fmt Hl. unfold variant_body. intros E.
  repeat match type of E with
  | (if ?b then _ else _) = Oof => destruct b; [|]
  end; try discriminate E; try apply map_res_oof in E.
  all: try (now apply bool_total in E). all: try (now apply u8_total in E). all: try (now apply u16_total in E).
  all: try (now apply u32_total in E). all: try (now apply u64_total in E). all: try (now apply i8_total in E).
  all: try (now apply i16_total in E). all: try (now apply i32_total in E). all: try (now apply i64_total in E).
  all: try (now apply f32_total in E). all: try (now apply f64_total in E). all: try (now apply char_total in E).
  all: try (now apply datetime_total in E). all: try (now apply uuid_total in E). all: try (now apply bin_total in E).
  all: try (now apply bstr_total in E). all: try (now apply symbol_total in E).
  1,2: now apply (list_total_below _ n rec L H) in E.
  1,2: now apply (map_total_below _ _ _ n rec rec L L H H) in E.
  apply bind_oof in E as [E|([i d] & E1 & E)].
  - apply (decode_total_below (length inp)) in E; auto. intros ? ? ? ?. apply descriptor_total.
  - apply (lawful_length _ _ _ _ _ (decode_lawful _ _ _ descriptor_lawful)) in E1.
    apply bind_oof in E as [E|([j v] & _ & E)]; [|discriminate].
    apply (decode_total_below n) in E; auto. lia.
Qed.
Lemma fuel_total f : total_below f (variant_dec_fuel f).
Proof.
  induction f as [|f IH]; [intros md inp fmt H; lia|].
  exact (body_total_below f _ (variant_fuel_lawful f) IH).
Qed.

Lemma variant_dec_fuel_eq f md inp fmt : (length inp < f)%nat -> variant_dec_fuel f md inp fmt = variant_dec md inp fmt.
Proof.
  intros H. unfold variant_dec.
  destruct (fuel_below (S (length inp)) f ltac:(lia) md inp fmt) as [E|E]; [|now rewrite E].
  apply fuel_total in E; [easy|lia].
Qed.
Lemma variant_total : total variant_dec.
Proof. intros md inp fmt. apply fuel_total. lia. Qed.
Lemma fuel_below_dec f : dec_below (variant_dec_fuel f) variant_dec.
Proof.
  intros md inp fmt. destruct (Nat.le_gt_cases f (length inp)).
  - apply fuel_below. lia.
  - right. now apply variant_dec_fuel_eq.
Qed.
(** The equation satisfied by the decoder. *)
Lemma variant_dec_unfold md inp fmt : variant_dec md inp fmt = variant_body variant_dec md inp fmt.
Proof.
  unfold variant_dec at 1. rewrite variant_dec_fuel_S.
  destruct (below_body _ _ (fuel_below_dec (length inp)) md inp fmt) as [E|E]; [|exact E].
  rewrite <- variant_dec_fuel_S in E. exfalso. refine (fuel_total _ md inp fmt _ E). lia.
Qed.
Lemma variant_lawful : dec_lawful variant_ok variant_dec.
Proof.
  intros md fmt inp rest v E. pose proof (variant_fuel_lawful (S (length inp)) md fmt inp rest v E) as [(p & -> & Hp) HP].
  split; [|exact HP]. exists p. split; [easy|]. intros ex.
  destruct (fuel_below_dec (S (length (p ++ rest))) md (p ++ ex) fmt) as [E'|E']; rewrite Hp in E'; [discriminate|now symmetry].
Qed.

(** ** The decoder accepts every standard encoding *)

Lemma wire_var_len c8 c32 b bs : wire_var c8 c32 b bs -> 2 <= zlen bs.
Proof.
  destruct 1 as [b H|b H]; pose proof (zlen_nonneg b); rewrite ?zlen_cons, ?zlen_app, ?zlen_be4; lia.
Qed.
Lemma wire_lengths :
  (forall v bs, wire v bs -> 1 <= zlen bs) /\
  (forall l bs, wire_seq l bs -> zlen l <= zlen bs) /\
  (forall m bs, wire_entries m bs -> 2 * zlen m <= zlen bs).
Proof.
  apply wire_mutind; intros; rewrite ?zlen_cons, ?zlen_app, ?zlen_nil;
    repeat match goal with |- context [zlen ?x] =>
      lazymatch goal with _ : 0 <= zlen x |- _ => fail | _ => pose proof (zlen_nonneg x) end end; try lia.
  - destruct w; cbn; lia.
  - destruct w; rewrite ?zlen_cons, ?zlen_be4, ?zlen_nil; try lia.
  - destruct w; rewrite ?zlen_cons, ?zlen_be8, ?zlen_nil; try lia.
  - destruct w; rewrite ?zlen_cons, ?zlen_be4, ?zlen_nil; try lia.
  - destruct w; rewrite ?zlen_cons, ?zlen_be8, ?zlen_nil; try lia.
  - destruct w as [_ w]. apply wire_var_len in w. lia.
  - destruct w as [_ w]. apply wire_var_len in w. lia.
  - destruct w as [_ w]. apply wire_var_len in w. lia.
  - cbn. lia.
Qed.

Lemma decodes_variant md {T} (f : T -> variant) (d : dec T) c bs v :
  (forall inp, variant_body variant_dec md inp c = map_res f (d md inp c)) ->
  decodes md d (c :: bs) v -> decodes md variant_dec (c :: bs) (f v).
Proof.
  intros H D. apply decodes_cons. intros rest. rewrite variant_dec_unfold, H.
  specialize (D rest). cbn [app] in D. rewrite decode_cons in D. rewrite D. reflexivity.
Qed.
Lemma decodes_app md {T} (d : dec T) bs v rest : decodes md d bs v -> decode d md (bs ++ rest) = Ok (rest, v).
Proof. auto. Qed.

Lemma hm_insert_new {K V} (eqb : K -> K -> bool) k (v : V) acc m :
  distinct_keys eqb (acc ++ (k, v) :: m) -> hm_insert eqb k v acc = acc ++ [(k, v)].
Proof.
  intros H. assert (F : Forall (fun kv => eqb k (fst kv) = false) acc).
  { clear - H. unfold distinct_keys in H. induction acc as [|x acc IH]; [constructor|]. cbn [app] in H.
    inversion H as [|? ? H1 H2]; subst. constructor; [|now apply IH].
    rewrite Forall_forall in H1. apply (H1 (k, v)). apply in_or_app. right. now left. }
  clear H. induction F as [|[k' v'] acc Hk F IH]; cbn [hm_insert app]; [reflexivity|]. cbn [fst] in Hk. now rewrite Hk, IH.
Qed.

Lemma compound8_read md size count r : 1 <= size -> decode_compound8 md (size :: count :: r) = Ok (r, MkCH (size - 1) count).
Proof.
  intros H. unfold decode_compound8. rewrite check_len_true by (rewrite !zlen_cons; pose proof (zlen_nonneg r); lia).
  cbn [bind]. unfold usub. destruct (Z.ltb_spec size 1); [lia|]. reflexivity.
Qed.
Lemma be_val_be4 v : 0 <= v < 2 ^ 32 -> be_val (be4 v) = v.
Proof. intros H. rewrite <- be_bytes_be4, be_val_be_bytes. apply Z.mod_small. exact H. Qed.
Lemma compound32_read md size count r : 4 <= size < 2 ^ 32 -> 0 <= count < 2 ^ 32 ->
  decode_compound32 md (be4 size ++ be4 count ++ r) = Ok (r, MkCH (size - 4) count).
Proof.
  intros H H'. unfold decode_compound32.
  rewrite check_len_true by (rewrite !zlen_app, !zlen_be4; pose proof (zlen_nonneg r); lia). cbn [bind].
  rewrite (ztake_app 4 (be4 size)) by apply zlen_be4. rewrite be_val_be4 by lia.
  unfold usub. destruct (Z.ltb_spec size 4); [lia|]. cbn [bind].
  rewrite (zdrop_app 4 (be4 size)) by apply zlen_be4. rewrite (ztake_app 4 (be4 count)) by apply zlen_be4.
  rewrite be_val_be4 by lia. rewrite app_assoc, zdrop_app by (rewrite zlen_app, !zlen_be4; lia). reflexivity.
Qed.

Lemma loop_zlen {A S} (l : list A) (f : S -> res S) s : loop_n (zlen l) f s = iter_res (length l) f s.
Proof. rewrite loop_n_iter. unfold zlen. now rewrite Nat2Z.id. Qed.

Lemma bind_eq {A B} (x : res A) a (f : A -> res B) : x = Ok a -> bind x f = f a.
Proof. now intros ->. Qed.

Section Accepts.
  Context (md : mode).
  Let rv := decode variant_dec md.

  Lemma variant_accepts_all :
    (forall v bs, wire v bs -> decodable v -> decodes md variant_dec bs v) /\
    (forall l bs, wire_seq l bs -> all_prop decodable l ->
       forall acc rest, iter_res (length l) (vec_step rv) (bs ++ rest, acc) = Ok (rest, acc ++ l)) /\
    (forall m bs, wire_entries m bs ->
       all_prop (fun kv : variant * variant => let (k, w) := kv in decodable k /\ variant_hashable k = true /\ decodable w) m ->
       forall acc rest, distinct_keys variant_eqb (acc ++ m) ->
       iter_res (length m) (map_step variant_key rv rv) (bs ++ rest, acc) = Ok (rest, acc ++ m)).
  Proof.
    apply wire_mutind.
    - intros _. apply decodes_cons. intros rest. now rewrite variant_dec_unfold.
    - intros b bs H _. pose proof (bool_accepts md b bs H) as D.
      destruct H; try (apply (decodes_variant md VBoolean bool_dec); [reflexivity|exact D]);
        apply decodes_cons; intros rest; now rewrite variant_dec_unfold.
    - intros v H _. apply (decodes_variant md VUbyte u8_dec); [reflexivity|now apply u8_accepts].
    - intros v H _. apply (decodes_variant md VUshort u16_dec); [reflexivity|now apply u16_accepts].
    - intros v bs H _. pose proof (u32_accepts md v bs H) as D.
      destruct H; try (apply (decodes_variant md VUint u32_dec); [reflexivity|exact D]).
    - intros v bs H _. pose proof (u64_accepts md v bs H) as D.
      destruct H; try (apply (decodes_variant md VUlong u64_dec); [reflexivity|exact D]).
    - intros v H _. apply (decodes_variant md VByte i8_dec); [reflexivity|now apply i8_accepts].
    - intros v H _. apply (decodes_variant md VShort i16_dec); [reflexivity|now apply i16_accepts].
    - intros v bs H _. pose proof (i32_accepts md v bs H) as D.
      destruct H; apply (decodes_variant md VInt i32_dec); try reflexivity; exact D.
    - intros v bs H _. pose proof (i64_accepts md v bs H) as D.
      destruct H; apply (decodes_variant md VLong i64_dec); try reflexivity; exact D.
    - intros v H _. apply (decodes_variant md VFloat f32_dec); [reflexivity|now apply f32_accepts].
    - intros v H _. apply (decodes_variant md VDouble f64_dec); [reflexivity|now apply f64_accepts].
    - intros v H _. apply (decodes_variant md VChar char_dec); [reflexivity|now apply char_accepts].
    - intros v H Hd. apply (decodes_variant md VTimestamp datetime_dec); [reflexivity|now apply datetime_accepts].
    - intros u H H' _. apply (decodes_variant md VUuid uuid_dec); [reflexivity|now apply uuid_accepts].
    - intros b bs H _. pose proof (bin_accepts md b bs H) as D. destruct H as [_ H]; destruct H;
        apply (decodes_variant md VBinary bin_dec); try reflexivity; exact D.
    - intros b bs H _. pose proof (bstr_accepts md b bs H) as D. destruct H as [_ H]; destruct H;
        apply (decodes_variant md (fun s => VString (str_from_bytestr s)) bstr_dec); try reflexivity; exact D.
    - intros b bs H _. pose proof (symbol_accepts md b bs H) as D. destruct H as [_ H]; destruct H;
        apply (decodes_variant md VSymbol symbol_dec); try reflexivity; exact D.
    - intros _. apply decodes_cons. intros rest. now rewrite variant_dec_unfold.
    - intros l bs Hw IH Hlen Hd. apply (decodes_variant md VList (list_dec variant_dec)); [reflexivity|].
      apply decodes_cons. intros rest. unfold list_dec, decode_list_header. cbn [FC_LIST0 FC_LIST8 Z.eqb Pos.eqb app].
      rewrite compound8_read by (pose proof (zlen_nonneg bs); lia). cbn [bind ch_count].
      rewrite loop_zlen. now apply IH.
    - intros l bs Hw IH Hlen Hd. apply (decodes_variant md VList (list_dec variant_dec)); [reflexivity|].
      apply decodes_cons. intros rest. unfold list_dec, decode_list_header.
      cbn [FC_LIST0 FC_LIST8 FC_LIST32 Z.eqb Pos.eqb]. rewrite <- !app_assoc.
      pose proof (zlen_nonneg bs). pose proof (zlen_nonneg l). apply wire_lengths in Hw.
      rewrite compound32_read by lia. cbn [bind ch_count].
      rewrite loop_zlen. now apply IH.
    - intros m bs Hw IH Hlen [Hd Hk].
      apply (decodes_variant md VMap (map_dec variant_key variant_dec variant_dec)); [reflexivity|].
      apply decodes_cons. intros rest. unfold map_dec, decode_map_header. cbn [FC_MAP8 Z.eqb Pos.eqb app].
      rewrite compound8_read by (pose proof (zlen_nonneg bs); lia). cbn [bind ch_count ch_size].
      replace (zlen bs + 1 - 1) with (zlen bs) by lia. unfold slice_to.
      destruct (Z.ltb_spec (zlen (bs ++ rest)) (zlen bs)); [rewrite zlen_app in *; pose proof (zlen_nonneg rest); lia|].
      cbn [bind]. rewrite ztake_app, zdrop_app by easy.
      replace (2 * zlen m / 2) with (zlen m) by lia. rewrite loop_zlen.
      specialize (IH Hd [] [] Hk). rewrite app_nil_r in IH. unfold rv in IH. etransitivity; [apply (bind_eq _ _ _ IH)|reflexivity].
    - intros m bs Hw IH Hlen [Hd Hk].
      apply (decodes_variant md VMap (map_dec variant_key variant_dec variant_dec)); [reflexivity|].
      apply decodes_cons. intros rest. unfold map_dec, decode_map_header. cbn [FC_MAP8 FC_MAP32 Z.eqb Pos.eqb].
      rewrite <- !app_assoc. pose proof (zlen_nonneg bs). pose proof (zlen_nonneg m). apply wire_lengths in Hw.
      rewrite compound32_read by lia. cbn [bind ch_count ch_size].
      replace (zlen bs + 4 - 4) with (zlen bs) by lia. unfold slice_to.
      destruct (Z.ltb_spec (zlen (bs ++ rest)) (zlen bs)); [rewrite zlen_app in *; pose proof (zlen_nonneg rest); lia|].
      cbn [bind]. rewrite ztake_app, zdrop_app by easy.
      replace (2 * zlen m / 2) with (zlen m) by lia. rewrite loop_zlen.
      specialize (IH Hd [] [] Hk). rewrite app_nil_r in IH. unfold rv in IH. etransitivity; [apply (bind_eq _ _ _ IH)|reflexivity].
    - intros d v bd bv Hwd Hw IH [Hd Hv]. apply decodes_cons. intros rest. rewrite variant_dec_unfold.
      change (variant_body variant_dec md ((bd ++ bv) ++ rest) 0) with
        ('(inp1, d) <- decode descriptor_dec md ((bd ++ bv) ++ rest) ;;
         '(inp2, v) <- decode variant_dec md inp1 ;; Ok (inp2, VDescribed d v)).
      rewrite <- app_assoc, (descriptor_accepts md d bd Hd Hwd). cbn [bind]. rewrite (IH Hv). reflexivity.
    - intros _ acc rest. cbn [length iter_res app]. now rewrite app_nil_r.
    - intros v l b bs Hw IHv Hs IHl [Hv Hl] acc rest. cbn [length iter_res vec_step].
      rewrite <- app_assoc. unfold rv at 1. rewrite (IHv Hv). cbn [bind]. rewrite (IHl Hl). now rewrite <- app_assoc.
    - intros _ acc rest _. cbn [length iter_res app]. now rewrite app_nil_r.
    - intros k v m bk bv bs Hk IHk Hv IHv Hm IHm [(Dk & Hh & Dv) Dm] acc rest Hdist.
      cbn [length iter_res map_step]. rewrite <- !app_assoc. unfold rv at 1 2. rewrite (IHk Dk). cbn [bind].
      rewrite (IHv Dv). cbn [bind variant_key k_hashable k_eqb]. rewrite Hh. cbn [bind].
      rewrite (hm_insert_new _ _ _ _ m) by exact Hdist. rewrite (IHm Dm).
      + now rewrite <- app_assoc.
      + now rewrite <- app_assoc.
  Qed.
End Accepts.

Lemma variant_accepts md v bs : wire v bs -> decodable v -> decodes md variant_dec bs v.
Proof. apply variant_accepts_all. Qed.

(** ** The encoder writes a standard encoding *)

Lemma var_size_bound n k : var_size n < k -> n < k.
Proof. unfold var_size. destruct (255 <? n); lia. Qed.
Lemma wire_seq_entries_map (l : list (variant * variant)) :
  Forall (fun kv => wire (canon (fst kv)) (wbytes (variant_enc (fst kv))) /\ wire (canon (snd kv)) (wbytes (variant_enc (snd kv)))) l ->
  wire_entries (map (fun kv : variant * variant => let (k, w) := kv in (canon k, canon w)) l)
    (wbytes (map_entries variant_enc variant_enc l)).
Proof.
  induction 1 as [|[k v] l [H1 H2] Hl IH]; cbn [map]; [constructor|].
  unfold map_entries. cbn [flat_map]. rewrite !wbytes_app, <- app_assoc. now constructor.
Qed.
Lemma datetime_millis_range t : datetime_ok t -> - 2 ^ 63 <= millis t < 2 ^ 63.
Proof. unfold datetime_ok, millis, chrono_min_secs, chrono_max_secs. lia. Qed.

Lemma variant_emits v : variant_ok v -> list_free v -> variant_size v < 2 ^ 32 -> wire (canon v) (wbytes (variant_enc v)).
Proof.
  induction v using variant_ind'; cbn [variant_ok list_free variant_size variant_enc canon]; intros Hok Hlf Hsz.
  - constructor.
  - constructor. apply bool_emits.
  - rewrite u8_emits by exact Hok. now constructor.
  - rewrite u16_emits. now constructor.
  - constructor. now apply u32_emits.
  - constructor. now apply u64_emits.
  - rewrite i8_emits. now constructor.
  - rewrite i16_emits. now constructor.
  - constructor. now apply i32_emits.
  - constructor. now apply i64_emits.
  - rewrite f32_emits. now constructor.
  - rewrite f64_emits. now constructor.
  - rewrite char_emits. now constructor.
  - rewrite datetime_emits. constructor. now apply datetime_millis_range.
  - rewrite uuid_emits. destruct Hok. now constructor.
  - constructor. apply bin_emits; [easy|]. now apply var_size_bound.
  - constructor. apply str_emits; [easy|]. now apply var_size_bound.
  - constructor. apply symbol_emits; [easy|]. now apply var_size_bound.
  - constructor. apply static_symbol_emits; [easy|]. now apply var_size_bound.
  - easy.
  - pose proof Hok as Hvm. destruct Hok as [Hok _].
    apply (all_prop_pair _ _ (fun k w => variant_ok k /\ variant_hashable k = true /\ variant_ok w)) in Hok; [|easy].
    apply (all_prop_pair _ _ (fun k w => list_free k /\ list_free w)) in Hlf; [|easy].
    assert (F : Forall (fun kv => enc_fits (variant_size (fst kv)) (variant_enc (fst kv)) /\
                                  enc_fits (variant_size (snd kv)) (variant_enc (snd kv))) m).
    { eapply Forall_impl; [|exact Hok]. intros kv (H1 & _ & H2). split; [now apply (variant_el (fst kv))|now apply (variant_el (snd kv))]. }
    apply map_entries_fits in F. destruct F as [F _].
    assert (Hsum : map_encoded_size variant_size variant_size m < 2 ^ 32 - 3).
    { unfold map_size in Hsz. destruct (255 <? _); lia. }
    assert (W : wire_entries (map (fun kv : variant * variant => let (k, w) := kv in (canon k, canon w)) m)
                  (wbytes (map_entries variant_enc variant_enc m))).
    { apply wire_seq_entries_map. rewrite Forall_forall in *. intros kv Hin.
      destruct (H kv Hin) as [IH1 IH2]. destruct (Hok kv Hin) as (O1 & _ & O2). destruct (Hlf kv Hin) as [L1 L2].
      assert (B : variant_size (fst kv) + variant_size (snd kv) <= map_encoded_size variant_size variant_size m).
      { unfold map_encoded_size.
        rewrite (zsum_ext _ (fun kv : variant * variant => variant_size (fst kv) + variant_size (snd kv))) by (now intros []).
        apply (zsum_in (fun kv : variant * variant => variant_size (fst kv) + variant_size (snd kv))); [|exact Hin].
        intros y Hy. destruct (Hok y Hy) as (Q1 & _ & Q2).
        pose proof (variant_size_pos _ Q1). pose proof (variant_size_pos _ Q2). lia. }
      pose proof (variant_size_pos _ O1). pose proof (variant_size_pos _ O2).
      split; [apply IH1|apply IH2]; auto; lia. }
    pose proof (proj2 (proj2 wire_lengths) _ _ W) as Hc. rewrite zlen_map, F in Hc.
    unfold map_size in Hsz. unfold map_enc. pose proof (zlen_nonneg m). rewrite Z.mul_comm.
    destruct (Z.ltb_spec 255 (map_encoded_size variant_size variant_size m + 1)); wb.
    + change (FC_MAP32 mod 256) with 0xd1. rewrite <- app_assoc. rewrite <- F at 1.
      replace (zlen m) with (zlen (map (fun kv : variant * variant => let (k, w) := kv in (canon k, canon w)) m)) by apply zlen_map.
      apply W_map32; [exact W|]. lia.
    + change (FC_MAP8 mod 256) with 0xc1. rewrite (Z.mod_small (_ + 1)) by lia. rewrite (Z.mod_small (2 * _)) by lia.
      rewrite <- F at 1.
      replace (zlen m) with (zlen (map (fun kv : variant * variant => let (k, w) := kv in (canon k, canon w)) m)) by apply zlen_map.
      apply W_map8; [exact W|]. lia.
  - destruct Hok as [Hd Hv]. pose proof (variant_size_pos _ Hv).
    destruct (descriptor_el d Hd) as [_ D2]. cbn [descriptor_E e_size] in D2.
    destruct (descriptor_emits d Hd ltac:(lia)) as (bs & E & W). rewrite wbytes_app, E. cbn [app].
    constructor; [exact W|]. apply IHv; auto. lia.
Qed.

(** Round trip. *)
Lemma variant_round_trip md v :
  variant_ok v -> list_free v -> variant_size v < 2 ^ 32 -> decodable (canon v) ->
  decodes md variant_dec (wbytes (variant_enc v)) (canon v).
Proof. intros H1 H2 H3 H4. apply variant_accepts; [now apply variant_emits|exact H4]. Qed.

(** ** Shortest form *)
Lemma wire_minimal :
  (forall v bs, wire v bs -> list_free v -> variant_size v <= zlen bs) /\
  (forall l bs, wire_seq l bs -> True) /\
  (forall m bs, wire_entries m bs ->
     all_prop (fun kv : variant * variant => let (k, w) := kv in list_free k /\ list_free w) m ->
     map_encoded_size variant_size variant_size m <= zlen bs).
Proof.
  apply wire_mutind; cbn [list_free variant_size]; try easy.
  - intros b bs H _. destruct H; unfold bool_size; rewrite ?zlen_cons, ?zlen_nil; lia.
  - intros v bs H _. unfold u32_size. destruct H; [cbn; lia| |]; destruct (v =? 0); destruct (Z.ltb_spec 255 v); rewrite ?zlen_cons, ?zlen_be4, ?zlen_nil; lia.
  - intros v bs H _. unfold u64_size. destruct H; [cbn; lia| |]; destruct (v =? 0); destruct (Z.ltb_spec 255 v); rewrite ?zlen_cons, ?zlen_be8, ?zlen_nil; lia.
  - intros v bs H _. unfold i32_size. destruct H; destruct (_ || _) eqn:E; rewrite ?zlen_cons, ?zlen_be4, ?zlen_nil; lia.
  - intros v bs H _. unfold i64_size. destruct H; destruct (_ || _) eqn:E; rewrite ?zlen_cons, ?zlen_be8, ?zlen_nil; lia.
  - intros u _ H _. unfold fixed_size. cbn [uuid_A a_size]. rewrite zlen_cons. lia.
  - intros b bs [_ H] _. unfold bin_size, var_size. destruct H; destruct (Z.ltb_spec 255 (zlen b)); rewrite ?zlen_cons, ?zlen_app, ?zlen_be4; lia.
  - intros b bs [_ H] _. unfold str_size, var_size. cbn [str_len]. destruct H; destruct (Z.ltb_spec 255 (zlen b)); rewrite ?zlen_cons, ?zlen_app, ?zlen_be4; lia.
  - intros b bs [_ H] _. unfold symbol_size, var_size. cbn [str_len]. destruct H; destruct (Z.ltb_spec 255 (zlen b)); rewrite ?zlen_cons, ?zlen_app, ?zlen_be4; lia.
  - intros m bs _ IH Hb Hl. specialize (IH Hl). unfold map_size. rewrite !zlen_cons. destruct (Z.ltb_spec 255 (map_encoded_size variant_size variant_size m + 1)); lia.
  - intros m bs _ IH Hb Hl. specialize (IH Hl). unfold map_size. rewrite !zlen_cons, !zlen_app, !zlen_be4.
    destruct (255 <? _); lia.
  - intros d v bd bv Hd Hv IH Hl. specialize (IH Hl). rewrite zlen_cons, zlen_app.
    assert (descriptor_size d <= 1 + zlen bd); [|lia]. destruct Hd as [w bs H|b bs [_ H]]; cbn [descriptor_size].
    + unfold u64_size. destruct H as [|w H|w H]; [cbn; lia| |]; destruct (w =? 0); destruct (Z.ltb_spec 255 w); rewrite ?zlen_cons, ?zlen_be8, ?zlen_nil; lia.
    + unfold symbol_size, var_size. cbn [str_len]. destruct H; destruct (Z.ltb_spec 255 (zlen b)); rewrite ?zlen_cons, ?zlen_app, ?zlen_be4; lia.
  - intros k v m bk bv bs Hk IHk Hv IHv Hm IHm [[Lk Lv] Lm]. unfold map_encoded_size in *. cbn [zsum].
    rewrite !zlen_app. specialize (IHk Lk). specialize (IHv Lv). specialize (IHm Lm). lia.
Qed.
