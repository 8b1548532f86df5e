(** Proofs about the recursion of the decoder of variants: a third of the input is enough fuel. *)

From Verif Require Import Decode Utf8Spec Valid Wire BaseFacts PrimFacts DecLaws VariantFacts TypeSpec CodecSpec ValueFacts.
Open Scope Z_scope.

(** Headers with items after them take at least two bytes. *)
Lemma compound8_takes md inp r h : decode_compound8 md inp = Ok (r, h) -> (length r + 2 <= length inp)%nat.
Proof.
  unfold decode_compound8. intros E. apply bind_ok in E as [u [_ E]]. destruct inp as [|b0 [|b1 i]]; try discriminate.
  apply bind_ok in E as [s [_ E]]. injection E as <- _. cbn [length]. lia.
Qed.
Lemma compound32_takes md inp r h : decode_compound32 md inp = Ok (r, h) -> (length r + 2 <= length inp)%nat.
Proof.
  unfold decode_compound32, check_len. destruct (Z.ltb_spec (zlen inp) 8); [discriminate|]. cbn [bind]. intros E.
  apply bind_ok in E as [s [_ E]]. injection E as <- _. unfold zdrop. rewrite skipn_length. unfold zlen in *. lia.
Qed.
Lemma list_header_takes md inp fmt r h : decode_list_header md inp fmt = Ok (r, h) -> ch_count h = 0 \/ (length r + 2 <= length inp)%nat.
Proof.
  unfold decode_list_header. destruct (fmt =? FC_LIST0); [intros E; injection E as _ <-; now left|].
  destruct (fmt =? FC_LIST8); [intros E; right; exact (compound8_takes _ _ _ _ E)|].
  destruct (fmt =? FC_LIST32); [intros E; right; exact (compound32_takes _ _ _ _ E)|discriminate].
Qed.
Lemma map_header_takes md inp fmt r h : decode_map_header md inp fmt = Ok (r, h) -> (length r + 2 <= length inp)%nat.
Proof.
  unfold decode_map_header. destruct (fmt =? FC_MAP8); [intros E; exact (compound8_takes _ _ _ _ E)|].
  destruct (fmt =? FC_MAP32); [intros E; exact (compound32_takes _ _ _ _ E)|discriminate].
Qed.
Lemma read_u8_takes inp r v : read_u8 inp = Ok (r, v) -> (length r + 1 <= length inp)%nat.
Proof. destruct inp as [|b i]; [discriminate|]. rewrite read_u8_cons. intros E. injection E as <- _. cbn [length]. lia. Qed.
Lemma be_read_takes inp n r v : 1 <= n -> be_read inp n = Ok (r, v) -> (length r + 1 <= length inp)%nat.
Proof.
  unfold be_read, check_len. intros Hn. destruct (Z.ltb_spec (zlen inp) n); [discriminate|]. cbn [bind]. intros E. injection E as <- _.
  unfold zdrop. rewrite skipn_length. unfold zlen in *. lia.
Qed.
Lemma symbol_takes md inp fmt r v : symbol_dec md inp fmt = Ok (r, v) -> (length r + 1 <= length inp)%nat.
Proof.
  unfold symbol_dec, read_bytes_u8, read_bytes_u32.
  destruct (fmt =? FC_SYMBOL8); [|destruct (fmt =? FC_SYMBOL32); [|discriminate]]; intros E; apply bind_ok in E as [[i b] [E E']];
    apply bind_ok in E' as [s [_ E']]; injection E' as <- _; apply bind_ok in E as [[j n] [E1 E]]; apply bind_ok in E as [u [_ E]]; injection E as <- _.
  - apply read_u8_takes in E1. unfold zdrop. rewrite skipn_length. lia.
  - apply be_read_takes in E1; [|lia]. unfold zdrop. rewrite skipn_length. lia.
Qed.
Lemma descriptor_takes md inp r d : decode descriptor_dec md inp = Ok (r, d) -> (length r + 2 <= length inp)%nat.
Proof.
  destruct inp as [|fmt inp]; [discriminate|]. rewrite decode_cons. cbn [length]. unfold descriptor_dec.
  destruct (Z.eqb_spec fmt FC_SMALLULONG) as [->|]; [|destruct (Z.eqb_spec fmt FC_ULONG) as [->|]].
  1,2: intros E; apply map_res_ok in E as (a & E & _); change (u64_dec md inp FC_ULONG) with (be_read inp 8) in E || change (u64_dec md inp FC_SMALLULONG) with (read_u8 inp) in E.
  - apply read_u8_takes in E. lia.
  - apply be_read_takes in E; lia.
  - destruct (fmt =? FC_SYMBOL8); [|destruct (fmt =? FC_SYMBOL32); [|discriminate]]; intros E; apply map_res_ok in E as (a & E & _); apply symbol_takes in E; lia.
Qed.

Lemma list_total_deep {T} (P : T -> Prop) n (d : dec T) : dec_lawful P d -> total_below n d -> total_below (n + 3) (list_dec d).
Proof.
  intros L H md inp fmt Hl. unfold list_dec. intros E. apply bind_oof in E as [E|([i h] & E1 & E2)].
  - now apply list_header_total in E.
  - rewrite loop_n_iter in E2. apply list_header_takes in E1 as [E1|E1]; [rewrite E1 in E2; discriminate|]. revert E2.
    apply (iter_res_oof (fun s : bytes * list T => (length (fst s) <= n)%nat)); [| |cbn; lia].
    + intros [j acc] [j' acc'] Hj E. unfold vec_step in E. apply bind_ok in E as [[k x] [E3 E4]]. injection E4 as <- <-.
      apply (lawful_length _ _ _ _ _ (decode_lawful _ _ _ L)) in E3. cbn [fst] in *. lia.
    + intros [j acc] Hj E. unfold vec_step in E. apply bind_oof in E as [E|([k x] & _ & E)]; [|discriminate].
      now apply (decode_total_below n) in E.
Qed.
Lemma map_total_deep {K V} (KO : key K) (PK : K -> Prop) (PV : V -> Prop) n dk dv :
  dec_lawful PK dk -> dec_lawful PV dv -> total_below n dk -> total_below n dv -> total_below (n + 3) (map_dec KO dk dv).
Proof.
  intros LK LV HK HV md inp fmt Hl. unfold map_dec. intros E. apply bind_oof in E as [E|([i h] & E1 & E2)].
  - now apply map_header_total in E.
  - apply map_header_takes in E1.
    apply bind_oof in E2 as [E|(s & E2 & E3)].
    + unfold slice_to in E. destruct (_ <? _); discriminate.
    + unfold slice_to in E2. destruct (_ <? _); [discriminate|]. injection E2 as <-.
      apply bind_oof in E3 as [E|([j m] & _ & E)]; [|discriminate].
      rewrite loop_n_iter in E. revert E.
      apply (iter_res_oof (fun s : bytes * list (K * V) => (length (fst s) <= n)%nat)).
      * intros [j acc] [j' acc'] Hj E. unfold map_step in E.
        apply bind_ok in E as [[k x] [E3 E4]]. apply bind_ok in E4 as [[k' x'] [E4 E5]].
        destruct (k_hashable KO x); [|discriminate]. injection E5 as <- <-.
        apply (lawful_length _ _ _ _ _ (decode_lawful _ _ _ LK)) in E3.
        apply (lawful_length _ _ _ _ _ (decode_lawful _ _ _ LV)) in E4. cbn [fst] in *. lia.
      * intros [j acc] Hj E. unfold map_step in E. apply bind_oof in E as [E|([k x] & E3 & E)].
        -- now apply (decode_total_below n) in E.
        -- apply (lawful_length _ _ _ _ _ (decode_lawful _ _ _ LK)) in E3. cbn [fst] in *.
           apply bind_oof in E as [E|([k' x'] & _ & E)]; [apply (decode_total_below n) in E; auto; lia|].
           destruct (k_hashable KO x); discriminate.
      * cbn [fst]. unfold ztake. rewrite firstn_length. lia.
Qed.
Lemma body_total_deep n rec : dec_lawful variant_ok rec -> total_below n rec -> total_below (n + 3) (variant_body rec).
Proof.
  intros L H md inp fmt Hl. unfold variant_body. intros E.
  repeat match type of E with
  | (if ?b then _ else _) = Oof => destruct b; [|]
  end; try discriminate E; try apply map_res_oof in E.
  all: try (now apply bool_total in E). all: try (now apply u8_total in E). all: try (now apply u16_total in E).
  all: try (now apply u32_total in E). all: try (now apply u64_total in E). all: try (now apply i8_total in E).
  all: try (now apply i16_total in E). all: try (now apply i32_total in E). all: try (now apply i64_total in E).
  all: try (now apply f32_total in E). all: try (now apply f64_total in E). all: try (now apply char_total in E).
  all: try (now apply datetime_total in E). all: try (now apply uuid_total in E). all: try (now apply bin_total in E).
  all: try (now apply bstr_total in E). all: try (now apply symbol_total in E).
  1,2: now apply (list_total_deep _ n rec L H) in E.
  1,2: now apply (map_total_deep _ _ _ n rec rec L L H H) in E.
  apply bind_oof in E as [E|([i d] & E1 & E)].
  - apply (decode_total_below (length inp)) in E; auto. intros ? ? ? ?. apply descriptor_total.
  - apply descriptor_takes in E1.
    apply bind_oof in E as [E|([j v] & _ & E)]; [|discriminate].
    apply (decode_total_below n) in E; auto. lia.
Qed.
Lemma fuel_deep f : total_below (3 * f) (variant_dec_fuel f).
Proof.
  induction f as [|f IH]; [intros md inp fmt H; lia|].
  replace (3 * S f)%nat with (3 * f + 3)%nat by lia. exact (body_total_deep (3 * f) _ (variant_fuel_lawful f) IH).
Qed.
Lemma recursion f md inp : zlen inp <= 3 * Z.of_nat f -> decode (variant_dec_fuel f) md inp = decode variant_dec md inp.
Proof.
  intros H. destruct inp as [|c i]; [reflexivity|]. rewrite !decode_cons. rewrite zlen_cons in H. unfold zlen in H.
  destruct (fuel_below_dec f md i c) as [E|E]; [|exact E]. apply fuel_deep in E; [easy|lia].
Qed.
Lemma recursion_tight f md rest : decode (variant_dec_fuel f) md (nested_bytes f ++ rest) = Oof.
Proof.
  induction f as [|f IH]; [cbn [nested_bytes app]; now rewrite decode_cons|]. cbn [nested_bytes app]. rewrite decode_cons, variant_dec_fuel_S.
  change ('(inp1, d) <- decode descriptor_dec md (0x53 :: 0x01 :: nested_bytes f ++ rest) ;;
      '(inp2, v) <- decode (variant_dec_fuel f) md inp1 ;; Ok (inp2, VDescribed d v) = Oof).
  assert (decode descriptor_dec md (0x53 :: 0x01 :: nested_bytes f ++ rest) = Ok (nested_bytes f ++ rest, DUlong 1)) as ->.
  { apply (descriptor_accepts md (DUlong 1) [0x53; 0x01]); [discriminate|]. constructor. constructor. lia. }
  cbn [bind]. now rewrite IH.
Qed.

(** What is read with some fuel is not deeper than the fuel. *)
Lemma iter_inv {S} (I : S -> Prop) (f : S -> res S) n s s' : (forall a b, I a -> f a = Ok b -> I b) -> I s -> iter_res n f s = Ok s' -> I s'.
Proof.
  intros H. revert s. induction n as [|n IH]; intros s Hs E; cbn [iter_res] in E; [now injection E as <-|].
  apply bind_ok in E as [a [E1 E2]]. eauto.
Qed.
Definition list_deep (n : Z) (l : list variant) : Prop := Forall (fun v => depth v <= n) l.
Definition map_deep (n : Z) (m : list (variant * variant)) : Prop := Forall (fun kv => depth (fst kv) <= n /\ depth (snd kv) <= n) m.
Lemma max_list n l : 0 <= n -> list_deep n l -> fold_right Z.max 0 (map depth l) <= n.
Proof. intros Hn H. induction H; cbn [map fold_right]; lia. Qed.
Lemma max_map n m : 0 <= n -> map_deep n m -> fold_right Z.max 0 (map (fun kv : variant * variant => let (k, w) := kv in Z.max (depth k) (depth w)) m) <= n.
Proof. intros Hn H. induction H as [|[k w] m [H1 H2] _ IH]; cbn [map fold_right fst snd] in *; lia. Qed.
Lemma insert_deep n k v m : depth k <= n -> depth v <= n -> map_deep n m -> map_deep n (hm_insert variant_eqb k v m).
Proof.
  intros Hk Hv H. induction H as [|[k' v'] m [H1 H2] Hm IH]; cbn [hm_insert]; [now repeat constructor|].
  destruct (variant_eqb k k'); constructor; cbn [fst snd] in *; auto.
Qed.
Lemma leaf_deep {A} (g : A -> variant) (x : res (bytes * A)) n rest v : 0 <= n -> (forall a, depth (g a) = 1) -> map_res g x = Ok (rest, v) -> depth v <= 1 + n.
Proof. intros Hn N E. apply map_res_ok in E as (a & _ & ->). rewrite N. lia. Qed.
Lemma fuel_depth f : forall md inp fmt rest v, variant_dec_fuel f md inp fmt = Ok (rest, v) -> depth v <= Z.of_nat f.
Proof.
  induction f as [|f IH]; intros md inp fmt rest v E; [discriminate|]. rewrite variant_dec_fuel_S in E.
  assert (D : forall i r w, decode (variant_dec_fuel f) md i = Ok (r, w) -> depth w <= Z.of_nat f).
  { intros [|c i] r w E1; [discriminate|]. rewrite decode_cons in E1. now apply IH in E1. }
  clear IH. set (rec := variant_dec_fuel f) in *. clearbody rec. replace (Z.of_nat (S f)) with (1 + Z.of_nat f) by lia.
  set (n := Z.of_nat f) in *. assert (Hn : 0 <= n) by (subst n; lia). clearbody n. clear f. unfold variant_body in E.
  assert (HL : forall c, map_res VList (list_dec rec md inp c) = Ok (rest, v) -> depth v <= 1 + n).
  { intros c E'. apply map_res_ok in E' as (l & E' & ->). unfold list_dec in E'. apply bind_ok in E' as [[i h] [E1 E2]].
    rewrite loop_n_iter in E2. apply (iter_inv (fun s => list_deep n (snd s))) in E2.
    - cbn [depth snd] in *. pose proof (max_list n l Hn E2). lia.
    - intros [j acc] [j' acc'] Ha E3. unfold vec_step in E3. apply bind_ok in E3 as [[k x] [E3 E4]]. injection E4 as <- <-.
      apply Forall_app. split; [exact Ha|]. constructor; [now apply D in E3|constructor].
    - constructor. }
  assert (HM : forall c, map_res VMap (map_dec variant_key rec rec md inp c) = Ok (rest, v) -> depth v <= 1 + n).
  { intros c E'. apply map_res_ok in E' as (m & E' & ->). unfold map_dec in E'. apply bind_ok in E' as [[i h] [E1 E2]].
    apply bind_ok in E2 as [s [E2 E3]]. apply bind_ok in E3 as [[r m'] [E3 E4]]. injection E4 as <- <-. rewrite loop_n_iter in E3.
    apply (iter_inv (fun s => map_deep n (snd s))) in E3.
    - cbn [depth snd] in *. pose proof (max_map n m' Hn E3). lia.
    - intros [j acc] [j' acc'] Ha E4. unfold map_step in E4. apply bind_ok in E4 as [[k x] [E4 E5]]. apply bind_ok in E5 as [[k' x'] [E5 E6]].
      destruct (k_hashable variant_key x); [|discriminate]. injection E6 as <- <-. apply D in E4. apply D in E5. now apply insert_deep.
    - constructor. }
  repeat match type of E with
  | (if ?c then _ else _) = _ => destruct c; [first
      [ now apply HL in E | now apply HM in E
      | injection E as <- <-; cbn [depth map fold_right]; lia
      | now refine (leaf_deep _ _ n rest v Hn _ E)
      | idtac ]|]
  end.
  - apply bind_ok in E as [[i1 ds] [E1 E]]. apply bind_ok in E as [[i2 w] [E2 E]]. injection E as <- <-. apply D in E2. cbn [depth]. lia.
  - discriminate.
Qed.
Lemma decoded_third md inp rest v : decode variant_dec md inp = Ok (rest, v) -> 3 * (depth v - 1) + 1 <= zlen inp - zlen rest.
Proof.
  intros E. destruct (decode_lawful _ _ md variant_lawful inp rest v E) as [(p & -> & Hp) _]. specialize (Hp []). rewrite !app_nil_r in Hp.
  rewrite zlen_app. set (f := Z.to_nat ((zlen p + 2) / 3)). pose proof (zlen_nonneg p).
  rewrite <- (recursion f) in Hp by (subst f; Z.to_euclidean_division_equations; lia).
  assert (depth v <= Z.of_nat f).
  { destruct p as [|c i]; [discriminate|]. rewrite decode_cons in Hp. now apply fuel_depth in Hp. }
  subst f. Z.to_euclidean_division_equations; lia.
Qed.
