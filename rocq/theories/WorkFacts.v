(** Facts about the work done while a generic value is encoded. *)

From Coq Require Import Lia.
From Verif Require Import Encode Decode BaseFacts Utf8Spec Valid Wire EncLaws TypeSpec AllTypes PrimFacts CodecSpec CodecFacts ValueFacts EqualFacts Work WorkSpec.
Open Scope list_scope.
Open Scope Z_scope.

Lemma size_counts v : size_counted v = (nodes v, variant_size v).
Proof.
  induction v using variant_ind'; try reflexivity.
  - cbn [size_counted nodes variant_size]. unfold list_size, list_encoded_size.
    assert (E : sum_counted size_counted l = (fold_right Z.add 0 (map nodes l), zsum variant_size l)).
    { induction H as [|x l Hx _ IH]; [reflexivity|]. cbn [sum_counted map fold_right zsum]. now rewrite Hx, IH. }
    now rewrite E.
  - cbn [size_counted nodes variant_size]. unfold map_size, map_encoded_size.
    match goal with |- context [sum_counted ?f m] => assert (E : sum_counted f m =
      (fold_right Z.add 0 (map (fun kv : variant * variant => let (k, w) := kv in nodes k + nodes w) m), zsum (fun kv : variant * variant => let (k, w) := kv in variant_size k + variant_size w) m)) end.
    { induction H as [|[k w] m [Hk Hw] _ IH]; [reflexivity|]. cbn [sum_counted map fold_right zsum]. cbn [fst snd] in Hk, Hw. now rewrite Hk, Hw, IH. }
    now rewrite E.
  - cbn [size_counted nodes variant_size]. now rewrite IHv.
Qed.
Lemma sum_counts l : sum_counted size_counted l = (fold_right Z.add 0 (map nodes l), zsum variant_size l).
Proof. induction l as [|x l IH]; [reflexivity|]. cbn [sum_counted map fold_right zsum]. now rewrite size_counts, IH. Qed.
Lemma sum_map_counts m : sum_counted (fun kv : variant * variant => let (k, w) := kv in let (a, s) := size_counted k in let (b, t) := size_counted w in (a + b, s + t)) m =
  (fold_right Z.add 0 (map (fun kv : variant * variant => let (k, w) := kv in nodes k + nodes w) m), zsum (fun kv : variant * variant => let (k, w) := kv in variant_size k + variant_size w) m).
Proof. induction m as [|[k w] m IH]; [reflexivity|]. cbn [sum_counted map fold_right zsum]. now rewrite !size_counts, IH. Qed.

(** One more list around everything: one more for each value. *)
Lemma around_more d v : around (d + 1) v = around d v + nodes v.
Proof.
  revert d. induction v using variant_ind'; intros z; try reflexivity.
  - cbn [around nodes]. enough (E : fold_right Z.add 0 (map (around (z + 1 + 1)) l) = fold_right Z.add 0 (map (around (z + 1)) l) + fold_right Z.add 0 (map nodes l)) by lia.
    induction H as [|x l Hx _ IH]; [reflexivity|]. cbn [map fold_right]. rewrite (Hx (z + 1)). lia.
  - cbn [around nodes]. match goal with |- _ + fold_right _ _ (map ?f m) = _ + fold_right _ _ (map ?g m) + (1 + fold_right _ _ (map ?h m)) =>
      enough (E : fold_right Z.add 0 (map f m) = fold_right Z.add 0 (map g m) + fold_right Z.add 0 (map h m)) by lia end.
    induction H as [|[k w] m [Hk Hw] _ IH]; [reflexivity|]. cbn [map fold_right]. cbn [fst snd] in Hk, Hw. rewrite (Hk (z + 1)), (Hw (z + 1)). lia.
  - cbn [around nodes]. rewrite (IHv z). lia.
Qed.
Lemma enc_counts v : enc_counted v = (around 0 v, variant_enc v).
Proof.
  induction v using variant_ind'; try reflexivity.
  - cbn [enc_counted around variant_enc]. unfold list_enc, list_encoded_size. rewrite sum_counts.
    assert (E : each_counted enc_counted l = (fold_right Z.add 0 (map (around 0) l), flat_map variant_enc l)).
    { induction H as [|x l Hx _ IH]; [reflexivity|]. cbn [each_counted map fold_right flat_map]. now rewrite Hx, IH. }
    rewrite E. f_equal. clear. induction l as [|x l IH]; [reflexivity|]. cbn [map fold_right]. rewrite (around_more 0). lia.
  - cbn [enc_counted around variant_enc]. unfold map_enc, map_encoded_size, map_entries. rewrite sum_map_counts.
    match goal with |- context [each_counted ?f m] => assert (E : each_counted f m =
      (fold_right Z.add 0 (map (fun kv : variant * variant => let (k, w) := kv in around 0 k + around 0 w) m), flat_map (fun kv : variant * variant => let (k, w) := kv in variant_enc k ++ variant_enc w) m)) end.
    { induction H as [|[k w] m [Hk Hw] _ IH]; [reflexivity|]. cbn [each_counted map fold_right flat_map]. cbn [fst snd] in Hk, Hw. now rewrite Hk, Hw, IH. }
    rewrite E. f_equal. clear. induction m as [|[k w] m IH]; [reflexivity|]. cbn [map fold_right]. rewrite !(around_more 0). lia.
  - cbn [enc_counted around variant_enc]. rewrite IHv. reflexivity.
Qed.

(** Bounds. *)
Lemma max_in {A} (f : A -> Z) x l : In x l -> f x <= fold_right Z.max 0 (map f l).
Proof. induction l as [|y l IH]; [easy|]. cbn [map fold_right]. intros [->|I]; [lia|]. specialize (IH I). lia. Qed.
Lemma around_at_most v d : 0 <= d -> around d v <= (d + depth v - 1) * nodes v.
Proof.
  revert d. induction v using variant_ind'; intros z D; try (cbn [around nodes depth]; lia).
  - cbn [around nodes depth]. set (M := fold_right Z.max 0 (map depth l)).
    assert (MP : 0 <= M) by (unfold M; clear; induction l; cbn [map fold_right]; lia).
    enough (E : fold_right Z.add 0 (map (around (z + 1)) l) <= (z + M) * fold_right Z.add 0 (map nodes l)) by nia.
    assert (B : forall x, In x l -> depth x <= M) by (intros x I; now apply max_in). clearbody M. clear - H B D MP.
    induction H as [|x l Hx _ IH]; cbn [map fold_right]; [lia|].
    pose proof (Hx (z + 1) ltac:(lia)). pose proof (B x (or_introl eq_refl)). pose proof (nodes_pos x). specialize (IH (fun y I => B y (or_intror I))). nia.
  - cbn [around nodes depth]. match goal with |- context [fold_right Z.max 0 (map ?f m)] => set (dm := f) end. set (M := fold_right Z.max 0 (map dm m)).
    assert (MP : 0 <= M) by (unfold M; clear; induction m; cbn [map fold_right]; lia).
    match goal with |- _ + fold_right _ _ (map ?f m) <= _ * (1 + fold_right _ _ (map ?g m)) =>
      enough (E : fold_right Z.add 0 (map f m) <= (z + M) * fold_right Z.add 0 (map g m)) by nia end.
    assert (B : forall x, In x m -> dm x <= M) by (intros x I; now apply max_in). clearbody M.
    revert B. clear - H D MP. subst dm. intros B.
    induction H as [|[k w] m [Hk Hw] _ IH]; cbn [map fold_right]; [lia|]. cbn [fst snd] in Hk, Hw.
    pose proof (Hk (z + 1) ltac:(lia)). pose proof (Hw (z + 1) ltac:(lia)). pose proof (B _ (or_introl eq_refl)) as X. cbn beta iota in X.
    pose proof (nodes_pos k). pose proof (nodes_pos w). specialize (IH (fun y I => B y (or_intror I))). nia.
  - cbn [around nodes depth]. pose proof (IHv z D). pose proof (nodes_pos v). pose proof (depth_pos v). nia.
Qed.

(** Lists in lists. *)
Lemma lists_around n d : 2 * around d (lists n) = (Z.of_nat n + 1) * (2 * d + Z.of_nat n).
Proof. revert d. induction n as [|n IH]; intros d; [cbn [lists around]; lia|]. cbn [lists around map fold_right]. specialize (IH (d + 1)). nia. Qed.
Lemma lists_depth n : depth (lists n) = Z.of_nat n + 1 /\ nodes (lists n) = Z.of_nat n + 1.
Proof. induction n as [|n IH]; [cbn; lia|]. cbn [lists depth nodes map fold_right]. lia. Qed.
Lemma lists_size n : variant_size (lists n) <= 9 * Z.of_nat n + 1.
Proof.
  induction n as [|n IH]; [cbn; lia|]. cbn [lists variant_size]. unfold list_size, list_encoded_size. cbn [zsum].
  destruct (255 <? _); lia.
Qed.
Lemma lists_length n : zlen (lists_bytes n) = 9 * Z.of_nat n + 1.
Proof.
  induction n as [|n IH]; [reflexivity|]. cbn [lists_bytes]. cbv zeta. rewrite zlen_cons, !zlen_app, IH. rewrite !zlen_be4. lia.
Qed.
Lemma lists_wire n : 9 * Z.of_nat n + 1 < 2 ^ 32 -> wire (lists n) (lists_bytes n).
Proof.
  induction n as [|n IH]; intros H; [apply W_null|]. cbn [lists lists_bytes]. cbv zeta.
  apply (W_list32 [lists n]).
  - rewrite <- (app_nil_r (lists_bytes n)). apply WS_cons; [apply IH; lia|apply WS_nil].
  - rewrite lists_length. lia.
Qed.
Lemma lists_decodable n : decodable (lists n).
Proof. induction n as [|n IH]; cbn; auto. Qed.

(** Each value takes a byte at least. *)
Lemma var_pos n : 0 <= n -> 1 <= var_size n.
Proof. unfold var_size. destruct (255 <? n); lia. Qed.
Lemma str_len_nonneg s : 0 <= str_len s.
Proof. destruct s; apply zlen_nonneg. Qed.
Lemma nodes_size v : nodes v <= variant_size v.
Proof.
  induction v using variant_ind'; try (cbn [nodes variant_size]; first [lia | apply var_pos, zlen_nonneg | apply var_pos, str_len_nonneg]).
  all: try (cbn [nodes variant_size]; unfold u32_size, u64_size, i32_size, i64_size, fixed_size, bool_size; repeat match goal with |- context [if ?b then _ else _] => destruct b end; cbn; lia).
  - cbn [nodes variant_size]. unfold list_size, list_encoded_size.
    enough (fold_right Z.add 0 (map nodes l) <= zsum variant_size l) by (destruct (255 <? _); lia).
    induction H as [|x l Hx _ IH]; [reflexivity|]. cbn [map fold_right zsum]. lia.
  - cbn [nodes variant_size]. unfold map_size, map_encoded_size.
    match goal with |- 1 + fold_right _ _ (map ?f m) <= _ + zsum ?g m => enough (fold_right Z.add 0 (map f m) <= zsum g m) by (destruct (255 <? _); lia) end.
    induction H as [|[k w] m [Hk Hw] _ IH]; [reflexivity|]. cbn [map fold_right zsum]. cbn [fst snd] in Hk, Hw. lia.
  - cbn [nodes variant_size]. enough (1 <= descriptor_size d) by lia. destruct d as [x|s]; cbn [descriptor_size].
    + unfold u64_size. destruct (x =? 0), (255 <? x); lia.
    + pose proof (var_pos _ (str_len_nonneg s)). unfold symbol_size. lia.
Qed.

Lemma counted_same v : snd (size_counted v) = variant_size v /\ snd (enc_counted v) = variant_enc v.
Proof. now rewrite size_counts, enc_counts. Qed.
Lemma measure_calls v : fst (size_counted v) = nodes v.
Proof. now rewrite size_counts. Qed.
Lemma encode_calls v : fst (enc_counted v) = around 0 v.
Proof. now rewrite enc_counts. Qed.
Lemma around_nonneg v : forall d, 0 <= d -> 0 <= around d v.
Proof.
  induction v using variant_ind'; intros z Z; cbn [around]; try lia.
  - enough (0 <= fold_right Z.add 0 (map (around (z + 1)) l)) by lia.
    induction H as [|x l Hx _ IH]; cbn [map fold_right]; [lia|]. specialize (Hx (z + 1) ltac:(lia)). lia.
  - match goal with |- 0 <= _ + ?x => enough (0 <= x) by lia end.
    induction H as [|[k w] m [Hk Hw] _ IH]; cbn [map fold_right]; [lia|]. cbn [fst snd] in Hk, Hw.
    specialize (Hk (z + 1) ltac:(lia)). specialize (Hw (z + 1) ltac:(lia)). lia.
Qed.
Lemma encode_bound v : 0 <= fst (enc_counted v) <= (depth v - 1) * nodes v /\ nodes v <= variant_size v.
Proof.
  rewrite encode_calls. split; [|apply nodes_size]. split; [apply around_nonneg; lia|].
  pose proof (around_at_most v 0 ltac:(lia)). lia.
Qed.
Lemma quadratic md n rest : 9 * Z.of_nat n + 1 < 2 ^ 32 ->
  zlen (lists_bytes n) = 9 * Z.of_nat n + 1 /\ decode variant_dec md (lists_bytes n ++ rest) = Ok (rest, lists n)
  /\ variant_size (lists n) <= 9 * Z.of_nat n + 1
  /\ 2 * fst (enc_counted (lists n)) = Z.of_nat n * (Z.of_nat n + 1).
Proof.
  intros H. split; [apply lists_length|]. split; [apply (type_accepts variant_S ty_variant); [now apply lists_wire|apply lists_decodable]|].
  split; [apply lists_size|]. rewrite encode_calls. pose proof (lists_around n 0). lia.
Qed.
Lemma lists_ok n : variant_ok (lists n).
Proof. induction n as [|n IH]; cbn; auto. Qed.
Lemma not_linear c : exists v, variant_ok v /\ c * variant_size v < fst (enc_counted v).
Proof.
  exists (lists (Z.to_nat (18 * Z.max 1 c + 2))). set (n := Z.to_nat _). assert (N : Z.of_nat n = 18 * Z.max 1 c + 2) by (unfold n; lia).
  split; [apply lists_ok|]. rewrite encode_calls. pose proof (lists_around n 0). pose proof (lists_size n). pose proof (nodes_size (lists n)). pose proof (nodes_pos (lists n)). nia.
Qed.
