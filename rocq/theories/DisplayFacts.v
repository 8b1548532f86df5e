(** Lemmas about what the errors print. *)

From Coq Require Import String Ascii.
From Verif Require Import Frames Utf8Spec Valid Wire TypeSpec CompositeSpec AllTypes CodecSpec FrameSpec Io Convert ErrorSpec ErrorFacts Display DisplaySpec.
Open Scope string_scope.
Open Scope list_scope.
Open Scope Z_scope.

(** ** Decimal *)
Lemma worth_app a t c : worth a (t ++ [c]) = 10 * worth a t + (c - 48).
Proof. revert a. induction t as [|x t IH]; intros a; cbn [worth app]; [reflexivity | apply IH]. Qed.

Lemma digits_written fuel : forall n, 0 <= n < 2 ^ Z.of_nat fuel -> fuel <> O -> written n (digits fuel n).
Proof.
  induction fuel as [|f IH]; intros n Hn Hf; [congruence|]. cbn [digits].
  destruct (Z.ltb_spec n 10) as [Hl|Hl].
  - rewrite Z.mod_small by lia. cbn [app]. repeat split.
    + discriminate.
    + constructor; [unfold digit; lia | constructor].
    + cbn [worth]. lia.
    + cbn [hd]. intros E. rewrite E. reflexivity.
  - rewrite Nat2Z.inj_succ, Z.pow_succ_r in Hn by lia.
    assert (Hd : n = 10 * (n / 10) + n mod 10) by (apply Z.div_mod; lia).
    assert (Hm : 0 <= n mod 10 < 10) by (apply Z.mod_pos_bound; lia).
    assert (Hf' : f <> O) by (intros ->; cbn in Hn; lia).
    destruct (IH (n / 10) ltac:(lia) Hf') as [Hne [Hdig [Hw Hz]]].
    repeat split.
    + intros E. apply app_eq_nil in E. destruct E as [_ E]. discriminate E.
    + apply Forall_app. split; [exact Hdig | constructor; [unfold digit; lia | constructor]].
    + rewrite worth_app, Hw. lia.
    + destruct (digits f (n / 10)) as [|x t] eqn:Et; [congruence|]. cbn [app hd] in *. intros E. specialize (Hz E). rewrite Hz in Hw.
      cbn [worth] in Hw. lia.
Qed.
Lemma log2_fuel n : 0 <= n -> 0 <= n < 2 ^ Z.of_nat (S (Z.to_nat (Z.log2 n))).
Proof.
  intros H. split; [exact H|]. rewrite Nat2Z.inj_succ, Z2Nat.id by apply Z.log2_nonneg.
  destruct (Z.eq_dec n 0) as [->|Hz]; [reflexivity | apply Z.log2_spec; lia].
Qed.
Lemma decimal_number n : number n (decimal n).
Proof.
  unfold number, decimal. destruct (Z.ltb_spec n 0) as [H|H].
  - eexists. split; [reflexivity|]. apply digits_written; [apply log2_fuel; lia | discriminate].
  - apply digits_written; [apply log2_fuel; lia | discriminate].
Qed.
Lemma written_worth n t : written n t -> worth 0 t = n.
Proof. intros [_ [_ [H _]]]. exact H. Qed.
Lemma written_minus n t : written n (45 :: t) -> False.
Proof. intros [_ [H _]]. inversion H as [|c l Hc Hl]; subst. unfold digit in Hc. lia. Qed.
Lemma number_inj n m t : number n t -> number m t -> n = m.
Proof.
  unfold number. destruct (n <? 0), (m <? 0).
  - intros [r [-> Hr]] [r' [E Hr']]. injection E as <-. apply written_worth in Hr, Hr'. lia.
  - intros [r [-> Hr]] H. destruct (written_minus _ _ H).
  - intros H [r [-> Hr]]. destruct (written_minus _ _ H).
  - intros Hr Hr'. apply written_worth in Hr, Hr'. lia.
Qed.
Lemma decimal_inj n m : decimal n = decimal m -> n = m.
Proof. intros E. apply (number_inj n m (decimal n)); [apply decimal_number | rewrite E; apply decimal_number]. Qed.

(** A number has one way of being written. *)
Lemma worth_pos : forall t a, Forall digit t -> 0 <= a -> a * 10 ^ zlen t <= worth a t < (a + 1) * 10 ^ zlen t.
Proof.
  induction t as [|c t IH]; intros a Hd Ha; cbn [worth].
  - unfold zlen. cbn [List.length Z.of_nat]. rewrite Z.pow_0_r. lia.
  - inversion Hd as [|c' l Hc Hl]; subst. unfold digit in Hc.
    assert (E : 10 ^ zlen (c :: t) = 10 * 10 ^ zlen t).
    { unfold zlen. cbn [List.length]. rewrite Nat2Z.inj_succ, Z.pow_succ_r by lia. reflexivity. }
    rewrite E. specialize (IH (10 * a + (c - 48)) Hl ltac:(lia)).
    assert (0 < 10 ^ zlen t) by (apply Z.pow_pos_nonneg; unfold zlen; lia). nia.
Qed.
Lemma written_unique n t u : written n t -> written n u -> t = u.
Proof.
  assert (L : forall k t u, List.length t = k -> written n t -> written n u -> (List.length u <= k)%nat).
  { intros k a b Hk [Ha [Da [Wa Za]]] [Hb [Db [Wb Zb]]].
    destruct (Nat.le_gt_cases (List.length b) k) as [Hle|Hgt]; [exact Hle|exfalso].
    destruct b as [|c b]; [congruence|]. cbn [List.length] in Hgt. cbn [hd] in Zb.
    pose proof (worth_pos a 0 Da ltac:(lia)) as Pa. cbn [worth] in Wb.
    inversion Db as [|c' l Dc Dl]; subst c' l. unfold digit in Dc.
    destruct (Z.eq_dec c 48) as [->|Hc].
    - specialize (Zb eq_refl). injection Zb as ->. cbn in Hgt. destruct a; [congruence | cbn in Hk; lia].
    - pose proof (worth_pos b (10 * 0 + (c - 48)) Dl ltac:(lia)) as Pb. rewrite Wb in Pb. rewrite Wa in Pa.
      assert (Hp : 10 ^ zlen a <= 10 ^ zlen b) by (apply Z.pow_le_mono_r; unfold zlen; lia).
      nia. }
  intros Ht Hu. pose proof (L _ t u eq_refl Ht Hu) as L1. pose proof (L _ u t eq_refl Hu Ht) as L2.
  assert (El : List.length t = List.length u) by lia. clear L L1 L2.
  destruct Ht as [_ [Dt [Wt _]]], Hu as [_ [Du [Wu _]]].
  assert (G : forall t u a b, List.length t = List.length u -> Forall digit t -> Forall digit u -> 0 <= a -> 0 <= b ->
    worth a t = worth b u -> a = b /\ t = u).
  { clear. induction t as [|c t IH]; intros [|d u] a b El Dt Du Ha Hb Hw; try discriminate El; cbn [worth] in Hw; [split; [exact Hw | reflexivity]|].
    inversion Dt as [|c' l Dc Dl]; inversion Du as [|d' l' Dd Dl']; subst. unfold digit in *. injection El as El.
    destruct (IH u (10 * a + (c - 48)) (10 * b + (d - 48)) El Dl Dl' ltac:(lia) ltac:(lia) Hw) as [E1 ->]. split; [lia|]. f_equal. lia. }
  apply (G t u 0 0 El Dt Du); lia.
Qed.
Lemma number_unique n t : number n t <-> t = decimal n.
Proof.
  split; [|intros ->; apply decimal_number]. pose proof (decimal_number n) as D. revert D. unfold number. destruct (n <? 0).
  - intros [r [-> Hr]] [r' [-> Hr']]. f_equal. exact (written_unique _ _ _ Hr' Hr).
  - intros D H. exact (written_unique _ _ _ H D).
Qed.

(** ** Texts *)
Lemma s2b_inj a : forall b, s2b a = s2b b -> a = b.
Proof.
  induction a as [|c a IH]; intros [|d b] E; cbn [s2b] in E; try discriminate E; [reflexivity|]. injection E as Ec Ea.
  apply N2Z.inj in Ec. rewrite <- (ascii_N_embedding c), <- (ascii_N_embedding d), Ec, (IH b Ea). reflexivity.
Qed.
Lemma str_debug_inj a b : str_debug a = str_debug b -> a = b.
Proof.
  destruct a as [a|a], b as [b|b]; cbn; intros E; try discriminate E; injection E as E; apply app_inv_tail in E; rewrite E; reflexivity.
Qed.
Lemma symbol_debug_inj a b : symbol_debug a = symbol_debug b -> a = b.
Proof. unfold symbol_debug. intros E. apply app_inv_head, app_inv_tail in E. apply str_debug_inj. exact E. Qed.
Lemma descriptor_debug_inj a b : descriptor_debug a = descriptor_debug b -> a = b.
Proof.
  destruct a as [a|a], b as [b|b]; unfold descriptor_debug; intros E.
  - apply app_inv_head, app_inv_tail in E. apply decimal_inj in E. rewrite E. reflexivity.
  - exfalso. revert E. generalize (decimal a) (symbol_debug b). cbn. intros; discriminate.
  - exfalso. revert E. generalize (decimal b) (symbol_debug a). cbn. intros; discriminate.
  - apply app_inv_head, app_inv_tail in E. apply symbol_debug_inj in E. rewrite E. reflexivity.
Qed.
Lemma option_debug_inj a b : option_debug a = option_debug b -> a = b.
Proof.
  destruct a as [a|], b as [b|]; unfold option_debug; intros E.
  - apply app_inv_head, app_inv_tail in E. apply decimal_inj in E. rewrite E. reflexivity.
  - exfalso. revert E. generalize (decimal a). cbn. intros; discriminate.
  - exfalso. revert E. generalize (decimal b). cbn. intros; discriminate.
  - reflexivity.
Qed.

Ltac blur := repeat match goal with
  | |- context [decimal ?x] => generalize (decimal x); intro
  | |- context [option_debug ?x] => generalize (option_debug x); intro
  | |- context [descriptor_debug ?x] => generalize (descriptor_debug x); intro
  | |- context [name_debug ?x] => generalize (name_debug x); intro
  | |- context [x_io ?X ?x] => generalize (x_io X x); intro
  end.
Ltac apart := exfalso; match goal with E : _ = _ |- _ => revert E end; blur; cbn; congruence.
Ltac middle E := first [apply app_inv_head, app_inv_tail in E | apply app_inv_head in E];
  first [apply decimal_inj in E | apply option_debug_inj in E | apply descriptor_debug_inj in E
    | unfold name_debug in E; apply app_inv_head, app_inv_tail, s2b_inj in E]; rewrite E; reflexivity.

Lemma parse_told_apart E (X : externals E) : others X -> forall a b, parse_error_display X a = parse_error_display X b -> a = b.
Proof.
  intros [[u Hu] [[w Hw] Hne]] a b. rewrite Hu, Hw in Hne.
  destruct a, b; unfold parse_error_display; rewrite ?Hu, ?Hw; intros Eq; try reflexivity; try (middle Eq); try apart; congruence.
Qed.
Lemma codec_told_apart E (X : externals E) : others X -> io_told X -> forall a b, codec_error_display X a = codec_error_display X b -> a = b.
Proof.
  intros HX HI a b. destruct a as [a| |[a|]], b as [b| |[b|]]; cbn [codec_error_display]; intros Eq; try reflexivity.
  1: { rewrite (parse_told_apart E X HX _ _ Eq). reflexivity. }
  all: try apart.
  all: try (destruct HX as [[u Hu] [[w Hw] Hne]]; first [destruct a | destruct b]; unfold parse_error_display in Eq; rewrite ?Hu, ?Hw in Eq; apart).
  apply app_inv_head, app_inv_tail in Eq. rewrite (HI _ _ Eq). reflexivity.
Qed.
Lemma protocol_told_apart E (X : externals E) : io_told X -> forall a b, protocol_error_display X a = protocol_error_display X b -> a = b.
Proof.
  intros HI a b. destruct a as [| | |[] []| |a], b as [| | |[] []| |b]; unfold protocol_error_display; intros Eq; try reflexivity; try apart.
  apply app_inv_head in Eq. rewrite (HI _ _ Eq). reflexivity.
Qed.

(** ** What is said of the input *)
Lemma says_tells E (X : externals E) inp e : says inp e -> tells X inp (parse_error_display X e).
Proof.
  unfold tells. destruct e as [|o|c|c|d|c|name|name| |]; cbn [says parse_error_display]; try contradiction.
  - intros [n [-> Hn]]. left. exists n, (decimal n). repeat split; [exact Hn | apply decimal_number |]. unfold option_debug.
    generalize (decimal n). intros d. rewrite !app_assoc. cbn. rewrite <- !app_assoc. reflexivity.
  - intros H. do 1 right. left. eexists _, (decimal _). repeat split; [exact H | apply decimal_number].
  - intros [H1 H2]. do 2 right. left. eexists _, (decimal _). repeat split; [exact H1 | exact H2 | apply decimal_number].
  - intros [label [H1 H2]]. do 3 right. destruct d as [v|s].
    + left. exists v, (decimal v), label. repeat split; [exact H1 | exact H2 | apply decimal_number |]. unfold descriptor_debug.
      generalize (decimal v). intros d. rewrite !app_assoc. cbn. rewrite <- !app_assoc. reflexivity.
    + right. left. inversion H1 as [|b bs Hb]; subst. exists b, label. repeat split; [exact H1 | exact H2 |].
      unfold descriptor_debug, symbol_debug, str_debug, quote. cbn. rewrite <- !app_assoc. reflexivity.
  - intros [code [type [names [label [H1 [H2 [H3 H4]]]]]]]. do 5 right. left.
    exists code, type, names, name, label. repeat split; try assumption. unfold name_debug, quote. rewrite <- !app_assoc. reflexivity.
  - intros H. do 6 right. left. exists name. split; [exact H|]. unfold name_debug, quote. rewrite <- !app_assoc. reflexivity.
  - intros [t [bs H]]. do 7 right. exists t, bs. destruct H as [H1 [H2 H3]]. repeat split; assumption.
Qed.
Lemma frame_says_tells E (X : externals E) type inp e : frame_says type inp e -> frame_tells X type inp (parse_error_display X e).
Proof.
  unfold frame_tells. destruct e; cbn [frame_says]; try (intros H; right; right; apply says_tells; exact H).
  - intros H. right. left. split; [exact H | reflexivity].
  - intros [H1 H2]. left. eexists _, (decimal _). repeat split; [exact H1 | exact H2 | apply decimal_number].
Qed.
Lemma type_tells E (X : externals E) T (S : tspec T) : amqp_type S -> forall md inp e, bytes_ok inp -> decode (s_dec S) md inp = Err e ->
  tells X inp (parse_error_display X e).
Proof. intros HS md inp e Hb Hd. apply says_tells. exact (type_says S HS md inp e Hb Hd). Qed.

(** ** Names *)
Definition plainb (s : string) : bool := forallb (fun c => ((65 <=? c) && (c <=? 90)) || ((97 <=? c) && (c <=? 122)) || (c =? 95)) (s2b s).
Lemma plainb_plain s : plainb s = true -> plain s.
Proof. unfold plainb, plain. rewrite forallb_forall, Forall_forall. intros H c Hc. specialize (H c Hc). lia. Qed.
Lemma names_plain name : (exists code type names, In (code, type, names) mandatory_fields /\ In name names) \/
  In name (map fst numbered) \/ In name (map fst spelled) -> plain name.
Proof.
  intros H. apply plainb_plain. destruct H as [[code [type [names [H1 H2]]]]|H].
  - assert (A : forallb (fun '(_, _, l) => forallb plainb l) mandatory_fields = true) by (vm_compute; reflexivity).
    rewrite forallb_forall in A. specialize (A _ H1). cbv beta iota in A. rewrite forallb_forall in A. exact (A _ H2).
  - assert (A : forallb plainb (map fst numbered ++ map fst spelled) = true) by (vm_compute; reflexivity).
    rewrite forallb_forall in A. apply A. apply in_or_app. exact H.
Qed.

(** ** Clones *)
Lemma clone_display E (X : externals E) (e : codec_error E) :
  (forall err, e <> KIo (Some err)) -> codec_error_display X (codec_error_clone e) = codec_error_display X e.
Proof. destruct e as [p| |[err|]]; intros H; try reflexivity. destruct (H err eq_refl). Qed.
Lemma unexpected_text E (X : externals E) expected seen : protocol_error_display X (PEUnexpected expected seen) =
  s2b "Expected " ++ s2b (protocol_name expected) ++ s2b " protocol id, seen " ++ s2b (protocol_name seen) ++ s2b " instead.".
Proof. destruct expected, seen; reflexivity. Qed.

(** ** The text of symbols *)
Lemma symbol_text t : symbol_debug (SByteStr t) = s2b "Symbol(B:""" ++ t ++ s2b """)" /\ symbol_debug (SStatic t) = s2b "Symbol(S:""" ++ t ++ s2b """)".
Proof. unfold symbol_debug, str_debug. rewrite <- !app_assoc. split; reflexivity. Qed.
Lemma symbols_text : symbols_debug [] = s2b "Multiple([])" /\ (forall a, symbols_debug [a] = s2b "Multiple([" ++ symbol_debug a ++ s2b "])") /\
  forall a b l, exists rest, symbols_debug (b :: l) = s2b "Multiple([" ++ rest ++ s2b "])" /\
    symbols_debug (a :: b :: l) = s2b "Multiple([" ++ symbol_debug a ++ s2b ", " ++ rest ++ s2b "])".
Proof.
  split; [reflexivity|]. split; [reflexivity|]. intros a b l. exists (items_debug (map symbol_debug (b :: l))). split; [reflexivity|].
  unfold symbols_debug. change (items_debug (map symbol_debug (a :: b :: l))) with (symbol_debug a ++ s2b ", " ++ items_debug (map symbol_debug (b :: l))).
  rewrite <- !app_assoc. reflexivity.
Qed.
