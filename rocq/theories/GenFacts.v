(** Facts about what the generator gives to the template. *)

From Coq Require Import String.
From Verif Require Import Io Codegen BaseFacts Utf8Spec GenSpec NameFacts.
From Coq Require Import ZifyBool Permutation.
Open Scope string_scope.
Open Scope list_scope.
Open Scope Z_scope.

(** ** Names of types *)
Lemma camel_titled n : titled n (camel_case n).
Proof. destruct (words_exist n) as [ws W]. destruct (camel_capitals n ws W) as (caps & F & E). now exists ws, caps. Qed.
Lemma capitalized_fun ws : forall c1 c2, Forall2 capitalized ws c1 -> Forall2 capitalized ws c2 -> c1 = c2.
Proof.
  induction ws as [|w ws IH]; intros c1 c2 H1 H2; inversion H1; inversion H2; subst; [reflexivity|]. f_equal; [|now apply IH].
  match goal with A : capitalized w ?x, B : capitalized w ?y |- _ => apply capitalized_cap in A, B; now rewrite A, B end.
Qed.
Lemma titled_camel n t : titled n t <-> t = camel_case n.
Proof.
  split; [|intros ->; apply camel_titled]. intros (ws & caps & W & F & ->). destruct (camel_capitals n ws W) as (caps' & F' & ->).
  f_equal. now apply (capitalized_fun ws).
Qed.
Lemma type_name ty req : rust_name ty req (get_type_name ty req).
Proof.
  destruct req as [r|]; [constructor; apply camel_titled|]. cbn [get_type_name]. unfold primitive_type.
  repeat match goal with |- context [is ty ?s] =>
    let E := fresh "E" in destruct (is ty s) eqn:E; [apply is_eq in E as ->; apply rn_primitive; constructor|apply is_neq in E] end.
  apply rn_named; [|apply camel_titled]. intros s rust P. destruct P; assumption.
Qed.

(** ** Splitting *)
Lemma split_nonempty c s : split_on c s <> [].
Proof. destruct s as [|x r]; cbn [split_on]; [discriminate|]. destruct (x =? c); [discriminate|]. destruct (split_on c r); discriminate. Qed.
Lemma joined_cons sep w v ws : joined sep (w :: v :: ws) = w ++ sep :: joined sep (v :: ws).
Proof. reflexivity. Qed.
Lemma split_joined c s : joined c (split_on c s) = s.
Proof.
  induction s as [|x r IH]; [reflexivity|]. cbn [split_on]. pose proof (split_nonempty c r) as N.
  destruct (Z.eqb_spec x c) as [->|E]; destruct (split_on c r) as [|p ps]; try congruence.
  - rewrite joined_cons, IH. reflexivity.
  - rewrite <- IH. destruct ps; reflexivity.
Qed.
Lemma split_parts c s : Forall (fun p => ~ In c p) (split_on c s).
Proof.
  induction s as [|x r IH]; cbn [split_on]; [repeat constructor; easy|].
  destruct (Z.eqb_spec x c) as [->|E]; [constructor; [easy|exact IH]|].
  destruct (split_on c r) as [|p ps]; [repeat constructor; intros [->|[]]; congruence|].
  inversion IH as [|? ? H1 H2]; subst. constructor; [|exact H2]. intros [->|I]; [congruence|easy].
Qed.
Lemma split_one c w : ~ In c w -> split_on c w = [w].
Proof.
  induction w as [|x w IH]; intros N; [reflexivity|]. cbn [split_on]. destruct (Z.eqb_spec x c) as [->|E]; [exfalso; apply N; now left|].
  rewrite IH; [reflexivity|]. intros I. apply N. now right.
Qed.
Lemma split_app c w t : ~ In c w -> split_on c (w ++ c :: t) = w :: split_on c t.
Proof.
  induction w as [|x w IH]; intros N; cbn [app split_on]; [now rewrite Z.eqb_refl|].
  destruct (Z.eqb_spec x c) as [->|E]; [exfalso; apply N; now left|]. rewrite IH; [reflexivity|]. intros I. apply N. now right.
Qed.
Lemma split_of_joined c parts : parts <> [] -> Forall (fun p => ~ In c p) parts -> split_on c (joined c parts) = parts.
Proof.
  intros N F. induction F as [|w ws H F IH]; [congruence|]. destruct ws as [|v ws]; [now apply split_one|].
  rewrite joined_cons, split_app by exact H. f_equal. now apply IH.
Qed.

(** ** [trim] *)
Lemma blank_true c : is_whitespace c = true <-> blank c.
Proof. unfold is_whitespace, blank. cbn [In]. lia. Qed.
Lemma trim_start_spec s : exists a, s = a ++ trim_start s /\ Forall blank a /\
  (forall c r, trim_start s = c :: r -> ~ blank c).
Proof.
  induction s as [|x r (a & E & F & H)]; [exists []; repeat split; [constructor|discriminate]|]. cbn [trim_start].
  destruct (is_whitespace x) eqn:W.
  - apply blank_true in W. exists (x :: a). repeat split; [cbn [app]; now f_equal|now constructor|exact H].
  - exists []. repeat split; [constructor|]. intros c q [= <- <-] B. apply blank_true in B. congruence.
Qed.
Lemma trim_spec s : blank_trimmed s (trim s).
Proof.
  unfold trim. destruct (trim_start_spec s) as (a & E & F & H). destruct (trim_start_spec (rev (trim_start s))) as (b & E' & F' & H').
  set (t := trim_start (rev (trim_start s))) in *.
  assert (X : trim_start s = rev t ++ rev b) by (rewrite <- rev_app_distr, <- E', rev_involutive; reflexivity).
  rewrite E at 1. rewrite X. apply bt_intro; [exact F|apply Forall_rev; exact F'| |].
  - intros c r T. apply (H c (r ++ rev b)). rewrite X, T. reflexivity.
  - intros r c T. apply (H' c (rev r)). rewrite <- (rev_involutive t), T, rev_app_distr. reflexivity.
Qed.

(** ** [provides] *)
Definition named (t : text) : list text := match t with [] => [] | _ => [camel_case t] end.
Lemma provides_flat l : flat_map (fun s => match trim s with [] => [] | t => [camel_case t] end) l =
  map camel_case (filter (fun t => match t with [] => false | _ => true end) (map trim l)).
Proof. induction l as [|s l IH]; [reflexivity|]. cbn [flat_map map filter]. rewrite IH. destruct (trim s); reflexivity. Qed.
Lemma terminator_flat {B} (f : text -> list B) c s : f [] = [] -> flat_map f (split_terminator c s) = flat_map f (split_on c s).
Proof.
  intros N. unfold split_terminator. destruct (rev (split_on c s)) as [|[|x p] r] eqn:E; try reflexivity.
  assert (X : split_on c s = rev r ++ [[]]) by (rewrite <- (rev_involutive (split_on c s)), E; reflexivity).
  rewrite X, flat_map_app. cbn [flat_map]. rewrite N. cbn [app]. now rewrite app_nil_r.
Qed.
Lemma provides_provided p : provided p (parse_provides p).
Proof.
  destruct p as [v|]; [|constructor]. cbn [parse_provides]. rewrite terminator_flat by reflexivity. rewrite provides_flat.
  rewrite <- (split_joined 44 v) at 1. apply pr_some with (trimmed := map trim (split_on 44 v)); [apply split_nonempty|apply split_parts| |].
  - induction (split_on 44 v) as [|s l IH]; constructor; [apply trim_spec|exact IH].
  - induction (filter _ _) as [|s l IH]; constructor; [apply camel_titled|exact IH].
Qed.

(** ** Descriptor codes *)
Lemma hex_digit_char c d : hex_digit c = Some d <-> hex_char c d.
Proof.
  unfold hex_digit. split.
  - destruct ((48 <=? c) && (c <=? 57)) eqn:E1; [intros [= <-]; apply hx_digit; unfold digit; lia|].
    destruct ((97 <=? c) && (c <=? 102)) eqn:E2; [intros [= <-]; apply hx_small; lia|].
    destruct ((65 <=? c) && (c <=? 70)) eqn:E3; [intros [= <-]; apply hx_capital; lia|discriminate].
  - intros [x H|x H|x H]; unfold digit in *.
    + destruct ((48 <=? x) && (x <=? 57)) eqn:E1; [reflexivity|lia].
    + destruct ((48 <=? x) && (x <=? 57)) eqn:E1; [lia|]. destruct ((97 <=? x) && (x <=? 102)) eqn:E2; [reflexivity|lia].
    + destruct ((48 <=? x) && (x <=? 57)) eqn:E1; [lia|]. destruct ((97 <=? x) && (x <=? 102)) eqn:E2; [lia|].
      destruct ((65 <=? x) && (x <=? 70)) eqn:E3; [reflexivity|lia].
Qed.
Lemma hex_char_range c d : hex_char c d -> 0 <= d < 16.
Proof. intros [x H|x H|x H]; unfold digit in *; lia. Qed.
Lemma hex_snoc t c : forall acc, hex_value acc (t ++ [c]) =
  match hex_value acc t with
  | Some v => match hex_digit c with Some d => if v * 16 + d <? 2 ^ 32 then Some (v * 16 + d) else None | None => None end
  | None => None
  end.
Proof.
  induction t as [|x t IH]; intros acc; cbn [app hex_value].
  - destruct (hex_digit c); [|reflexivity]. cbv zeta. now destruct (_ <? _).
  - destruct (hex_digit x); [|reflexivity]. cbv zeta. destruct (_ <? _); [apply IH|reflexivity].
Qed.
Lemma hex_number_range t n : hex_number t n -> 0 <= n /\ t <> [].
Proof.
  induction 1 as [c d H|t n c d H [IH _] Hc]; apply hex_char_range in H || apply hex_char_range in Hc.
  - split; [lia|discriminate].
  - split; [lia|]. now destruct t.
Qed.
Lemma hex_value_number t n : t <> [] -> hex_value 0 t = Some n -> hex_number t n /\ n < 2 ^ 32.
Proof.
  revert n. induction t as [|c t IH] using rev_ind; intros n N E; [congruence|]. rewrite hex_snoc in E.
  destruct (hex_value 0 t) as [v|] eqn:V; [|discriminate]. destruct (hex_digit c) as [d|] eqn:D; [|discriminate].
  destruct (Z.ltb_spec (v * 16 + d) (2 ^ 32)); [|discriminate]. injection E as <-. split; [|exact H].
  apply hex_digit_char in D. destruct t as [|x t].
  - cbn in V. injection V as <-. now constructor.
  - rewrite Z.mul_comm. apply hn_more; [|exact D]. now apply IH.
Qed.
Lemma hex_number_value t n : hex_number t n -> n < 2 ^ 32 -> hex_value 0 t = Some n.
Proof.
  induction 1 as [c d H|t n c d H IH Hc]; intros L.
  - pose proof (hex_char_range _ _ H). apply hex_digit_char in H. cbn [hex_value]. rewrite H. cbv zeta.
    destruct (Z.ltb_spec (0 * 16 + d) (2 ^ 32)); [f_equal; lia|lia].
  - pose proof (hex_char_range _ _ Hc). destruct (hex_number_range _ _ H). apply hex_digit_char in Hc. rewrite hex_snoc, IH by lia.
    rewrite Hc. destruct (Z.ltb_spec (n * 16 + d) (2 ^ 32)); [f_equal; lia|lia].
Qed.
Lemma hex_first t n : hex_number t n -> forall c r, t = c :: r -> c <> 43 /\ c <> 58.
Proof.
  assert (P : forall c d, hex_char c d -> c <> 43 /\ c <> 58) by (intros c d [x H|x H|x H]; unfold digit in *; lia).
  induction 1 as [c d H|t n c d H IH Hc]; intros x r E.
  - injection E as <- _. now apply P in H.
  - destruct t as [|y t]; [injection E as <- _; now apply P in Hc|]. injection E as <- _. now apply (IH y t).
Qed.
Lemma hex_no_colon t n : hex_number t n -> ~ In 58 t.
Proof.
  assert (P : forall c d, hex_char c d -> c <> 58) by (intros c d [x H|x H|x H]; unfold digit in *; lia).
  induction 1 as [c d H|t n c d H IH Hc]; [intros [->|[]]; now apply P in H|]. rewrite in_app_iff. intros [I|[->|[]]]; [easy|now apply P in Hc].
Qed.
Lemma from_hex_spec r v : u32_from_hex r = Some v <-> (hex_number r v \/ exists t, r = 43 :: t /\ hex_number t v) /\ v < 2 ^ 32.
Proof.
  unfold u32_from_hex. split.
  - destruct r as [|c r]; [discriminate|]. destruct (Z.eqb_spec c 43) as [->|N].
    + destruct r as [|d r]; [discriminate|]. intros E. apply hex_value_number in E as [E L]; [|discriminate]. split; [right; eauto|exact L].
    + intros E. apply hex_value_number in E as [E L]; [|discriminate]. split; [now left|exact L].
  - intros [[H|(t & -> & H)] L].
    + destruct (hex_number_range _ _ H) as [_ N]. destruct r as [|c r]; [congruence|]. destruct (hex_first _ _ H c r eq_refl) as [N' _].
      destruct (Z.eqb_spec c 43); [congruence|]. now apply hex_number_value.
    + destruct (hex_number_range _ _ H) as [_ N]. rewrite Z.eqb_refl. destruct t; [congruence|]. now apply hex_number_value.
Qed.
Lemma code_part_number p v : code_part p = GOk v <-> code_number p v.
Proof.
  split.
  - destruct p as [|c0 [|c1 r]]; try discriminate. cbn [code_part]. destruct (Z.eqb_spec c0 48) as [->|]; [|discriminate].
    destruct (Z.eqb_spec c1 120) as [->|]; [|discriminate]. cbn [andb]. destruct (u32_from_hex r) eqn:E; [|discriminate]. intros [= ->].
    apply from_hex_spec in E as [[H|(t & -> & H)] L]; [now apply (cn_plain r)|now apply (cn_plus t)].
  - intros [t n H L|t n H L]; cbn [code_part app s2b String.list_ascii_of_string map]; change (u32_from_hex _) with (u32_from_hex t) || idtac.
    + assert (E : u32_from_hex t = Some n) by (apply from_hex_spec; auto). change (code_part (s2b "0x" ++ t)) with
        (match u32_from_hex t with Some v => GOk v | None => GPanic GPRadix end). now rewrite E.
    + assert (E : u32_from_hex (43 :: t) = Some n) by (apply from_hex_spec; split; [right; eauto|exact L]).
      exact (f_equal (fun o => match o with Some v => GOk v | None => GPanic GPRadix end) E).
Qed.
Lemma code_number_colon p v : code_number p v -> ~ In 58 p.
Proof.
  intros [t n H _|t n H _]; apply hex_no_colon in H; rewrite in_app_iff; intros [I|I]; try easy;
    vm_compute in I; repeat destruct I as [I|I]; try discriminate I; easy.
Qed.
Lemma code_parts l vs : gmap code_part l = GOk vs <-> Forall2 code_number l vs.
Proof.
  revert vs. induction l as [|p l IH]; intros vs; cbn [gmap].
  - split; [intros [= <-]; constructor|]. intros H. now inversion H.
  - split.
    + destruct (code_part p) as [v| |] eqn:E; try discriminate. destruct (gmap code_part l) as [s| |] eqn:G; try discriminate.
      intros [= <-]. constructor; [now apply code_part_number|now apply IH].
    + intros H. inversion H as [|? v ? s H1 H2]; subst. apply code_part_number in H1. apply IH in H2. rewrite H1. cbn [gbind]. now rewrite H2.
Qed.
Lemma code_parts_err l : gmap code_part l <> GErr.
Proof.
  induction l as [|p l IH]; [discriminate|]. cbn [gmap]. destruct (code_part p) eqn:E; try discriminate.
  - cbn [gbind]. destruct (gmap code_part l); try discriminate. congruence.
  - exfalso. destruct p as [|c0 [|c1 r]]; try discriminate. cbn [code_part] in E. destruct (_ && _); [|discriminate].
    destruct (u32_from_hex r); discriminate.
Qed.
Lemma descr_spec d o : descr_from d = GOk o <-> descriptor_for d o.
Proof.
  unfold descr_from, descriptor_for, code_text. split.
  - destruct (gmap code_part (split_on 58 (rd_code d))) as [vs| |] eqn:E; try discriminate. cbn [gbind].
    destruct vs as [|domain [|code ns]]; try discriminate. intros [= <-]. split; [reflexivity|]. cbn [de_domain de_code].
    exists (split_on 58 (rd_code d)), ns. split; [symmetry; apply split_joined|now apply code_parts].
  - intros (En & parts & ns & E & F). rewrite E, split_of_joined.
    + apply code_parts in F. rewrite F. cbn [gbind]. destruct o. cbn in *. now subst.
    + destruct parts; [inversion F|discriminate].
    + clear E. induction F as [|p v parts vs H F IH]; constructor; [now apply code_number_colon in H|exact IH].
Qed.
Lemma descr_readable d : (exists o, descr_from d = GOk o) <-> code_readable (rd_code d).
Proof.
  split.
  - intros [o E]. apply descr_spec in E as [_ E]. now exists (de_domain o), (de_code o).
  - intros (domain & code & H). exists (MkDescr (rd_name d) domain code). apply descr_spec. now split.
Qed.
Lemma descr_err d : descr_from d <> GErr.
Proof.
  unfold descr_from. pose proof (code_parts_err (split_on 58 (rd_code d))). destruct (gmap _ _) as [vs| |]; try congruence; try discriminate.
  cbn [gbind]. destruct vs as [|? [|? ?]]; discriminate.
Qed.

(** ** Fields *)
Lemma contains_in set t : contains set t = true <-> In t set.
Proof.
  unfold contains. rewrite existsb_exists. split.
  - intros (x & I & E). apply bytes_eqb_eq in E as ->. exact I.
  - intros I. exists t. split; [exact I|now apply bytes_eqb_eq].
Qed.
Section Upper.
  Variable upper : Z -> bool.
  (** [is_str] is never set: the names of Rust types are compared with names of AMQP types. *)
  Lemma titled_not_small t n s : titled t n -> s = "string" \/ s = "symbol" -> n <> s2b s.
  Proof.
    intros (ws & caps & W & F & ->) Hs E.
    destruct F as [|w v ws' vs' F1 F2]; [destruct Hs as [->| ->]; discriminate|]. cbn [concat] in E. destruct F1 as [c r H|c r H].
    - destruct Hs as [->| ->]; injection E as E _; unfold small_letter in H; lia.
    - destruct Hs as [->| ->]; injection E as E _; unfold small_letter in H; lia.
  Qed.
  Lemma not_str refs enums f : fi_is_str (field_from upper refs enums f) = false.
  Proof.
    unfold field_from. cbn [fi_is_str]. destruct (rf_multiple f); [apply Bool.andb_false_r|]. rewrite Bool.andb_true_r.
    apply Bool.not_true_iff_false. intros E. apply contains_in in E. destruct (type_name (rf_ty f) (rf_requires f)) as [ty r t Tt|ty rust P|ty t N Tt].
    - destruct E as [E|[E|[]]]; symmetry in E; revert E; apply (titled_not_small _ _ _ Tt); auto.
    - destruct P; destruct E as [E|[E|[]]]; discriminate.
    - destruct E as [E|[E|[]]]; symmetry in E; revert E; apply (titled_not_small _ _ _ Tt); auto.
  Qed.
  Lemma field_spec structs enums f : field_for upper structs enums f (field_from upper (initial_ref_types ++ structs) enums f).
  Proof.
    exists (get_type_name (rf_ty f) (rf_requires f)). eexists. split; [apply type_name|]. split; [reflexivity|].
    pose proof (not_str (initial_ref_types ++ structs) enums f) as NS. unfold field_from in *.
    cbn [fi_name fi_ty fi_multiple fi_optional fi_default fi_is_str fi_is_ref] in *.
    change (s2b "s") with [115]. set (ty := if rf_multiple f then _ ++ [115] else _).
    split; [now apply member_snake|]. split; [reflexivity|]. split; [reflexivity|]. split; [exact NS|].
    split; [rewrite contains_in, in_app_iff; reflexivity|]. split.
    - destruct (rf_mandatory f), (format_default enums (rf_default f) ty); cbn [negb andb]; split; try discriminate; try easy; intros [? ?]; discriminate.
    - unfold format_default. destruct (rf_default f) as [d|]; [|reflexivity]. destruct (contains enums ty) eqn:E.
      + left. split; [now apply contains_in|]. eexists. split; [apply camel_titled|reflexivity].
      + right. split; [|reflexivity]. intros I. apply contains_in in I. congruence.
  Qed.
  Lemma fields_spec structs enums l :
    Forall2 (field_for upper structs enums) l (map (field_from upper (initial_ref_types ++ structs) enums) l).
  Proof. induction l; constructor; [apply field_spec|assumption]. Qed.

  (** ** Types *)
  Lemma alias_spec a : alias_for a (alias_from a).
  Proof. split; [apply camel_titled|]. split; [apply type_name|apply provides_provided]. Qed.
  Lemma text_bytes t : text_len t = zlen (flat_map utf8_encode t).
  Proof.
    induction t as [|c t IH]; [reflexivity|]. unfold text_len in *. cbn [zsum flat_map]. rewrite zlen_app, <- IH. f_equal.
    unfold char_len, utf8_encode. destruct (c <? 0x80); [reflexivity|]. destruct (c <? 0x800); [reflexivity|]. now destruct (c <? 0x10000).
  Qed.
  Lemma enum_spec e : enum_for e (enum_from e).
  Proof.
    split; [apply camel_titled|]. split; [apply type_name|]. split; [apply provides_provided|]. split; [apply is_eq|].
    cbn [enum_from en_items]. induction (re_choice e); constructor; [|assumption]. split; [apply camel_titled|]. split; [reflexivity|apply text_bytes].
  Qed.
  Lemma list_spec structs enums d o : described_list upper (initial_ref_types ++ structs) enums d = GOk o -> list_for upper structs enums d o.
  Proof.
    unfold described_list. destruct (descr_from (rl_descriptor d)) as [x| |] eqn:E; try discriminate. intros [= <-]. apply descr_spec in E.
    split; [apply camel_titled|]. split; [reflexivity|]. split; [apply provides_provided|]. split; [exact E|]. split; [apply fields_spec|apply is_eq].
  Qed.
  Lemma restricted_spec structs enums d o :
    described_alias upper (initial_ref_types ++ structs) enums d = GOk o -> restricted_for upper structs enums d o.
  Proof.
    unfold described_alias. destruct (descr_from (rl_descriptor d)) as [x| |] eqn:E; try discriminate. intros [= <-]. apply descr_spec in E.
    split; [apply camel_titled|]. split; [apply type_name|]. split; [apply provides_provided|]. split; [exact E|]. split; [apply fields_spec|reflexivity].
  Qed.

  (** ** The map of [provides] *)
  Definition push_all (m : provide_map) (P : list (text * provides_item)) : provide_map :=
    fold_left (fun m e => entry_push m (fst e) (snd e)) P m.
  Lemma register_push m name d provides : register_provides m name d provides =
    push_all m (map (fun p => (p, MkProvidesItem name (or_default no_descr d))) provides).
  Proof. unfold register_provides, push_all. revert m. induction provides as [|p l IH]; intros m; [reflexivity|]. cbn [map fold_left fst snd]. apply IH. Qed.
  Lemma push_app m P Q : push_all m (P ++ Q) = push_all (push_all m P) Q.
  Proof. apply fold_left_app. Qed.

  Lemma from_spec structs enums types : forall A E L R m st, from_loop upper (initial_ref_types ++ structs) enums (A, E, L, R, m) types = GOk st ->
    exists kinds As Es Ls Rs P, Forall2 kind_of types kinds /\ generates upper structs enums kinds As Es Ls Rs P /\
      st = (A ++ As, E ++ Es, L ++ Ls, R ++ Rs, push_all m P).
  Proof.
    induction types as [|t types IH]; intros A E L R m st H.
    - injection H as <-. exists [], [], [], [], [], []. rewrite !app_nil_r. repeat split; constructor.
    - cbn [from_loop] in H. destruct t as [e|d|a]; cbn [from_step] in H.
      + cbn [gbind] in H. destruct (IH _ _ _ _ _ _ H) as (kinds & As & Es & Ls & Rs & P & K & G & ->).
        exists (KEnum e :: kinds), As, (enum_from e :: Es), Ls, Rs. eexists. split; [constructor; [constructor|exact K]|].
        split; [apply ge_enum; [apply enum_spec|exact G]|]. rewrite push_app, register_push, <- app_assoc. reflexivity.
      + destruct (is (rl_class d) "restricted") eqn:C.
        * rewrite Bool.andb_false_r in H. apply is_eq in C. destruct (described_alias upper (initial_ref_types ++ structs) enums d) as [o| |] eqn:D; try discriminate.
          cbn [gbind] in H. destruct (IH _ _ _ _ _ _ H) as (kinds & As & Es & Ls & Rs & P & K & G & ->).
          exists (KRestricted d :: kinds), As, Es, Ls, (o :: Rs). eexists. split; [constructor; [now constructor|exact K]|].
          split; [apply ge_restricted; [now apply (restricted_spec structs enums)|exact G]|]. rewrite push_app, register_push, <- app_assoc. reflexivity.
        * apply is_neq in C. destruct (is (rl_source d) "list") eqn:S.
          -- apply is_eq in S. cbn [andb negb] in H. destruct (described_list upper (initial_ref_types ++ structs) enums d) as [o| |] eqn:D; try discriminate.
             cbn [gbind] in H. destruct (IH _ _ _ _ _ _ H) as (kinds & As & Es & Ls & Rs & P & K & G & ->).
             exists (KList d :: kinds), As, Es, (o :: Ls), Rs. eexists. split; [constructor; [now constructor|exact K]|].
             split; [apply ge_list; [now apply (list_spec structs)|exact G]|]. rewrite push_app, register_push, <- app_assoc. reflexivity.
          -- apply is_neq in S. cbn [andb negb gbind] in H. destruct (IH _ _ _ _ _ _ H) as (kinds & As & Es & Ls & Rs & P & K & G & ->).
             exists (KNothing :: kinds), As, Es, Ls, Rs, P. split; [constructor; [now constructor|exact K]|]. split; [now constructor|reflexivity].
      + destruct (is (ra_source a) "map") eqn:S; cbn [negb] in H.
        * apply is_eq in S. cbn [gbind] in H. destruct (IH _ _ _ _ _ _ H) as (kinds & As & Es & Ls & Rs & P & K & G & ->).
          exists (KNothing :: kinds), As, Es, Ls, Rs, P. split; [constructor; [now constructor|exact K]|]. split; [now constructor|reflexivity].
        * apply is_neq in S. cbn [gbind] in H. destruct (IH _ _ _ _ _ _ H) as (kinds & As & Es & Ls & Rs & P & K & G & ->).
          exists (KAlias a :: kinds), (alias_from a :: As), Es, Ls, Rs. eexists. split; [constructor; [now constructor|exact K]|].
          split; [apply ge_alias; [apply alias_spec|exact G]|]. rewrite push_app, register_push, <- app_assoc. reflexivity.
  Qed.

  (** The map after [P]: one entry for each name, with its providers. *)
  Record holds (m : provide_map) (P : list (text * provides_item)) : Prop := MkHolds {
    ho_keys : NoDup (map fst m);
    ho_vals : Forall (fun e => snd e = providers P (fst e) /\ snd e <> []) m;
    ho_all : forall k, providers P k <> [] -> In k (map fst m)
  }.
  Lemma providers_app P Q k : providers (P ++ Q) k = providers P k ++ providers Q k.
  Proof. apply flat_map_app. Qed.
  Lemma providers_one k i k' : providers [(k, i)] k' = if list_eq_dec Z.eq_dec k k' then [i] else [].
  Proof. unfold providers. cbn [flat_map fst snd]. now rewrite app_nil_r. Qed.
  Lemma push_keys m k i : map fst (entry_push m k i) = if contains (map fst m) k then map fst m else map fst m ++ [k].
  Proof.
    induction m as [|[k' l] m IH]; [reflexivity|]. cbn [entry_push map fst contains existsb]. unfold contains in IH.
    assert (S : text_eqb k k' = text_eqb k' k).
    { unfold text_eqb. destruct (bytes_eqb k' k) eqn:E; [apply bytes_eqb_eq in E as ->; now apply bytes_eqb_eq|].
      destruct (bytes_eqb k k') eqn:E'; [|reflexivity]. apply bytes_eqb_eq in E' as ->.
      assert (bytes_eqb k' k' = true) by now apply bytes_eqb_eq. congruence. }
    rewrite S. destruct (text_eqb k' k) eqn:E; [reflexivity|]. cbn [map fst orb]. rewrite IH. destruct (existsb _ _); reflexivity.
  Qed.
  Lemma push_holds m P k i : holds m P -> holds (entry_push m k i) (P ++ [(k, i)]).
  Proof.
    intros [H1 H2 H3]. constructor.
    - rewrite push_keys. destruct (contains (map fst m) k) eqn:E; [exact H1|]. apply (Permutation_NoDup (Permutation_cons_append _ _)). constructor; [|exact H1].
      intros I. apply contains_in in I. congruence.
    - assert (A : forall e, In e m -> fst e <> k -> snd e = providers (P ++ [(k, i)]) (fst e) /\ snd e <> []).
      { intros e I N. rewrite Forall_forall in H2. destruct (H2 e I) as [V Ne]. rewrite providers_app, providers_one.
        destruct (list_eq_dec Z.eq_dec k (fst e)); [congruence|]. now rewrite app_nil_r. }
      assert (B : ~ In k (map fst m) -> providers P k = []).
      { intros N. destruct (providers P k) eqn:E; [reflexivity|]. exfalso. apply N, H3. rewrite E. discriminate. }
      clear H3. revert H1 H2 A B. induction m as [|[k' l] m IH]; intros H1 H2 A B; cbn [entry_push].
      + constructor; [|constructor]. cbn [fst snd]. rewrite providers_app, providers_one, (B (fun x => x)).
        destruct (list_eq_dec Z.eq_dec k k); [|congruence]. now split.
      + cbn [map fst] in H1. inversion H1 as [|? ? N1 N2]; inversion H2 as [|? ? V1 V2]; subst. destruct (text_eqb k' k) eqn:E.
        * apply bytes_eqb_eq in E as ->. constructor.
          -- cbn [fst snd] in *. destruct V1 as [-> V]. rewrite providers_app, providers_one. destruct (list_eq_dec Z.eq_dec k k); [|congruence].
             split; [reflexivity|]. now destruct (providers P k).
          -- apply Forall_forall. intros e I. apply A; [now right|]. intros <-. apply N1. now apply in_map.
        * assert (k' <> k) by (intros X; apply bytes_eqb_eq in X; unfold text_eqb in E; congruence). constructor.
          -- apply A; [now left|assumption].
          -- apply IH; [exact N2|exact V2|intros e I; apply A; now right|]. intros N. apply B. cbn [map fst]. intros [X|X]; [congruence|easy].
    - intros k' N. rewrite providers_app, providers_one in N. rewrite push_keys.
      destruct (list_eq_dec Z.eq_dec k k') as [<-|D].
      + destruct (contains (map fst m) k) eqn:E; [now apply contains_in|]. apply in_app_iff. right. now left.
      + rewrite app_nil_r in N. apply H3 in N. destruct (contains (map fst m) k); [exact N|]. apply in_app_iff. now left.
  Qed.
  Lemma push_all_holds P : holds (push_all [] P) P.
  Proof.
    induction P as [|[k i] P IH] using rev_ind; [repeat constructor; easy|]. rewrite push_app. cbn [push_all fold_left fst snd]. now apply push_holds.
  Qed.
  Lemma provides_spec P : unions_for P (provides_of (push_all [] P)).
  Proof.
    destruct (push_all_holds P) as [H1 H2 H3]. set (m := push_all [] P) in *. clearbody m.
    assert (Two : forall e : text * list provides_item, snd e <> [] -> (zlen (snd e) =? 1) = false -> 2 <= zlen (snd e)).
    { intros [k [|x [|y l]]] N E; [easy|discriminate|]. cbn [snd]. rewrite !zlen_cons. pose proof (zlen_nonneg l). lia. }
    split; [|split].
    - clear H2 H3. induction m as [|[k l] m IH]; [constructor|]. cbn [map fst] in H1. inversion H1 as [|? ? N1 N2]; subst.
      unfold provides_of in *. cbn [flat_map]. destruct (zlen l =? 1); [now apply IH|]. cbn [app map pe_name]. constructor; [|now apply IH].
      intros I. apply N1. apply in_map_iff in I as (u & <- & I). apply in_flat_map in I as ([k' l'] & I & J).
      destruct (zlen l' =? 1); [easy|]. destruct J as [<-|[]]. cbn [pe_name]. exact (in_map fst _ _ I).
    - intros name. rewrite in_map_iff. split.
      + intros (u & <- & I). apply in_flat_map in I as ([k l] & I & J). destruct (zlen l =? 1) eqn:E; [easy|]. destruct J as [<-|[]]. cbn [pe_name].
        rewrite Forall_forall in H2. destruct (H2 _ I) as [V N]. cbn [fst snd] in *. rewrite <- V. now apply (Two (k, l)).
      + intros L. assert (N : providers P name <> []) by (intros E; rewrite E in L; unfold zlen in L; cbn in L; lia).
        apply H3 in N. apply in_map_iff in N as ([k l] & E & I). cbn [fst] in E. subst k. rewrite Forall_forall in H2. destruct (H2 _ I) as [V _].
        cbn [fst snd] in V. eexists. split; [|apply in_flat_map; exists (name, l); split; [exact I|]].
        2: { destruct (Z.eqb_spec (zlen l) 1) as [E|E]; [rewrite V in E; lia|]. left. reflexivity. }
        reflexivity.
    - apply Forall_forall. intros u I. apply in_flat_map in I as ([k l] & I & J). destruct (zlen l =? 1); [easy|]. destruct J as [<-|[]].
      cbn [pe_name pe_options pe_described]. rewrite Forall_forall in H2. destruct (H2 _ I) as [V _]. cbn [fst snd] in V. split; [exact V|].
      destruct (is k "Frame") eqn:E.
      + apply is_eq in E. split; [discriminate|]. now intros [N _].
      + apply is_neq in E. rewrite existsb_exists. split.
        * intros (i & Ii & D). split; [exact E|]. exists i. split; [exact Ii|]. lia.
        * intros [_ (i & Ii & D)]. exists i. split; [exact Ii|]. lia.
  Qed.
  Lemma enums_titled types : Forall2 titled (enums_of types) (enum_types types).
  Proof. induction types as [|[e|d|a] types IH]; cbn [enums_of enum_types flat_map app]; try exact IH; constructor; [apply camel_titled|exact IH]. Qed.
  Lemma structs_titled types : exists structs, Forall2 titled (structs_of types) structs /\ ref_types types = initial_ref_types ++ structs.
  Proof.
    eexists. split; [|reflexivity]. induction types as [|[e|d|a] types IH]; cbn [structs_of flat_map app]; try exact IH; [constructor|].
    destruct (is (rl_source d) "list") eqn:E.
    - apply is_eq in E. destruct (list_eq_dec _ _ _); [|congruence]. constructor; [apply camel_titled|exact IH].
    - apply is_neq in E. destruct (list_eq_dec _ _ _); [congruence|exact IH].
  Qed.
  Lemma definitions_spec types D : definitions_from upper types = GOk D ->
    exists structs enums kinds P, Forall2 titled (structs_of types) structs /\ Forall2 titled (enums_of types) enums /\
      Forall2 kind_of types kinds /\ generates upper structs enums kinds (df_aliases D) (df_enums D) (df_lists D) (df_described_restricted D) P /\
      unions_for P (df_provides D).
  Proof.
    unfold definitions_from. destruct (structs_titled types) as (structs & TS & ->).
    destruct (from_loop _ _ _ _ _) as [[[[[A E] L] R] m]| |] eqn:H; try discriminate. cbn [gbind]. intros [= <-].
    destruct (from_spec _ _ _ _ _ _ _ _ _ H) as (kinds & As & Es & Ls & Rs & P & K & G & X). injection X as -> -> -> -> ->.
    exists structs, (enum_types types), kinds, P. split; [exact TS|]. split; [apply enums_titled|]. cbn [df_aliases df_enums df_lists df_described_restricted df_provides app]. split; [exact K|]. split; [exact G|apply provides_spec].
  Qed.

  (** ** When it succeeds *)
  Lemma described_ok refs enums d : (exists o, described_list upper refs enums d = GOk o) <-> code_readable (rd_code (rl_descriptor d)).
  Proof.
    rewrite <- descr_readable. unfold described_list. split.
    - intros [o E]. destruct (descr_from (rl_descriptor d)) as [x| |]; try discriminate. now exists x.
    - intros [x ->]. cbn [gbind]. eexists. reflexivity.
  Qed.
  Lemma described_alias_ok refs enums d : (exists o, described_alias upper refs enums d = GOk o) <-> code_readable (rd_code (rl_descriptor d)).
  Proof.
    rewrite <- descr_readable. unfold described_alias. split.
    - intros [o E]. destruct (descr_from (rl_descriptor d)) as [x| |]; try discriminate. now exists x.
    - intros [x ->]. cbn [gbind]. eexists. reflexivity.
  Qed.
  Lemma step_ok refs enums st t : (exists st', from_step upper refs enums st t = GOk st') <-> type_readable t.
  Proof.
    destruct st as [[[[A E] L] R] m]. destruct t as [e|d|a]; cbn [from_step type_readable].
    - split; [easy|]. intros _. eexists. reflexivity.
    - destruct (is (rl_class d) "restricted") eqn:C.
      + apply is_eq in C. rewrite Bool.andb_false_r. rewrite <- (described_alias_ok refs enums d). split.
        * intros [st' H] _. destruct (described_alias upper refs enums d) as [o| |]; try discriminate. now exists o.
        * intros H. destruct (H (or_introl C)) as [o ->]. cbn [gbind]. eexists. reflexivity.
      + apply is_neq in C. destruct (is (rl_source d) "list") eqn:S; cbn [andb negb].
        * apply is_eq in S. rewrite <- (described_ok refs enums d). split.
          -- intros [st' H] _. destruct (described_list upper refs enums d) as [o| |]; try discriminate. now exists o.
          -- intros H. destruct (H (or_intror S)) as [o ->]. cbn [gbind]. eexists. reflexivity.
        * apply is_neq in S. split; [|intros _; eexists; reflexivity]. intros _ [?|?]; congruence.
    - split; [easy|]. intros _. destruct (negb _); eexists; reflexivity.
  Qed.
  Lemma loop_ok refs enums types : forall st, (exists st', from_loop upper refs enums st types = GOk st') <-> Forall type_readable types.
  Proof.
    induction types as [|t types IH]; intros st; cbn [from_loop].
    - split; [constructor|]. intros _. eexists. reflexivity.
    - pose proof (step_ok refs enums st t) as H. split.
      + intros [st' E]. destruct (from_step upper refs enums st t) as [s| |] eqn:X; try discriminate. cbn [gbind] in E.
        constructor; [apply H; eauto|apply (IH s); eauto].
      + intros F. inversion F as [|? ? F1 F2]; subst. apply H in F1 as [s ->]. cbn [gbind]. now apply IH.
  Qed.
  Lemma definitions_ok types : (exists D, definitions_from upper types = GOk D) <-> Forall type_readable types.
  Proof.
    unfold definitions_from. rewrite <- (loop_ok (ref_types types) (enum_types types) types ([], [], [], [], [])). split.
    - intros [D E]. destruct (from_loop _ _ _ _ _) as [s| |]; try discriminate. now exists s.
    - intros [[[[[A E] L] R] m] ->]. cbn [gbind]. eexists. reflexivity.
  Qed.
  Lemma step_err refs enums st t : from_step upper refs enums st t <> GErr.
  Proof.
    destruct st as [[[[A E] L] R] m]. destruct t as [e|d|a]; cbn [from_step]; [discriminate| |destruct (negb _); discriminate].
    pose proof (descr_err (rl_descriptor d)) as N. unfold described_list, described_alias.
    destruct (is (rl_source d) "list" && _), (is (rl_class d) "restricted"); try discriminate;
      destruct (descr_from (rl_descriptor d)); try congruence; discriminate.
  Qed.
  Lemma loop_err refs enums types : forall st, from_loop upper refs enums st types <> GErr.
  Proof.
    induction types as [|t types IH]; intros st; cbn [from_loop]; [discriminate|]. pose proof (step_err refs enums st t).
    destruct (from_step upper refs enums st t); try congruence; [apply IH|discriminate].
  Qed.
  Lemma definitions_err types : definitions_from upper types <> GErr.
  Proof.
    unfold definitions_from. pose proof (loop_err (ref_types types) (enum_types types) types ([], [], [], [], [])).
    destruct (from_loop _ _ _ _ _) as [[[[[A E] L] R] m]| |]; try congruence; discriminate.
  Qed.
End Upper.
