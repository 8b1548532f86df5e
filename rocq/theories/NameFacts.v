(** Facts about the names the generator makes. *)

From Coq Require Import String.
From Verif Require Import Io Codegen BaseFacts GenSpec.
From Coq Require Import ZifyBool.
Open Scope string_scope.
Open Scope list_scope.
Open Scope Z_scope.

Lemma separator_true c : is_separator c = true <-> separator c.
Proof. unfold is_separator, separator. lia. Qed.
Lemma separator_false c : is_separator c = false <-> ~ separator c.
Proof. rewrite <- separator_true. destruct (is_separator c); split; congruence. Qed.
Lemma separator_dec c : separator c \/ ~ separator c.
Proof. destruct (is_separator c) eqn:E; [left; now apply separator_true|right; now apply separator_false]. Qed.
Lemma is_eq t s : is t s = true <-> t = s2b s.
Proof. apply bytes_eqb_eq. Qed.
Lemma is_neq t s : is t s = false <-> t <> s2b s.
Proof. rewrite <- is_eq. destruct (is t s); split; congruence. Qed.

(** ** [camel_case] *)
Fixpoint camel_out (new_word : bool) (t : text) : text :=
  match t with
  | [] => []
  | c :: r => if is_separator c then camel_out true r else (if new_word then to_ascii_uppercase c else c) :: camel_out false r
  end.
Lemma camel_fold t : forall nw res, snd (fold_left camel_step t (nw, res)) = res ++ camel_out nw t.
Proof.
  induction t as [|c r IH]; intros nw res; [symmetry; apply app_nil_r|]. cbn [fold_left camel_step camel_out].
  destruct (is_separator c); [apply IH|]. rewrite IH, <- app_assoc. reflexivity.
Qed.
Lemma camel_eq t : camel_case t = camel_out true t.
Proof. exact (camel_fold t true []). Qed.
Lemma camel_word_out w t : Forall (fun c => ~ separator c) w -> camel_out false (w ++ t) = w ++ camel_out false t.
Proof.
  induction 1 as [|c r H _ IH]; [reflexivity|]. cbn [app camel_out]. apply separator_false in H. now rewrite H, IH.
Qed.
Lemma camel_boundary t : (forall c r, t = c :: r -> separator c) -> camel_out false t = camel_out true t.
Proof. destruct t as [|c r]; [reflexivity|]. intros H. specialize (H c r eq_refl). apply separator_true in H. cbn [camel_out]. now rewrite H. Qed.
Definition cap (w : text) : text := match w with c :: r => to_ascii_uppercase c :: r | [] => [] end.
Lemma cap_capitalized w : w <> [] -> capitalized w (cap w).
Proof.
  destruct w as [|c r]; [congruence|]. intros _. unfold cap, to_ascii_uppercase. destruct ((97 <=? c) && (c <=? 122)) eqn:E.
  - apply cap_letter. unfold small_letter. lia.
  - apply cap_other. unfold small_letter. lia.
Qed.
Lemma capitalized_cap w v : capitalized w v -> v = cap w.
Proof.
  intros [c r H|c r H]; unfold cap, to_ascii_uppercase, small_letter in *; destruct ((97 <=? c) && (c <=? 122)) eqn:E; try reflexivity; lia.
Qed.
Lemma camel_words n ws : words_of n ws -> camel_out true n = concat (map cap ws).
Proof.
  induction 1 as [|c t ws H W IH|w t ws Hw Hs Hb W IH]; [reflexivity| |].
  - cbn [camel_out]. apply separator_true in H. now rewrite H.
  - destruct w as [|c r]; [congruence|]. inversion Hs as [|? ? H1 H2]; subst. cbn [app camel_out map concat cap].
    apply separator_false in H1. rewrite H1, (camel_word_out r t H2), (camel_boundary t Hb), IH. reflexivity.
Qed.
Lemma words_capitalized n ws : words_of n ws -> Forall (fun w => w <> []) ws.
Proof. induction 1; [constructor|assumption|now constructor]. Qed.
Lemma camel_capitals n ws : words_of n ws -> exists caps, Forall2 capitalized ws caps /\ camel_case n = concat caps.
Proof.
  intros W. exists (map cap ws). split; [|rewrite camel_eq; now apply camel_words].
  apply words_capitalized in W. induction W as [|w ws H _ IH]; constructor; [now apply cap_capitalized|exact IH].
Qed.
(** Every name has words. *)
Lemma split_word t : exists w r, t = w ++ r /\ Forall (fun c => ~ separator c) w /\ (forall c s, r = c :: s -> separator c).
Proof.
  induction t as [|c t (w & r & -> & F & B)]; [exists [], []; repeat split; [constructor|discriminate]|].
  destruct (separator_dec c) as [H|H].
  - exists [], (c :: w ++ r). repeat split; [constructor|]. now intros ? ? [= <- <-].
  - exists (c :: w), r. repeat split; [now constructor|exact B].
Qed.
Lemma words_exist n : exists ws, words_of n ws.
Proof.
  remember (List.length n) as k eqn:E. revert n E. induction k as [k IH] using lt_wf_ind. intros n ->.
  destruct (split_word n) as (w & r & -> & F & B). destruct w as [|c w].
  - destruct r as [|c r]; [exists []; constructor|]. destruct (IH (List.length r)) with (n := r) as [ws W]; [cbn; lia|reflexivity|].
    exists ws. cbn [app]. constructor; [|exact W]. now apply (B c r).
  - destruct (IH (List.length r)) with (n := r) as [ws W]; [rewrite app_length; cbn; lia|reflexivity|].
    exists ((c :: w) :: ws). now constructor.
Qed.
Lemma app_boundary (w1 w2 t1 t2 : text) (P : Z -> Prop) : Forall (fun c => ~ P c) w1 -> Forall (fun c => ~ P c) w2 ->
  (forall c r, t1 = c :: r -> P c) -> (forall c r, t2 = c :: r -> P c) -> w1 ++ t1 = w2 ++ t2 -> w1 = w2 /\ t1 = t2.
Proof.
  revert w2. induction w1 as [|a w1 IH]; intros [|b w2] F1 F2 B1 B2 E; cbn [app] in E.
  - now split.
  - inversion F2; subst. exfalso. eauto.
  - inversion F1; subst. exfalso. eauto.
  - injection E as -> E. inversion F1; inversion F2; subst. destruct (IH w2) as [-> ->]; auto.
Qed.
Lemma words_nil ws : words_of [] ws -> ws = [].
Proof.
  remember [] as n eqn:E. intros V. destruct V as [|c t vs H V|w t vs Hw Hs Hb V]; [reflexivity|discriminate|].
  destruct w; [congruence|discriminate].
Qed.
Lemma words_sep c t ws : separator c -> words_of (c :: t) ws -> words_of t ws.
Proof.
  intros H. remember (c :: t) as n eqn:E. intros V. destruct V as [|d s vs Hd V|w s vs Hw Hs Hb V]; [discriminate|now injection E as -> ->|].
  destruct w as [|d w]; [congruence|]. injection E as -> _. inversion Hs; subst. contradiction.
Qed.
Lemma words_word w t ws : w <> [] -> Forall (fun c => ~ separator c) w -> (forall c r, t = c :: r -> separator c) ->
  words_of (w ++ t) ws -> exists vs, ws = w :: vs /\ words_of t vs.
Proof.
  intros Hw Hs Hb. remember (w ++ t) as n eqn:E. intros V. destruct V as [|d s vs Hd V|w' s vs Hw' Hs' Hb' V].
  - destruct w; [congruence|discriminate].
  - destruct w as [|x w]; [congruence|]. injection E as <- _. inversion Hs; subst. contradiction.
  - destruct (app_boundary w' w s t separator Hs' Hs Hb' Hb E) as [-> ->]. now exists vs.
Qed.
Lemma words_unique n ws vs : words_of n ws -> words_of n vs -> ws = vs.
Proof.
  intros W. revert vs. induction W as [|c t ws H W IH|w t ws Hw Hs Hb W IH]; intros vs V.
  - symmetry. now apply words_nil.
  - apply IH. now apply (words_sep c).
  - destruct (words_word w t vs Hw Hs Hb V) as (us & -> & U). f_equal. now apply IH.
Qed.

(** ** Plain words *)
Definition tail_char (c : Z) : Prop := small_letter c \/ digit c.
Lemma plain_nosep w : plain_word w -> w <> [] /\ Forall (fun c => ~ separator c) w.
Proof.
  intros (c & r & -> & H & F). split; [discriminate|]. constructor; [unfold small_letter, separator in *; lia|].
  eapply Forall_impl; [|exact F]. intros x. unfold small_letter, digit, separator. lia.
Qed.
Lemma kebab_words ws : Forall plain_word ws -> words_of (joined 45 ws) ws.
Proof.
  induction 1 as [|w ws H _ IH]; [constructor|]. destruct (plain_nosep w H) as [Hw Hs]. destruct ws as [|v ws].
  - cbn [joined]. rewrite <- (app_nil_r w) at 1. apply wo_word; [exact Hw|exact Hs|discriminate|constructor].
  - change (joined 45 (w :: v :: ws)) with (w ++ 45 :: joined 45 (v :: ws)). apply wo_word; auto.
    + intros c r [= <- _]. now left.
    + constructor; [now left|exact IH].
Qed.
Lemma camel_kebab ws : Forall plain_word ws -> camel_case (joined 45 ws) = concat (map cap ws).
Proof. intros F. rewrite camel_eq. now apply camel_words, kebab_words. Qed.
Lemma cap_plain w : plain_word w -> exists c r, w = c :: r /\ small_letter c /\ Forall tail_char r /\ cap w = (c - 32) :: r.
Proof.
  intros (c & r & -> & H & F). exists c, r. repeat split; auto; try apply H. unfold cap, to_ascii_uppercase, small_letter in *.
  destruct ((97 <=? c) && (c <=? 122)) eqn:E; [reflexivity|lia].
Qed.
Lemma caps_inj ws vs : Forall plain_word ws -> Forall plain_word vs -> concat (map cap ws) = concat (map cap vs) -> ws = vs.
Proof.
  intros F. revert vs. induction F as [|w ws H F IH]; intros us GG E; destruct GG as [|v vs G G']; cbn [map concat] in E.
  - reflexivity.
  - destruct (cap_plain v G) as (c & r & _ & _ & _ & X). rewrite X in E. discriminate.
  - destruct (cap_plain w H) as (c & r & _ & _ & _ & X). rewrite X in E. discriminate.
  - destruct (cap_plain w H) as (c & r & -> & Hc & Hr & X), (cap_plain v G) as (d & s & -> & Hd & Hs & Y).
    rewrite X, Y in E. cbn [app] in E. injection E as E1 E2. assert (c = d) as -> by lia.
    destruct (app_boundary r s (concat (map cap ws)) (concat (map cap vs)) capital_letter) as [-> E3]; auto.
    + eapply Forall_impl; [|exact Hr]. intros x. unfold tail_char, capital_letter, small_letter, digit. lia.
    + eapply Forall_impl; [|exact Hs]. intros x. unfold tail_char, capital_letter, small_letter, digit. lia.
    + intros x t Z. destruct F as [|w' ws' Hw' _]; [discriminate|]. cbn [map concat] in Z.
      destruct (cap_plain w' Hw') as (e & u & _ & He & _ & Q). rewrite Q in Z. injection Z as <- _. unfold capital_letter, small_letter in *. lia.
    + intros x t Z. destruct G' as [|w' ws' Hw' _]; [discriminate|]. cbn [map concat] in Z.
      destruct (cap_plain w' Hw') as (e & u & _ & He & _ & Q). rewrite Q in Z. injection Z as <- _. unfold capital_letter, small_letter in *. lia.
    + f_equal. now apply IH.
Qed.
Lemma camel_injective ws vs : Forall plain_word ws -> Forall plain_word vs ->
  camel_case (joined 45 ws) = camel_case (joined 45 vs) -> ws = vs.
Proof. intros F G. rewrite !camel_kebab by assumption. now apply caps_inj. Qed.

(** ** [snake_case] *)
Section Snake.
  Variable upper : Z -> bool.
  Lemma plain_lower c : tail_char c -> is_uppercase upper c = false.
  Proof. unfold tail_char, small_letter, digit, is_uppercase. intros H. destruct (Z.ltb_spec c 128); lia. Qed.
  Lemma tail_sep c : tail_char c -> is_separator c = false.
  Proof. unfold tail_char, small_letter, digit, is_separator. lia. Qed.
  Lemma snake_tail r t lu res : Forall tail_char r ->
    fold_left (snake_step upper) (r ++ t) (false, lu, res) =
    fold_left (snake_step upper) t (false, match r with [] => lu | _ => false end, res ++ r).
  Proof.
    intros F. revert lu res. induction F as [|c r H F IH]; intros lu res; [now rewrite app_nil_r|]. cbn [app fold_left snake_step].
    rewrite (tail_sep c H), (plain_lower c H). cbn [orb]. rewrite Bool.andb_false_r, IH, <- app_assoc. destruct r; reflexivity.
  Qed.
  Lemma plain_tail w : plain_word w -> Forall tail_char w.
  Proof. intros (c & r & -> & H & F). constructor; [now left|exact F]. Qed.
  Lemma snake_new w t lu res : plain_word w ->
    fold_left (snake_step upper) (w ++ t) (true, lu, res) = fold_left (snake_step upper) t (false, false, res ++ 95 :: w).
  Proof.
    intros (c & r & -> & H & F). cbn [app fold_left snake_step]. assert (Hc : tail_char c) by now left.
    rewrite (tail_sep c Hc), (plain_lower c Hc). cbn [orb]. rewrite (snake_tail r t _ _ F), <- !app_assoc. now destruct r.
  Qed.
  Lemma snake_more ws : Forall plain_word ws -> forall lu res, ws <> [] ->
    snd (fold_left (snake_step upper) (joined 45 ws) (true, lu, res)) = res ++ 95 :: joined 95 ws.
  Proof.
    induction 1 as [|w ws H F IH]; intros lu res N; [congruence|]. destruct ws as [|v ws].
    - cbn [joined]. rewrite <- (app_nil_r w) at 1. rewrite snake_new by exact H. reflexivity.
    - change (joined 45 (w :: v :: ws)) with (w ++ 45 :: joined 45 (v :: ws)). rewrite snake_new by exact H.
      cbn [fold_left snake_step is_separator Z.eqb Pos.eqb orb]. rewrite IH by discriminate. rewrite <- app_assoc. reflexivity.
  Qed.
  Lemma snake_fold ws : Forall plain_word ws ->
    snd (fold_left (snake_step upper) (joined 45 ws) (false, false, [])) = joined 95 ws.
  Proof.
    intros FF. destruct FF as [|w ws H F]; [reflexivity|]. apply plain_tail in H. destruct ws as [|v ws].
    - cbn [joined]. pose proof (snake_tail w [] false [] H) as E. rewrite app_nil_r in E. exact (f_equal snd E).
    - change (joined 45 (w :: v :: ws)) with (w ++ 45 :: joined 45 (v :: ws)). etransitivity; [exact (f_equal snd (snake_tail w _ false [] H))|].
      cbn [fold_left snake_step is_separator Z.eqb Pos.eqb orb]. rewrite snake_more by (auto; discriminate). reflexivity.
  Qed.
  Lemma snake_kebab ws : Forall plain_word ws -> ~ keyword (joined 45 ws) -> snake_case upper (joined 45 ws) = joined 95 ws.
  Proof.
    intros F K. unfold snake_case. destruct (is (joined 45 ws) "type") eqn:E1; [apply is_eq in E1; exfalso; apply K; now left|].
    destruct (is (joined 45 ws) "return") eqn:E2; [apply is_eq in E2; exfalso; apply K; now right|]. now apply snake_fold.
  Qed.
  Lemma snake_keyword t : keyword t -> snake_case upper t = t ++ s2b "_".
  Proof. intros [->| ->]; reflexivity. Qed.
  (** A capital after the first word. *)
  Lemma snake_cap c r t lu res : small_letter c -> Forall tail_char r ->
    fold_left (snake_step upper) ((c - 32 :: r) ++ t) (false, lu, res) =
    fold_left (snake_step upper) t (false, match r with [] => true | _ => false end,
      (if negb lu && negb (match res with [] => true | _ => false end) then res ++ [95] else res) ++ c :: r).
  Proof.
    intros H F. cbn [app fold_left snake_step]. unfold small_letter in H.
    assert (is_separator (c - 32) = false) as -> by (unfold is_separator; lia).
    assert (is_uppercase upper (c - 32) = true) as -> by (unfold is_uppercase; destruct (Z.ltb_spec (c - 32) 128); lia).
    cbn [orb]. rewrite Bool.andb_true_r.
    assert (to_ascii_lowercase (c - 32) = c) as -> by (unfold to_ascii_lowercase; destruct ((65 <=? c - 32) && (c - 32 <=? 90)) eqn:E; lia).
    destruct (negb lu && _); rewrite (snake_tail r t _ _ F), <- !app_assoc; reflexivity.
  Qed.
  Lemma snake_caps ws : Forall plain_word ws -> forall res, res <> [] ->
    (forall a w v b, ws = a ++ w :: v :: b -> 2 <= zlen w) ->
    ws <> [] -> snd (fold_left (snake_step upper) (concat (map cap ws)) (false, false, res)) = res ++ 95 :: joined 95 ws.
  Proof.
    induction 1 as [|w ws H F IH]; intros res Nr L N; [congruence|]. destruct (cap_plain w H) as (c & r & -> & Hc & Hr & X).
    cbn [map concat]. rewrite X, (snake_cap c r _ _ _ Hc Hr). cbn [negb andb]. destruct res as [|x res]; [congruence|]. cbn [negb].
    destruct ws as [|v ws].
    - cbn [map concat fold_left snd joined]. rewrite <- app_assoc. reflexivity.
    - pose proof (L [] (c :: r) v ws eq_refl) as L2. destruct r as [|d r]; [unfold zlen in L2; cbn [List.length] in L2; lia|].
      rewrite IH; try discriminate.
      + rewrite <- !app_assoc. reflexivity.
      + intros a w' v' b E. apply (L ((c :: d :: r) :: a) w' v' b). cbn [app]. now rewrite E.
  Qed.
  Lemma snake_camel ws : Forall plain_word ws -> (forall a w v b, ws = a ++ w :: v :: b -> 2 <= zlen w) ->
    snake_case upper (camel_case (joined 45 ws)) = joined 95 ws.
  Proof.
    intros F L. rewrite camel_kebab by exact F. destruct F as [|w ws H F]; [reflexivity|].
    destruct (cap_plain w H) as (c & r & -> & Hc & Hr & X). cbn [map concat]. rewrite X.
    assert (NK : forall s, s = "type" \/ s = "return" -> is ((c - 32 :: r) ++ concat (map cap ws)) s = false).
    { intros s Hs. apply is_neq. intros E. unfold small_letter in Hc. destruct Hs as [-> | ->]; injection E as E _; lia. }
    unfold snake_case. rewrite (NK "type"), (NK "return") by auto. rewrite (snake_cap c r _ false [] Hc Hr). cbn [negb andb app].
    destruct ws as [|v ws]; [reflexivity|].
    pose proof (L [] (c :: r) v ws eq_refl) as L2. destruct r as [|d r]; [unfold zlen in L2; cbn [List.length] in L2; lia|].
    rewrite snake_caps; try discriminate; [reflexivity|exact F|].
    intros a w' v' b E. apply (L ((c :: d :: r) :: a) w' v' b). cbn [app]. now rewrite E.
  Qed.
End Snake.
Lemma snake_plain upper ws : Forall plain_word ws ->
  snake_case upper (joined 45 ws) = joined 95 ws ++ (if list_eq_dec Z.eq_dec (joined 45 ws) (s2b "type") then [95]
    else if list_eq_dec Z.eq_dec (joined 45 ws) (s2b "return") then [95] else []).
Proof.
  intros F.
  assert (One : forall t, joined 45 ws = t -> ~ In 45 t -> joined 95 ws = t).
  { intros t E N. destruct ws as [|w [|v r]]; [exact E|exact E|]. exfalso. apply N. rewrite <- E. cbn [joined]. apply in_app_iff. right. now left. }
  destruct (list_eq_dec Z.eq_dec (joined 45 ws) (s2b "type")) as [E|N1].
  - rewrite E. rewrite (One _ E); [reflexivity|]. vm_compute. intuition discriminate.
  - destruct (list_eq_dec Z.eq_dec (joined 45 ws) (s2b "return")) as [E|N2].
    + rewrite E. rewrite (One _ E); [reflexivity|]. vm_compute. intuition discriminate.
    + rewrite app_nil_r. apply snake_kebab; [exact F|]. intros [K|K]; congruence.
Qed.

(** ** Names of members *)
Section Member.
  Variable upper : Z -> bool.
  Lemma capital_true c : is_uppercase upper c = true <-> capital upper c.
  Proof. unfold is_uppercase, capital, capital_letter. destruct (Z.ltb_spec c 128); split; lia. Qed.
  Lemma capital_false c : is_uppercase upper c = false <-> ~ capital upper c.
  Proof. rewrite <- capital_true. destruct (is_uppercase upper c); split; congruence. Qed.
  Lemma capital_dec c : capital upper c \/ ~ capital upper c.
  Proof. rewrite <- capital_true. destruct (is_uppercase upper c); [now left|right; discriminate]. Qed.
  Lemma lowered c d : without_capital c d -> (if is_uppercase upper c then to_ascii_lowercase c else c) = d.
  Proof.
    intros H. assert (E : to_ascii_lowercase c = d).
    { unfold to_ascii_lowercase. destruct H as [c H|c H]; unfold capital_letter in H; destruct (_ && _) eqn:E; lia. }
    destruct (is_uppercase upper c) eqn:U; [exact E|]. apply capital_false in U. rewrite <- E. unfold to_ascii_lowercase.
    destruct (_ && _) eqn:X; [|reflexivity]. exfalso. apply U. left. unfold capital_letter. lia.
  Qed.
  Lemma lower_exists c : exists d, without_capital c d.
  Proof. destruct (Z_le_dec 65 c), (Z_le_dec c 90); [exists (c + 32); constructor; unfold capital_letter; lia|..]; exists c; constructor; unfold capital_letter; lia. Qed.
  Definition follows (before : option Z) (lu : bool) (res : text) : Prop :=
    match before with None => lu = false /\ res = [] | Some b => lu = is_uppercase upper b /\ res <> [] end.
  Lemma follows_some c res x : follows (Some c) (is_uppercase upper c) (res ++ [x]).
  Proof. split; [reflexivity|]. now destruct res. Qed.
  Lemma underscored_fold before gap n t : underscored upper before gap n t -> forall lu res, follows before lu res ->
    snd (fold_left (snake_step upper) n (gap, lu, res)) = res ++ t.
  Proof.
    induction 1 as [before gap|before gap c r t S U IH|before c d r t S L U IH|b c d r t S B C L U IH|c d r t S L U IH|b c d r t S B L U IH];
      intros lu res F; cbn [fold_left].
    - now rewrite app_nil_r.
    - cbn [snake_step]. apply separator_true in S. rewrite S. now apply IH.
    - cbn [snake_step]. apply separator_false in S. rewrite S. cbn [orb]. cbv zeta. rewrite (lowered c d L).
      etransitivity; [exact (IH _ _ (follows_some c (res ++ [95]) d))|]. rewrite <- !app_assoc. reflexivity.
    - cbn [snake_step]. apply separator_false in S. rewrite S. cbv zeta. destruct F as [-> F]. apply capital_false in B. rewrite B. apply capital_true in C as C'.
      rewrite C' at 1. cbn [negb andb orb]. destruct res as [|x res]; [easy|]. cbn [negb andb]. rewrite (lowered c d L).
      etransitivity; [exact (IH _ _ (follows_some c ((x :: res) ++ [95]) d))|]. rewrite <- !app_assoc. reflexivity.
    - cbn [snake_step]. apply separator_false in S. rewrite S. cbv zeta. destruct F as [-> ->]. cbn [negb andb orb]. rewrite (lowered c d L).
      exact (IH _ _ (follows_some c [] d)).
    - cbn [snake_step]. apply separator_false in S. rewrite S. cbv zeta. destruct F as [-> F].
      assert (X : negb (is_uppercase upper b) && negb (match res with [] => true | _ => false end) && is_uppercase upper c = false).
      { destruct B as [B|B]; [apply capital_true in B; now rewrite B|apply capital_false in B; rewrite B; apply Bool.andb_false_r]. }
      rewrite X. cbn [orb]. rewrite (lowered c d L). etransitivity; [exact (IH _ _ (follows_some c res d))|]. rewrite <- !app_assoc. reflexivity.
  Qed.
  Lemma underscored_exists n : forall before gap, exists t, underscored upper before gap n t.
  Proof.
    induction n as [|c n IH]; intros before gap; [exists []; constructor|]. destruct (separator_dec c) as [S|S].
    - destruct (IH before true) as [t U]. exists t. now constructor.
    - destruct (IH (Some c) false) as [t U]. destruct (lower_exists c) as [d L]. destruct gap; [eexists; apply us_gap; eassumption|].
      destruct before as [b|]; [|eexists; apply us_first; eassumption]. destruct (capital_dec b) as [B|B]; [eexists; apply us_next; eauto|].
      destruct (capital_dec c) as [C|C]; [eexists; apply us_capital; eauto|eexists; apply us_next; eauto].
  Qed.
  Lemma snake_member n t : member_name upper n t -> t = snake_case upper n.
  Proof.
    intros [m [-> | ->]|m u K U]; [reflexivity|reflexivity|]. unfold snake_case.
    destruct (is m "type") eqn:E; [apply is_eq in E; exfalso; apply K; now left|].
    destruct (is m "return") eqn:E'; [apply is_eq in E'; exfalso; apply K; now right|].
    symmetry. exact (underscored_fold _ _ _ _ U false [] (conj eq_refl eq_refl)).
  Qed.
  Lemma member_exists n : exists t, member_name upper n t.
  Proof.
    destruct (list_eq_dec Z.eq_dec n (s2b "type")) as [E|N1]; [eexists; apply mn_keyword; now left|].
    destruct (list_eq_dec Z.eq_dec n (s2b "return")) as [E|N2]; [eexists; apply mn_keyword; now right|].
    destruct (underscored_exists n None false) as [t U]. exists t. apply mn_other; [|exact U]. intros [K|K]; contradiction.
  Qed.
  Lemma member_snake n t : member_name upper n t <-> t = snake_case upper n.
  Proof.
    split; [apply snake_member|]. intros ->. destruct (member_exists n) as [t M]. now rewrite <- (snake_member _ _ M).
  Qed.
End Member.

(** ** Identifiers *)
Lemma tail_letter c : tail_char c -> letter c \/ digit c \/ c = 95.
Proof. intros [H|H]; [left; now left|right; now left]. Qed.
Lemma joined_chars ws : Forall plain_word ws -> Forall (fun x => letter x \/ digit x \/ x = 95) (joined 95 ws).
Proof.
  induction 1 as [|w ws H F IH]; [constructor|]. assert (T : Forall (fun x => letter x \/ digit x \/ x = 95) w).
  { apply plain_tail in H. revert H. apply Forall_impl. exact tail_letter. }
  destruct ws as [|v ws]; [exact T|]. cbn [joined] in *. apply Forall_app. split; [exact T|]. constructor; [right; now right|exact IH].
Qed.
Lemma member_identifier upper ws : Forall plain_word ws -> ws <> [] -> identifier (snake_case upper (joined 45 ws)).
Proof.
  intros F N. rewrite (snake_plain upper ws F). pose proof (joined_chars ws F) as C. destruct F as [|w ws (c & r & -> & S & T) F]; [easy|].
  assert (E : exists r', joined 95 ((c :: r) :: ws) = c :: r') by (destruct ws; eexists; reflexivity). destruct E as [r' E].
  assert (C' : Forall (fun x => letter x \/ digit x \/ x = 95) (c :: r')) by (rewrite <- E; exact C).
  refine (eq_ind_r (fun t => identifier (t ++ _)) _ E).
  exists c. eexists. split; [reflexivity|]. split; [now left|]. inversion C'; subst. apply Forall_app. split; [assumption|].
  destruct (list_eq_dec _ _ _); [repeat constructor; right; now right|]. destruct (list_eq_dec _ _ _); [repeat constructor; right; now right|constructor].
Qed.
Lemma type_identifier ws : Forall plain_word ws -> ws <> [] -> identifier (camel_case (joined 45 ws)).
Proof.
  intros F N. rewrite (camel_kebab ws F). destruct F as [|w ws H F]; [easy|]. destruct (cap_plain w H) as (c & r & -> & S & T & E).
  cbn [map concat]. rewrite E. cbn [app]. exists (c - 32). eexists. split; [reflexivity|].
  split; [right; unfold small_letter, capital_letter in *; lia|]. apply Forall_app. split; [revert T; apply Forall_impl; exact tail_letter|].
  induction F as [|v vs Hv F IH]; [constructor|]. cbn [map concat]. apply Forall_app. split; [|now apply IH].
  destruct (cap_plain v Hv) as (d & s & -> & Sd & Td & Ed). rewrite Ed. constructor; [left; right; unfold small_letter, capital_letter in *; lia|].
  revert Td. apply Forall_impl. exact tail_letter.
Qed.
