(** The validation automaton accepts exactly the UTF-8 texts. *)

From Verif Require Import Base Utf8 Utf8Spec BaseFacts.
From Coq Require Import ZifyBool.
Ltac Zify.zify_post_hook ::= Z.div_mod_to_equations.

Lemma utf8_encode_valid c r : scalar c -> utf8_valid (utf8_encode c ++ r) = utf8_valid r.
Proof.
  unfold scalar, utf8_encode. intros Hc.
  destruct (Z.ltb_spec c 0x80) as [H1|H1].
  { cbn [app utf8_valid]. destruct (Z.ltb_spec c 0x80); [easy|lia]. }
  destruct (Z.ltb_spec c 0x800) as [H2|H2].
  { cbn [app utf8_valid].
    replace (0xC0 + c / 64 <? 0x80) with false by lia.
    replace (in_rng 0xC2 0xDF (0xC0 + c / 64)) with true by (unfold in_rng; lia).
    replace (is_cont (0x80 + c mod 64)) with true by (unfold is_cont, in_rng; lia).
    reflexivity. }
  destruct (Z.ltb_spec c 0x10000) as [H3|H3].
  { cbn [app utf8_valid].
    replace (0xE0 + c / 4096 <? 0x80) with false by lia.
    replace (in_rng 0xC2 0xDF (0xE0 + c / 4096)) with false by (unfold in_rng; lia).
    replace (in_rng 0xE0 0xEF (0xE0 + c / 4096)) with true by (unfold in_rng; lia).
    replace (is_cont (0x80 + c mod 64)) with true by (unfold is_cont, in_rng; lia).
    replace (is_cont (0x80 + (c / 64) mod 64)) with true by (unfold is_cont, in_rng; lia).
    destruct (Z.eqb_spec (0xE0 + c / 4096) 0xE0) as [E|E].
    { replace (in_rng 0xA0 0xBF (0x80 + (c / 64) mod 64)) with true by (unfold in_rng; lia). reflexivity. }
    destruct (Z.eqb_spec (0xE0 + c / 4096) 0xED) as [E'|E'].
    { replace (in_rng 0x80 0x9F (0x80 + (c / 64) mod 64)) with true by (unfold in_rng; lia). reflexivity. }
    reflexivity. }
  cbn [app utf8_valid].
  replace (0xF0 + c / 262144 <? 0x80) with false by lia.
  replace (in_rng 0xC2 0xDF (0xF0 + c / 262144)) with false by (unfold in_rng; lia).
  replace (in_rng 0xE0 0xEF (0xF0 + c / 262144)) with false by (unfold in_rng; lia).
  replace (in_rng 0xF0 0xF4 (0xF0 + c / 262144)) with true by (unfold in_rng; lia).
  replace (is_cont (0x80 + c mod 64)) with true by (unfold is_cont, in_rng; lia).
  replace (is_cont (0x80 + (c / 64) mod 64)) with true by (unfold is_cont, in_rng; lia).
  replace (is_cont (0x80 + (c / 4096) mod 64)) with true by (unfold is_cont, in_rng; lia).
  destruct (Z.eqb_spec (0xF0 + c / 262144) 0xF0) as [E|E].
  { replace (in_rng 0x90 0xBF (0x80 + (c / 4096) mod 64)) with true by (unfold in_rng; lia). reflexivity. }
  destruct (Z.eqb_spec (0xF0 + c / 262144) 0xF4) as [E'|E'].
  { replace (in_rng 0x80 0x8F (0x80 + (c / 4096) mod 64)) with true by (unfold in_rng; lia). reflexivity. }
  reflexivity.
Qed.

Lemma utf8_text_valid text : Forall scalar text -> utf8_valid (flat_map utf8_encode text) = true.
Proof.
  induction 1 as [|c text Hc _ IH]; [reflexivity|].
  cbn [flat_map]. now rewrite utf8_encode_valid.
Qed.

Lemma is_utf8_cons c b : scalar c -> is_utf8 b -> is_utf8 (utf8_encode c ++ b).
Proof. intros Hc (t & Ht & ->). exists (c :: t). split; [now constructor|reflexivity]. Qed.

Lemma utf8_valid_text n b : (length b <= n)%nat -> bytes_ok b -> utf8_valid b = true -> is_utf8 b.
Proof.
  revert b. induction n as [|n IH]; intros b Hn Hok H.
  { destruct b; [|cbn in Hn; lia]. exists []. now split. }
  destruct b as [|b0 r0]; [exists []; now split|].
  inversion Hok as [|? ? Hb0 Hr0]; subst. unfold byte_ok in Hb0.
  cbn [utf8_valid] in H. cbn [length] in Hn.
  destruct (Z.ltb_spec b0 0x80) as [H0|H0].
  { replace (b0 :: r0) with (utf8_encode b0 ++ r0).
    - apply is_utf8_cons; [unfold scalar; lia|]. apply IH; auto; lia.
    - unfold utf8_encode. destruct (Z.ltb_spec b0 0x80); [easy|lia]. }
  destruct (in_rng 0xC2 0xDF b0) eqn:E2.
  { unfold in_rng in E2. destruct r0 as [|b1 r1]; [discriminate|].
    apply andb_true_iff in H as [H1 H2]. unfold is_cont, in_rng in H1.
    inversion Hr0; subst. cbn [length] in Hn.
    set (c := (b0 - 0xC0) * 64 + (b1 - 0x80)).
    replace (b0 :: b1 :: r1) with (utf8_encode c ++ r1).
    - apply is_utf8_cons; [unfold scalar; lia|]. apply IH; auto; lia.
    - unfold utf8_encode, c. destruct (Z.ltb_spec ((b0 - 0xC0) * 64 + (b1 - 0x80)) 0x80); [lia|].
      destruct (Z.ltb_spec ((b0 - 0xC0) * 64 + (b1 - 0x80)) 0x800); [|lia].
      cbn [app]. repeat f_equal; lia. }
  destruct (in_rng 0xE0 0xEF b0) eqn:E3.
  { unfold in_rng in E2, E3. destruct r0 as [|b1 [|b2 r2]]; try discriminate.
    apply andb_true_iff in H as [H H2]. apply andb_true_iff in H as [H H1]. unfold is_cont, in_rng in H, H1.
    inversion Hr0 as [|? ? Hb1 Hr1]; subst. inversion Hr1 as [|? ? Hb2 Hr2]; subst. cbn [length] in Hn.
    unfold byte_ok in *.
    set (c := (b0 - 0xE0) * 4096 + (b1 - 0x80) * 64 + (b2 - 0x80)).
    assert (Hb : 0x80 <= b1 <= 0xBF /\ (b0 = 0xE0 -> 0xA0 <= b1) /\ (b0 = 0xED -> b1 <= 0x9F)).
    { destruct (Z.eqb_spec b0 0xE0); [lia|]. destruct (Z.eqb_spec b0 0xED); lia. }
    replace (b0 :: b1 :: b2 :: r2) with (utf8_encode c ++ r2).
    - apply is_utf8_cons; [unfold scalar, c; lia|]. apply IH; auto; lia.
    - unfold utf8_encode.
      destruct (Z.ltb_spec c 0x80); [unfold c in *; lia|].
      destruct (Z.ltb_spec c 0x800); [unfold c in *; lia|].
      destruct (Z.ltb_spec c 0x10000); [|unfold c in *; lia].
      unfold c. cbn [app]. repeat f_equal; lia. }
  destruct (in_rng 0xF0 0xF4 b0) eqn:E4; [|discriminate].
  unfold in_rng in E2, E3, E4. destruct r0 as [|b1 [|b2 [|b3 r3]]]; try discriminate.
  apply andb_true_iff in H as [H H3]. apply andb_true_iff in H as [H H2]. apply andb_true_iff in H as [H H1].
  unfold is_cont, in_rng in H, H1, H2.
  inversion Hr0 as [|? ? Hb1 Hr1]; subst. inversion Hr1 as [|? ? Hb2 Hr2]; subst. inversion Hr2 as [|? ? Hb3 Hr3]; subst.
  cbn [length] in Hn. unfold byte_ok in *.
  set (c := (b0 - 0xF0) * 262144 + (b1 - 0x80) * 4096 + (b2 - 0x80) * 64 + (b3 - 0x80)).
  assert (Hb : 0x80 <= b1 <= 0xBF /\ (b0 = 0xF0 -> 0x90 <= b1) /\ (b0 = 0xF4 -> b1 <= 0x8F)).
  { destruct (Z.eqb_spec b0 0xF0); [lia|]. destruct (Z.eqb_spec b0 0xF4); lia. }
  replace (b0 :: b1 :: b2 :: b3 :: r3) with (utf8_encode c ++ r3).
  - apply is_utf8_cons; [unfold scalar, c; lia|]. apply IH; auto; lia.
  - unfold utf8_encode.
    destruct (Z.ltb_spec c 0x80); [unfold c in *; lia|].
    destruct (Z.ltb_spec c 0x800); [unfold c in *; lia|].
    destruct (Z.ltb_spec c 0x10000); [unfold c in *; lia|].
    unfold c. cbn [app]. repeat f_equal; lia.
Qed.

Theorem utf8_valid_spec b : bytes_ok b -> utf8_valid b = true <-> is_utf8 b.
Proof.
  intros Hok. split.
  - now apply (utf8_valid_text (length b)).
  - intros (t & Ht & ->). now apply utf8_text_valid.
Qed.

Lemma utf8_encode_ok c : scalar c -> bytes_ok (utf8_encode c).
Proof.
  unfold scalar, utf8_encode, bytes_ok, byte_ok. intros Hc.
  destruct (Z.ltb_spec c 0x80); [repeat constructor; lia|].
  destruct (Z.ltb_spec c 0x800); [repeat constructor; lia|].
  destruct (Z.ltb_spec c 0x10000); repeat constructor; lia.
Qed.
Lemma is_utf8_bytes_ok b : is_utf8 b -> bytes_ok b.
Proof.
  intros (t & Ht & ->). induction Ht as [|c t Hc _ IH]; [constructor|].
  cbn [flat_map]. apply bytes_ok_app. split; [now apply utf8_encode_ok|exact IH].
Qed.
Lemma is_utf8_valid b : is_utf8 b -> utf8_valid b = true.
Proof. intros (t & Ht & ->). now apply utf8_text_valid. Qed.

Lemma char_ok_spec c : char_ok c = true <-> scalar c.
Proof. unfold char_ok, scalar, in_rng. lia. Qed.
