(** [from_utf8] recognises exactly the UTF-8 encodings of scalar values *)
From Verif Require Import Model.Prelude Model.Io Model.Helpers Proofs.Machine Proofs.Parses.
From Verif Require Import Spec.Lang.
From Coq Require Import Lia ZifyBool ZifyNat ZifyN.
Ltac Zify.zify_post_hook ::= Z.div_mod_to_equations.
Local Open Scope N_scope.

Lemma b2n_byte_of n : n < 256 -> b2n (byte_of n) = n.
Proof.
  intros Hn. unfold byte_of, b2n. destruct (Byte.of_N n) as [b|] eqn:E.
  - apply Byte.to_of_N in E. exact E.
  - apply Byte.of_N_None_iff in E. lia.
Qed.
Lemma byte_of_b2n b n : b2n b = n -> b = byte_of n.
Proof. intros E. apply b2n_inj. rewrite b2n_byte_of; [assumption|]. subst. apply b2n_lt. Qed.

Lemma in_rng_iff lo hi b : in_rng lo hi b = true <-> lo <= b2n b <= hi.
Proof. unfold in_rng. rewrite andb_true_iff, !N.leb_le. reflexivity. Qed.

Ltac utf8_prep :=
  repeat match goal with
  | H : (_ && _)%bool = true |- _ => apply andb_prop in H as [? ?]
  | H : (_ || _)%bool = true |- _ => apply orb_prop in H
  | H : in_rng _ _ _ = true |- _ => apply in_rng_iff in H
  | H : (_ =? _) = true |- _ => apply N.eqb_eq in H
  end.

Lemma utf8_cons_inv c bs : utf8 bs -> scalar_value c -> utf8 (utf8_char c ++ bs).
Proof. intros (cs & Hf & ->) Hc. exists (c :: cs). split; [constructor; assumption|reflexivity]. Qed.

Lemma utf8_char_2 b0 b1 : 0xC2 <= b2n b0 <= 0xDF -> 0x80 <= b2n b1 <= 0xBF ->
  exists c, scalar_value c /\ utf8_char c = [b0; b1].
Proof.
  intros H0 H1. exists ((b2n b0 - 0xC0) * 64 + (b2n b1 - 0x80)). split; [left; lia|].
  unfold utf8_char. change (2 ^ 6) with 64.
  destruct (N.ltb_spec ((b2n b0 - 0xC0) * 64 + (b2n b1 - 0x80)) 0x80); [lia|].
  destruct (N.ltb_spec ((b2n b0 - 0xC0) * 64 + (b2n b1 - 0x80)) 0x800); [|lia].
  repeat f_equal; symmetry; apply byte_of_b2n; lia.
Qed.
Lemma utf8_char_3 b0 b1 b2 : 0xE0 <= b2n b0 <= 0xEF -> 0x80 <= b2n b1 <= 0xBF -> 0x80 <= b2n b2 <= 0xBF ->
  (b2n b0 = 0xE0 -> 0xA0 <= b2n b1) -> (b2n b0 = 0xED -> b2n b1 <= 0x9F) ->
  exists c, scalar_value c /\ utf8_char c = [b0; b1; b2].
Proof.
  intros H0 H1 H2 Ha Hb. set (c := (b2n b0 - 0xE0) * 4096 + (b2n b1 - 0x80) * 64 + (b2n b2 - 0x80)).
  assert (Hc : c = (b2n b0 - 0xE0) * 4096 + (b2n b1 - 0x80) * 64 + (b2n b2 - 0x80)) by reflexivity. clearbody c.
  exists c. split; [unfold scalar_value; lia|].
  unfold utf8_char. change (2 ^ 6) with 64. change (2 ^ 12) with 4096.
  destruct (N.ltb_spec c 0x80); [lia|]. destruct (N.ltb_spec c 0x800); [lia|]. destruct (N.ltb_spec c 0x10000); [|lia].
  repeat f_equal; symmetry; apply byte_of_b2n; lia.
Qed.
Lemma utf8_char_4 b0 b1 b2 b3 : 0xF0 <= b2n b0 <= 0xF4 -> 0x80 <= b2n b1 <= 0xBF -> 0x80 <= b2n b2 <= 0xBF -> 0x80 <= b2n b3 <= 0xBF ->
  (b2n b0 = 0xF0 -> 0x90 <= b2n b1) -> (b2n b0 = 0xF4 -> b2n b1 <= 0x8F) ->
  exists c, scalar_value c /\ utf8_char c = [b0; b1; b2; b3].
Proof.
  intros H0 H1 H2 H3 Ha Hb. set (c := (b2n b0 - 0xF0) * 262144 + (b2n b1 - 0x80) * 4096 + (b2n b2 - 0x80) * 64 + (b2n b3 - 0x80)).
  assert (Hc : c = (b2n b0 - 0xF0) * 262144 + (b2n b1 - 0x80) * 4096 + (b2n b2 - 0x80) * 64 + (b2n b3 - 0x80)) by reflexivity. clearbody c.
  exists c. split; [unfold scalar_value; lia|].
  unfold utf8_char. change (2 ^ 6) with 64. change (2 ^ 12) with 4096. change (2 ^ 18) with 262144.
  destruct (N.ltb_spec c 0x80); [lia|]. destruct (N.ltb_spec c 0x800); [lia|]. destruct (N.ltb_spec c 0x10000); [lia|].
  repeat f_equal; symmetry; apply byte_of_b2n; lia.
Qed.

Lemma from_utf8_sound l : from_utf8 l = true -> utf8 l.
Proof.
  remember (length l) as n eqn:En. revert l En.
  induction n as [n IH] using lt_wf_ind. intros l -> Hl.
  destruct l as [|b0 l1]; [exists []; split; [constructor|reflexivity]|].
  cbn [from_utf8] in Hl.
  destruct (N.ltb_spec (b2n b0) 0x80) as [H0|H0].
  { assert (Hc : utf8_char (b2n b0) = [b0]).
    { unfold utf8_char. destruct (N.ltb_spec (b2n b0) 0x80); [|lia]. f_equal. symmetry. apply byte_of_b2n. reflexivity. }
    change (b0 :: l1) with ([b0] ++ l1). rewrite <- Hc. apply utf8_cons_inv; [|left; lia].
    eapply IH; [|reflexivity|exact Hl]. cbn; lia. }
  destruct (in_rng 0xC2 0xDF b0) eqn:R2.
  { destruct l1 as [|b1 l2]; [discriminate|]. utf8_prep.
    destruct (utf8_char_2 b0 b1) as (c & Hc & Ec); [lia|lia|].
    change (b0 :: b1 :: l2) with ([b0; b1] ++ l2). rewrite <- Ec. apply utf8_cons_inv; [|assumption].
    eapply IH; [|reflexivity|assumption]. cbn; lia. }
  destruct (in_rng 0xE0 0xEF b0) eqn:R3.
  { destruct l1 as [|b1 [|b2 l3]]; [discriminate|discriminate|]. utf8_prep.
    destruct (utf8_char_3 b0 b1 b2) as (c & Hc & Ec); [lia| |lia| | |].
    1-3: repeat match goal with H : _ \/ _ |- _ => destruct H end; utf8_prep; 
      repeat match goal with H : _ \/ _ |- _ => destruct H end; utf8_prep; 
      repeat match goal with H : _ \/ _ |- _ => destruct H end; utf8_prep; lia.
    change (b0 :: b1 :: b2 :: l3) with ([b0; b1; b2] ++ l3). rewrite <- Ec. apply utf8_cons_inv; [|assumption].
    eapply IH; [|reflexivity|assumption]. cbn; lia. }
  destruct (in_rng 0xF0 0xF4 b0) eqn:R4; [|discriminate].
  destruct l1 as [|b1 [|b2 [|b3 l4]]]; [discriminate|discriminate|discriminate|]. utf8_prep.
  destruct (utf8_char_4 b0 b1 b2 b3) as (c & Hc & Ec); [lia| |lia|lia| | |].
  1-3: repeat match goal with H : _ \/ _ |- _ => destruct H end; utf8_prep; 
    repeat match goal with H : _ \/ _ |- _ => destruct H end; utf8_prep; 
    repeat match goal with H : _ \/ _ |- _ => destruct H end; utf8_prep; lia.
  change (b0 :: b1 :: b2 :: b3 :: l4) with ([b0; b1; b2; b3] ++ l4). rewrite <- Ec. apply utf8_cons_inv; [|assumption].
  eapply IH; [|reflexivity|assumption]. cbn; lia.
Qed.

Lemma in_rng_of lo hi n : n < 256 -> in_rng lo hi (byte_of n) = ((lo <=? n) && (n <=? hi))%bool.
Proof. intros. unfold in_rng. rewrite b2n_byte_of by assumption. reflexivity. Qed.

Ltac decide_cmp :=
  repeat match goal with
  | |- context [?a <=? ?b] => first [rewrite (proj2 (N.leb_le a b)) by lia | rewrite (proj2 (N.leb_gt a b)) by lia]
  | |- context [?a =? ?b] => first [rewrite (proj2 (N.eqb_eq a b)) by lia | rewrite (proj2 (N.eqb_neq a b)) by lia]
  | |- context [?a <? ?b] => first [rewrite (proj2 (N.ltb_lt a b)) by lia | rewrite (proj2 (N.ltb_ge a b)) by lia]
  end.

Lemma from_utf8_char c l : scalar_value c -> from_utf8 (utf8_char c ++ l) = from_utf8 l.
Proof.
  intros Hc. unfold scalar_value in Hc. unfold utf8_char. change (2 ^ 6) with 64. change (2 ^ 12) with 4096. change (2 ^ 18) with 262144.
  destruct (N.ltb_spec c 0x80).
  { cbn [app from_utf8]. rewrite b2n_byte_of by lia. decide_cmp. reflexivity. }
  destruct (N.ltb_spec c 0x800).
  { cbn [app from_utf8]. rewrite !in_rng_of, !b2n_byte_of by lia. decide_cmp. reflexivity. }
  destruct (N.ltb_spec c 0x10000).
  { cbn [app from_utf8]. rewrite !in_rng_of, !b2n_byte_of by lia.
    set (x := 0xE0 + c / 4096). set (y := 0x80 + (c / 64) mod 64). set (z := 0x80 + c mod 64).
    assert (Hx : 0xE0 <= x <= 0xEF) by lia. assert (Hy : 0x80 <= y <= 0xBF) by lia. assert (Hz : 0x80 <= z <= 0xBF) by lia.
    assert (Hxa : x = 0xE0 -> 0xA0 <= y) by lia. assert (Hxb : x = 0xED -> y <= 0x9F) by lia.
    clearbody x y z. clear Hc. 
    replace (x <? 128) with false by lia. replace (194 <=? x) with true by lia. replace (x <=? 223) with false by lia.
    replace (224 <=? x) with true by lia. replace (x <=? 239) with true by lia.
    replace (128 <=? z) with true by lia. replace (z <=? 191) with true by lia.
    cbn [andb]. 
    destruct (N.eqb_spec x 0xE0); [subst; decide_cmp; reflexivity|].
    destruct (N.eqb_spec x 0xED); [subst; decide_cmp; reflexivity|].
    destruct (N.leb_spec x 0xEC); decide_cmp; reflexivity. }
  cbn [app from_utf8]. rewrite !in_rng_of, !b2n_byte_of by lia.
  set (x := 0xF0 + c / 262144). set (y := 0x80 + (c / 4096) mod 64). set (z := 0x80 + (c / 64) mod 64). set (w := 0x80 + c mod 64).
  assert (Hx : 0xF0 <= x <= 0xF4) by lia. assert (Hy : 0x80 <= y <= 0xBF) by lia. assert (Hz : 0x80 <= z <= 0xBF) by lia.
  assert (Hw : 0x80 <= w <= 0xBF) by lia.
  assert (Hxa : x = 0xF0 -> 0x90 <= y) by lia. assert (Hxb : x = 0xF4 -> y <= 0x8F) by lia.
  clearbody x y z w. clear Hc.
  replace (x <? 128) with false by lia. replace (194 <=? x) with true by lia. replace (x <=? 223) with false by lia.
  replace (224 <=? x) with true by lia. replace (x <=? 239) with false by lia.
  replace (240 <=? x) with true by lia. replace (x <=? 244) with true by lia.
  replace (128 <=? z) with true by lia. replace (z <=? 191) with true by lia.
  replace (128 <=? w) with true by lia. replace (w <=? 191) with true by lia.
  cbn [andb].
  destruct (N.eqb_spec x 0xF0); [subst; decide_cmp; reflexivity|].
  destruct (N.eqb_spec x 0xF4); [subst; decide_cmp; reflexivity|].
  decide_cmp. reflexivity.
Qed.

Lemma from_utf8_iff l : from_utf8 l = true <-> utf8 l.
Proof.
  split; [apply from_utf8_sound|]. intros (cs & Hf & ->). induction Hf as [|c cs Hc _ IH]; cbn; [reflexivity|].
  rewrite from_utf8_char by assumption. exact IH.
Qed.
