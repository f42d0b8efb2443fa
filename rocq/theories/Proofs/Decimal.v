(** Numerals: what [dec] and [decZ] print. *)
From Verif Require Import Model.Prelude Model.Display Spec.Cli Spec.Texts.
From Coq Require Import Lia ZifyN ZifyNat ZifyBool String Ascii.
Local Open Scope string_scope.

(** ** numerals *)
Lemma digit_ok d : (d < 10)%N -> exists c, digit d = String c "" /\ is_digit c d.
Proof.
  intros Hd. unfold digit. replace (d <? 10)%N with true by lia. eexists. split; [reflexivity|]. split; [exact Hd|].
  apply N_ascii_embedding. lia.
Qed.
Lemma digits_ok fuel : forall n, (n < 10 ^ (N.of_nat fuel + 1))%N -> decimal (digits 10 fuel n) n.
Proof.
  induction fuel as [|fuel IH]; intros n Hn; cbn [digits].
  - cbn in Hn. rewrite N.mod_small by lia. destruct (digit_ok n) as (c & -> & Hc); [lia|]. constructor; exact Hc.
  - destruct (N.ltb_spec n 10) as [Hs|Hs].
    + destruct (digit_ok n) as (c & -> & Hc); [lia|]. constructor; exact Hc.
    + assert (Hm : (n mod 10 < 10)%N) by (apply N.mod_lt; lia). destruct (digit_ok (n mod 10)) as (c & -> & Hc); [exact Hm|].
      assert (Hdiv : n = (10 * (n / 10) + n mod 10)%N) by (apply N.div_mod; lia).
      rewrite Hdiv at 2. constructor; [|lia|exact Hc].
      apply IH. apply N.div_lt_upper_bound; [lia|]. replace (N.of_nat (S fuel) + 1)%N with (N.succ (N.of_nat fuel + 1)) in Hn by lia. rewrite N.pow_succ_r' in Hn. lia.
Qed.
Lemma dec_ok n : decimal (dec n) n.
Proof.
  apply digits_ok. rewrite N2Nat.id. destruct (N.eq_dec n 0) as [->|Hn]; [reflexivity|].
  eapply N.lt_le_trans; [apply N.log2_spec; lia|]. rewrite <- N.add_1_r. apply N.pow_le_mono_l. lia.
Qed.
(** a numeral denotes one number *)
Lemma append_last s c s' c' : s ++ String c "" = s' ++ String c' "" -> s = s' /\ c = c'.
Proof.
  revert s'. induction s as [|a s IH]; intros [|a' s'] HE; cbn in HE.
  - injection HE as ->. auto.
  - injection HE as -> HE. destruct s'; discriminate HE.
  - injection HE as -> HE. destruct s; discriminate HE.
  - injection HE as -> HE. destruct (IH _ HE) as [-> ->]. auto.
Qed.
Lemma decimal_inj s n n' : decimal s n -> decimal s n' -> n = n'.
Proof.
  intros H1. revert n'. induction H1 as [c d [_ Hd]|s n c d H1 IH Hn [_ Hd]]; intros n' H2.
  - remember (String c "") as w eqn:Ew. destruct H2 as [c' d' [_ Hd']|s' m c' d' H2 Hm [_ Hd']].
    + injection Ew as ->. lia.
    + exfalso. destruct H2 as [? ? ?|s2 ? ? ? ? ? ?]; cbn in Ew; [|destruct s2; cbn in Ew]; try discriminate Ew. destruct s2; discriminate Ew.
  - remember (s ++ String c "") as w eqn:Ew. destruct H2 as [c' d' [_ Hd']|s' m c' d' H2 Hm [_ Hd']].
    + exfalso. destruct H1 as [? ? ?|s2 ? ? ? ? ? ?]; cbn in Ew; [|destruct s2; cbn in Ew]; try discriminate Ew. destruct s2; discriminate Ew.
    + apply append_last in Ew as [-> ->]. rewrite (IH _ H2). lia.
Qed.

Lemma decZ_ok z : integer (decZ z) z.
Proof.
  unfold decZ. destruct (Z.ltb_spec z 0) as [Hz|Hz].
  - right. split; [exact Hz|]. eexists. split; [reflexivity|apply dec_ok].
  - left. split; [exact Hz|apply dec_ok].
Qed.

Lemma dec_inj n n' : dec n = dec n' -> n = n'.
Proof. intros E. apply (decimal_inj (dec n)); [apply dec_ok|rewrite E; apply dec_ok]. Qed.
