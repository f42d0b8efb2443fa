(** The encoder of Spec/Encode.v is right and shortest. *)
From Verif Require Import Model.Prelude Model.Ast.
From Verif Require Import Spec.Lang Spec.Types Spec.Instr Spec.Module Spec.Encode.
From Coq Require Import Lia ZifyN ZifyNat ZifyBool.

(** [enc] and [fit] are right for [G] *)
Record Short {A} (enc : A -> list byte) (fit : A -> Prop) (G : lang A) : Prop := {
  sh_enc : forall a, fit a -> G a (enc a);
  sh_fit : forall a bs, G a bs -> fit a;
  sh_min : forall a bs, G a bs -> length (enc a) <= length bs }.

(** ** Integers *)
Lemma val_byte_of n : (n < 256)%N -> val (byte_of n) = n.
Proof.
  intros Hn. unfold val, byte_of. destruct (Byte.of_N n) as [b|] eqn:Hb; [apply Byte.to_of_N; exact Hb|]. apply Byte.of_N_None_iff in Hb. lia.
Qed.
Section Leb.
  Local Open Scope N_scope.
  Lemma leb_u_ok f : forall w n, w <= 7 * N.of_nat (S f) -> n < 2 ^ w -> Bu w n (leb_u f n).
  Proof.
    induction f as [|f IH]; intros w n Hw Hn; cbn [leb_u].
    - assert (n < 2 ^ 7) by (eapply N.lt_le_trans; [exact Hn|apply N.pow_le_mono_r; lia]). change (2 ^ 7) with 128 in *.
      rewrite <- (val_byte_of n) at 1 by lia. constructor; rewrite val_byte_of; change (2 ^ 7) with 128; lia.
    - destruct (N.ltb_spec n 128) as [Hs|Hs].
      + rewrite <- (val_byte_of n) at 1 by lia. constructor; rewrite val_byte_of; change (2 ^ 7) with 128; lia.
      + assert (H7 : 7 < w). { apply N.nle_gt. intros Hle. assert (2 ^ w <= 2 ^ 7) by (apply N.pow_le_mono_r; lia). change (2 ^ 7) with 128 in *. lia. }
        pose proof (N.mod_upper_bound n 128 ltac:(discriminate)) as Hm. pose proof (N.div_mod n 128 ltac:(discriminate)) as Hd.
        assert (E : n = 2 ^ 7 * (n / 128) + (val (byte_of (128 + n mod 128)) - 2 ^ 7)) by (rewrite val_byte_of by lia; change (2 ^ 7) with 128; lia).
        rewrite E at 1. constructor; [rewrite val_byte_of by lia; change (2 ^ 7) with 128; lia|exact H7|].
        apply IH; [lia|]. apply N.div_lt_upper_bound; [discriminate|]. change 128 with (2 ^ 7). rewrite <- N.pow_add_r. replace (7 + (w - 7)) with w by lia. exact Hn.
  Qed.
  Lemma Bu_lt w n bs : Bu w n bs -> n < 2 ^ w.
  Proof.
    induction 1 as [w b H1 H2|w b m bs H1 H2 _ IH]; [assumption|].
    assert (E : 2 ^ w = 2 ^ 7 * 2 ^ (w - 7)) by (rewrite <- N.pow_add_r; f_equal; lia).
    pose proof (Byte.to_N_bounded b) as Hb. fold (val b) in Hb. change (2 ^ 7) with 128 in *. nia.
  Qed.
  Lemma leb_u_min f : forall w n bs, Bu w n bs -> (length (leb_u f n) <= length bs)%nat.
  Proof.
    induction f as [|f IH]; intros w n bs HB; cbn [leb_u].
    - destruct HB; cbn; lia.
    - destruct HB as [w b H1 H2|w b m bs H1 H2 HB].
      + change (2 ^ 7) with 128 in H1. replace (val b <? 128) with true by lia. cbn. lia.
      + pose proof (Byte.to_N_bounded b) as Hb. fold (val b) in Hb. change (2 ^ 7) with 128 in *.
        destruct (N.ltb_spec (128 * m + (val b - 128)) 128) as [Hs|Hs]; [cbn; lia|]. cbn [length].
        replace ((128 * m + (val b - 128)) / 128) with m; [specialize (IH _ _ _ HB); lia|].
        apply N.div_unique with (r := val b - 128); lia.
  Qed.
  (** lengths: monotone and subadditive *)
  Lemma leb_u_len f : forall n k, (1 <= k)%nat -> n < 128 ^ N.of_nat k -> (length (leb_u f n) <= k)%nat.
  Proof.
    induction f as [|f IH]; intros n k Hk Hn; cbn [leb_u]; [cbn; lia|].
    destruct (N.ltb_spec n 128) as [Hs|Hs]; [cbn; lia|]. cbn [length].
    destruct k as [|[|k]]; [lia|change (128 ^ N.of_nat 1) with 128 in Hn; lia|].
    assert (length (leb_u f (n / 128)) <= S k)%nat; [|lia]. apply IH; [lia|]. apply N.div_lt_upper_bound; [discriminate|].
    rewrite <- N.pow_succ_r'. replace (N.succ (N.of_nat (S k))) with (N.of_nat (S (S k))) by lia. exact Hn.
  Qed.
  Lemma leb_u_lt f : forall n, n < 128 ^ N.of_nat (S f) -> n < 128 ^ N.of_nat (length (leb_u f n)).
  Proof.
    induction f as [|f IH]; intros n Hn; cbn [leb_u]; [exact Hn|].
    destruct (N.ltb_spec n 128) as [Hs|Hs]; [cbn [length]; change (128 ^ N.of_nat 1) with 128; lia|]. cbn [length].
    assert (Hq : n / 128 < 128 ^ N.of_nat (length (leb_u f (n / 128)))).
    { apply IH. apply N.div_lt_upper_bound; [discriminate|]. rewrite <- N.pow_succ_r'. replace (N.succ (N.of_nat (S f))) with (N.of_nat (S (S f))) by lia. exact Hn. }
    replace (N.of_nat (S (length (leb_u f (n / 128))))) with (N.succ (N.of_nat (length (leb_u f (n / 128))))) by lia. rewrite N.pow_succ_r'.
    pose proof (N.div_mod n 128 ltac:(discriminate)) as Hd. pose proof (N.mod_upper_bound n 128 ltac:(discriminate)) as Hm. nia.
  Qed.
  Lemma leb_u_one f n : (1 <= length (leb_u f n))%nat.
  Proof. destruct f; cbn [leb_u]; [cbn; lia|]. destruct (n <? 128); cbn; lia. Qed.
  Lemma enc_u_mono a b : a <= b -> b < 2 ^ 64 -> (length (enc_u a) <= length (enc_u b))%nat.
  Proof.
    intros Hab Hb. unfold enc_u. apply leb_u_len; [apply leb_u_one|]. eapply N.le_lt_trans; [exact Hab|]. apply leb_u_lt.
    eapply N.lt_trans; [exact Hb|]. vm_compute. reflexivity.
  Qed.
  Lemma enc_u_sub a b : a < 2 ^ 64 -> b < 2 ^ 64 -> (length (enc_u (a + b)) <= length (enc_u a) + length (enc_u b))%nat.
  Proof.
    intros Ha Hb. unfold enc_u. pose proof (leb_u_one 9 a) as L1. pose proof (leb_u_one 9 b) as L2. apply leb_u_len; [lia|].
    assert (H1 : a < 128 ^ N.of_nat (length (leb_u 9 a))) by (apply leb_u_lt; eapply N.lt_trans; [exact Ha|vm_compute; reflexivity]).
    assert (H2 : b < 128 ^ N.of_nat (length (leb_u 9 b))) by (apply leb_u_lt; eapply N.lt_trans; [exact Hb|vm_compute; reflexivity]).
    rewrite Nat2N.inj_add, N.pow_add_r.
    assert (P1 : 128 ^ 1 <= 128 ^ N.of_nat (length (leb_u 9 a))) by (apply N.pow_le_mono_r; lia).
    assert (P2 : 128 ^ 1 <= 128 ^ N.of_nat (length (leb_u 9 b))) by (apply N.pow_le_mono_r; lia).
    change (128 ^ 1) with 128 in *. nia.
  Qed.
  Lemma short_u w : w <= 64 -> Short enc_u (fun n => n < 2 ^ w) (Bu w).
  Proof.
    intros Hw. split.
    - intros a Ha. apply leb_u_ok; [lia|exact Ha].
    - intros a bs HB. eapply Bu_lt; exact HB.
    - intros a bs HB. eapply leb_u_min; exact HB.
  Qed.
End Leb.
Lemma short_u32 : Short enc_u fit_u32 Bu32. Proof. apply short_u. lia. Qed.
Lemma short_u64 : Short enc_u fit_u64 Bu64. Proof. apply short_u. lia. Qed.
Lemma short_idx : Short enc_u fit_u32 Bidx. Proof. apply short_u32. Qed.

Section Sleb.
  Local Open Scope Z_scope.
  Lemma mod_one z : -64 <= z < 64 -> 0 <= z -> z mod 128 = z.
  Proof. intros. apply Z.mod_small. lia. Qed.
  Lemma one_s w z : 1 <= w -> -64 <= z < 64 -> - 2 ^ (w - 1) <= z < 2 ^ (w - 1) -> Bs w z [byte_of (Z.to_N (z mod 128))].
  Proof.
    intros Hw Hz Hr. pose proof (Z.mod_pos_bound z 128 ltac:(lia)) as Hm.
    assert (Hv : Z.of_N (val (byte_of (Z.to_N (z mod 128)))) = z mod 128) by (rewrite val_byte_of by lia; lia).
    destruct (Z.lt_ge_cases z 0) as [H0|H0].
    - assert (E : z mod 128 = z + 128) by (symmetry; apply Z.mod_unique with (q := -1); lia).
      replace z with (Z.of_N (val (byte_of (Z.to_N (z mod 128)))) - 2 ^ 7) at 1 by (rewrite Hv, E; lia).
      apply Bs_neg; rewrite Hv, E; change (2 ^ 6) with 64; change (2 ^ 7) with 128; lia.
    - assert (E : z mod 128 = z) by (apply Z.mod_small; lia).
      replace z with (Z.of_N (val (byte_of (Z.to_N (z mod 128))))) at 1 by (rewrite Hv, E; lia).
      apply Bs_pos; rewrite Hv, E; change (2 ^ 6) with 64; lia.
  Qed.
  Lemma leb_s_ok f : forall w z, 1 <= w <= 7 * Z.of_nat (S f) -> - 2 ^ (w - 1) <= z < 2 ^ (w - 1) -> Bs w z (leb_s f z).
  Proof.
    induction f as [|f IH]; intros w z Hw Hz; cbn [leb_s].
    - assert (2 ^ (w - 1) <= 2 ^ 6) by (apply Z.pow_le_mono_r; lia). change (2 ^ 6) with 64 in *. apply one_s; lia.
    - destruct ((-64 <=? z) && (z <? 64))%bool eqn:Es; [apply one_s; lia|].
      assert (H7 : 7 < w). { apply Z.nle_gt. intros Hle. assert (2 ^ (w - 1) <= 2 ^ 6) by (apply Z.pow_le_mono_r; lia). change (2 ^ 6) with 64 in *. lia. }
      pose proof (Z.mod_pos_bound z 128 ltac:(lia)) as Hm. pose proof (Z.div_mod z 128 ltac:(discriminate)) as Hd.
      assert (Hv : Z.of_N (val (byte_of (128 + Z.to_N (z mod 128)))) = 128 + z mod 128) by (rewrite val_byte_of by lia; lia).
      assert (E : z = 2 ^ 7 * (z / 128) + (Z.of_N (val (byte_of (128 + Z.to_N (z mod 128)))) - 2 ^ 7)) by (rewrite Hv; change (2 ^ 7) with 128; lia).
      assert (Hp : 2 ^ (w - 1) = 128 * 2 ^ (w - 7 - 1)) by (change 128 with (2 ^ 7); rewrite <- Z.pow_add_r by lia; f_equal; lia).
      rewrite E at 1. apply Bs_more; [rewrite Hv; change (2 ^ 7) with 128; lia|lia|]. apply IH; [lia|].
      split; [apply Z.div_le_lower_bound; lia|apply Z.div_lt_upper_bound; lia].
  Qed.
  Lemma Bs_range w z bs : Bs w z bs -> - 2 ^ (w - 1) <= z < 2 ^ (w - 1).
  Proof.
    induction 1 as [w b n H1 H2|w b n H1 H2|w b m bs n H1 H2 _ IH].
    - subst n. assert (0 <= 2 ^ (w - 1)) by (apply Z.pow_nonneg; lia). lia.
    - subst n. change (2 ^ 7) with 128 in *. change (2 ^ 6) with 64 in *. assert (0 <= 2 ^ (w - 1)) by (apply Z.pow_nonneg; lia). lia.
    - subst n. pose proof (Byte.to_N_bounded b) as Hb. fold (val b) in Hb.
      assert (Hp : 2 ^ (w - 1) = 128 * 2 ^ (w - 7 - 1)).
      { destruct (Z.eq_dec (w - 7 - 1) (-1)); [lia|]. change 128 with (2 ^ 7). rewrite <- Z.pow_add_r by lia. f_equal. lia. }
      change (2 ^ 7) with 128 in *. nia.
  Qed.
  Lemma leb_s_min f : forall w z bs, Bs w z bs -> (length (leb_s f z) <= length bs)%nat.
  Proof.
    induction f as [|f IH]; intros w z bs HB; cbn [leb_s].
    - destruct HB; cbn; lia.
    - destruct ((-64 <=? z) && (z <? 64))%bool eqn:Es; [destruct HB; cbn; lia|]. destruct HB as [w b n H1 H2|w b n H1 H2|w b m bs n H1 H2 HB].
      + exfalso. subst n. change (2 ^ 6) with 64 in *. lia.
      + exfalso. subst n. change (2 ^ 6) with 64 in *. change (2 ^ 7) with 128 in *. lia.
      + cbn [length]. subst n. pose proof (Byte.to_N_bounded b) as Hb. fold (val b) in Hb. change (2 ^ 7) with 128 in *.
        replace ((128 * m + (Z.of_N (val b) - 128)) / 128) with m; [specialize (IH _ _ _ HB); lia|].
        apply Z.div_unique with (r := Z.of_N (val b) - 128); lia.
  Qed.
  Lemma short_s w : 1 <= w <= 64 -> Short enc_s (fun z => - 2 ^ (w - 1) <= z < 2 ^ (w - 1)) (Bs w).
  Proof.
    intros Hw. split.
    - intros a Ha. apply leb_s_ok; [lia|exact Ha].
    - intros a bs HB. eapply Bs_range; exact HB.
    - intros a bs HB. eapply leb_s_min; exact HB.
  Qed.
End Sleb.
Lemma short_i32 : Short enc_s fit_i32 Bi32. Proof. apply (short_s 32). lia. Qed.
Lemma short_i64 : Short enc_s fit_i64 Bi64. Proof. apply (short_s 64). lia. Qed.
Lemma short_s33 : Short (fun x => enc_s (Z.of_N x)) fit_u32 (fun x => Bs33 (Z.of_N x)).
Proof.
  destruct (short_s 33 ltac:(lia)) as [H1 H2 H3]. split.
  - intros a Ha. apply H1. unfold fit_u32 in Ha. change (2 ^ (33 - 1))%Z with 4294967296%Z. change (2 ^ 32)%N with 4294967296%N in Ha. lia.
  - intros a bs HB. apply H2 in HB. unfold fit_u32. change (2 ^ (33 - 1))%Z with 4294967296%Z in HB. change (2 ^ 32)%N with 4294967296%N. lia.
  - intros a bs HB. apply H3 in HB. exact HB.
Qed.
(** little-endian words *)
Lemma le_ok k : forall n, (n < 256 ^ N.of_nat k)%N -> length (enc_le k n) = k /\ n = le_value (enc_le k n).
Proof.
  induction k as [|k IH]; intros n Hn; cbn [enc_le length le_value]; [change (256 ^ N.of_nat 0)%N with 1%N in Hn; split; [reflexivity|lia]|].
  pose proof (N.mod_upper_bound n 256 ltac:(discriminate)) as Hm. pose proof (N.div_mod n 256 ltac:(discriminate)) as Hd.
  destruct (IH (n / 256)%N) as [H1 H2].
  { apply N.div_lt_upper_bound; [discriminate|]. rewrite <- N.pow_succ_r'. replace (N.succ (N.of_nat k)) with (N.of_nat (S k)) by lia. exact Hn. }
  split; [f_equal; exact H1|]. rewrite val_byte_of by lia. rewrite <- H2. change (2 ^ 8)%N with 256%N. lia.
Qed.
Lemma le_lt bs : (le_value bs < 256 ^ N.of_nat (length bs))%N.
Proof.
  induction bs as [|b bs IH]; cbn [le_value length]; [reflexivity|]. pose proof (Byte.to_N_bounded b) as Hb. fold (val b) in Hb.
  replace (N.of_nat (S (length bs))) with (N.succ (N.of_nat (length bs))) by lia. rewrite N.pow_succ_r'. change (2 ^ 8)%N with 256%N. nia.
Qed.
Lemma short_f32 : Short (enc_le 4) fit_u32 Bf32.
Proof.
  split.
  - intros a Ha. apply le_ok. exact Ha.
  - intros a bs [Hl ->]. pose proof (le_lt bs) as H. rewrite Hl in H. exact H.
  - intros a bs [Hl ->]. rewrite Hl. cbn. lia.
Qed.
Lemma short_f64 : Short (enc_le 8) fit_u64 Bf64.
Proof.
  split.
  - intros a Ha. apply le_ok. exact Ha.
  - intros a bs [Hl ->]. pose proof (le_lt bs) as H. rewrite Hl in H. exact H.
  - intros a bs [Hl ->]. rewrite Hl. cbn. lia.
Qed.
Lemma short_byte : Short enc_byte (fun _ => True) Bbyte.
Proof. split; [reflexivity|auto|]. intros a bs ->. reflexivity. Qed.
Lemma short_bytes k : Short (fun l => l) (fit_bytes k) (Bbytes k).
Proof. split; [intros a Ha; split; auto|intros a bs [_ H]; exact H|intros a bs [-> _]; lia]. Qed.

(** ** Lists *)
Lemma short_seq {A} enc fit (G : lang A) : Short enc fit G -> Short (flat_map enc) (Forall fit) (Bseq G).
Proof.
  intros [H1 H2 H3]. split.
  - intros l Hl. induction Hl; cbn; constructor; auto.
  - intros l bs HB. induction HB; constructor; eauto.
  - intros l bs HB. induction HB; cbn; [lia|]. rewrite !app_length. specialize (H3 _ _ H). lia.
Qed.
Lemma short_list {A} enc fit (G : lang A) : Short enc fit G -> Short (enc_list enc) (fit_list fit) (Blist G).
Proof.
  intros HS. apply short_seq in HS as [H1 H2 H3]. destruct short_u32 as [U1 U2 U3]. split.
  - intros l [Hn Hl]. constructor; auto.
  - intros l bs HB. destruct HB as [xs b1 b2 HU HB]. split; [eapply U2; exact HU|eauto].
  - intros l bs HB. destruct HB as [xs b1 b2 HU HB]. unfold enc_list. rewrite !app_length. apply U3 in HU. apply H3 in HB. lia.
Qed.
Lemma short_name : Short enc_name fit_name Bname.
Proof.
  destruct (short_list _ _ _ short_byte) as [H1 H2 H3]. split.
  - intros s [Hs HU]. split; auto.
  - intros s bs [HB HU]. split; eauto.
  - intros s bs [HB _]. auto.
Qed.

(** ** Types *)
#[local] Arguments enc_u : simpl never.
#[local] Arguments enc_s : simpl never.
#[local] Arguments enc_le : simpl never.
#[local] Arguments enc_list : simpl never.
#[local] Arguments fit_list : simpl never.
#[local] Arguments sized : simpl never.
Existing Class Short.
#[export] Hint Resolve short_u32 short_u64 short_idx short_i32 short_i64 short_s33 short_f32 short_f64 short_byte short_bytes short_list short_seq short_name : typeclass_instances.
Lemma used {A} {enc fit} {G : lang A} {HS : Short enc fit G} a bs : G a bs -> fit a /\ length (enc a) <= length bs.
Proof. intros HG. split; [exact (sh_fit _ _ _ HS _ _ HG)|exact (sh_min _ _ _ HS _ _ HG)]. Qed.
Lemma encd {A} {enc fit} {G : lang A} {HS : Short enc fit G} a : fit a -> G a (enc a).
Proof. intros Hf. exact (sh_enc _ _ _ HS _ Hf). Qed.
Ltac use1 := match goal with
  | H : Bs33 (Z.of_N ?x) ?bs |- _ => apply (used (HS := short_s33) x bs) in H; cbv beta in H; destruct H
  | H : ?G ?a ?bs |- _ => match type of bs with list byte => apply (used a bs) in H; cbv beta in H; destruct H end
  end.
Ltac use := repeat use1.
Ltac fin := rewrite ?app_length in *; cbn [length] in *; rewrite ?app_length in *; try lia.
Ltac enc1 := first [eassumption | match goal with
  | |- Bs33 (Z.of_N ?x) _ => apply (encd (HS := short_s33) x); assumption
  | |- ?G ?a _ => apply (encd (G := G) a); try assumption end].
Lemma short_abs : Short enc_absheaptype (fun _ => True) Babsheaptype.
Proof. split; [intros [] _; constructor|auto|intros a bs HB; destruct HB; cbn; lia]. Qed.
#[export] Hint Resolve short_abs : typeclass_instances.
Lemma abs_len t : length (enc_absheaptype t) = 1. Proof. destruct t; reflexivity. Qed.
Lemma short_heap : Short enc_heaptype fit_heaptype Bheaptype.
Proof.
  split.
  - intros [t|x] Hf; cbn in *; constructor; enc1; exact I.
  - intros a bs HB; destruct HB; use; cbn; auto.
  - intros a bs HB; destruct HB; use; cbn; auto.
Qed.
#[export] Hint Resolve short_heap : typeclass_instances.
Lemma enc_s_one z : 1 <= length (enc_s z).
Proof. unfold enc_s. cbn [leb_s]. destruct ((-64 <=? z)%Z && (z <? 64)%Z)%bool; cbn; lia. Qed.
Lemma heap_one h : 1 <= length (enc_heaptype h).
Proof. destruct h; [destruct t; cbn; lia|apply enc_s_one]. Qed.
Lemma short_ref : Short enc_reftype fit_reftype Breftype.
Proof.
  split.
  - intros [[|] [t|x]] Hf; cbn in *; first [apply Brt_abs; enc1; exact I|constructor; constructor; enc1; exact I].
  - intros a bs HB; destruct HB; use; cbn; auto.
  - intros a bs HB; destruct HB as [h bs HB|h bs HB|t bs HB]; use; cbn; [destruct h; cbn [length]; cbn in *; fin| |assumption].
    destruct h; cbn in *; fin.
Qed.
#[export] Hint Resolve short_ref : typeclass_instances.
Lemma short_num : Short enc_numtype (fun _ => True) Bnumtype.
Proof. split; [intros [] _; constructor|auto|intros a bs HB; destruct HB; cbn; lia]. Qed.
#[export] Hint Resolve short_num : typeclass_instances.
Lemma short_val : Short enc_valtype fit_valtype Bvaltype.
Proof.
  split.
  - intros [t|[]|t] Hf; cbn in *; [apply Bvt_num; enc1; exact I|apply Bvt_vec; constructor|apply Bvt_ref; enc1].
  - intros a bs HB; destruct HB; cbn; try use; auto.
  - intros a bs HB; destruct HB as [t bs HB|t bs HB|t bs HB]; [use; cbn; auto|destruct HB; cbn; lia|use; cbn; auto].
Qed.
#[export] Hint Resolve short_val : typeclass_instances.
Lemma short_mut : Short enc_mut (fun _ => True) Bmut.
Proof. split; [intros [] _; constructor|auto|intros a bs HB; destruct HB; cbn; lia]. Qed.
#[export] Hint Resolve short_mut : typeclass_instances.
Lemma short_field : Short enc_fieldtype fit_fieldtype Bfieldtype.
Proof.
  split.
  - intros [m [t|[]]] Hf; cbn in Hf; [apply (Bft (ST_Val t) m (enc_valtype t) (enc_mut m)); [apply Bst_val; enc1|enc1; exact I]
      |apply (Bft (ST_Pack PT_I8) m [x78] (enc_mut m)); [apply Bst_pack; constructor|enc1; exact I]
      |apply (Bft (ST_Pack PT_I16) m [x77] (enc_mut m)); [apply Bst_pack; constructor|enc1; exact I]].
  - intros a bs HB; destruct HB as [st m b1 b2 HB HM]. destruct HB as [t bs HB|t bs HB]; cbn; [use|]; auto.
  - intros a bs HB; destruct HB as [st m b1 b2 HB HM]. unfold enc_fieldtype; cbn [ft_type ft_mut]. destruct HB as [t bs HB|t bs HB]; [use; fin|destruct HB; use; cbn in *; lia].
Qed.
#[export] Hint Resolve short_field : typeclass_instances.
Lemma short_comp : Short enc_comptype fit_comptype Bcomptype.
Proof.
  split.
  - intros [fs|f|ps rs] Hf; cbn in *; [| |destruct Hf]; constructor; enc1.
  - intros a bs HB; destruct HB; unfold Bresulttype in *; use; cbn; auto.
  - intros a bs HB; destruct HB; unfold Bresulttype in *; use; cbn; fin.
Qed.
#[export] Hint Resolve short_comp : typeclass_instances.
Lemma short_sub : Short enc_subtype fit_subtype Bsubtype.
Proof.
  split.
  - intros [[|] [|x xs] ct] [H1 H2]; cbn in *; [apply Bsub_short; enc1|..]; constructor; enc1.
  - intros a bs HB; destruct HB; use; split; cbn; auto. split; [cbn; lia|constructor].
  - intros a bs HB; destruct HB as [xs ct b1 b2 H1 H2|xs ct b1 b2 H1 H2|ct bs H1]; use; cbn; fin. destruct xs; cbn; fin.
Qed.
#[export] Hint Resolve short_sub : typeclass_instances.
Lemma short_rec : Short enc_rectype fit_rectype Brectype.
Proof.
  split.
  - intros [|st [|st2 sts]] Hf; cbn in *; [constructor; enc1|apply Brec_short|constructor; enc1].
    destruct Hf as [_ Hf]. inversion Hf; subst. enc1.
  - intros a bs HB; destruct HB; use; cbn; auto. split; [cbn; lia|auto].
  - intros a bs HB; destruct HB as [sts bs HB|st bs HB]; [use|use; cbn; auto].
    destruct sts as [|st [|st2 sts]]; [cbn [enc_rectype]; fin| |cbn [enc_rectype]; fin]. cbn [enc_rectype]. unfold enc_list in *. cbn [flat_map length] in *. fin.
Qed.
#[export] Hint Resolve short_rec : typeclass_instances.
Lemma short_limits : Short enc_limits fit_limits Blimits.
Proof.
  split.
  - intros [[] n [m|]] [H1 H2]; cbn in *; constructor; enc1.
  - intros a bs HB; destruct HB; use; split; cbn; auto.
  - intros a bs HB; destruct HB; use; cbn; fin.
Qed.
Lemma short_tag : Short enc_tagtype fit_tagtype Btagtype.
Proof.
  split.
  - intros [x] H1; constructor; enc1.
  - intros a bs HB; destruct HB; use; cbn; auto.
  - intros a bs HB; destruct HB; use; cbn; fin.
Qed.
Lemma short_globaltype : Short enc_globaltype fit_globaltype Bglobaltype.
Proof.
  split.
  - intros [m t] H1; constructor; enc1. exact I.
  - intros a bs HB; destruct HB; use; cbn; auto.
  - intros a bs HB; destruct HB; use; unfold enc_globaltype; cbn; fin.
Qed.
#[export] Hint Resolve short_limits short_tag short_globaltype : typeclass_instances.
Lemma short_mem : Short enc_memtype fit_memtype Bmemtype.
Proof.
  split.
  - intros [x] H1; constructor; exact (encd (G := Blimits) x H1).
  - intros a bs HB; destruct HB; use; assumption.
  - intros a bs HB; destruct HB; use; assumption.
Qed.
Lemma short_tabletype : Short enc_tabletype fit_tabletype Btabletype.
Proof.
  split.
  - intros [m t] [H1 H2]; constructor; enc1.
  - intros a bs HB; destruct HB; use; split; cbn; auto.
  - intros a bs HB; destruct HB; use; unfold enc_tabletype; cbn; fin.
Qed.
#[export] Hint Resolve short_mem short_tabletype : typeclass_instances.
Lemma short_extern : Short enc_externtype fit_externtype Bexterntype.
Proof.
  split.
  - intros [x|t|t|t|t] H1; cbn in *; constructor; enc1.
  - intros a bs HB; destruct HB; use; cbn; auto.
  - intros a bs HB; destruct HB; use; cbn [enc_externtype]; fin.
Qed.
#[export] Hint Resolve short_extern : typeclass_instances.

(** ** Instructions *)
Lemma short_memarg : Short enc_memarg fit_memarg Bmemarg.
Proof.
  split.
  - intros [x a o] (H1 & H2 & H3); unfold enc_memarg; cbn in *. destruct (N.eqb_spec x 0) as [->|Hx].
    + constructor; [enc1; unfold fit_u32; lia|exact H2|enc1].
    + replace a with (64 + a - 2 ^ 6)%N at 1 by (change (2 ^ 6)%N with 64%N; lia). constructor; [enc1; unfold fit_u32; lia|change (2 ^ 6)%N with 64%N; change (2 ^ 7)%N with 128%N; lia|enc1|enc1].
  - intros a bs HB; destruct HB; use; unfold fit_memarg; cbn [ma_mem ma_align ma_offset]; change (2 ^ 6)%N with 64%N in *; change (2 ^ 7)%N with 128%N in *; repeat split; auto; unfold fit_u32; lia.
  - intros a bs HB; destruct HB as [n m b1 b2 H1 H2 H3|n x m b1 b2 b3 H1 H2 H3 H4]; unfold enc_memarg; cbn [ma_mem ma_align ma_offset].
    + cbn [N.eqb]. use. fin.
    + change (2 ^ 6)%N with 64%N in *. change (2 ^ 7)%N with 128%N in *. use. destruct (N.eqb_spec x 0) as [->|Hx]; fin.
      * assert (length (enc_u (n - 64)) <= length (enc_u n)) by (apply enc_u_mono; lia). lia.
      * replace (64 + (n - 64))%N with n by lia. lia.
Qed.
Lemma short_blocktype : Short enc_blocktype fit_blocktype Bblocktype.
Proof.
  split.
  - intros [|t|x] Hf; constructor; enc1.
  - intros a bs HB; destruct HB; use; first [assumption|exact I].
  - intros a bs HB; destruct HB; use; first [assumption|cbn; lia].
Qed.
Lemma short_catch : Short enc_catch fit_catch Bcatch.
Proof.
  split.
  - intros [x l|x l|l|l] Hf; cbn in Hf; try match type of Hf with _ /\ _ => destruct Hf end; constructor; enc1.
  - intros a bs HB; destruct HB; use; cbn; auto.
  - intros a bs HB; destruct HB; use; cbn; fin.
Qed.
Lemma short_castop : Short (fun p => enc_castop (fst p) (snd p)) (fun _ => True) Bcastop.
Proof. split; [intros [[] []] _; constructor|auto|intros a bs HB; destruct HB; cbn; lia]. Qed.
#[export] Hint Resolve short_memarg short_blocktype short_catch short_castop : typeclass_instances.

(** opcode tables *)
Fixpoint look {A} (n : N) (l : list (N * A)) : option A := match l with [] => None | (k, x) :: l => if (n =? k)%N then Some x else look n l end.
Lemma look_in {A} n (l : list (N * A)) x : look n l = Some x -> In (n, x) l.
Proof. induction l as [|[k y] l IH]; cbn; [discriminate|]. destruct (N.eqb_spec n k) as [->|]; [intros [= ->]; auto|auto]. Qed.
Definition entry (k : nat) (X : lang instr) : Prop := forall i bs, X i bs -> fit_instr i /\ length (enc_instr i) <= k + length bs.
Lemma e0 k i : fit_instr i -> length (enc_instr i) <= k -> entry k (imm0 i).
Proof. intros H1 H2 i' bs [-> ->]. cbn. split; [exact H1|lia]. Qed.
Lemma e1 k {A} (f : A -> instr) X enc fit : Short enc fit X ->
  (forall a, fit a -> fit_instr (f a)) -> (forall a, length (enc_instr (f a)) <= k + length (enc a)) -> entry k (imm1 f X).
Proof. intros HS H1 H2 i bs HX. destruct HX as [a bs HX]. use. split; [auto|]. specialize (H2 a). lia. Qed.
Lemma e2 k {A B} (f : A -> B -> instr) X Y encx encY fitx fitY : Short encx fitx X -> Short encY fitY Y ->
  (forall a b, fitx a -> fitY b -> fit_instr (f a b)) -> (forall a b, length (enc_instr (f a b)) <= k + length (encx a) + length (encY b)) -> entry k (imm2 f X Y).
Proof. intros HX HY H1 H2 i bs HB. destruct HB as [a b b1 b2 H3 H4]. use. split; [auto|]. specialize (H2 a b). fin. Qed.
Lemma e3 k f : (forall l t1 t2, fit_u32 l -> fit_reftype t1 -> fit_reftype t2 -> fit_instr (f l t1 t2)) ->
  (forall l t1 t2, length (enc_instr (f l t1 t2)) <= k + 1 + length (enc_u l) + length (enc_heaptype (ht t1)) + length (enc_heaptype (ht t2))) -> entry k (Bbr_on_cast f).
Proof.
  intros H1 H2 i bs HB. destruct HB as [n1 n2 l h1 h2 b1 b2 b3 b4 H3 H4 H5 H6]. assert (length b1 = 1) by (destruct H3; reflexivity). clear H3. use. split; [apply H1; assumption|].
  specialize (H2 l (mkRefType n1 h1) (mkRefType n2 h2)). cbn [ht] in *. fin.
Qed.
Lemma len_fb n : length (fb n) = S (length (enc_u n)). Proof. reflexivity. Qed.
Lemma len_fc n : length (fc n) = S (length (enc_u n)). Proof. reflexivity. Qed.
Lemma len_fd n : length (fd n) = S (length (enc_u n)). Proof. reflexivity. Qed.
Lemma len_castop a b : length (enc_castop a b) = 1. Proof. destruct a, b; reflexivity. Qed.
Ltac len := cbn [enc_instr]; rewrite ?app_length, ?len_fb, ?len_fc, ?len_fd, ?len_castop; cbn [length nullable ht]; try lia.
Ltac entry1 := cbn [fst snd];
  first [ apply e0; [exact I|len]
        | eapply e1; [typeclasses eauto|intros a Ha; exact Ha|intros a; len]
        | eapply e1; [typeclasses eauto|intros a Ha; exact I|intros a; len]
        | eapply e2; [typeclasses eauto|typeclasses eauto|intros a b Ha Hb; first [exact (conj Ha Hb)|exact Ha]|intros a b; len]
        | apply e3; [intros; cbn; auto|intros; len] ].
Lemma entries_in (k : N -> nat) tbl : Forall (fun p => entry (k (fst p)) (snd p)) tbl -> forall n X, In (n, X) tbl -> entry (k n) X.
Proof. intros HF n X HI. rewrite Forall_forall in HF. exact (HF _ HI). Qed.
Lemma entry_ops n X : In (n, X) ops -> entry 1 X.
Proof. apply (entries_in (fun _ => 1)). unfold ops. cbn [map run app]. repeat (constructor; [entry1|]). apply Forall_nil. Qed.
Lemma entry_fb n X : In (n, X) ops_fb -> entry (S (length (enc_u n))) X.
Proof. apply (entries_in (fun n => S (length (enc_u n)))). unfold ops_fb. cbn [map run app N.succ Pos.succ]. repeat (constructor; [entry1|]). constructor. Qed.
Lemma entry_fc n X : In (n, X) ops_fc -> entry (S (length (enc_u n))) X.
Proof. apply (entries_in (fun n => S (length (enc_u n)))). unfold ops_fc. cbn [map run app N.succ Pos.succ]. repeat (constructor; [entry1|]). constructor. Qed.
Lemma entry_fd n X : In (n, X) ops_fd -> entry (S (length (enc_u n))) X.
Proof. apply (entries_in (fun n => S (length (enc_u n)))). unfold ops_fd. cbn [map run app N.succ Pos.succ]. repeat (constructor; [entry1|]). constructor. Qed.

Lemma every_Forall {A} (P : A -> Prop) l : every P l <-> Forall P l.
Proof. induction l as [|x l IH]; cbn; split; intros HF; auto; [destruct HF; constructor; tauto|inversion HF; subst; tauto]. Qed.
Lemma instrs_used :
  (forall i bs, Binstr i bs -> fit_instr i /\ length (enc_instr i) <= length bs) /\
  (forall is bs, Binstrs is bs -> every fit_instr is /\ length (flat_map enc_instr is) <= length bs).
Proof.
  apply Binstr_Binstrs_ind.
  - intros b X i bs HI HX. apply entry_ops in HI. apply HI in HX as [HX1 HX2]. split; [exact HX1|fin].
  - intros n X i b1 b2 Hn HI HX. apply entry_fb in HI. apply HI in HX as [HX1 HX2]. split; [exact HX1|use; fin].
  - intros n X i b1 b2 Hn HI HX. apply entry_fc in HI. apply HI in HX as [HX1 HX2]. split; [exact HX1|use; fin].
  - intros n X i b1 b2 Hn HI HX. apply entry_fd in HI. apply HI in HX as [HX1 HX2]. split; [exact HX1|use; fin].
  - intros bt is b1 b2 Hb _ [H1 H2]. use. cbn [enc_instr fit_instr]. split; [auto|fin].
  - intros bt is b1 b2 Hb _ [H1 H2]. use. cbn [enc_instr fit_instr]. split; [auto|fin].
  - intros bt is b1 b2 Hb _ [H1 H2]. use. cbn [enc_instr fit_instr]. split; [auto|fin].
  - intros bt is1 is2 b1 b2 b3 Hb _ [H1 H2] _ [H3 H4]. use. cbn [enc_instr fit_instr]. split; [auto|fin].
  - intros bt cs is b1 b2 b3 Hb Hc _ [H1 H2]. use. cbn [enc_instr fit_instr]. split; [auto|fin].
  - cbn. auto.
  - intros i is b1 b2 _ [H1 H2] _ [H3 H4]. cbn [every flat_map]. split; [auto|fin].
Qed.
Definition prefix (pre : list byte) (tbl : list (N * lang instr)) (n : N) : Prop := forall X i bs, In (n, X) tbl -> X i bs -> Binstr i (pre ++ bs).
Lemma prefix_op b : prefix [b] ops (val b).
Proof. intros X i bs. apply BI_op. Qed.
Lemma prefix_fb n : (n <? 2 ^ 32)%N = true -> prefix (fb n) ops_fb n.
Proof. intros Hn X i bs HI HX. apply (BI_fb n X i (enc_u n)); [enc1; unfold fit_u32; lia|assumption..]. Qed.
Lemma prefix_fc n : (n <? 2 ^ 32)%N = true -> prefix (fc n) ops_fc n.
Proof. intros Hn X i bs HI HX. apply (BI_fc n X i (enc_u n)); [enc1; unfold fit_u32; lia|assumption..]. Qed.
Lemma prefix_fd n : (n <? 2 ^ 32)%N = true -> prefix (fd n) ops_fd n.
Proof. intros Hn X i bs HI HX. apply (BI_fd n X i (enc_u n)); [enc1; unfold fit_u32; lia|assumption..]. Qed.
Lemma g0 {pre tbl n i} : prefix pre tbl n -> look n tbl = Some (imm0 i) -> Binstr i pre.
Proof. intros HP HL. rewrite <- (app_nil_r pre). apply (HP _ i [] (look_in _ _ _ HL)). split; reflexivity. Qed.
Lemma g1 {A} {pre tbl n} (f : A -> instr) {X a bs} : prefix pre tbl n -> look n tbl = Some (imm1 f X) -> X a bs -> Binstr (f a) (pre ++ bs).
Proof. intros HP HL HX. apply (HP _ _ _ (look_in _ _ _ HL)). constructor. exact HX. Qed.
Lemma g2 {A B} {pre tbl n} (f : A -> B -> instr) {X Y a b b1 b2} : prefix pre tbl n -> look n tbl = Some (imm2 f X Y) -> X a b1 -> Y b b2 -> Binstr (f a b) (pre ++ b1 ++ b2).
Proof. intros HP HL HX HY. apply (HP _ _ _ (look_in _ _ _ HL)). constructor; assumption. Qed.
Ltac pre := first [apply prefix_op|apply prefix_fb; reflexivity|apply prefix_fc; reflexivity|apply prefix_fd; reflexivity].
Ltac known := first [assumption|exact I].
Ltac enc2 := match goal with |- ?G ?a _ => refine (encd (G := G) a _); known end.
Ltac leaf := cbn [enc_instr]; match goal with
  | Hf : fit_instr ?i |- Binstr ?i ?bs => cbn [fit_instr] in Hf; try match type of Hf with _ /\ _ => destruct Hf end;
     lazymatch bs with
     | _ ++ _ ++ _ => first [eapply (g2 _); [pre|reflexivity|enc2|enc2]
         | match i with ?c ?x ?y => eapply (g2 (fun y x => c x y)); [pre|reflexivity|enc2|enc2] end]
     | _ ++ _ => eapply (g1 _); [pre|reflexivity|enc2]
     | _ => eapply g0; [pre|reflexivity]
     end end.
Lemma enc_ok : forall i, fit_instr i -> Binstr i (enc_instr i).
Proof.
  fix IH 1.
  assert (IHs : forall is, every fit_instr is -> Binstrs is (flat_map enc_instr is)).
  { fix IHs 1. intros [|i is] Hf; cbn [flat_map]; constructor; [apply IH|apply IHs]; apply Hf. }
  intros i Hf. destruct i.
  all: try solve [clear IH IHs; leaf].
  - destruct Hf as [H1 H2]. cbn [enc_instr]. apply BI_block; [enc1|apply IHs; exact H2].
  - destruct Hf as [H1 H2]. cbn [enc_instr]. apply BI_loop; [enc1|apply IHs; exact H2].
  - destruct o as [is2|]; destruct Hf as (H1 & H2 & H3); cbn [enc_instr]; [apply BI_if_else; [enc1|apply IHs; exact H2|apply IHs; exact H3]|apply BI_if; [enc1|apply IHs; exact H2]].
  - clear IH IHs. destruct Hf as (H1 & H2 & H3). destruct r as [n1 h1], r0 as [n2 h2]. cbn [enc_instr nullable ht].
    eapply (prefix_fb 24 eq_refl); [apply look_in; reflexivity|]. constructor; [exact (encd (G := Bcastop) (n1, n2) I)|enc1..].
  - clear IH IHs. destruct Hf as (H1 & H2 & H3). destruct r as [n1 h1], r0 as [n2 h2]. cbn [enc_instr nullable ht].
    eapply (prefix_fb 25 eq_refl); [apply look_in; reflexivity|]. constructor; [exact (encd (G := Bcastop) (n1, n2) I)|enc1..].
  - destruct Hf as (H1 & H2 & H3). cbn [enc_instr]. apply BI_try_table; [enc1|enc1|apply IHs; exact H3].
  - clear IH IHs. destruct r as [[|] h]; cbn [enc_instr nullable ht]; [eapply (g1 (fun h => I_RefTest (mkRefType true h)))|eapply (g1 (fun h => I_RefTest (mkRefType false h)))]; [pre|reflexivity|enc1|pre|reflexivity|enc1].
  - clear IH IHs. destruct r as [[|] h]; cbn [enc_instr nullable ht]; [eapply (g1 (fun h => I_RefCast (mkRefType true h)))|eapply (g1 (fun h => I_RefCast (mkRefType false h)))]; [pre|reflexivity|enc1|pre|reflexivity|enc1].
  - clear IH IHs. destruct o as [ts|]; cbn [enc_instr]; [eapply (g1 (fun t => I_Select (Some t))); [pre|reflexivity|enc1]|eapply g0; [pre|reflexivity]].
Qed.
Lemma short_instr : Short enc_instr fit_instr Binstr.
Proof. split; [exact enc_ok|intros a bs HB; apply (proj1 instrs_used _ _ HB)|intros a bs HB; apply (proj1 instrs_used _ _ HB)]. Qed.
Lemma short_instrs : Short (flat_map enc_instr) (Forall fit_instr) Binstrs.
Proof.
  split.
  - intros is Hf. induction Hf; cbn [flat_map]; constructor; [apply enc_ok|]; assumption.
  - intros a bs HB. apply every_Forall. apply (proj2 instrs_used _ _ HB).
  - intros a bs HB. apply (proj2 instrs_used _ _ HB).
Qed.
#[export] Hint Resolve short_instr short_instrs : typeclass_instances.
Lemma short_expr : Short enc_expr fit_expr Bexpr.
Proof.
  split.
  - intros e Hf. constructor. exact (encd (G := Binstrs) e Hf).
  - intros a bs HB. destruct HB. use. assumption.
  - intros a bs HB. destruct HB. use. unfold enc_expr. fin.
Qed.
#[export] Hint Resolve short_expr : typeclass_instances.
