(** Every value in range has an encoding, of bounded length. *)
From Verif Require Import Model.Prelude Model.Ast.
From Verif Require Import Spec.Lang.
From Coq Require Import Lia.
Local Open Scope N_scope.

Lemma val_byte n : n < 256 -> exists b, val b = n.
Proof.
  intros Hn. unfold val. destruct (Byte.of_N n) as [b|] eqn:Hb; [exists b; apply Byte.to_of_N; exact Hb|].
  apply Byte.of_N_None_iff in Hb. lia.
Qed.

Lemma Bu_exists k : forall w n, w <= 7 * N.of_nat (S k) -> n < 2 ^ w -> exists bs, Bu w n bs /\ (1 <= length bs <= S k)%nat.
Proof.
  induction k as [|k IH]; intros w n Hw Hn.
  - assert (n < 2 ^ 7) by (eapply N.lt_le_trans; [exact Hn|apply N.pow_le_mono_r; lia]).
    destruct (val_byte n) as [b Hb]; [change 256 with (2 * 2 ^ 7); lia|]. subst n. exists [b]. split; [constructor; assumption|cbn; lia].
  - destruct (N.lt_ge_cases n (2 ^ 7)) as [Hs|Hs].
    + destruct (val_byte n) as [b Hb]; [change 256 with (2 * 2 ^ 7); lia|]. subst n. exists [b]. split; [constructor; assumption|cbn; lia].
    + assert (H7 : 7 < w). { apply N.nle_gt. intros Hle. assert (2 ^ w <= 2 ^ 7) by (apply N.pow_le_mono_r; lia). lia. }
      pose proof (N.mod_upper_bound n (2 ^ 7) ltac:(discriminate)) as Hm. pose proof (N.div_mod n (2 ^ 7) ltac:(discriminate)) as Hd.
      destruct (IH (w - 7) (n / 2 ^ 7)) as (bs & HB & Hl); [lia|apply N.div_lt_upper_bound; [discriminate|]; rewrite <- N.pow_add_r; replace (7 + (w - 7)) with w by lia; exact Hn|].
      destruct (val_byte (2 ^ 7 + n mod 2 ^ 7)) as [b Hb]; [change 256 with (2 * 2 ^ 7); lia|].
      exists (b :: bs). split; [|cbn [length]; lia].
      assert (E : n = 2 ^ 7 * (n / 2 ^ 7) + (val b - 2 ^ 7)) by (rewrite Hb, (N.add_comm (2 ^ 7) (n mod 2 ^ 7)), N.add_sub; exact Hd). rewrite E at 1. apply Bu_more; [rewrite Hb; apply N.le_add_r|exact H7|exact HB].
Qed.
Lemma u32_exists n : n < 2 ^ 32 -> exists bs, Bu32 n bs /\ (1 <= length bs <= 5)%nat.
Proof. apply (Bu_exists 4). lia. Qed.
Lemma u64_exists n : n < 2 ^ 64 -> exists bs, Bu64 n bs /\ (1 <= length bs <= 10)%nat.
Proof. apply (Bu_exists 9). lia. Qed.
(** one byte suffices below 128 *)
Lemma u32_byte n : n < 128 -> exists b, val b = n /\ Bu32 n [b].
Proof. intros Hn. destruct (val_byte n) as [b Hb]; [lia|]. exists b. split; [exact Hb|]. rewrite <- Hb. apply (Bu_last 32); rewrite Hb; [exact Hn|]. change (2 ^ 32) with 4294967296. lia. Qed.

Local Open Scope Z_scope.
Lemma Bs_exists k : forall w n, 1 <= w <= 7 * Z.of_nat (S k) -> - 2 ^ (w - 1) <= n < 2 ^ (w - 1) -> exists bs, Bs w n bs /\ (1 <= length bs <= S k)%nat.
Proof.
  assert (short : forall w n, 1 <= w -> - 2 ^ (w - 1) <= n < 2 ^ (w - 1) -> - 2 ^ 6 <= n < 2 ^ 6 -> exists b, Bs w n [b]).
  { intros w n Hw Hn Hs. destruct (Z.lt_ge_cases n 0) as [H0|H0].
    - destruct (val_byte (Z.to_N (n + 2 ^ 7))) as [b Hb]; [change (2 ^ 7) with 128; change (2 ^ 6) with 64 in *; lia|]. exists b.
      assert (Hv : Z.of_N (val b) = n + 2 ^ 7) by (rewrite Hb, Z2N.id; [reflexivity|change (2 ^ 7) with 128; change (2 ^ 6) with 64 in *; lia]).
      replace n with (Z.of_N (val b) - 2 ^ 7) by lia. apply Bs_neg; rewrite Hv; change (2 ^ 7) with 128 in *; change (2 ^ 6) with 64 in *; lia.
    - destruct (val_byte (Z.to_N n)) as [b Hb]; [change (2 ^ 6) with 64 in *; lia|]. exists b.
      assert (Hv : Z.of_N (val b) = n) by (rewrite Hb, Z2N.id; [reflexivity|lia]).
      rewrite <- Hv. apply Bs_pos; rewrite Hv; lia. }
  induction k as [|k IH]; intros w n Hw Hn.
  - assert (2 ^ (w - 1) <= 2 ^ 6) by (apply Z.pow_le_mono_r; lia).
    destruct (short w n) as [b HB]; [lia..|]. exists [b]. split; [exact HB|cbn; lia].
  - destruct (Z.lt_ge_cases n (2 ^ 6)) as [H1|H1]; [destruct (Z.lt_ge_cases n (- 2 ^ 6)) as [H2|H2]|].
    2: { destruct (short w n) as [b HB]; [lia..|]. exists [b]. split; [exact HB|cbn; lia]. }
    all: assert (H7 : 7 < w) by (apply Z.nle_gt; intros Hle; assert (2 ^ (w - 1) <= 2 ^ 6) by (apply Z.pow_le_mono_r; lia); lia).
    all: pose proof (Z.mod_pos_bound n (2 ^ 7) ltac:(reflexivity)) as Hm; pose proof (Z.div_mod n (2 ^ 7) ltac:(discriminate)) as Hd.
    all: assert (Hp : 2 ^ (w - 1) = 2 ^ 7 * 2 ^ (w - 7 - 1)) by (rewrite <- Z.pow_add_r by lia; f_equal; lia).
    all: destruct (IH (w - 7) (n / 2 ^ 7)) as (bs & HB & Hl);
      [lia|split; [apply Z.div_le_lower_bound; [reflexivity|lia]|apply Z.div_lt_upper_bound; [reflexivity|lia]]|].
    all: destruct (val_byte (Z.to_N (2 ^ 7 + n mod 2 ^ 7))) as [b Hb]; [change (2 ^ 7) with 128 in *; lia|].
    all: assert (Hv : Z.of_N (val b) = 2 ^ 7 + n mod 2 ^ 7) by (rewrite Hb, Z2N.id; [reflexivity|change (2 ^ 7) with 128 in *; lia]).
    all: exists (b :: bs); split; [|cbn [length]; lia].
    all: assert (EQ : n = 2 ^ 7 * (n / 2 ^ 7) + (Z.of_N (val b) - 2 ^ 7)) by (rewrite Hv; lia); rewrite EQ at 1; apply Bs_more; [rewrite Hv; lia|lia|exact HB].
Qed.
Lemma s33_exists n : - 2 ^ 32 <= n < 2 ^ 32 -> exists bs, Bs33 n bs /\ (1 <= length bs <= 5)%nat.
Proof. intros Hn. apply (Bs_exists 4 33 n); [lia|exact Hn]. Qed.
Lemma i32_exists n : - 2 ^ 31 <= n < 2 ^ 31 -> exists bs, Bi32 n bs /\ (1 <= length bs <= 5)%nat.
Proof. intros Hn. apply (Bs_exists 4 32 n); [lia|exact Hn]. Qed.
Lemma i64_exists n : - 2 ^ 63 <= n < 2 ^ 63 -> exists bs, Bi64 n bs /\ (1 <= length bs <= 10)%nat.
Proof. intros Hn. apply (Bs_exists 9 64 n); [lia|exact Hn]. Qed.
