(** C03-C07, C11: integer and float immediates. *)
From Verif Require Import Model.Prelude Model.Io Model.Ast Model.Errors Model.Integer Model.Helpers.
From Verif Require Import Spec.Lang Spec.Streams Spec.Leb.
From Verif Require Import Proofs.Machine Proofs.Leb Proofs.GHelpers Proofs.Safe Proofs.SafeWalk Proofs.Final Proofs.FinalInt.

(** Every byte string falls under exactly one clause of [leb_outcomes]. *)
Theorem leb_outcomes_exhaustive k bs :
  (exists cs b rest, bs = cs ++ b :: rest /\ Forall continues cs /\ length cs < k /\ ~ continues b)
  \/ (exists cs rest, bs = cs ++ rest /\ Forall continues cs /\ length cs = k)
  \/ (Forall continues bs /\ length bs < k).
Proof. exact (leb_cases k bs). Qed.

(** ** C03 *)
Theorem C03_u32_exact : decodes (fun _ => decode_u32) Bu32.
Proof. eapply decodes_of; intros env; [apply parses_u32|apply safe_u32]. Qed.
Theorem C03_u32_outcomes :
  leb_outcomes 5 decode_u32
    (fun bs => let v := leb_unsigned bs in fits (unsigned_fits 32 v) v U32_TooLarge)
    U32_RepresentationTooLong U32_Io.
Proof. exact u32_outcomes. Qed.
Example C03_max : Bu32 4294967295%N [xff; xff; xff; xff; x0f] /\ decode_u32 [xff; xff; xff; xff; x0f; x2a] = (Ok 4294967295%N, [x2a]).
Proof.
  split; [|vm_compute; reflexivity]. unfold Bu32.
  apply (Bu_more 32 xff 33554431); [vm_compute; congruence|reflexivity|].
  apply (Bu_more 25 xff 262143); [vm_compute; congruence|reflexivity|].
  apply (Bu_more 18 xff 2047); [vm_compute; congruence|reflexivity|].
  apply (Bu_more 11 xff 15); [vm_compute; congruence|reflexivity|].
  apply (Bu_last 4 x0f); reflexivity.
Qed.
Example C03_padded : decode_u32 [x80; x80; x80; x80; x00] = (Ok 0%N, []).
Proof. vm_compute. reflexivity. Qed.
Example C03_too_large : decode_u32 [xff; xff; xff; xff; x1f] = (Err U32_TooLarge, []).
Proof. vm_compute. reflexivity. Qed.
Example C03_too_long : decode_u32 [x80; x80; x80; x80; x80; x00] = (Err U32_RepresentationTooLong, [x00]).
Proof. vm_compute. reflexivity. Qed.
Example C03_early_end : decode_u32 [x80] = (Err (U32_Io UnexpectedEof), []).
Proof. vm_compute. reflexivity. Qed.

(** ** C04 *)
Theorem C04_u64_exact : decodes (fun _ => decode_u64) Bu64.
Proof. eapply decodes_of; intros env; [apply parses_u64|apply safe_u64]. Qed.
Theorem C04_u64_outcomes :
  leb_outcomes 10 decode_u64
    (fun bs => let v := leb_unsigned bs in fits (unsigned_fits 64 v) v U64_TooLarge)
    U64_RepresentationTooLong U64_Io.
Proof. exact u64_outcomes. Qed.
Example C04_max : decode_u64 [xff; xff; xff; xff; xff; xff; xff; xff; xff; x01] = (Ok (2 ^ 64 - 1)%N, []).
Proof. vm_compute. reflexivity. Qed.
Example C04_too_large : decode_u64 [xff; xff; xff; xff; xff; xff; xff; xff; xff; x02] = (Err U64_TooLarge, []).
Proof. vm_compute. reflexivity. Qed.

(** ** C05 *)
Theorem C05_i32_exact : decodes (fun _ => decode_i32) Bi32.
Proof. eapply decodes_of; intros env; [apply parses_i32|apply safe_i32]. Qed.
Theorem C05_i32_outcomes :
  leb_outcomes 5 decode_i32
    (fun bs => let v := leb_signed bs in fits (signed_fits 32 v) v I32_TooLarge)
    I32_RepresentationTooLong I32_Io.
Proof. exact i32_outcomes. Qed.
Example C05_min : decode_i32 [x80; x80; x80; x80; x78] = (Ok (- 2 ^ 31)%Z, []).
Proof. vm_compute. reflexivity. Qed.
Example C05_below_min : decode_i32 [xff; xff; xff; xff; x77] = (Err I32_TooLarge, []).
Proof. vm_compute. reflexivity. Qed.

(** ** C06 *)
Theorem C06_i64_exact : decodes (fun _ => decode_i64) Bi64.
Proof. eapply decodes_of; intros env; [apply parses_i64|apply safe_i64]. Qed.
Theorem C06_i64_outcomes :
  leb_outcomes 10 decode_i64
    (fun bs => let v := leb_signed bs in fits (signed_fits 64 v) v I64_IncorrectSignExtension)
    I64_RepresentationTooLong I64_Io.
Proof. exact i64_outcomes. Qed.
(** in the tenth byte only 0x00 and 0x7F are possible *)
Theorem C06_tenth_byte cs b rest : Forall continues cs -> length cs = 9 -> ~ continues b ->
  ((exists v, decode_i64 (cs ++ b :: rest) = (Ok v, rest)) <-> b = x00 \/ b = x7f).
Proof. exact (i64_tenth_byte cs b rest). Qed.
Example C06_min : decode_i64 [x80; x80; x80; x80; x80; x80; x80; x80; x80; x7f] = (Ok (- 2 ^ 63)%Z, []).
Proof. vm_compute. reflexivity. Qed.
Example C06_bad_sign : decode_i64 [x80; x80; x80; x80; x80; x80; x80; x80; x80; x7e] = (Err I64_IncorrectSignExtension, []).
Proof. vm_compute. reflexivity. Qed.

(** ** C07 *)
Theorem C07_s33_exact : decodes (fun _ => decode_s33) Bs33.
Proof. eapply decodes_of; intros env; [apply parses_s33|apply safe_s33]. Qed.
Theorem C07_s33_outcomes :
  leb_outcomes 5 decode_s33
    (fun bs => let v := leb_signed bs in fits (signed_fits 33 v) v S33_IncorrectSignExtension)
    S33_RepresentationTooLong S33_Io.
Proof. exact s33_outcomes. Qed.
Theorem C07_range v bs : Bs33 v bs -> (- 2 ^ 32 <= v < 2 ^ 32)%Z.
Proof. exact (Bs_range 33 v bs eq_refl). Qed.
Example C07_min : decode_s33 [x80; x80; x80; x80; x70] = (Ok (- 2 ^ 32)%Z, []).
Proof. vm_compute. reflexivity. Qed.
Example C07_max : decode_s33 [xff; xff; xff; xff; x0f] = (Ok (2 ^ 32 - 1)%Z, []).
Proof. vm_compute. reflexivity. Qed.
Example C07_bad_sign : decode_s33 [xff; xff; xff; xff; x1f] = (Err S33_IncorrectSignExtension, []).
Proof. vm_compute. reflexivity. Qed.

(** ** C11 (the instructions carrying these are in Properties/Instructions.v) *)
Theorem C11_f32_exact : decodes (fun _ => decode_f32) Bf32.
Proof. eapply decodes_of; intros env; [apply parses_f32|apply safe_f32]. Qed.
Theorem C11_f64_exact : decodes (fun _ => decode_f64) Bf64.
Proof. eapply decodes_of; intros env; [apply parses_f64|apply safe_f64]. Qed.
(** nothing is rejected, and no two bit patterns are confused *)
Theorem C11_f32_total b0 b1 b2 b3 rest :
  decode_f32 (b0 :: b1 :: b2 :: b3 :: rest) = (Ok (le_value [b0; b1; b2; b3]), rest).
Proof. exact (f32_total b0 b1 b2 b3 rest). Qed.
Theorem C11_f64_total b0 b1 b2 b3 b4 b5 b6 b7 rest :
  decode_f64 (b0 :: b1 :: b2 :: b3 :: b4 :: b5 :: b6 :: b7 :: rest) = (Ok (le_value [b0; b1; b2; b3; b4; b5; b6; b7]), rest).
Proof. exact (f64_total b0 b1 b2 b3 b4 b5 b6 b7 rest). Qed.
Theorem C11_bits_preserved bs1 bs2 : length bs1 = length bs2 -> le_value bs1 = le_value bs2 -> bs1 = bs2.
Proof. exact (le_value_inj bs1 bs2). Qed.
(** a signalling NaN with a payload *)
Example C11_snan : decode_f32 [x2a; x00; xa0; x7f] = (Ok 0x7FA0002A%N, []).
Proof. vm_compute. reflexivity. Qed.

Print Assumptions leb_outcomes_exhaustive.
Print Assumptions C03_u32_exact.
Print Assumptions C03_u32_outcomes.
Print Assumptions C04_u64_exact.
Print Assumptions C04_u64_outcomes.
Print Assumptions C05_i32_exact.
Print Assumptions C05_i32_outcomes.
Print Assumptions C06_i64_exact.
Print Assumptions C06_i64_outcomes.
Print Assumptions C06_tenth_byte.
Print Assumptions C07_s33_exact.
Print Assumptions C07_s33_outcomes.
Print Assumptions C07_range.
Print Assumptions C11_f32_exact.
Print Assumptions C11_f64_exact.
Print Assumptions C11_f32_total.
Print Assumptions C11_f64_total.
Print Assumptions C11_bits_preserved.
