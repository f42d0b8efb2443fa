(** C54 [==] on decoded modules.  [equal], [module_floats], [same_number] are in
    Spec/Equal.v. *)
From Verif Require Import Model.Prelude Model.Io Model.Ast Model.Errors Model.Module Model.Eq.
From Verif Require Import Spec.Lang Spec.Module Spec.Streams Spec.Layout Spec.Encode Spec.Equal.
From Verif Require Import Proofs.Machine Proofs.Final Proofs.Components Proofs.Equal Proofs.EqualModule Properties.Samples Properties.Modules Properties.Encode.

(** decoded by some process from some stream *)
Definition decoded (m : Module_) : Prop := exists env (evs : list event), fst (@decode_module env _ _ evs) = Ok m.
Lemma decoded_rep m : decoded m -> representable m.
Proof. intros (env & evs & H). apply C45_sound in H as [H _]. exact H. Qed.

(** [==] compares everything bit for bit, except floating-point constants, which
    it compares as numbers *)
Theorem C54_equal m m' : decoded m -> decoded m' -> (module_eq m m' = true <-> equal m m').
Proof. intros D D'. apply equal_iff; apply decoded_rep; assumption. Qed.

Lemma Forall2_refl_iff {A} (P : A -> A -> Prop) l : Forall2 P l l <-> forall c, In c l -> P c c.
Proof.
  induction l as [|a l IH]; [split; [intros _ c []|constructor]|]. split.
  - intros HF. inversion HF; subst. intros c [<-|Hc]; [assumption|]. apply IH; assumption.
  - intros H. constructor; [apply H; left; reflexivity|]. apply IH. intros c Hc. apply H. right. exact Hc.
Qed.
(** decoding the same stream twice gives results that compare equal exactly if
    no constant is a NaN *)
Theorem C54_again env env' (evs : list event) m m' : fst (@decode_module env _ _ evs) = Ok m -> fst (@decode_module env' _ _ evs) = Ok m' ->
  (module_eq m m' = true <-> forall c, In c (module_floats m) -> float_value c <> NaN).
Proof.
  intros H H'. assert (m' = m) as ->.
  { apply module_sound in H as (bs & e & Hc & _ & HB). apply module_sound in H' as (bs' & e' & Hc' & _ & HB'). rewrite Hc in Hc'. injection Hc' as <- <-. exact (C01_unambiguous _ _ _ HB' HB). }
  assert (D : decoded m) by (exists env, evs; exact H). rewrite (C54_equal m m D D). unfold equal, same_number. rewrite Forall2_refl_iff. split.
  - intros [_ HF] c Hc. apply HF. exact Hc.
  - intros HF. split; [reflexivity|]. intros c Hc. repeat split. exact (HF c Hc).
Qed.

(** it is symmetric and transitive, as the contract of [PartialEq] demands *)
Theorem C54_symmetric m m' : decoded m -> decoded m' -> module_eq m m' = module_eq m' m.
Proof.
  intros D D'. assert (HS : forall m m', equal m m' -> equal m' m).
  { intros a b [E HF]. split; [symmetry; exact E|]. induction HF as [|c c' l l' (H1 & H2 & H3) _ IH]; constructor; [|exact IH].
    split; [symmetry; exact H1|]. split; [symmetry; exact H2|]. rewrite <- H2. exact H3. }
  apply Bool.eq_iff_eq_true. rewrite (C54_equal m m' D D'), (C54_equal m' m D' D). split; apply HS.
Qed.
Theorem C54_transitive m1 m2 m3 : decoded m1 -> decoded m2 -> decoded m3 -> module_eq m1 m2 = true -> module_eq m2 m3 = true -> module_eq m1 m3 = true.
Proof.
  intros D1 D2 D3. rewrite (C54_equal _ _ D1 D2), (C54_equal _ _ D2 D3), (C54_equal _ _ D1 D3). intros [E1 F1] [E2 F2]. split; [rewrite E1; exact E2|].
  clear D1 D2 D3 E1 E2. revert F2. generalize (module_floats m3). induction F1 as [|a b l l' (H1 & H2 & H3) _ IH]; intros l3 F2; inversion F2; subst; constructor.
  - match goal with H : same_number b _ |- _ => destruct H as (K1 & K2 & K3) end. split; [rewrite H1; exact K1|]. split; [rewrite H2; exact K2|exact H3].
  - apply IH. assumption.
Qed.

(** if no constant of [m] is a zero, only [m] itself can compare equal to [m] *)
Theorem C54_identity m m' : decoded m -> decoded m' -> (forall c, In c (module_floats m) -> float_value c <> Finite 0) -> module_eq m m' = true -> m = m'.
Proof.
  intros D D' HZ HE. apply (C54_equal _ _ D D') in HE as [ER HF]. apply module_det; [exact ER|].
  pose proof (representable_floats m (decoded_rep m D)) as R. pose proof (representable_floats m' (decoded_rep m' D')) as R'.
  clear ER D D'. revert HF R R' HZ. generalize (module_floats m) (module_floats m'). induction 1 as [|a b l l' HS _ IH]; intros R R' HZ; [reflexivity|].
  inversion R; subst. inversion R'; subst. f_equal.
  - apply same_number_eq; try assumption. apply HZ. left. reflexivity.
  - apply IH; try assumption. intros c Hc. apply HZ. right. exact Hc.
Qed.
(** in particular, without floating-point constants [==] is equality *)
Theorem C54_no_floats m m' : decoded m -> decoded m' -> module_floats m = [] -> (module_eq m m' = true <-> m = m').
Proof.
  intros D D' HN. split.
  - apply C54_identity; try assumption. rewrite HN. intros c [].
  - intros <-. apply (C54_equal m m D D). split; [reflexivity|]. rewrite HN. constructor.
Qed.

(** ** Concrete modules *)
(** one global: (global f32 (f32.const bits)) *)
Definition f32_global (b0 b1 b2 b3 : byte) : list byte := preamble ++ [x06; x09; x01; x7d; x00; x43; b0; b1; b2; b3; x0b].
Definition one := module_in (f32_global x00 x00 x80 x3f).
Definition plus_zero := module_in (f32_global x00 x00 x00 x00).
Definition minus_zero := module_in (f32_global x00 x00 x00 x80).
Definition a_nan := module_in (f32_global x00 x00 xc0 x7f).
Lemma decoded_from (bs : list byte) : fst (@decode_module roomy _ _ bs) = Ok (module_in bs) -> decoded (module_in bs).
Proof. intros H. exists roomy, (plain bs Ends). rewrite <- H. apply C30_slice. apply content_plain. discriminate. Qed.
Example C54_ex_decoded : decoded one /\ decoded plus_zero /\ decoded minus_zero /\ decoded a_nan.
Proof. split; [|split; [|split]]; refine (decoded_from _ _); vm_compute; reflexivity. Qed.
(** a number equals itself, the zeros are equal but not identical *)
Example C54_ex_numbers : module_eq one one = true /\ module_floats one = [Single 0x3f800000%N] /\ float_value (Single 0x3f800000%N) = Finite (2 ^ 149) /\
  module_eq plus_zero minus_zero = true /\ plus_zero <> minus_zero /\ module_eq one plus_zero = false.
Proof. vm_compute. repeat split; discriminate. Qed.
(** REFUTED: two decodings of the same bytes compare equal *)
Example C54_nan : fst (@decode_module roomy _ _ (f32_global x00 x00 xc0 x7f)) = Ok a_nan /\ module_eq a_nan a_nan = false.
Proof. vm_compute. split; reflexivity. Qed.
(** REFUTED: two encodings of the same module compare equal.  The sizes of
    sections are compared: here the count of globals takes one or two bytes. *)
Definition longer : list byte := preamble ++ [x06; x0a; x81; x00; x7d; x00; x43; x00; x00; x80; x3f; x0b].
Example C54_sizes : decoded (module_in longer) /\ same_but_sizes one (module_in longer) /\ module_eq one (module_in longer) = false.
Proof. split; [refine (decoded_from longer _); vm_compute; reflexivity|]. vm_compute. repeat split. Qed.
(** the repository's test module compares equal to itself only *)
Example C54_ex_kitchensink : module_eq (module_in kitchensink) (module_in kitchensink) = true.
Proof. vm_compute. reflexivity. Qed.
