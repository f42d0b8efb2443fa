(** [module_eq] decides [equal]. *)
From Verif Require Import Model.Prelude Model.Ast Model.Eq Spec.Equal.
From Coq Require Import Bool Lia ZifyN ZifyNat ZifyBool Strings.Byte.

(** ** floats *)
Section Value.
  Variables m e : N.
  Hypothesis Hm : (1 <= m)%N.
  Hypothesis He : (2 <= e)%N.

  Definition magnitude (x f : N) : N := if (x =? 0)%N then f else ((2 ^ m + f) * 2 ^ (x - 1))%N.
  Lemma pow_pos k : (0 < 2 ^ k)%N.
  Proof. apply N.neq_0_lt_0. apply N.pow_nonzero. discriminate. Qed.
  Lemma magnitude_lt x f x' f' : (f < 2 ^ m)%N -> (x < x')%N -> (magnitude x f < magnitude x' f')%N.
  Proof.
    intros Hf Hx. unfold magnitude. replace (x' =? 0)%N with false by lia. pose proof (pow_pos m). pose proof (pow_pos (x' - 1)).
    destruct (N.eqb_spec x 0) as [->|Hx0]; [nia|].
    assert (Hp : (2 ^ (x' - 1) = 2 ^ (x - 1) * 2 * 2 ^ (x' - 1 - x))%N).
    { replace (x' - 1)%N with ((x - 1) + 1 + (x' - 1 - x))%N at 1 by lia. rewrite !N.pow_add_r. reflexivity. }
    rewrite Hp. pose proof (pow_pos (x - 1)). pose proof (pow_pos (x' - 1 - x)).
    assert ((2 ^ m + f) * 2 ^ (x - 1) < (2 * 2 ^ m) * 2 ^ (x - 1))%N by (apply N.mul_lt_mono_pos_r; lia).
    assert ((2 * 2 ^ m) * 2 ^ (x - 1) <= (2 ^ m + f') * (2 ^ (x - 1) * 2 * 2 ^ (x' - 1 - x)))%N by nia.
    lia.
  Qed.
  Lemma magnitude_inj x f x' f' : (f < 2 ^ m)%N -> (f' < 2 ^ m)%N -> magnitude x f = magnitude x' f' -> x = x' /\ f = f'.
  Proof.
    intros Hf Hf' E. destruct (N.lt_trichotomy x x') as [Hl|[<-|Hl]].
    - pose proof (magnitude_lt x f x' f' Hf Hl). lia.
    - split; [reflexivity|]. unfold magnitude in E. destruct (x =? 0)%N; [exact E|]. pose proof (pow_pos (x - 1)). nia.
    - pose proof (magnitude_lt x' f' x f Hf' Hl). lia.
  Qed.

  Lemma ones_e : N.ones e = (2 ^ e - 1)%N.
  Proof. rewrite N.ones_equiv. pose proof (pow_pos e). lia. Qed.

  (** sign, exponent and fraction *)
  Definition sign (b : N) : bool := N.testbit b (m + e).
  Lemma split_bits b : (b < 2 ^ (1 + m + e))%N -> (b = ((if sign b then 2 ^ e else 0) + exponent m e b) * 2 ^ m + fraction m b)%N.
  Proof.
    intros Hb. unfold sign, exponent, fraction.
    assert (HT : (b / 2 ^ m / 2 ^ e = if N.testbit b (m + e) then 1 else 0)%N).
    { rewrite N.div_div by (apply N.pow_nonzero; discriminate). rewrite <- N.pow_add_r. 
      assert (b / 2 ^ (m + e) < 2)%N. { apply N.div_lt_upper_bound; [apply N.pow_nonzero; discriminate|]. replace (1 + m + e)%N with (m + e + 1)%N in Hb by lia. rewrite N.pow_add_r in Hb. lia. }
      pose proof (N.testbit_spec' b (m + e)) as HS. rewrite N.mod_small in HS by assumption. rewrite <- HS. destruct (N.testbit b (m + e)); reflexivity. }
    pose proof (N.div_mod b (2 ^ m)) as D1. pose proof (N.div_mod (b / 2 ^ m) (2 ^ e)) as D2. rewrite HT in D2.
    pose proof (pow_pos m). pose proof (pow_pos e). destruct (N.testbit b (m + e)); nia.
  Qed.
  Lemma fraction_lt b : (fraction m b < 2 ^ m)%N.
  Proof. apply N.mod_lt. apply N.pow_nonzero. discriminate. Qed.

  Lemma value_eq b : value m e b =
    if (exponent m e b =? 2 ^ e - 1)%N then if (fraction m b =? 0)%N then Infinite (sign b) else NaN
    else Finite (if sign b then - Z.of_N (magnitude (exponent m e b) (fraction m b)) else Z.of_N (magnitude (exponent m e b) (fraction m b)))%Z.
  Proof.
    unfold value. rewrite !N.land_ones, N.shiftr_div_pow2, ones_e. unfold sign, magnitude.
    change (b mod 2 ^ m)%N with (fraction m b). change ((b / 2 ^ m) mod 2 ^ e)%N with (exponent m e b).
    destruct (exponent m e b =? 2 ^ e - 1)%N; [reflexivity|]. destruct (exponent m e b =? 0)%N; reflexivity.
  Qed.
  Lemma nan_value b : is_nan m e b = true <-> value m e b = NaN.
  Proof.
    rewrite value_eq. unfold is_nan. destruct (exponent m e b =? 2 ^ e - 1)%N; cbn; [|split; discriminate].
    destruct (fraction m b =? 0)%N; cbn; split; intros; congruence || discriminate.
  Qed.
  Lemma float_eq_value a b : (a < 2 ^ (1 + m + e))%N -> (b < 2 ^ (1 + m + e))%N ->
    (float_eq m e a b = true <-> value m e a = value m e b /\ value m e a <> NaN).
  Proof.
    intros Ha Hb. unfold float_eq. rewrite !andb_true_iff, !negb_true_iff, orb_true_iff, andb_true_iff, N.eqb_eq.
    rewrite <- !not_true_iff_false, !nan_value.
    split.
    - intros [[Na Nb] [->|[Za Zb]]]; [auto|]. split; [|exact Na]. unfold is_zero in *. rewrite andb_true_iff, !N.eqb_eq in Za, Zb.
      destruct Za as [Xa Fa], Zb as [Xb Fb]. rewrite !value_eq, Xa, Xb, Fa, Fb. assert (He2 : (2 ^ 1 < 2 ^ e)%N) by (apply N.pow_lt_mono_r; lia).
      replace (0 =? 2 ^ e - 1)%N with false by lia. cbn. destruct (sign a), (sign b); reflexivity.
    - intros [EV Na]. split; [split; congruence|]. rewrite !value_eq in *.
      pose proof (split_bits a Ha) as Sa. pose proof (split_bits b Hb) as Sb. pose proof (fraction_lt a) as Fa. pose proof (fraction_lt b) as Fb.
      destruct (N.eqb_spec (exponent m e a) (2 ^ e - 1)) as [Xa|Xa], (N.eqb_spec (exponent m e b) (2 ^ e - 1)) as [Xb|Xb].
      + destruct (N.eqb_spec (fraction m a) 0) as [Ya|Ya], (N.eqb_spec (fraction m b) 0) as [Yb|Yb]; try (exfalso; apply Na; reflexivity); try discriminate EV.
        left. injection EV as ES. rewrite Sa, Sb, ES, Xa, Xb, Ya, Yb. reflexivity.
      + destruct (fraction m a =? 0)%N; discriminate EV.
      + destruct (fraction m b =? 0)%N; discriminate EV.
      + injection EV as EM. assert (EM' : magnitude (exponent m e a) (fraction m a) = magnitude (exponent m e b) (fraction m b)) by (destruct (sign a), (sign b); lia).
        pose proof (magnitude_inj _ _ _ _ Fa Fb EM') as [EX EF].
        destruct (bool_dec (sign a) (sign b)) as [ES|ES]; [left; rewrite Sa, Sb, ES, EX, EF; reflexivity|].
        right. assert (M0 : magnitude (exponent m e a) (fraction m a) = 0%N) by (destruct (sign a), (sign b); try congruence; lia).
        rewrite M0 in EM'. clear EM EX EF. assert (HZ : forall x f, magnitude x f = 0%N -> x = 0%N /\ f = 0%N).
        { intros x f. unfold magnitude. destruct (N.eqb_spec x 0) as [->|]; [auto|]. pose proof (pow_pos m). pose proof (pow_pos (x - 1)). nia. }
        destruct (HZ _ _ M0) as [X1 F1]. destruct (HZ _ _ (eq_sym EM')) as [X2 F2]. unfold is_zero. rewrite X1, F1, X2, F2. split; reflexivity.
  Qed.
End Value.

(** ** everything but instructions: [==] is equality *)
Definition Decides {A} (eq : A -> A -> bool) : Prop := forall a b, eq a b = true <-> a = b.
Lemma vec_dec {A} (eq : A -> A -> bool) : Decides eq -> Decides (vec_eq eq).
Proof.
  intros H l. induction l as [|a l IH]; intros [|b l']; cbn; try (split; [reflexivity || discriminate|discriminate || reflexivity]).
  rewrite andb_true_iff, (H a b), (IH l'). split; [intros [-> ->]; reflexivity|intros E; injection E as -> ->; auto].
Qed.
Lemma option_dec {A} (eq : A -> A -> bool) : Decides eq -> Decides (option_eq eq).
Proof.
  intros H [a|] [b|]; cbn; try (split; [reflexivity || discriminate|discriminate || reflexivity]).
  rewrite (H a b). split; [intros ->; reflexivity|intros E; injection E as ->; auto].
Qed.
Lemma N_dec : Decides N.eqb. Proof. exact N.eqb_eq. Qed.
Lemma Z_dec : Decides Z.eqb. Proof. exact Z.eqb_eq. Qed.
Lemma bool_dec' : Decides Bool.eqb. Proof. exact eqb_true_iff. Qed.
Lemma byte_dec : Decides byte_eq.
Proof.
  intros a b. unfold byte_eq. rewrite N.eqb_eq. split; [|intros ->; reflexivity]. intros E.
  pose proof (Byte.of_to_N a) as Ha. rewrite E, Byte.of_to_N in Ha. injection Ha as ->. reflexivity.
Qed.
Lemma bytes_dec : Decides bytes_eq. Proof. exact (vec_dec _ byte_dec). Qed.

(** structs: a conjunction of field comparisons; enums: by cases *)
Ltac enum := intros [] []; cbn; split; congruence || discriminate || reflexivity.
Lemma numtype_dec : Decides numtype_eq. Proof. enum. Qed.
Lemma vectype_dec : Decides vectype_eq. Proof. enum. Qed.
Lemma absheaptype_dec : Decides absheaptype_eq. Proof. enum. Qed.
Lemma mut_dec : Decides mut_eq. Proof. enum. Qed.
Lemma packtype_dec : Decides packtype_eq. Proof. enum. Qed.
Lemma addrtype_dec : Decides addrtype_eq. Proof. enum. Qed.
Lemma kind_dec : Decides kind_eq. Proof. enum. Qed.

#[local] Arguments N.eqb : simpl never.
#[local] Arguments Z.eqb : simpl never.
#[local] Arguments Bool.eqb : simpl never.
#[local] Arguments vec_eq : simpl never.
#[local] Arguments option_eq : simpl never.
#[local] Arguments byte_eq : simpl never.
#[local] Arguments bytes_eq : simpl never.
#[local] Arguments numtype_eq : simpl never.
#[local] Arguments vectype_eq : simpl never.
#[local] Arguments absheaptype_eq : simpl never.
#[local] Arguments mut_eq : simpl never.
#[local] Arguments packtype_eq : simpl never.
#[local] Arguments addrtype_eq : simpl never.
#[local] Arguments kind_eq : simpl never.
#[local] Hint Resolve vec_dec option_dec N_dec Z_dec bool_dec' byte_dec bytes_dec numtype_dec vectype_dec absheaptype_dec mut_dec packtype_dec addrtype_dec kind_dec : eqs.
Ltac by_fields :=
  rewrite ?andb_true_iff;
  repeat match goal with
         | |- context [?eq ?a ?b = true] => let H := fresh in assert (H : Decides eq) by eauto 4 with eqs; rewrite (H a b); clear H
         end;
  split; [intros; repeat match goal with H : _ /\ _ |- _ => destruct H end; subst; reflexivity
         |let E := fresh in intros E; injection E; intros; subst; repeat split].
Tactic Notation "decide_eq" reference(f) := intros [] []; unfold f; cbn; first [split; congruence || discriminate || reflexivity | by_fields].
Lemma heaptype_dec : Decides heaptype_eq. Proof. decide_eq heaptype_eq. Qed.
#[local] Arguments heaptype_eq : simpl never.
#[local] Hint Resolve heaptype_dec : eqs.
Lemma reftype_dec : Decides reftype_eq. Proof. decide_eq reftype_eq. Qed.
#[local] Arguments reftype_eq : simpl never.
#[local] Hint Resolve reftype_dec : eqs.
Lemma valtype_dec : Decides valtype_eq. Proof. decide_eq valtype_eq. Qed.
#[local] Arguments valtype_eq : simpl never.
#[local] Hint Resolve valtype_dec : eqs.
Lemma globaltype_dec : Decides globaltype_eq. Proof. decide_eq globaltype_eq. Qed.
#[local] Arguments globaltype_eq : simpl never.
Lemma storagetype_dec : Decides storagetype_eq. Proof. decide_eq storagetype_eq. Qed.
#[local] Arguments storagetype_eq : simpl never.
#[local] Hint Resolve globaltype_dec storagetype_dec : eqs.
Lemma fieldtype_dec : Decides fieldtype_eq. Proof. decide_eq fieldtype_eq. Qed.
#[local] Arguments fieldtype_eq : simpl never.
#[local] Hint Resolve fieldtype_dec : eqs.
Lemma comptype_dec : Decides comptype_eq. Proof. decide_eq comptype_eq. Qed.
#[local] Arguments comptype_eq : simpl never.
#[local] Hint Resolve comptype_dec : eqs.
Lemma subtype_dec : Decides subtype_eq. Proof. decide_eq subtype_eq. Qed.
#[local] Arguments subtype_eq : simpl never.
#[local] Hint Resolve subtype_dec : eqs.
Lemma rectype_dec : Decides rectype_eq. Proof. exact (vec_dec _ subtype_dec). Qed.
Lemma limits_dec : Decides limits_eq. Proof. decide_eq limits_eq. Qed.
#[local] Arguments limits_eq : simpl never.
#[local] Hint Resolve rectype_dec limits_dec : eqs.
Lemma memtype_dec : Decides memtype_eq. Proof. decide_eq memtype_eq. Qed.
#[local] Arguments memtype_eq : simpl never.
Lemma tabletype_dec : Decides tabletype_eq. Proof. decide_eq tabletype_eq. Qed.
#[local] Arguments tabletype_eq : simpl never.
Lemma tagtype_dec : Decides tagtype_eq. Proof. decide_eq tagtype_eq. Qed.
#[local] Arguments tagtype_eq : simpl never.
#[local] Hint Resolve memtype_dec tabletype_dec tagtype_dec : eqs.
Lemma externtype_dec : Decides externtype_eq. Proof. decide_eq externtype_eq. Qed.
#[local] Arguments externtype_eq : simpl never.
Lemma memarg_dec : Decides memarg_eq. Proof. decide_eq memarg_eq. Qed.
#[local] Arguments memarg_eq : simpl never.
Lemma blocktype_dec : Decides blocktype_eq. Proof. decide_eq blocktype_eq. Qed.
#[local] Arguments blocktype_eq : simpl never.
Lemma catch_dec : Decides catch_eq. Proof. decide_eq catch_eq. Qed.
#[local] Arguments catch_eq : simpl never.
Lemma externidx_dec : Decides externidx_eq. Proof. decide_eq externidx_eq. Qed.
#[local] Arguments externidx_eq : simpl never.
#[local] Hint Resolve externtype_dec memarg_dec blocktype_dec catch_dec externidx_dec : eqs.
Lemma import_dec : Decides import_eq. Proof. decide_eq import_eq. Qed.
#[local] Arguments import_eq : simpl never.
Lemma export_dec : Decides export_eq. Proof. decide_eq export_eq. Qed.
#[local] Arguments export_eq : simpl never.
Lemma custom_dec : Decides custom_eq. Proof. decide_eq custom_eq. Qed.
#[local] Arguments custom_eq : simpl never.
Lemma header_dec : Decides header_eq. Proof. decide_eq header_eq. Qed.
#[local] Arguments header_eq : simpl never.

(** ** instructions are determined by their discriminant and fields *)
Definition nested (i : instr) : bool :=
  match i with I_Block _ _ | I_Loop _ _ | I_If _ _ _ | I_TryTable _ _ _ => true | _ => false end.
Definition rebuild (n : N) (fs : list field) : option instr :=
  match n with
  | 0 => match fs with [] => Some (I_Unreachable) | _ => None end
  | 1 => match fs with [] => Some (I_Nop) | _ => None end
  | 5 => match fs with [P_u32 x0] => Some (I_Br x0) | _ => None end
  | 6 => match fs with [P_u32 x0] => Some (I_BrIf x0) | _ => None end
  | 7 => match fs with [P_indices x0; P_u32 x1] => Some (I_BrTable x0 x1) | _ => None end
  | 8 => match fs with [P_u32 x0] => Some (I_BrOnNull x0) | _ => None end
  | 9 => match fs with [P_u32 x0] => Some (I_BrOnNonNull x0) | _ => None end
  | 10 => match fs with [P_u32 x0; P_reftype x1; P_reftype x2] => Some (I_BrOnCast x0 x1 x2) | _ => None end
  | 11 => match fs with [P_u32 x0; P_reftype x1; P_reftype x2] => Some (I_BrOnCastFail x0 x1 x2) | _ => None end
  | 12 => match fs with [P_u32 x0] => Some (I_Call x0) | _ => None end
  | 13 => match fs with [P_u32 x0] => Some (I_CallRef x0) | _ => None end
  | 14 => match fs with [P_u32 x0; P_u32 x1] => Some (I_CallIndirect x0 x1) | _ => None end
  | 15 => match fs with [] => Some (I_Return) | _ => None end
  | 16 => match fs with [P_u32 x0] => Some (I_ReturnCall x0) | _ => None end
  | 17 => match fs with [P_u32 x0] => Some (I_ReturnCallRef x0) | _ => None end
  | 18 => match fs with [P_u32 x0; P_u32 x1] => Some (I_ReturnCallIndirect x0 x1) | _ => None end
  | 19 => match fs with [P_u32 x0] => Some (I_Throw x0) | _ => None end
  | 20 => match fs with [] => Some (I_ThrowRef) | _ => None end
  | 22 => match fs with [P_u32 x0] => Some (I_RefFunc x0) | _ => None end
  | 23 => match fs with [P_heaptype x0] => Some (I_RefNull x0) | _ => None end
  | 24 => match fs with [] => Some (I_RefIsNull) | _ => None end
  | 25 => match fs with [] => Some (I_RefAsNonNull) | _ => None end
  | 26 => match fs with [] => Some (I_RefEq) | _ => None end
  | 27 => match fs with [P_reftype x0] => Some (I_RefTest x0) | _ => None end
  | 28 => match fs with [P_reftype x0] => Some (I_RefCast x0) | _ => None end
  | 29 => match fs with [P_u32 x0] => Some (I_StructNew x0) | _ => None end
  | 30 => match fs with [P_u32 x0] => Some (I_StructNewDefault x0) | _ => None end
  | 31 => match fs with [P_u32 x0; P_u32 x1] => Some (I_StructGet x0 x1) | _ => None end
  | 32 => match fs with [P_u32 x0; P_u32 x1] => Some (I_StructGetS x0 x1) | _ => None end
  | 33 => match fs with [P_u32 x0; P_u32 x1] => Some (I_StructGetU x0 x1) | _ => None end
  | 34 => match fs with [P_u32 x0; P_u32 x1] => Some (I_StructSet x0 x1) | _ => None end
  | 35 => match fs with [P_u32 x0] => Some (I_ArrayNew x0) | _ => None end
  | 36 => match fs with [P_u32 x0] => Some (I_ArrayNewDefault x0) | _ => None end
  | 37 => match fs with [P_u32 x0; P_u32 x1] => Some (I_ArrayNewFixed x0 x1) | _ => None end
  | 38 => match fs with [P_u32 x0; P_u32 x1] => Some (I_ArrayNewData x0 x1) | _ => None end
  | 39 => match fs with [P_u32 x0; P_u32 x1] => Some (I_ArrayNewElem x0 x1) | _ => None end
  | 40 => match fs with [P_u32 x0] => Some (I_ArrayGet x0) | _ => None end
  | 41 => match fs with [P_u32 x0] => Some (I_ArrayGetS x0) | _ => None end
  | 42 => match fs with [P_u32 x0] => Some (I_ArrayGetU x0) | _ => None end
  | 43 => match fs with [P_u32 x0] => Some (I_ArraySet x0) | _ => None end
  | 44 => match fs with [] => Some (I_ArrayLen) | _ => None end
  | 45 => match fs with [P_u32 x0] => Some (I_ArrayFill x0) | _ => None end
  | 46 => match fs with [P_u32 x0; P_u32 x1] => Some (I_ArrayCopy x0 x1) | _ => None end
  | 47 => match fs with [P_u32 x0; P_u32 x1] => Some (I_ArrayInitData x0 x1) | _ => None end
  | 48 => match fs with [P_u32 x0; P_u32 x1] => Some (I_ArrayInitElem x0 x1) | _ => None end
  | 49 => match fs with [] => Some (I_AnyConvertExtern) | _ => None end
  | 50 => match fs with [] => Some (I_ExternConvertAny) | _ => None end
  | 51 => match fs with [] => Some (I_RefI31) | _ => None end
  | 52 => match fs with [] => Some (I_I31GetS) | _ => None end
  | 53 => match fs with [] => Some (I_I31GetU) | _ => None end
  | 54 => match fs with [] => Some (I_Drop) | _ => None end
  | 55 => match fs with [P_types x0] => Some (I_Select x0) | _ => None end
  | 56 => match fs with [P_u32 x0] => Some (I_LocalGet x0) | _ => None end
  | 57 => match fs with [P_u32 x0] => Some (I_LocalSet x0) | _ => None end
  | 58 => match fs with [P_u32 x0] => Some (I_LocalTee x0) | _ => None end
  | 59 => match fs with [P_u32 x0] => Some (I_GlobalGet x0) | _ => None end
  | 60 => match fs with [P_u32 x0] => Some (I_GlobalSet x0) | _ => None end
  | 61 => match fs with [P_u32 x0] => Some (I_TableGet x0) | _ => None end
  | 62 => match fs with [P_u32 x0] => Some (I_TableSet x0) | _ => None end
  | 63 => match fs with [P_u32 x0; P_u32 x1] => Some (I_TableInit x0 x1) | _ => None end
  | 64 => match fs with [P_u32 x0] => Some (I_ElemDrop x0) | _ => None end
  | 65 => match fs with [P_u32 x0; P_u32 x1] => Some (I_TableCopy x0 x1) | _ => None end
  | 66 => match fs with [P_u32 x0] => Some (I_TableGrow x0) | _ => None end
  | 67 => match fs with [P_u32 x0] => Some (I_TableSize x0) | _ => None end
  | 68 => match fs with [P_u32 x0] => Some (I_TableFill x0) | _ => None end
  | 69 => match fs with [P_memarg x0] => Some (I_I32Load x0) | _ => None end
  | 70 => match fs with [P_memarg x0] => Some (I_I64Load x0) | _ => None end
  | 71 => match fs with [P_memarg x0] => Some (I_F32Load x0) | _ => None end
  | 72 => match fs with [P_memarg x0] => Some (I_F64Load x0) | _ => None end
  | 73 => match fs with [P_memarg x0] => Some (I_I32Load8s x0) | _ => None end
  | 74 => match fs with [P_memarg x0] => Some (I_I32Load8u x0) | _ => None end
  | 75 => match fs with [P_memarg x0] => Some (I_I32Load16s x0) | _ => None end
  | 76 => match fs with [P_memarg x0] => Some (I_I32Load16u x0) | _ => None end
  | 77 => match fs with [P_memarg x0] => Some (I_I64Load8s x0) | _ => None end
  | 78 => match fs with [P_memarg x0] => Some (I_I64Load8u x0) | _ => None end
  | 79 => match fs with [P_memarg x0] => Some (I_I64Load16s x0) | _ => None end
  | 80 => match fs with [P_memarg x0] => Some (I_I64Load16u x0) | _ => None end
  | 81 => match fs with [P_memarg x0] => Some (I_I64Load32s x0) | _ => None end
  | 82 => match fs with [P_memarg x0] => Some (I_I64Load32u x0) | _ => None end
  | 83 => match fs with [P_memarg x0] => Some (I_I32Store x0) | _ => None end
  | 84 => match fs with [P_memarg x0] => Some (I_I64Store x0) | _ => None end
  | 85 => match fs with [P_memarg x0] => Some (I_F32Store x0) | _ => None end
  | 86 => match fs with [P_memarg x0] => Some (I_F64Store x0) | _ => None end
  | 87 => match fs with [P_memarg x0] => Some (I_I32Store8 x0) | _ => None end
  | 88 => match fs with [P_memarg x0] => Some (I_I32Store16 x0) | _ => None end
  | 89 => match fs with [P_memarg x0] => Some (I_I64Store8 x0) | _ => None end
  | 90 => match fs with [P_memarg x0] => Some (I_I64Store16 x0) | _ => None end
  | 91 => match fs with [P_memarg x0] => Some (I_I64Store32 x0) | _ => None end
  | 92 => match fs with [P_u32 x0] => Some (I_MemorySize x0) | _ => None end
  | 93 => match fs with [P_u32 x0] => Some (I_MemoryGrow x0) | _ => None end
  | 94 => match fs with [P_u32 x0; P_u32 x1] => Some (I_MemoryInit x0 x1) | _ => None end
  | 95 => match fs with [P_u32 x0] => Some (I_DataDrop x0) | _ => None end
  | 96 => match fs with [P_u32 x0; P_u32 x1] => Some (I_MemoryCopy x0 x1) | _ => None end
  | 97 => match fs with [P_u32 x0] => Some (I_MemoryFill x0) | _ => None end
  | 98 => match fs with [P_int x0] => Some (I_I32Const x0) | _ => None end
  | 99 => match fs with [P_int x0] => Some (I_I64Const x0) | _ => None end
  | 100 => match fs with [P_f32 x0] => Some (I_F32Const x0) | _ => None end
  | 101 => match fs with [P_f64 x0] => Some (I_F64Const x0) | _ => None end
  | 102 => match fs with [] => Some (I_I32Eqz) | _ => None end
  | 103 => match fs with [] => Some (I_I32Eq) | _ => None end
  | 104 => match fs with [] => Some (I_I32Ne) | _ => None end
  | 105 => match fs with [] => Some (I_I32LtS) | _ => None end
  | 106 => match fs with [] => Some (I_I32LtU) | _ => None end
  | 107 => match fs with [] => Some (I_I32GtS) | _ => None end
  | 108 => match fs with [] => Some (I_I32GtU) | _ => None end
  | 109 => match fs with [] => Some (I_I32LeS) | _ => None end
  | 110 => match fs with [] => Some (I_I32LeU) | _ => None end
  | 111 => match fs with [] => Some (I_I32GeS) | _ => None end
  | 112 => match fs with [] => Some (I_I32GeU) | _ => None end
  | 113 => match fs with [] => Some (I_I64Eqz) | _ => None end
  | 114 => match fs with [] => Some (I_I64Eq) | _ => None end
  | 115 => match fs with [] => Some (I_I64Ne) | _ => None end
  | 116 => match fs with [] => Some (I_I64LtS) | _ => None end
  | 117 => match fs with [] => Some (I_I64LtU) | _ => None end
  | 118 => match fs with [] => Some (I_I64GtS) | _ => None end
  | 119 => match fs with [] => Some (I_I64GtU) | _ => None end
  | 120 => match fs with [] => Some (I_I64LeS) | _ => None end
  | 121 => match fs with [] => Some (I_I64LeU) | _ => None end
  | 122 => match fs with [] => Some (I_I64GeS) | _ => None end
  | 123 => match fs with [] => Some (I_I64GeU) | _ => None end
  | 124 => match fs with [] => Some (I_F32Eq) | _ => None end
  | 125 => match fs with [] => Some (I_F32Ne) | _ => None end
  | 126 => match fs with [] => Some (I_F32Lt) | _ => None end
  | 127 => match fs with [] => Some (I_F32Gt) | _ => None end
  | 128 => match fs with [] => Some (I_F32Le) | _ => None end
  | 129 => match fs with [] => Some (I_F32Ge) | _ => None end
  | 130 => match fs with [] => Some (I_F64Eq) | _ => None end
  | 131 => match fs with [] => Some (I_F64Ne) | _ => None end
  | 132 => match fs with [] => Some (I_F64Lt) | _ => None end
  | 133 => match fs with [] => Some (I_F64Gt) | _ => None end
  | 134 => match fs with [] => Some (I_F64Le) | _ => None end
  | 135 => match fs with [] => Some (I_F64Ge) | _ => None end
  | 136 => match fs with [] => Some (I_I32Clz) | _ => None end
  | 137 => match fs with [] => Some (I_I32Ctz) | _ => None end
  | 138 => match fs with [] => Some (I_I32Popcnt) | _ => None end
  | 139 => match fs with [] => Some (I_I32Add) | _ => None end
  | 140 => match fs with [] => Some (I_I32Sub) | _ => None end
  | 141 => match fs with [] => Some (I_I32Mul) | _ => None end
  | 142 => match fs with [] => Some (I_I32DivS) | _ => None end
  | 143 => match fs with [] => Some (I_I32DivU) | _ => None end
  | 144 => match fs with [] => Some (I_I32RemS) | _ => None end
  | 145 => match fs with [] => Some (I_I32RemU) | _ => None end
  | 146 => match fs with [] => Some (I_I32And) | _ => None end
  | 147 => match fs with [] => Some (I_I32Or) | _ => None end
  | 148 => match fs with [] => Some (I_I32Xor) | _ => None end
  | 149 => match fs with [] => Some (I_I32Shl) | _ => None end
  | 150 => match fs with [] => Some (I_I32ShrS) | _ => None end
  | 151 => match fs with [] => Some (I_I32ShrU) | _ => None end
  | 152 => match fs with [] => Some (I_I32Rotl) | _ => None end
  | 153 => match fs with [] => Some (I_I32Rotr) | _ => None end
  | 154 => match fs with [] => Some (I_I64Clz) | _ => None end
  | 155 => match fs with [] => Some (I_I64Ctz) | _ => None end
  | 156 => match fs with [] => Some (I_I64Popcnt) | _ => None end
  | 157 => match fs with [] => Some (I_I64Add) | _ => None end
  | 158 => match fs with [] => Some (I_I64Sub) | _ => None end
  | 159 => match fs with [] => Some (I_I64Mul) | _ => None end
  | 160 => match fs with [] => Some (I_I64DivS) | _ => None end
  | 161 => match fs with [] => Some (I_I64DivU) | _ => None end
  | 162 => match fs with [] => Some (I_I64RemS) | _ => None end
  | 163 => match fs with [] => Some (I_I64RemU) | _ => None end
  | 164 => match fs with [] => Some (I_I64And) | _ => None end
  | 165 => match fs with [] => Some (I_I64Or) | _ => None end
  | 166 => match fs with [] => Some (I_I64Xor) | _ => None end
  | 167 => match fs with [] => Some (I_I64Shl) | _ => None end
  | 168 => match fs with [] => Some (I_I64ShrS) | _ => None end
  | 169 => match fs with [] => Some (I_I64ShrU) | _ => None end
  | 170 => match fs with [] => Some (I_I64Rotl) | _ => None end
  | 171 => match fs with [] => Some (I_I64Rotr) | _ => None end
  | 172 => match fs with [] => Some (I_F32Abs) | _ => None end
  | 173 => match fs with [] => Some (I_F32Neg) | _ => None end
  | 174 => match fs with [] => Some (I_F32Ceil) | _ => None end
  | 175 => match fs with [] => Some (I_F32Floor) | _ => None end
  | 176 => match fs with [] => Some (I_F32Trunc) | _ => None end
  | 177 => match fs with [] => Some (I_F32Nearest) | _ => None end
  | 178 => match fs with [] => Some (I_F32Sqrt) | _ => None end
  | 179 => match fs with [] => Some (I_F32Add) | _ => None end
  | 180 => match fs with [] => Some (I_F32Sub) | _ => None end
  | 181 => match fs with [] => Some (I_F32Mul) | _ => None end
  | 182 => match fs with [] => Some (I_F32Div) | _ => None end
  | 183 => match fs with [] => Some (I_F32Min) | _ => None end
  | 184 => match fs with [] => Some (I_F32Max) | _ => None end
  | 185 => match fs with [] => Some (I_F32Copysign) | _ => None end
  | 186 => match fs with [] => Some (I_F64Abs) | _ => None end
  | 187 => match fs with [] => Some (I_F64Neg) | _ => None end
  | 188 => match fs with [] => Some (I_F64Ceil) | _ => None end
  | 189 => match fs with [] => Some (I_F64Floor) | _ => None end
  | 190 => match fs with [] => Some (I_F64Trunc) | _ => None end
  | 191 => match fs with [] => Some (I_F64Nearest) | _ => None end
  | 192 => match fs with [] => Some (I_F64Sqrt) | _ => None end
  | 193 => match fs with [] => Some (I_F64Add) | _ => None end
  | 194 => match fs with [] => Some (I_F64Sub) | _ => None end
  | 195 => match fs with [] => Some (I_F64Mul) | _ => None end
  | 196 => match fs with [] => Some (I_F64Div) | _ => None end
  | 197 => match fs with [] => Some (I_F64Min) | _ => None end
  | 198 => match fs with [] => Some (I_F64Max) | _ => None end
  | 199 => match fs with [] => Some (I_F64Copysign) | _ => None end
  | 200 => match fs with [] => Some (I_I32WrapI64) | _ => None end
  | 201 => match fs with [] => Some (I_I32TruncF32S) | _ => None end
  | 202 => match fs with [] => Some (I_I32TruncF32U) | _ => None end
  | 203 => match fs with [] => Some (I_I32TruncF64S) | _ => None end
  | 204 => match fs with [] => Some (I_I32TruncF64U) | _ => None end
  | 205 => match fs with [] => Some (I_I64ExtendI32S) | _ => None end
  | 206 => match fs with [] => Some (I_I64ExtendI32U) | _ => None end
  | 207 => match fs with [] => Some (I_I64TruncF32S) | _ => None end
  | 208 => match fs with [] => Some (I_I64TruncF32U) | _ => None end
  | 209 => match fs with [] => Some (I_I64TruncF64S) | _ => None end
  | 210 => match fs with [] => Some (I_I64TruncF64U) | _ => None end
  | 211 => match fs with [] => Some (I_F32ConvertI32S) | _ => None end
  | 212 => match fs with [] => Some (I_F32ConvertI32U) | _ => None end
  | 213 => match fs with [] => Some (I_F32ConvertI64S) | _ => None end
  | 214 => match fs with [] => Some (I_F32ConvertI64U) | _ => None end
  | 215 => match fs with [] => Some (I_F32DemoteF64) | _ => None end
  | 216 => match fs with [] => Some (I_F64ConvertI32S) | _ => None end
  | 217 => match fs with [] => Some (I_F64ConvertI32U) | _ => None end
  | 218 => match fs with [] => Some (I_F64ConvertI64S) | _ => None end
  | 219 => match fs with [] => Some (I_F64ConvertI64U) | _ => None end
  | 220 => match fs with [] => Some (I_F64PromoteF32) | _ => None end
  | 221 => match fs with [] => Some (I_I32ReinterpretF32) | _ => None end
  | 222 => match fs with [] => Some (I_I64ReinterpretF64) | _ => None end
  | 223 => match fs with [] => Some (I_F32ReinterpretI32) | _ => None end
  | 224 => match fs with [] => Some (I_F64ReinterpretI64) | _ => None end
  | 225 => match fs with [] => Some (I_I32Extend8S) | _ => None end
  | 226 => match fs with [] => Some (I_I32Extend16S) | _ => None end
  | 227 => match fs with [] => Some (I_I64Extend8S) | _ => None end
  | 228 => match fs with [] => Some (I_I64Extend16S) | _ => None end
  | 229 => match fs with [] => Some (I_I64Extend32S) | _ => None end
  | 230 => match fs with [] => Some (I_I32TruncSatF32S) | _ => None end
  | 231 => match fs with [] => Some (I_I32TruncSatF32U) | _ => None end
  | 232 => match fs with [] => Some (I_I32TruncSatF64S) | _ => None end
  | 233 => match fs with [] => Some (I_I32TruncSatF64U) | _ => None end
  | 234 => match fs with [] => Some (I_I64TruncSatF32S) | _ => None end
  | 235 => match fs with [] => Some (I_I64TruncSatF32U) | _ => None end
  | 236 => match fs with [] => Some (I_I64TruncSatF64S) | _ => None end
  | 237 => match fs with [] => Some (I_I64TruncSatF64U) | _ => None end
  | 238 => match fs with [P_memarg x0] => Some (I_V128Load x0) | _ => None end
  | 239 => match fs with [P_memarg x0] => Some (I_V128Load8x8S x0) | _ => None end
  | 240 => match fs with [P_memarg x0] => Some (I_V128Load8x8U x0) | _ => None end
  | 241 => match fs with [P_memarg x0] => Some (I_V128Load16x4S x0) | _ => None end
  | 242 => match fs with [P_memarg x0] => Some (I_V128Load16x4U x0) | _ => None end
  | 243 => match fs with [P_memarg x0] => Some (I_V128Load32x2S x0) | _ => None end
  | 244 => match fs with [P_memarg x0] => Some (I_V128Load32x2U x0) | _ => None end
  | 245 => match fs with [P_memarg x0] => Some (I_V128Load8Splat x0) | _ => None end
  | 246 => match fs with [P_memarg x0] => Some (I_V128Load16Splat x0) | _ => None end
  | 247 => match fs with [P_memarg x0] => Some (I_V128Load32Splat x0) | _ => None end
  | 248 => match fs with [P_memarg x0] => Some (I_V128Load64Splat x0) | _ => None end
  | 249 => match fs with [P_memarg x0] => Some (I_V128Load32Zero x0) | _ => None end
  | 250 => match fs with [P_memarg x0] => Some (I_V128Load64Zero x0) | _ => None end
  | 251 => match fs with [P_memarg x0] => Some (I_V128Store x0) | _ => None end
  | 252 => match fs with [P_memarg x0; P_byte x1] => Some (I_V128Load8Lane x0 x1) | _ => None end
  | 253 => match fs with [P_memarg x0; P_byte x1] => Some (I_V128Load16Lane x0 x1) | _ => None end
  | 254 => match fs with [P_memarg x0; P_byte x1] => Some (I_V128Load32Lane x0 x1) | _ => None end
  | 255 => match fs with [P_memarg x0; P_byte x1] => Some (I_V128Load64Lane x0 x1) | _ => None end
  | 256 => match fs with [P_memarg x0; P_byte x1] => Some (I_V128Store8Lane x0 x1) | _ => None end
  | 257 => match fs with [P_memarg x0; P_byte x1] => Some (I_V128Store16Lane x0 x1) | _ => None end
  | 258 => match fs with [P_memarg x0; P_byte x1] => Some (I_V128Store32Lane x0 x1) | _ => None end
  | 259 => match fs with [P_memarg x0; P_byte x1] => Some (I_V128Store64Lane x0 x1) | _ => None end
  | 260 => match fs with [P_bytes x0] => Some (I_V128Const x0) | _ => None end
  | 261 => match fs with [P_bytes x0] => Some (I_I8x16Shuffle x0) | _ => None end
  | 262 => match fs with [P_byte x0] => Some (I_I8x16ExtractLaneS x0) | _ => None end
  | 263 => match fs with [P_byte x0] => Some (I_I8x16ExtractLaneU x0) | _ => None end
  | 264 => match fs with [P_byte x0] => Some (I_I8x16ReplaceLane x0) | _ => None end
  | 265 => match fs with [P_byte x0] => Some (I_I16x8ExtractLaneS x0) | _ => None end
  | 266 => match fs with [P_byte x0] => Some (I_I16x8ExtractLaneU x0) | _ => None end
  | 267 => match fs with [P_byte x0] => Some (I_I16x8ReplaceLane x0) | _ => None end
  | 268 => match fs with [P_byte x0] => Some (I_I32x4ExtractLane x0) | _ => None end
  | 269 => match fs with [P_byte x0] => Some (I_I32x4ReplaceLane x0) | _ => None end
  | 270 => match fs with [P_byte x0] => Some (I_I64x2ExtractLane x0) | _ => None end
  | 271 => match fs with [P_byte x0] => Some (I_I64x2ReplaceLane x0) | _ => None end
  | 272 => match fs with [P_byte x0] => Some (I_F32x4ExtractLane x0) | _ => None end
  | 273 => match fs with [P_byte x0] => Some (I_F32x4ReplaceLane x0) | _ => None end
  | 274 => match fs with [P_byte x0] => Some (I_F64x2ExtractLane x0) | _ => None end
  | 275 => match fs with [P_byte x0] => Some (I_F64x2ReplaceLane x0) | _ => None end
  | 276 => match fs with [] => Some (I_I8x16Swizzle) | _ => None end
  | 277 => match fs with [] => Some (I_I8x16RelaxedSwizzle) | _ => None end
  | 278 => match fs with [] => Some (I_I8x16Splat) | _ => None end
  | 279 => match fs with [] => Some (I_I16x8Splat) | _ => None end
  | 280 => match fs with [] => Some (I_I32x4Splat) | _ => None end
  | 281 => match fs with [] => Some (I_I64x2Splat) | _ => None end
  | 282 => match fs with [] => Some (I_F32x4Splat) | _ => None end
  | 283 => match fs with [] => Some (I_F64x2Splat) | _ => None end
  | 284 => match fs with [] => Some (I_I8x16Eq) | _ => None end
  | 285 => match fs with [] => Some (I_I8x16Ne) | _ => None end
  | 286 => match fs with [] => Some (I_I8x16LtS) | _ => None end
  | 287 => match fs with [] => Some (I_I8x16LtU) | _ => None end
  | 288 => match fs with [] => Some (I_I8x16GtS) | _ => None end
  | 289 => match fs with [] => Some (I_I8x16GtU) | _ => None end
  | 290 => match fs with [] => Some (I_I8x16LeS) | _ => None end
  | 291 => match fs with [] => Some (I_I8x16LeU) | _ => None end
  | 292 => match fs with [] => Some (I_I8x16GeS) | _ => None end
  | 293 => match fs with [] => Some (I_I8x16GeU) | _ => None end
  | 294 => match fs with [] => Some (I_I16x8Eq) | _ => None end
  | 295 => match fs with [] => Some (I_I16x8Ne) | _ => None end
  | 296 => match fs with [] => Some (I_I16x8LtS) | _ => None end
  | 297 => match fs with [] => Some (I_I16x8LtU) | _ => None end
  | 298 => match fs with [] => Some (I_I16x8GtS) | _ => None end
  | 299 => match fs with [] => Some (I_I16x8GtU) | _ => None end
  | 300 => match fs with [] => Some (I_I16x8LeS) | _ => None end
  | 301 => match fs with [] => Some (I_I16x8LeU) | _ => None end
  | 302 => match fs with [] => Some (I_I16x8GeS) | _ => None end
  | 303 => match fs with [] => Some (I_I16x8GeU) | _ => None end
  | 304 => match fs with [] => Some (I_I32x4Eq) | _ => None end
  | 305 => match fs with [] => Some (I_I32x4Ne) | _ => None end
  | 306 => match fs with [] => Some (I_I32x4LtS) | _ => None end
  | 307 => match fs with [] => Some (I_I32x4LtU) | _ => None end
  | 308 => match fs with [] => Some (I_I32x4GtS) | _ => None end
  | 309 => match fs with [] => Some (I_I32x4GtU) | _ => None end
  | 310 => match fs with [] => Some (I_I32x4LeS) | _ => None end
  | 311 => match fs with [] => Some (I_I32x4LeU) | _ => None end
  | 312 => match fs with [] => Some (I_I32x4GeS) | _ => None end
  | 313 => match fs with [] => Some (I_I32x4GeU) | _ => None end
  | 314 => match fs with [] => Some (I_I64x2Eq) | _ => None end
  | 315 => match fs with [] => Some (I_I64x2Ne) | _ => None end
  | 316 => match fs with [] => Some (I_I64x2LtS) | _ => None end
  | 317 => match fs with [] => Some (I_I64x2GtS) | _ => None end
  | 318 => match fs with [] => Some (I_I64x2LeS) | _ => None end
  | 319 => match fs with [] => Some (I_I64x2GeS) | _ => None end
  | 320 => match fs with [] => Some (I_F32x4Eq) | _ => None end
  | 321 => match fs with [] => Some (I_F32x4Ne) | _ => None end
  | 322 => match fs with [] => Some (I_F32x4Lt) | _ => None end
  | 323 => match fs with [] => Some (I_F32x4Gt) | _ => None end
  | 324 => match fs with [] => Some (I_F32x4Le) | _ => None end
  | 325 => match fs with [] => Some (I_F32x4Ge) | _ => None end
  | 326 => match fs with [] => Some (I_F64x2Eq) | _ => None end
  | 327 => match fs with [] => Some (I_F64x2Ne) | _ => None end
  | 328 => match fs with [] => Some (I_F64x2Lt) | _ => None end
  | 329 => match fs with [] => Some (I_F64x2Gt) | _ => None end
  | 330 => match fs with [] => Some (I_F64x2Le) | _ => None end
  | 331 => match fs with [] => Some (I_F64x2Ge) | _ => None end
  | 332 => match fs with [] => Some (I_V128Not) | _ => None end
  | 333 => match fs with [] => Some (I_V128And) | _ => None end
  | 334 => match fs with [] => Some (I_V128AndNot) | _ => None end
  | 335 => match fs with [] => Some (I_V128Or) | _ => None end
  | 336 => match fs with [] => Some (I_V128Xor) | _ => None end
  | 337 => match fs with [] => Some (I_V128Bitselect) | _ => None end
  | 338 => match fs with [] => Some (I_I8x16RelaxedLaneSelect) | _ => None end
  | 339 => match fs with [] => Some (I_I16x8RelaxedLaneSelect) | _ => None end
  | 340 => match fs with [] => Some (I_I32x4RelaxedLaneSelect) | _ => None end
  | 341 => match fs with [] => Some (I_I64x2RelaxedLaneSelect) | _ => None end
  | 342 => match fs with [] => Some (I_V128AnyTrue) | _ => None end
  | 343 => match fs with [] => Some (I_I8x16Abs) | _ => None end
  | 344 => match fs with [] => Some (I_I8x16Neg) | _ => None end
  | 345 => match fs with [] => Some (I_I8x16Popcnt) | _ => None end
  | 346 => match fs with [] => Some (I_I8x16AllTrue) | _ => None end
  | 347 => match fs with [] => Some (I_I8x16Bitmask) | _ => None end
  | 348 => match fs with [] => Some (I_I8x16NarrowI16x8S) | _ => None end
  | 349 => match fs with [] => Some (I_I8x16NarrowI16x8U) | _ => None end
  | 350 => match fs with [] => Some (I_I8x16Shl) | _ => None end
  | 351 => match fs with [] => Some (I_I8x16ShrS) | _ => None end
  | 352 => match fs with [] => Some (I_I8x16ShrU) | _ => None end
  | 353 => match fs with [] => Some (I_I8x16Add) | _ => None end
  | 354 => match fs with [] => Some (I_I8x16AddSatS) | _ => None end
  | 355 => match fs with [] => Some (I_I8x16AddSatU) | _ => None end
  | 356 => match fs with [] => Some (I_I8x16Sub) | _ => None end
  | 357 => match fs with [] => Some (I_I8x16SubSatS) | _ => None end
  | 358 => match fs with [] => Some (I_I8x16SubSatU) | _ => None end
  | 359 => match fs with [] => Some (I_I8x16MinS) | _ => None end
  | 360 => match fs with [] => Some (I_I8x16MinU) | _ => None end
  | 361 => match fs with [] => Some (I_I8x16MaxS) | _ => None end
  | 362 => match fs with [] => Some (I_I8x16MaxU) | _ => None end
  | 363 => match fs with [] => Some (I_I8x16AvgrU) | _ => None end
  | 364 => match fs with [] => Some (I_I16x8ExtaddPairwiseI8x16S) | _ => None end
  | 365 => match fs with [] => Some (I_I16x8ExtaddPairwiseI8x16U) | _ => None end
  | 366 => match fs with [] => Some (I_I16x8Abs) | _ => None end
  | 367 => match fs with [] => Some (I_I16x8Neg) | _ => None end
  | 368 => match fs with [] => Some (I_I16x8Q15MulrSatS) | _ => None end
  | 369 => match fs with [] => Some (I_I16x8AllTrue) | _ => None end
  | 370 => match fs with [] => Some (I_I16x8Bitmask) | _ => None end
  | 371 => match fs with [] => Some (I_I16x8NarrowI32x4S) | _ => None end
  | 372 => match fs with [] => Some (I_I16x8NarrowI32x4U) | _ => None end
  | 373 => match fs with [] => Some (I_I16x8ExtendLowI8x16S) | _ => None end
  | 374 => match fs with [] => Some (I_I16x8ExtendHighI8x16S) | _ => None end
  | 375 => match fs with [] => Some (I_I16x8ExtendLowI8x16U) | _ => None end
  | 376 => match fs with [] => Some (I_I16x8ExtendHighI8x16U) | _ => None end
  | 377 => match fs with [] => Some (I_I16x8Shl) | _ => None end
  | 378 => match fs with [] => Some (I_I16x8ShrS) | _ => None end
  | 379 => match fs with [] => Some (I_I16x8ShrU) | _ => None end
  | 380 => match fs with [] => Some (I_I16x8Add) | _ => None end
  | 381 => match fs with [] => Some (I_I16x8AddSatS) | _ => None end
  | 382 => match fs with [] => Some (I_I16x8AddSatU) | _ => None end
  | 383 => match fs with [] => Some (I_I16x8Sub) | _ => None end
  | 384 => match fs with [] => Some (I_I16x8SubSatS) | _ => None end
  | 385 => match fs with [] => Some (I_I16x8SubSatU) | _ => None end
  | 386 => match fs with [] => Some (I_I16x8Mul) | _ => None end
  | 387 => match fs with [] => Some (I_I16x8MinS) | _ => None end
  | 388 => match fs with [] => Some (I_I16x8MinU) | _ => None end
  | 389 => match fs with [] => Some (I_I16x8MaxS) | _ => None end
  | 390 => match fs with [] => Some (I_I16x8MaxU) | _ => None end
  | 391 => match fs with [] => Some (I_I16x8AvgrU) | _ => None end
  | 392 => match fs with [] => Some (I_I16x8ExtmulLowI8x16S) | _ => None end
  | 393 => match fs with [] => Some (I_I16x8ExtmulHighI8x16S) | _ => None end
  | 394 => match fs with [] => Some (I_I16x8ExtmulLowI8x16U) | _ => None end
  | 395 => match fs with [] => Some (I_I16x8ExtmulHighI8x16U) | _ => None end
  | 396 => match fs with [] => Some (I_I16x8RelaxedQ15MulrS) | _ => None end
  | 397 => match fs with [] => Some (I_I16x8RelaxedDotSI8x16) | _ => None end
  | 398 => match fs with [] => Some (I_I32x4RelaxedDotAddSI16x8) | _ => None end
  | 399 => match fs with [] => Some (I_I32x4ExtaddPairwiseI16x8S) | _ => None end
  | 400 => match fs with [] => Some (I_I32x4ExtaddPairwiseI16x8U) | _ => None end
  | 401 => match fs with [] => Some (I_I32x4Abs) | _ => None end
  | 402 => match fs with [] => Some (I_I32x4Neg) | _ => None end
  | 403 => match fs with [] => Some (I_I32x4AllTrue) | _ => None end
  | 404 => match fs with [] => Some (I_I32x4Bitmask) | _ => None end
  | 405 => match fs with [] => Some (I_I32x4ExtendLowI16x8S) | _ => None end
  | 406 => match fs with [] => Some (I_I32x4ExtendHighI16x8S) | _ => None end
  | 407 => match fs with [] => Some (I_I32x4ExtendLowI16x8U) | _ => None end
  | 408 => match fs with [] => Some (I_I32x4ExtendHighI16x8U) | _ => None end
  | 409 => match fs with [] => Some (I_I32x4Shl) | _ => None end
  | 410 => match fs with [] => Some (I_I32x4ShrS) | _ => None end
  | 411 => match fs with [] => Some (I_I32x4ShrU) | _ => None end
  | 412 => match fs with [] => Some (I_I32x4Add) | _ => None end
  | 413 => match fs with [] => Some (I_I32x4Sub) | _ => None end
  | 414 => match fs with [] => Some (I_I32x4Mul) | _ => None end
  | 415 => match fs with [] => Some (I_I32x4MinS) | _ => None end
  | 416 => match fs with [] => Some (I_I32x4MinU) | _ => None end
  | 417 => match fs with [] => Some (I_I32x4MaxS) | _ => None end
  | 418 => match fs with [] => Some (I_I32x4MaxU) | _ => None end
  | 419 => match fs with [] => Some (I_I32x4DotI16x8S) | _ => None end
  | 420 => match fs with [] => Some (I_I32x4ExtmulLowI16x8S) | _ => None end
  | 421 => match fs with [] => Some (I_I32x4ExtmulHighI16x8S) | _ => None end
  | 422 => match fs with [] => Some (I_I32x4ExtmulLowI16x8U) | _ => None end
  | 423 => match fs with [] => Some (I_I32x4ExtmulHighI16x8U) | _ => None end
  | 424 => match fs with [] => Some (I_I64x2Abs) | _ => None end
  | 425 => match fs with [] => Some (I_I64x2Neg) | _ => None end
  | 426 => match fs with [] => Some (I_I64x2AllTrue) | _ => None end
  | 427 => match fs with [] => Some (I_I64x2Bitmask) | _ => None end
  | 428 => match fs with [] => Some (I_I64x2ExtendLowI32x4S) | _ => None end
  | 429 => match fs with [] => Some (I_I64x2ExtendHighI32x4S) | _ => None end
  | 430 => match fs with [] => Some (I_I64x2ExtendLowI32x4U) | _ => None end
  | 431 => match fs with [] => Some (I_I64x2ExtendHighI32x4U) | _ => None end
  | 432 => match fs with [] => Some (I_I64x2Shl) | _ => None end
  | 433 => match fs with [] => Some (I_I64x2ShrS) | _ => None end
  | 434 => match fs with [] => Some (I_I64x2ShrU) | _ => None end
  | 435 => match fs with [] => Some (I_I64x2Add) | _ => None end
  | 436 => match fs with [] => Some (I_I64x2Sub) | _ => None end
  | 437 => match fs with [] => Some (I_I64x2Mul) | _ => None end
  | 438 => match fs with [] => Some (I_I64x2ExtmulLowI32x4S) | _ => None end
  | 439 => match fs with [] => Some (I_I64x2ExtmulHighI32x4S) | _ => None end
  | 440 => match fs with [] => Some (I_I64x2ExtmulLowI32x4U) | _ => None end
  | 441 => match fs with [] => Some (I_I64x2ExtmulHighI32x4U) | _ => None end
  | 442 => match fs with [] => Some (I_F32x4Ceil) | _ => None end
  | 443 => match fs with [] => Some (I_F32x4Floor) | _ => None end
  | 444 => match fs with [] => Some (I_F32x4Trunc) | _ => None end
  | 445 => match fs with [] => Some (I_F32x4Nearest) | _ => None end
  | 446 => match fs with [] => Some (I_F32x4Abs) | _ => None end
  | 447 => match fs with [] => Some (I_F32x4Neg) | _ => None end
  | 448 => match fs with [] => Some (I_F32x4Sqrt) | _ => None end
  | 449 => match fs with [] => Some (I_F32x4Add) | _ => None end
  | 450 => match fs with [] => Some (I_F32x4Sub) | _ => None end
  | 451 => match fs with [] => Some (I_F32x4Mul) | _ => None end
  | 452 => match fs with [] => Some (I_F32x4Div) | _ => None end
  | 453 => match fs with [] => Some (I_F32x4Min) | _ => None end
  | 454 => match fs with [] => Some (I_F32x4Max) | _ => None end
  | 455 => match fs with [] => Some (I_F32x4PMin) | _ => None end
  | 456 => match fs with [] => Some (I_F32x4PMax) | _ => None end
  | 457 => match fs with [] => Some (I_F32x4RelaxedMin) | _ => None end
  | 458 => match fs with [] => Some (I_F32x4RelaxedMax) | _ => None end
  | 459 => match fs with [] => Some (I_F32x4RelaxedMAdd) | _ => None end
  | 460 => match fs with [] => Some (I_F32x4RelaxedNMAdd) | _ => None end
  | 461 => match fs with [] => Some (I_F64x2Ceil) | _ => None end
  | 462 => match fs with [] => Some (I_F64x2Floor) | _ => None end
  | 463 => match fs with [] => Some (I_F64x2Trunc) | _ => None end
  | 464 => match fs with [] => Some (I_F64x2Nearest) | _ => None end
  | 465 => match fs with [] => Some (I_F64x2Abs) | _ => None end
  | 466 => match fs with [] => Some (I_F64x2Neg) | _ => None end
  | 467 => match fs with [] => Some (I_F64x2Sqrt) | _ => None end
  | 468 => match fs with [] => Some (I_F64x2Add) | _ => None end
  | 469 => match fs with [] => Some (I_F64x2Sub) | _ => None end
  | 470 => match fs with [] => Some (I_F64x2Mul) | _ => None end
  | 471 => match fs with [] => Some (I_F64x2Div) | _ => None end
  | 472 => match fs with [] => Some (I_F64x2Min) | _ => None end
  | 473 => match fs with [] => Some (I_F64x2Max) | _ => None end
  | 474 => match fs with [] => Some (I_F64x2PMin) | _ => None end
  | 475 => match fs with [] => Some (I_F64x2PMax) | _ => None end
  | 476 => match fs with [] => Some (I_F64x2RelaxedMin) | _ => None end
  | 477 => match fs with [] => Some (I_F64x2RelaxedMax) | _ => None end
  | 478 => match fs with [] => Some (I_F64x2RelaxedMAdd) | _ => None end
  | 479 => match fs with [] => Some (I_F64x2RelaxedNMAdd) | _ => None end
  | 480 => match fs with [] => Some (I_I32x4TruncSatF32x4S) | _ => None end
  | 481 => match fs with [] => Some (I_I32x4TruncSatF32x4U) | _ => None end
  | 482 => match fs with [] => Some (I_F32x4ConvertI32x4S) | _ => None end
  | 483 => match fs with [] => Some (I_F32x4ConvertI32x4U) | _ => None end
  | 484 => match fs with [] => Some (I_I32x4TruncSatF64x2SZero) | _ => None end
  | 485 => match fs with [] => Some (I_I32x4TruncSatF64x2UZero) | _ => None end
  | 486 => match fs with [] => Some (I_I32x4RelaxedTruncF32x4S) | _ => None end
  | 487 => match fs with [] => Some (I_I32x4RelaxedTruncF32x4U) | _ => None end
  | 488 => match fs with [] => Some (I_I32x4RelaxedTruncF64x2SZero) | _ => None end
  | 489 => match fs with [] => Some (I_I32x4RelaxedTruncF64x2UZero) | _ => None end
  | 490 => match fs with [] => Some (I_F64x2ConvertLowI32x4S) | _ => None end
  | 491 => match fs with [] => Some (I_F64x2ConvertLowI32x4U) | _ => None end
  | 492 => match fs with [] => Some (I_F32x4DemoteF64x2Zero) | _ => None end
  | 493 => match fs with [] => Some (I_F64x2PromoteLowF32x4) | _ => None end
  | _ => None
  end%N.
Lemma rebuild_ok i : nested i = false -> rebuild (discriminant i) (fields i) = Some i.
Proof. destruct i; intros H; try discriminate H; reflexivity. Qed.

(** ** agreement of [==] with [rest] and [floats] *)
Definition in_range (c : float) : Prop := match c with Single b => (b < 2 ^ 32)%N | Double b => (b < 2 ^ 64)%N end.
Record Agree {A} (eq : A -> A -> bool) (rest : A -> A) (fl : A -> list float) (a : A) : Prop := {
  ag_len : forall b, rest a = rest b -> length (fl a) = length (fl b);
  ag_eq : forall b, Forall in_range (fl a) -> Forall in_range (fl b) -> (eq a b = true <-> rest a = rest b /\ Forall2 same_number (fl a) (fl b)) }.

Lemma Forall2_app_iff {A} (P : A -> A -> Prop) l1 l1' l2 l2' : length l1 = length l1' ->
  (Forall2 P (l1 ++ l2) (l1' ++ l2') <-> Forall2 P l1 l1' /\ Forall2 P l2 l2').
Proof.
  revert l1'. induction l1 as [|a l1 IH]; intros [|b l1'] HL; try discriminate HL; cbn.
  - split; [intros H; split; [constructor|exact H]|intros [_ H]; exact H].
  - injection HL as HL. specialize (IH l1' HL). split.
    + intros H. inversion H; subst. destruct (proj1 IH ltac:(assumption)). split; [constructor; assumption|assumption].
    + intros [H1 H2]. inversion H1; subst. constructor; [assumption|]. apply IH. split; assumption.
Qed.
Lemma agree_pure {A} (eq : A -> A -> bool) a : Decides eq -> Agree eq (fun a => a) (fun _ => []) a.
Proof. intros H. split; [reflexivity|]. intros b _ _. rewrite (H a b). split; [intros ->; split; [reflexivity|constructor]|intros [E _]; exact E]. Qed.
Lemma agree_vec {A} (eq : A -> A -> bool) rest fl l : Forall (Agree eq rest fl) l -> Agree (vec_eq eq) (map rest) (flat_map fl) l.
Proof.
  induction 1 as [|a l [Hl He] _ [IHl IHe]].
  - split; intros [|b l']; cbn; intros; try discriminate; try reflexivity; split; try discriminate; try (intros []; discriminate); intros; [split; [reflexivity|constructor]|reflexivity].
  - split; intros [|b l']; cbn [map flat_map vec_eq].
    + discriminate.
    + intros E. injection E as E1 E2. rewrite !app_length, (Hl b E1), (IHl l' E2). reflexivity.
    + intros _ _. split; [discriminate|intros [E _]; discriminate E].
    + rewrite !Forall_app. intros [R1 R2] [R1' R2']. unfold vec_eq. fold (vec_eq eq). rewrite andb_true_iff, (He b R1 R1'), (IHe l' R2 R2'). split.
      * intros [[E1 F1] [E2 F2]]. split; [rewrite E1, E2; reflexivity|]. apply Forall2_app; assumption.
      * intros [E F]. injection E as E1 E2. rewrite (Forall2_app_iff _ _ _ _ _ (Hl b E1)) in F. destruct F. repeat split; assumption.
Qed.
Definition opt_fl {A} (fl : A -> list float) (o : option A) : list float := match o with Some a => fl a | None => [] end.
Lemma agree_option {A} (eq : A -> A -> bool) rest fl o : (forall a, o = Some a -> Agree eq rest fl a) -> Agree (option_eq eq) (option_map rest) (opt_fl fl) o.
Proof.
  destruct o as [a|]; intros H.
  - destruct (H a eq_refl) as [Hl He]. split; intros [b|]; cbn; try discriminate.
    + intros E. injection E as E. exact (Hl b E).
    + intros R R'. unfold option_eq. rewrite (He b R R'). split; [intros [E F]; split; [rewrite E; reflexivity|exact F]|intros [E F]; injection E as E; split; assumption].
    + intros _ _. split; [discriminate|intros [E _]; discriminate E].
  - split; intros [b|]; cbn; try discriminate; try reflexivity; intros _ _; (split; [discriminate || (split; [reflexivity|constructor])|]); [intros [E _]; discriminate E|reflexivity].
Qed.

(** fields *)
Definition field_rest (f : field) : field := match f with P_f32 _ => P_f32 0 | P_f64 _ => P_f64 0 | f => f end.
Definition field_floats (f : field) : list float := match f with P_f32 b => [Single b] | P_f64 b => [Double b] | _ => [] end.
Lemma same_single a b : (a < 2 ^ 32)%N -> (b < 2 ^ 32)%N -> (f32_eq a b = true <-> same_number (Single a) (Single b)).
Proof. intros Ha Hb. unfold f32_eq. rewrite (float_eq_value 23 8 ltac:(lia) ltac:(lia) a b Ha Hb). unfold same_number. cbn [is_single float_value]. tauto. Qed.
Lemma same_double a b : (a < 2 ^ 64)%N -> (b < 2 ^ 64)%N -> (f64_eq a b = true <-> same_number (Double a) (Double b)).
Proof. intros Ha Hb. unfold f64_eq. rewrite (float_eq_value 52 11 ltac:(lia) ltac:(lia) a b Ha Hb). unfold same_number. cbn [is_single float_value]. tauto. Qed.
Lemma Forall_one {A} (P : A -> Prop) a : Forall P [a] <-> P a.
Proof. split; [inversion 1; assumption|intros; repeat constructor; assumption]. Qed.
Lemma Forall2_one {A} (P : A -> A -> Prop) a b : Forall2 P [a] [b] <-> P a b.
Proof. split; [inversion 1; assumption|intros; repeat constructor; assumption]. Qed.
#[local] Hint Resolve import_dec export_dec custom_dec header_dec : eqs.
Lemma field_agree f : Agree field_eq field_rest field_floats f.
Proof.
  split.
  - intros f' E. destruct f, f'; cbn in E |- *; try discriminate E; reflexivity.
  - intros f'. destruct f, f'; cbn [field_floats field_rest]; try (intros _ _; cbn; split; [discriminate|intros [E _]; discriminate E]).
    all: try (rewrite !Forall_one, Forall2_one; cbn [in_range]; intros R R'; unfold field_eq; rewrite ?(same_single _ _ R R'), ?(same_double _ _ R R');
      split; [intros HS; split; [reflexivity|exact HS]|intros [_ HS]; exact HS]).
    all: intros _ _; unfold field_eq;
      match goal with |- context [?eq ?a ?b = true] => let H := fresh in assert (H : Decides eq) by eauto 4 with eqs; rewrite (H a b); clear H end;
      split; [intros ->; split; [reflexivity|constructor]|intros [E _]; injection E as ->; reflexivity].
Qed.

(** instructions other than blocks *)
Definition nested_disc (n : N) : bool := existsb (N.eqb n) [2; 3; 4; discriminant (I_TryTable BT_Empty [] [])]%N.
Lemma nested_by_disc i : nested i = nested_disc (discriminant i).
Proof. destruct i; vm_compute; reflexivity. Qed.
Lemma rest_disc i : discriminant (instr_rest i) = discriminant i.
Proof. destruct i; reflexivity. Qed.
Lemma rest_nested i : nested (instr_rest i) = nested i.
Proof. destruct i; reflexivity. Qed.
Lemma rest_fields i : fields (instr_rest i) = map field_rest (fields i).
Proof. destruct i; reflexivity. Qed.
Lemma floats_fields i : nested i = false -> instr_floats i = flat_map field_floats (fields i).
Proof. destruct i; intros H; try discriminate H; reflexivity. Qed.
Lemma instr_eq_flat i j : nested i = false -> instr_eq i j = (discriminant i =? discriminant j)%N && vec_eq field_eq (fields i) (fields j).
Proof. destruct i; intros H; try discriminate H; reflexivity. Qed.
Lemma same_instr i j : nested i = false -> discriminant i = discriminant j -> fields i = fields j -> i = j.
Proof.
  intros Hi Hd Hf. assert (Hj : nested j = false) by (rewrite nested_by_disc, <- Hd, <- nested_by_disc; exact Hi).
  pose proof (rebuild_ok i Hi) as E. rewrite Hd, Hf, (rebuild_ok j Hj) in E. injection E as ->. reflexivity.
Qed.
Lemma flat_agree i : nested i = false -> Agree instr_eq instr_rest instr_floats i.
Proof.
  intros Hi. assert (HF : Agree (vec_eq field_eq) (map field_rest) (flat_map field_floats) (fields i)).
  { apply agree_vec. apply Forall_forall. intros f _. apply field_agree. }
  destruct HF as [HL HE].
  assert (HR : forall j, instr_rest i = instr_rest j <-> discriminant i = discriminant j /\ map field_rest (fields i) = map field_rest (fields j)).
  { intros j. rewrite <- !rest_fields. split.
    - intros E. split; [rewrite <- (rest_disc i), <- (rest_disc j), E; reflexivity|rewrite E; reflexivity].
    - intros [Ed Ef]. apply same_instr; [rewrite rest_nested; exact Hi|rewrite !rest_disc; exact Ed|exact Ef]. }
  assert (HN : forall j, discriminant i = discriminant j -> nested j = false).
  { intros j Ed. rewrite nested_by_disc, <- Ed, <- nested_by_disc. exact Hi. }
  split.
  - intros j E. apply HR in E as [Ed Ef]. rewrite (floats_fields i Hi), (floats_fields j (HN j Ed)). exact (HL _ Ef).
  - intros j R R'. rewrite (instr_eq_flat i j Hi), andb_true_iff, N.eqb_eq, HR. split.
    + intros [Ed Ev]. rewrite (floats_fields i Hi) in *. rewrite (floats_fields j (HN j Ed)) in *. apply (HE _ R R') in Ev as [Ef F]. repeat split; assumption.
    + intros [[Ed Ef] F]. rewrite (floats_fields i Hi) in *. rewrite (floats_fields j (HN j Ed)) in *. split; [exact Ed|]. apply (HE _ R R'). split; assumption.
Qed.

(** induction over nested instructions *)
Lemma instr_nested_ind (P : instr -> Prop) :
  (forall i, nested i = false -> P i) ->
  (forall t l, Forall P l -> P (I_Block t l)) -> (forall t l, Forall P l -> P (I_Loop t l)) ->
  (forall t l o, Forall P l -> (forall l', o = Some l' -> Forall P l') -> P (I_If t l o)) ->
  (forall t c l, Forall P l -> P (I_TryTable t c l)) -> forall i, P i.
Proof.
  intros H0 H1 H2 H3 H4. fix IH 1.
  set (IHl := fix IHl (l : list instr) : Forall P l := match l with [] => Forall_nil _ | a :: l' => Forall_cons _ (IH a) (IHl l') end).
  intros i.
  destruct i; try (apply H0; reflexivity).
  - apply H1. exact (IHl _).
  - apply H2. exact (IHl _).
  - apply H3; [exact (IHl _)|]. intros l' E. destruct o; [|discriminate E]. injection E as <-. exact (IHl _).
  - apply H4. exact (IHl _).
Qed.

(** products, and types that are compared through a part of them *)
Definition pair_eq {A B} (e1 : A -> A -> bool) (e2 : B -> B -> bool) (p q : A * B) : bool := e1 (fst p) (fst q) && e2 (snd p) (snd q).
Lemma agree_pair {A B} (e1 : A -> A -> bool) r1 f1 (e2 : B -> B -> bool) r2 f2 p : Agree e1 r1 f1 (fst p) -> Agree e2 r2 f2 (snd p) ->
  Agree (pair_eq e1 e2) (fun p => (r1 (fst p), r2 (snd p))) (fun p => f1 (fst p) ++ f2 (snd p)) p.
Proof.
  intros [L1 E1] [L2 E2]. split.
  - intros q E. injection E as Ea Eb. rewrite !app_length, (L1 _ Ea), (L2 _ Eb). reflexivity.
  - intros q. rewrite !Forall_app. intros [R1 R2] [R1' R2']. unfold pair_eq. rewrite andb_true_iff, (E1 _ R1 R1'), (E2 _ R2 R2'). split.
    + intros [[Ea F1] [Eb F2]]. split; [rewrite Ea, Eb; reflexivity|]. apply Forall2_app; assumption.
    + intros [E F]. injection E as Ea Eb. rewrite (Forall2_app_iff _ _ _ _ _ (L1 _ Ea)) in F. destruct F. repeat split; assumption.
Qed.
Lemma agree_part {A B} (eq : A -> A -> bool) rest fl (p : A -> A -> bool) (g : A -> B) eq' rest' fl' a : Agree eq' rest' fl' (g a) ->
  (forall b, eq a b = true <-> p a b = true /\ eq' (g a) (g b) = true) -> (forall b, fl b = fl' (g b)) ->
  (forall b, rest a = rest b <-> p a b = true /\ rest' (g a) = rest' (g b)) -> Agree eq rest fl a.
Proof.
  intros [HL HE] H1 H2 H3. split.
  - intros b E. rewrite !H2. apply HL. apply H3 in E. apply E.
  - intros b. rewrite !H2. intros R R'. rewrite H1, H3, (HE _ R R'). tauto.
Qed.

Definition block_parts (i : instr) : option (list instr * option (list instr)) :=
  match i with
  | I_Block _ l | I_Loop _ l | I_TryTable _ _ l => Some (l, None)
  | I_If _ l o => Some (l, o)
  | _ => None
  end.
Definition block_head (i j : instr) : bool :=
  match i with
  | I_Block t _ => match j with I_Block t' _ => blocktype_eq t t' | _ => false end
  | I_Loop t _ => match j with I_Loop t' _ => blocktype_eq t t' | _ => false end
  | I_If t _ _ => match j with I_If t' _ _ => blocktype_eq t t' | _ => false end
  | I_TryTable t c _ => match j with I_TryTable t' c' _ => blocktype_eq t t' && vec_eq catch_eq c c' | _ => false end
  | _ => false
  end.
Definition body (i : instr) : list instr * option (list instr) := match block_parts i with Some p => p | None => ([i], None) end.
Notation body_eq := (pair_eq (vec_eq instr_eq) (option_eq (vec_eq instr_eq))) (only parsing).
Lemma block_floats j : instr_floats j = flat_map instr_floats (fst (body j)) ++ opt_fl (flat_map instr_floats) (snd (body j)) \/ nested j = false.
Proof. destruct j; try (right; reflexivity); left; cbn; rewrite ?app_nil_r; try reflexivity. destruct o; cbn; rewrite ?app_nil_r; reflexivity. Qed.
Lemma block_eq i j : nested i = true -> (instr_eq i j = true <-> block_head i j = true /\ body_eq (body i) (body j) = true).
Proof.
  intros Hi. destruct i; try discriminate Hi; clear Hi; destruct j; cbn [instr_eq block_head body block_parts pair_eq fst snd option_eq]; try (split; [discriminate|intros [E _]; discriminate E]);
    unfold pair_eq; cbn [fst snd]; fold (vec_eq instr_eq); unfold option_eq; rewrite ?andb_true_iff; tauto.
Qed.
Lemma block_rest i j : nested i = true ->
  (instr_rest i = instr_rest j <-> block_head i j = true /\ (map instr_rest (fst (body i)), option_map (map instr_rest) (snd (body i))) = (map instr_rest (fst (body j)), option_map (map instr_rest) (snd (body j)))).
Proof.
  intros Hi. destruct i; try discriminate Hi; clear Hi; destruct j; cbn [instr_rest block_head body block_parts fst snd option_map]; try (split; [discriminate|intros [E _]; discriminate E]);
    rewrite ?andb_true_iff, ?(blocktype_dec _ _), ?(vec_dec _ catch_dec _ _).
  all: split; [intros E; injection E; intros; subst; repeat split; congruence|].
  all: intros [E1 E2]; injection E2; intros; try destruct E1; subst; congruence.
Qed.
Lemma block_head_nested i j : block_head i j = true -> nested j = true.
Proof. destruct i; try discriminate; destruct j; try discriminate; reflexivity. Qed.
Lemma instr_agree i : Agree instr_eq instr_rest instr_floats i.
Proof.
  assert (HB : forall i, nested i = true -> Agree body_eq (fun p => (map instr_rest (fst p), option_map (map instr_rest) (snd p))) (fun p => flat_map instr_floats (fst p) ++ opt_fl (flat_map instr_floats) (snd p)) (body i) -> Agree instr_eq instr_rest instr_floats i).
  { clear i. intros i Hn [HL HE].
    assert (HF : forall j, nested j = true -> instr_floats j = flat_map instr_floats (fst (body j)) ++ opt_fl (flat_map instr_floats) (snd (body j))).
    { intros j Hj. destruct (block_floats j) as [E|E]; [exact E|congruence]. }
    split.
    - intros j E. apply (block_rest i j Hn) in E as [Eh E]. rewrite (HF i Hn), (HF j (block_head_nested _ _ Eh)). exact (HL _ E).
    - intros j R R'. rewrite (block_eq i j Hn), (block_rest i j Hn). split.
      + intros [Eh E]. rewrite (HF i Hn) in *. rewrite (HF j (block_head_nested _ _ Eh)) in *. apply (HE _ R R') in E as [E F]. repeat split; assumption.
      + intros [[Eh E] F]. rewrite (HF i Hn) in *. rewrite (HF j (block_head_nested _ _ Eh)) in *. split; [exact Eh|]. apply (HE _ R R'). split; assumption. }
  induction i as [i Hi|t l IH|t l IH|t l o IH IHo|t c l IH] using instr_nested_ind; [exact (flat_agree i Hi)| | | |]; (apply HB; [reflexivity|]); clear HB;
    apply agree_pair; cbn [body block_parts fst snd]; try (apply agree_vec; exact IH); apply agree_option; intros l' E; try discriminate E.
  apply agree_vec. exact (IHo l' E).
Qed.
Lemma expr_agree e : Agree expr_eq expr_rest expr_floats e.
Proof. apply agree_vec. apply Forall_forall. intros i _. apply instr_agree. Qed.
