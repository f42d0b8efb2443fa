(** LEB128: what the five integer decoders do on any lawful reader, and how that
    relates to the specification's uN/sN. *)
From Verif Require Import Model.Prelude Model.Io Model.Ast Model.Errors Model.Integer Proofs.Machine Proofs.Reads Proofs.Parses.
From Verif Require Import Spec.Lang.
From Coq Require Import Lia ZifyBool ZifyNat ZifyN.
Ltac Zify.zify_post_hook ::= Z.div_mod_to_equations.

(** ** the number written by a byte string, ignoring widths *)
Fixpoint uraw (bs : list byte) : N :=
  match bs with
  | [] => 0
  | b :: bs' => (b2n b mod 128 + 128 * uraw bs')%N
  end.
Fixpoint sraw (bs : list byte) : Z :=
  match bs with
  | [] => 0
  | [b] => if (b2n b mod 128 <? 64)%N then Z.of_N (b2n b mod 128) else (Z.of_N (b2n b mod 128) - 128)%Z
  | b :: bs' => (Z.of_N (b2n b mod 128) + 128 * sraw bs')%Z
  end.
(** continuation bytes followed by a final byte *)
Definition leb_shape (cs : list byte) (b : byte) : Prop :=
  Forall (fun c => (128 <= b2n c)%N) cs /\ (b2n b < 128)%N.

Lemma sraw_cons b b' bs : sraw (b :: b' :: bs) = (Z.of_N (b2n b mod 128) + 128 * sraw (b' :: bs))%Z.
Proof. reflexivity. Qed.
Lemma sraw_app_cons c cs b : sraw ((c :: cs) ++ [b]) = (Z.of_N (b2n c mod 128) + 128 * sraw (cs ++ [b]))%Z.
Proof. destruct cs; reflexivity. Qed.
Lemma sraw_cons_app c cs b : sraw (c :: cs ++ [b]) = (Z.of_N (b2n c mod 128) + 128 * sraw (cs ++ [b]))%Z.
Proof. destruct cs; reflexivity. Qed.
Lemma uraw_app_cons c cs b : uraw ((c :: cs) ++ [b]) = (b2n c mod 128 + 128 * uraw (cs ++ [b]))%N.
Proof. reflexivity. Qed.
Lemma uraw_cons c cs : uraw (c :: cs) = (b2n c mod 128 + 128 * uraw cs)%N.
Proof. reflexivity. Qed.

Lemma pow2_pos n : (0 < 2 ^ n)%N.
Proof. apply N.neq_0_lt_0, N.pow_nonzero. discriminate. Qed.
Lemma pow2_7 w : (7 < w)%N -> (2 ^ w = 128 * 2 ^ (w - 7))%N.
Proof. intros Hw. replace 128%N with (2 ^ 7)%N by reflexivity. rewrite <- N.pow_add_r. f_equal. lia. Qed.
Lemma zpow2_7 w : (7 < w)%Z -> (2 ^ (w - 1) = 128 * 2 ^ (w - 7 - 1))%Z.
Proof. intros Hw. replace 128%Z with (2 ^ 7)%Z by reflexivity. rewrite <- Z.pow_add_r by lia. f_equal. lia. Qed.

Lemma Bu_iff w v bs : Bu w v bs <->
  exists cs b, bs = cs ++ [b] /\ leb_shape cs b /\ (7 * N.of_nat (length cs) < w \/ cs = [])%N /\ v = uraw bs /\ (v < 2 ^ w)%N.
Proof.
  change (2 ^ 7)%N with 128%N. split.
  - induction 1 as [w b H1 H2|w b m bs H1 H2 H3 (cs & b' & -> & [S1 S2] & IH1 & IH2 & IH3)].
    + exists [], b. unfold val in *. fold (b2n b) in *. cbn [uraw app length].
      repeat split; auto; try lia.
    + exists (b :: cs), b'. unfold val in *. fold (b2n b) in *. pose proof (b2n_lt b).
      rewrite uraw_cons, <- IH2. change (2 ^ 7)%N with 128%N in *. cbn [length]. repeat split.
      * constructor; assumption.
      * assumption.
      * left. destruct IH1 as [?| ->]; cbn; lia.
      * lia.
      * rewrite (pow2_7 w) by lia. lia.
  - intros (cs & b & -> & [S1 S2] & Hl & -> & Hv). revert w Hl Hv.
    induction cs as [|c cs IH]; intros w Hl Hv.
    + cbn [uraw app] in *. replace (b2n b mod 128 + 128 * 0)%N with (val b) in * by (unfold val; fold (b2n b); lia).
      apply Bu_last; [unfold val; fold (b2n b)|]; assumption.
    + inversion S1; subst. destruct Hl as [Hl|]; [|discriminate]. cbn [length] in Hl.
      rewrite uraw_app_cons in *. pose proof (b2n_lt c).
      replace (b2n c mod 128 + 128 * uraw (cs ++ [b]))%N with (2 ^ 7 * uraw (cs ++ [b]) + (val c - 2 ^ 7))%N.
      2: { unfold val; fold (b2n c). change (2 ^ 7)%N with 128%N. lia. }
      rewrite (pow2_7 w) in Hv by lia.
      apply Bu_more; [unfold val; fold (b2n c); assumption|lia|].
      change ((c :: cs) ++ [b]) with (c :: (cs ++ [b])). apply IH; auto; lia.
Qed.

Lemma Bs_iff w v bs : (0 < w)%Z -> Bs w v bs <->
  exists cs b, bs = cs ++ [b] /\ leb_shape cs b /\ (7 * Z.of_nat (length cs) < w)%Z /\ v = sraw bs /\ (- 2 ^ (w - 1) <= v < 2 ^ (w - 1))%Z.
Proof.
  intros Hw. split.
  - intros HB. revert Hw. induction HB as [w b n H1 H2|w b n H1 H2|w b m bs n H1 H2 H3 IH]; intros Hw.
    + exists [], b. unfold n, val in *. fold (b2n b) in *. change (2 ^ 6)%Z with 64%Z in *.
      assert (Hp : (0 < 2 ^ (w - 1))%Z) by (apply Z.pow_pos_nonneg; lia).
      cbn [sraw app length]. destruct (N.ltb_spec (b2n b mod 128) 64); [|lia].
      repeat split; auto; try constructor; try lia.
    + exists [], b. unfold n, val in *. fold (b2n b) in *. change (2 ^ 6)%Z with 64%Z in *. change (2 ^ 7)%Z with 128%Z in *.
      assert (Hp : (0 < 2 ^ (w - 1))%Z) by (apply Z.pow_pos_nonneg; lia).
      cbn [sraw app length]. destruct (N.ltb_spec (b2n b mod 128) 64); [lia|].
      repeat split; auto; try constructor; try lia.
    + destruct IH as (cs & b' & -> & [S1 S2] & IH1 & IH2 & IH3); [lia|].
      exists (b :: cs), b'. unfold n, val in *. fold (b2n b) in *. pose proof (b2n_lt b).
      change (2 ^ 7)%Z with 128%Z in *.
      rewrite sraw_cons_app, <- IH2. cbn [length]. repeat split.
      * constructor; [lia|assumption].
      * assumption.
      * lia.
      * lia.
      * rewrite (zpow2_7 w) by lia. lia.
      * rewrite (zpow2_7 w) by lia. lia.
  - intros (cs & b & -> & [S1 S2] & Hl & -> & Hv). revert w Hw Hl Hv.
    induction cs as [|c cs IH]; intros w Hw Hl Hv.
    + cbn [sraw app] in *. destruct (N.ltb_spec (b2n b mod 128) 64).
      * replace (Z.of_N (b2n b mod 128)) with (Z.of_N (val b)) in * by (unfold val; fold (b2n b); lia).
        apply Bs_pos; [unfold val; fold (b2n b)|]; lia.
      * replace (Z.of_N (b2n b mod 128)) with (Z.of_N (val b)) in * by (unfold val; fold (b2n b); lia).
        apply (Bs_neg w b); unfold val in *; fold (b2n b) in *; lia.
    + inversion S1; subst. cbn [length] in Hl.
      rewrite sraw_app_cons in *. pose proof (b2n_lt c).
      replace (Z.of_N (b2n c mod 128) + 128 * sraw (cs ++ [b]))%Z with (2 ^ 7 * sraw (cs ++ [b]) + (Z.of_N (val c) - 2 ^ 7))%Z.
      2: { unfold val; fold (b2n c). change (2 ^ 7)%Z with 128%Z. lia. }
      rewrite (zpow2_7 w) in Hv by lia.
      apply (Bs_more w c); [unfold val; fold (b2n c); lia|lia|].
      apply IH; auto; lia.
Qed.

(** ** what a LEB decoder of at most [k] bytes does *)
Definition leb_post {C} `{Machine C} {E A} (c : C) (k : nat) (x : res E A) (c' : C)
    (long : E) (io : io_error -> E) (fin : list byte -> byte -> res E A) : Prop :=
  exists cs c1, bsteps c cs c1 /\ Forall (fun b => (128 <= b2n b)%N) cs /\
   ( (length cs = k /\ c' = c1 /\ x = Err long)
   \/ (length cs < k /\ exists b, next c1 = (AByte b, c') /\ (b2n b < 128)%N /\ x = fin cs b)
   \/ (length cs < k /\ next c1 = (AEof, c') /\ x = Err (io UnexpectedEof))
   \/ (length cs < k /\ exists kk, next c1 = (AErr kk, c') /\ x = Err (io kk))).

Lemma leb_step {R C E A} `{Lawful R C} (io : io_error -> E) (q : byte -> M R E A) (r : R) x r' k long (fin : list byte -> byte -> res E A) :
  bind (map_err io read_byte) q r = (x, r') ->
  (forall b r1, (b2n b < 128)%N -> q b r1 = (fin [] b, r1)) ->
  (forall b r1, (128 <= b2n b)%N -> q b r1 = (x, r') ->
     leb_post (abs r1) k x (abs r') long io (fun cs b' => fin (b :: cs) b')) ->
  leb_post (abs r) (S k) x (abs r') long io fin.
Proof.
  intros Hr Hfin Hcont. unfold bind, map_err in Hr.
  destruct (read_byte r) as [y r1] eqn:Eb. pose proof (read_byte_spec _ _ _ Eb) as HS.
  destruct (next (abs r)) as [[b| |kk] c1] eqn:En; inversion HS; subst y c1; clear HS.
  - destruct (N.lt_ge_cases (b2n b) 128) as [Hb|Hb].
    + rewrite (Hfin b r1 Hb) in Hr. inversion Hr; subst. exists [], (abs r). split; [constructor|]. split; [constructor|].
      right; left. split; [cbn; lia|]. eauto.
    + destruct (Hcont b r1 Hb Hr) as (cs & c1 & Hs & Hf & Hx). exists (b :: cs), c1.
      split; [econstructor; eauto|]. split; [constructor; assumption|]. cbn [length].
      destruct Hx as [(?&?&?)|[(?&?)|[(?&?)|(?&?)]]];
        [left|right; left|right; right; left|right; right; right]; repeat split; auto; try lia; try tauto.
  - inversion Hr; subst. exists [], (abs r). split; [constructor|]. split; [constructor|].
    right; right; left. cbn; auto with arith.
  - inversion Hr; subst. exists [], (abs r). split; [constructor|]. split; [constructor|].
    right; right; right. split; [cbn; lia|]. eauto.
Qed.
Lemma leb_end {R C E A} `{Lawful R C} (io : io_error -> E) (e : E) (r : R) x r' (fin : list byte -> byte -> res E A) :
  throw e r = (x, r') -> leb_post (abs r) 0 x (abs r') e io fin.
Proof. intros [= <- <-]. exists [], (abs r). split; [constructor|]. split; [constructor|]. left; auto. Qed.

Lemma leb_post_ext {C} `{Machine C} {E A} (c : C) k (x : res E A) c' long io fin fin' :
  leb_post c k x c' long io fin -> (forall cs b, length cs < k -> leb_shape cs b -> fin cs b = fin' cs b) ->
  leb_post c k x c' long io fin'.
Proof.
  intros (cs & c1 & Hs & Hf & Hx) He. exists cs, c1. split; [assumption|]. split; [assumption|].
  destruct Hx as [?|[(Hl & b & Hn & Hb & ->)|[?|?]]]; auto.
  right; left. split; [assumption|]. exists b. repeat split; auto. apply He; [assumption|split; assumption].
Qed.

(** ** bit-level facts *)
Lemma land_7F n : N.land n 0x7F = (n mod 128)%N.
Proof. change 0x7F%N with (N.ones 7). rewrite N.land_ones. reflexivity. Qed.
Lemma byte_80 b : (N.land (b2n b) 0x80 =? 0)%N = (b2n b <? 128)%N.
Proof. destruct b; reflexivity. Qed.
Lemma byte_40 b : (N.land (b2n b) 0x40 =? 0)%N = (b2n b mod 128 <? 64)%N.
Proof. destruct b; reflexivity. Qed.
Lemma lor_shiftl a x s : (a < 2 ^ s)%N -> N.lor a (N.shiftl x s) = (a + 2 ^ s * x)%N.
Proof.
  intros Ha. rewrite N.shiftl_mul_pow2, (N.mul_comm x).
  rewrite <- N.lxor_lor, <- N.add_nocarry_lxor; [reflexivity| |].
  all: rewrite N.mul_comm, <- N.shiftl_mul_pow2; apply N.bits_inj; intros i; rewrite N.land_spec, N.bits_0;
       destruct (N.lt_ge_cases i s) as [Hi|Hi];
       [rewrite N.shiftl_spec_low by assumption; apply andb_false_r
       |replace (N.testbit a i) with false; [reflexivity|]; symmetry;
        rewrite <- (N.mod_small a (2 ^ s)) by assumption; apply N.mod_pow2_bits_high; assumption].
Qed.
Lemma zlor_shiftl a x s : (0 <= s)%Z -> (0 <= a < 2 ^ s)%Z -> Z.lor a (x * 2 ^ s) = (a + 2 ^ s * x)%Z.
Proof.
  intros Hs Ha. rewrite <- Z.shiftl_mul_pow2 by assumption.
  assert (HL : Z.land a (Z.shiftl x s) = 0%Z).
  { apply Z.bits_inj'; intros i Hi; rewrite Z.land_spec, Z.bits_0.
    destruct (Z.lt_ge_cases i s) as [Hi'|Hi'].
    - rewrite Z.shiftl_spec_low by assumption; apply andb_false_r.
    - replace (Z.testbit a i) with false; [reflexivity|]; symmetry.
      rewrite <- (Z.mod_small a (2 ^ s)) by assumption. apply Z.mod_pow2_bits_high; lia. }
  rewrite <- Z.lxor_lor, <- Z.add_nocarry_lxor by exact HL.
  rewrite Z.shiftl_mul_pow2 by assumption. lia.
Qed.

(** ** iteration lists *)
Fixpoint seqN (i : N) (k : nat) : list N := match k with O => [] | S k' => i :: seqN (N.succ i) k' end.
Lemma lor_shl_mod a m s W : (s <= W)%N -> (a < 2 ^ s)%N ->
  N.lor a (N.shiftl m s mod 2 ^ W) = (a + 2 ^ s * (m mod 2 ^ (W - s)))%N.
Proof.
  intros Hs Ha. rewrite <- (lor_shiftl _ _ _ Ha). f_equal.
  rewrite !N.shiftl_mul_pow2. replace W with ((W - s) + s)%N at 1 by lia. rewrite N.pow_add_r.
  rewrite N.mul_mod_distr_r; try (apply N.pow_nonzero; discriminate). reflexivity.
Qed.
Lemma byte_F0 b : (b2n b < 128)%N -> (N.land (b2n b) 0xF0 =? 0)%N = (b2n b <? 16)%N.
Proof. destruct b; vm_compute; intros ?; first [reflexivity|discriminate]. Qed.
Lemma byte_7E b : (b2n b < 128)%N -> (N.land (b2n b) 0x7E =? 0)%N = (b2n b <? 2)%N.
Proof. destruct b; vm_compute; intros ?; first [reflexivity|discriminate]. Qed.

(** evaluate a closed term wherever it occurs *)
Ltac const t := let v := eval vm_compute in t in change t with v in *.

Section U32.
  Context {R C : Type} `{Lawful R C}.
  Definition u_fin {E} (w : N) (e : E) (result shift : N) (cs : list byte) (b : byte) : res E N :=
    let v := (result + 2 ^ shift * uraw (cs ++ [b]))%N in
    if (v <? 2 ^ w)%N then Ok v else Err e.
  Lemma u32_loop_spec k shift result (r : R) x r' :
    k <= 5 -> shift = (7 * (5 - N.of_nat k))%N -> (result < 2 ^ shift)%N ->
    u32_loop (seqN (6 - N.of_nat k) k) result shift r = (x, r') ->
    leb_post (abs r) k x (abs r') U32_RepresentationTooLong U32_Io (u_fin 32 U32_TooLarge result shift).
  Proof.
    revert shift result r; induction k as [|k IH]; intros shift result r Hk Hs Hr Hx.
    { eapply leb_end; eauto. }
    cbn [seqN u32_loop] in Hx. eapply leb_step; [exact Hx| |].
    - intros b r1 Hb. unfold u_fin. cbn [app uraw]. unfold shl_u32.
      rewrite (proj2 (N.ltb_lt shift 32)) by lia. unfold bind at 1, ret at 1.
      rewrite byte_80, (proj2 (N.ltb_lt _ _) Hb), land_7F, lor_shl_mod, byte_F0 by (assumption || lia).
      assert (Hk' : k = 0 \/ k = 1 \/ k = 2 \/ k = 3 \/ k = 4) by lia.
      destruct Hk' as [-> |[-> |[-> |[-> | ->]]]]; vm_compute in Hs; subst shift.
      + const (6 - N.of_nat 1 =? 5)%N. cbn [andb]. const (2 ^ 28)%N. const (2 ^ 32)%N. const (2 ^ (32 - 28))%N.
        destruct (N.ltb_spec (b2n b) 16); cbn [negb].
        * rewrite (proj2 (N.ltb_lt _ _)) by lia. unfold ret. f_equal; f_equal; lia.
        * rewrite (proj2 (N.ltb_ge _ _)) by lia. reflexivity.
      + const (6 - N.of_nat 2 =? 5)%N. cbn [andb]. const (2 ^ 21)%N. const (2 ^ 32)%N. const (2 ^ (32 - 21))%N.
        rewrite (proj2 (N.ltb_lt _ _)) by lia. unfold ret. f_equal; f_equal; lia.
      + const (6 - N.of_nat 3 =? 5)%N. cbn [andb]. const (2 ^ 14)%N. const (2 ^ 32)%N. const (2 ^ (32 - 14))%N.
        rewrite (proj2 (N.ltb_lt _ _)) by lia. unfold ret. f_equal; f_equal; lia.
      + const (6 - N.of_nat 4 =? 5)%N. cbn [andb]. const (2 ^ 7)%N. const (2 ^ 32)%N. const (2 ^ (32 - 7))%N.
        rewrite (proj2 (N.ltb_lt _ _)) by lia. unfold ret. f_equal; f_equal; lia.
      + const (6 - N.of_nat 5 =? 5)%N. cbn [andb]. const (2 ^ 0)%N. const (2 ^ 32)%N. const (2 ^ (32 - 0))%N.
        rewrite (proj2 (N.ltb_lt _ _)) by lia. unfold ret. f_equal; f_equal; lia.
    - intros b r1 Hb Hx'. unfold shl_u32, add_u8 in Hx'.
      rewrite (proj2 (N.ltb_lt shift 32)) in Hx' by lia. unfold bind at 1, ret at 1 in Hx'.
      rewrite byte_80, (proj2 (N.ltb_ge _ _) Hb), land_7F, lor_shl_mod in Hx' by (assumption || lia).
      rewrite (proj2 (N.ltb_lt (shift + 7) 256)) in Hx' by lia. unfold bind, ret in Hx'.
      destruct k as [|k].
      { eapply leb_end; exact Hx'. }
      assert (Hm : (b2n b mod 128 mod 2 ^ (32 - shift) = b2n b mod 128)%N).
      { apply N.mod_small. apply N.lt_le_trans with 128%N; [apply N.mod_lt; discriminate|].
        change 128%N with (2 ^ 7)%N. apply N.pow_le_mono_r; [discriminate|lia]. }
      assert (HP : (2 ^ (shift + 7) = 2 ^ shift * 128)%N) by (rewrite N.pow_add_r; reflexivity).
      rewrite Hm in Hx'.
      replace (N.succ (6 - N.of_nat (S (S k)))) with (6 - N.of_nat (S k))%N in Hx' by lia.
      apply IH in Hx'; [|lia|lia|].
      + eapply leb_post_ext; [exact Hx'|]. intros cs b' _ _. unfold u_fin. rewrite <- app_comm_cons, uraw_cons, HP.
        replace (result + 2 ^ shift * (b2n b mod 128) + 2 ^ shift * 128 * uraw (cs ++ [b']))%N
          with (result + 2 ^ shift * (b2n b mod 128 + 128 * uraw (cs ++ [b'])))%N by ring. reflexivity.
      + rewrite HP. assert (b2n b mod 128 < 128)%N by (apply N.mod_lt; discriminate). nia.
  Qed.
End U32.

Lemma u_bound result s m : (result < 2 ^ s)%N -> (m < 128)%N -> (result + 2 ^ s * m < 2 ^ (s + 7))%N.
Proof. intros. rewrite N.pow_add_r. change (2 ^ 7)%N with 128%N. nia. Qed.
Lemma mod128_lt n : (n mod 128 < 128)%N.
Proof. apply N.mod_lt. discriminate. Qed.
Lemma mod_pow_small m w : (m < 128)%N -> (7 <= w)%N -> (m mod 2 ^ w = m)%N.
Proof.
  intros Hm Hw. apply N.mod_small. apply N.lt_le_trans with (2 ^ 7)%N; [exact Hm|].
  apply N.pow_le_mono_r; [discriminate|assumption].
Qed.

Section U64.
  Context {R C : Type} `{Lawful R C}.
  Lemma u64_loop_spec k shift result (r : R) x r' :
    k <= 10 -> shift = (7 * (10 - N.of_nat k))%N -> (result < 2 ^ shift)%N ->
    u64_loop (seqN (11 - N.of_nat k) k) result shift r = (x, r') ->
    leb_post (abs r) k x (abs r') U64_RepresentationTooLong U64_Io (u_fin 64 U64_TooLarge result shift).
  Proof.
    revert shift result r; induction k as [|k IH]; intros shift result r Hk Hs Hr Hx.
    { eapply leb_end; eauto. }
    cbn [seqN u64_loop] in Hx. eapply leb_step; [exact Hx| |].
    - intros b r1 Hb. unfold u_fin. cbn [app uraw]. unfold shl_u64.
      rewrite (proj2 (N.ltb_lt shift 64)) by lia. unfold bind at 1, ret at 1.
      rewrite byte_80, (proj2 (N.ltb_lt _ _) Hb), land_7F, lor_shl_mod, byte_7E by (assumption || lia).
      rewrite N.mul_0_r, N.add_0_r.
      destruct k as [|k].
      + vm_compute in Hs. subst shift. const (11 - N.of_nat 1 =? 10)%N. cbn [andb].
        const (2 ^ 63)%N. const (2 ^ 64)%N. const (2 ^ (64 - 63))%N.
        destruct (N.ltb_spec (b2n b) 2); cbn [negb].
        * rewrite (proj2 (N.ltb_lt _ _)) by lia. unfold ret. f_equal; f_equal; lia.
        * rewrite (proj2 (N.ltb_ge _ _)) by lia. reflexivity.
      + replace (11 - N.of_nat (S (S k)) =? 10)%N with false by (symmetry; apply N.eqb_neq; lia). cbn [andb].
        rewrite (mod_pow_small (b2n b mod 128)) by (apply mod128_lt || lia).
        rewrite (proj2 (N.ltb_lt _ _)); [reflexivity|].
        eapply N.lt_le_trans; [apply u_bound; [exact Hr|apply mod128_lt]|].
        apply N.pow_le_mono_r; [discriminate|lia].
    - intros b r1 Hb Hx'. unfold shl_u64, add_u8 in Hx'.
      rewrite (proj2 (N.ltb_lt shift 64)) in Hx' by lia. unfold bind at 1, ret at 1 in Hx'.
      rewrite byte_80, (proj2 (N.ltb_ge _ _) Hb), land_7F, lor_shl_mod in Hx' by (assumption || lia).
      rewrite (proj2 (N.ltb_lt (shift + 7) 256)) in Hx' by lia. unfold bind, ret in Hx'.
      destruct k as [|k].
      { eapply leb_end; exact Hx'. }
      rewrite (mod_pow_small (b2n b mod 128)) in Hx' by (apply mod128_lt || lia).
      assert (HP : (2 ^ (shift + 7) = 2 ^ shift * 128)%N) by (rewrite N.pow_add_r; reflexivity).
      replace (N.succ (11 - N.of_nat (S (S k)))) with (11 - N.of_nat (S k))%N in Hx' by lia.
      apply IH in Hx'; [|lia|lia|].
      + eapply leb_post_ext; [exact Hx'|]. intros cs b' _ _. unfold u_fin. rewrite <- app_comm_cons, uraw_cons, HP.
        replace (result + 2 ^ shift * (b2n b mod 128) + 2 ^ shift * 128 * uraw (cs ++ [b']))%N
          with (result + 2 ^ shift * (b2n b mod 128 + 128 * uraw (cs ++ [b'])))%N by ring. reflexivity.
      + apply u_bound; [exact Hr|apply mod128_lt].
  Qed.
End U64.

(** ** signed *)
Definition in_range (w : Z) (v : Z) : bool := ((- 2 ^ (w - 1) <=? v) && (v <? 2 ^ (w - 1)))%Z.
Definition s_fin {E} (w : Z) (e : E) (result : Z) (shift : N) (cs : list byte) (b : byte) : res E Z :=
  let v := (result + 2 ^ Z.of_N shift * sraw (cs ++ [b]))%Z in
  if in_range w v then Ok v else Err e.

Lemma wrap_small z : (- 2 ^ 63 <= z < 2 ^ 63)%Z -> wrap_i64 z = z.
Proof.
  intros Hz. unfold wrap_i64. rewrite Z.mod_small; [lia|].
  change (2 ^ 64)%Z with (2 ^ 63 + 2 ^ 63)%Z. lia.
Qed.
Lemma zpow_pos s : (0 < 2 ^ Z.of_N s)%Z.
Proof. apply Z.pow_pos_nonneg; lia. Qed.
Lemma zpow_le63 s : (s <= 63)%N -> (2 ^ Z.of_N s <= 2 ^ 63)%Z.
Proof. intros. apply Z.pow_le_mono_r; lia. Qed.
Lemma zpow_add7 s : (2 ^ Z.of_N (s + 7) = 2 ^ Z.of_N s * 128)%Z.
Proof. rewrite N2Z.inj_add, Z.pow_add_r by lia. reflexivity. Qed.
Lemma shl_i64_small {R E} m s : (m < 128)%N -> (s + 7 <= 63)%N ->
  (shl_i64 (Z.of_N m) s : M R E Z) = ret (Z.of_N m * 2 ^ Z.of_N s)%Z.
Proof.
  intros Hm Hs. unfold shl_i64. rewrite (proj2 (N.ltb_lt s 64)) by lia.
  rewrite Z.shiftl_mul_pow2 by lia. rewrite wrap_small; [reflexivity|].
  pose proof (zpow_le63 (s + 7) Hs). rewrite zpow_add7 in *. pose proof (zpow_pos s). nia.
Qed.
Lemma shl_i64_m1 {R E} s : (s <= 63)%N -> (shl_i64 (-1) s : M R E Z) = ret (-1 * 2 ^ Z.of_N s)%Z.
Proof.
  intros Hs. unfold shl_i64. rewrite (proj2 (N.ltb_lt s 64)) by lia.
  rewrite Z.shiftl_mul_pow2 by lia. rewrite wrap_small; [reflexivity|].
  pose proof (zpow_le63 s Hs). pose proof (zpow_pos s). lia.
Qed.
(** the value of a final byte's seven bits, before and after sign extension *)
Lemma lor_low result s m : (0 <= result < 2 ^ Z.of_N s)%Z -> (m < 128)%N ->
  Z.lor result (Z.of_N m * 2 ^ Z.of_N s) = (result + 2 ^ Z.of_N s * Z.of_N m)%Z.
Proof. intros. apply zlor_shiftl; lia. Qed.
Lemma s_bound result s m : (0 <= result < 2 ^ Z.of_N s)%Z -> (m < 128)%N ->
  (0 <= result + 2 ^ Z.of_N s * Z.of_N m < 2 ^ Z.of_N (s + 7))%Z.
Proof. intros. rewrite zpow_add7. nia. Qed.
Lemma lor_sign u s : (0 <= u < 2 ^ Z.of_N (s + 7))%Z -> Z.lor u (-1 * 2 ^ Z.of_N (s + 7)) = (u - 2 ^ Z.of_N s * 128)%Z.
Proof. intros. rewrite zlor_shiftl by (assumption || lia). rewrite zpow_add7. lia. Qed.
Lemma sraw_one b : (b2n b < 128)%N -> sraw [b] = (if (b2n b <? 64)%N then Z.of_N (b2n b) else Z.of_N (b2n b) - 128)%Z.
Proof. intros Hb. cbn [sraw]. rewrite !N.mod_small by assumption. reflexivity. Qed.

(** values of up to [s+7] bits fit a wider signed type *)
Lemma in_range_small w s u : (Z.of_N s + 7 <= w)%Z -> (- 2 ^ Z.of_N s * 64 <= u < 2 ^ Z.of_N s * 64)%Z -> in_range w u = true.
Proof.
  intros Hw Hu. unfold in_range.
  assert (2 ^ Z.of_N s * 64 <= 2 ^ (w - 1))%Z.
  { change 64%Z with (2 ^ 6)%Z. rewrite <- Z.pow_add_r by lia. apply Z.pow_le_mono_r; lia. }
  apply andb_true_intro. split; [apply Z.leb_le|apply Z.ltb_lt]; lia.
Qed.

Section I32.
  Context {R C : Type} `{Lawful R C}.
  Lemma i32_loop_spec k shift result (r : R) x r' :
    k <= 5 -> shift = (7 * (5 - N.of_nat k))%N -> (0 <= result < 2 ^ Z.of_N shift)%Z ->
    i32_loop (seqN (6 - N.of_nat k) k) result shift r = (x, r') ->
    leb_post (abs r) k x (abs r') I32_RepresentationTooLong I32_Io (s_fin 32 I32_TooLarge result shift).
  Proof.
    revert shift result r; induction k as [|k IH]; intros shift result r Hk Hs Hr Hx.
    { eapply leb_end; eauto. }
    cbn [seqN i32_loop] in Hx. eapply leb_step; [exact Hx| |].
    - intros b r1 Hb. unfold s_fin. cbn [app]. rewrite sraw_one by assumption.
      rewrite byte_40, byte_80, land_7F, (proj2 (N.ltb_lt _ _) Hb), N.mod_small by assumption.
      rewrite shl_i64_small by (assumption || lia). unfold bind at 1, ret at 1.
      unfold add_u8. rewrite (proj2 (N.ltb_lt (shift + 7) 256)) by lia. unfold bind at 1, ret at 1.
      rewrite lor_low by assumption.
      rewrite shl_i64_m1 by lia.
      destruct (N.ltb_spec (b2n b) 64); cbn [negb]; unfold bind, ret, in_range, throw.
      + change (32 - 1)%Z with 31%Z.
        destruct (- 2 ^ 31 <=? result + 2 ^ Z.of_N shift * Z.of_N (b2n b))%Z; cbn [andb negb]; [|reflexivity].
        destruct (Z.leb_spec (result + 2 ^ Z.of_N shift * Z.of_N (b2n b)) (2 ^ 31 - 1));
        destruct (Z.ltb_spec (result + 2 ^ Z.of_N shift * Z.of_N (b2n b)) (2 ^ 31)); cbn [negb]; try lia; reflexivity.
      + rewrite lor_sign by (apply s_bound; assumption).
        change (32 - 1)%Z with 31%Z.
        replace (result + 2 ^ Z.of_N shift * Z.of_N (b2n b) - 2 ^ Z.of_N shift * 128)%Z
           with (result + 2 ^ Z.of_N shift * (Z.of_N (b2n b) - 128))%Z by ring.
        destruct (- 2 ^ 31 <=? result + 2 ^ Z.of_N shift * (Z.of_N (b2n b) - 128))%Z; cbn [andb negb]; [|reflexivity].
        destruct (Z.leb_spec (result + 2 ^ Z.of_N shift * (Z.of_N (b2n b) - 128)) (2 ^ 31 - 1));
        destruct (Z.ltb_spec (result + 2 ^ Z.of_N shift * (Z.of_N (b2n b) - 128)) (2 ^ 31)); cbn [negb]; try lia; reflexivity.
    - intros b r1 Hb Hx'. cbv beta in Hx'. rewrite land_7F in Hx'.
      rewrite shl_i64_small in Hx' by (apply mod128_lt || lia). unfold bind at 1, ret at 1 in Hx'.
      unfold add_u8 in Hx'. rewrite (proj2 (N.ltb_lt (shift + 7) 256)) in Hx' by lia. unfold bind at 1, ret at 1 in Hx'.
      rewrite byte_80, (proj2 (N.ltb_ge _ _) Hb) in Hx'.
      rewrite lor_low in Hx' by (assumption || apply mod128_lt).
      destruct k as [|k].
      { eapply leb_end; exact Hx'. }
      replace (N.succ (6 - N.of_nat (S (S k)))) with (6 - N.of_nat (S k))%N in Hx' by lia.
      apply IH in Hx'; [|lia|lia|].
      + eapply leb_post_ext; [exact Hx'|]. intros cs b' _ _. unfold s_fin. rewrite sraw_app_cons, zpow_add7.
        replace (result + 2 ^ Z.of_N shift * Z.of_N (b2n b mod 128) + 2 ^ Z.of_N shift * 128 * sraw (cs ++ [b']))%Z
          with (result + 2 ^ Z.of_N shift * (Z.of_N (b2n b mod 128) + 128 * sraw (cs ++ [b'])))%Z by ring. reflexivity.
      + apply s_bound; [exact Hr|apply mod128_lt].
  Qed.
End I32.

Lemma byte_3F b : (b2n b < 128)%N -> (N.land (b2n b) 0x3F = b2n b mod 64)%N.
Proof. intros _. change 0x3F%N with (N.ones 6). apply N.land_ones. Qed.
Lemma byte_70_neg b : (b2n b < 128)%N -> (64 <= b2n b)%N -> (N.land (b2n b) 0x70 =? 0x70)%N = (112 <=? b2n b)%N.
Proof. destruct b; vm_compute; intros; first [reflexivity|congruence]. Qed.
Lemma byte_70_pos b : (b2n b < 64)%N -> (N.land (b2n b) 0x70 =? 0)%N = (b2n b <? 16)%N.
Proof. destruct b; vm_compute; intros; first [reflexivity|congruence]. Qed.

Section I64.
  Context {R C : Type} `{Lawful R C}.
  Lemma i64_loop_spec k shift result (r : R) x r' :
    k <= 10 -> shift = (7 * (10 - N.of_nat k))%N -> (0 <= result < 2 ^ Z.of_N shift)%Z ->
    i64_loop (seqN (11 - N.of_nat k) k) result shift r = (x, r') ->
    leb_post (abs r) k x (abs r') I64_RepresentationTooLong I64_Io (s_fin 64 I64_IncorrectSignExtension result shift).
  Proof.
    revert shift result r; induction k as [|k IH]; intros shift result r Hk Hs Hr Hx.
    { eapply leb_end; eauto. }
    cbn [seqN i64_loop] in Hx. eapply leb_step; [exact Hx| |].
    - intros b r1 Hb. unfold s_fin. cbn [app]. rewrite sraw_one by assumption.
      rewrite byte_40, byte_80, land_7F, (proj2 (N.ltb_lt _ _) Hb), byte_3F, N.mod_small by assumption.
      destruct k as [|k].
      + vm_compute in Hs. subst shift. unfold shl_i64 at 1. const (63 <? 64)%N. cbv iota.
        unfold bind at 1, ret at 1. unfold add_u8. const (63 + 7 <? 256)%N. cbv iota. unfold bind at 1, ret at 1.
        const (64 <=? 63 + 7)%N. cbv zeta iota.
        rewrite Z.shiftl_mul_pow2 by discriminate.
        destruct (N.ltb_spec (b2n b) 64); cbn [negb andb].
        * destruct (N.eqb_spec (b2n b mod 64) 0) as [E|E]; cbn [negb].
          -- assert (Eb : b2n b = 0%N) by lia. rewrite Eb. change (wrap_i64 (Z.of_N 0 * 2 ^ Z.of_N 63)) with 0%Z.
             rewrite Z.lor_0_r. unfold in_range. change (64 - 1)%Z with 63%Z. change (Z.of_N 63) with 63%Z in *.
             replace (result + 2 ^ 63 * Z.of_N 0)%Z with result by lia.
             rewrite (proj2 (Z.leb_le _ _)), (proj2 (Z.ltb_lt _ _)) by lia. reflexivity.
          -- unfold in_range. change (64 - 1)%Z with 63%Z. change (Z.of_N 63) with 63%Z in *.
             rewrite (proj2 (Z.ltb_ge (result + _) _)) by nia. rewrite andb_false_r. reflexivity.
        * destruct (N.eqb_spec (b2n b mod 64) 0x3F) as [E|E]; cbn [negb].
          -- assert (Eb : b2n b = 127%N) by lia. rewrite Eb.
             change (wrap_i64 (Z.of_N 127 * 2 ^ Z.of_N 63)) with (-1 * 2 ^ 63)%Z. change (Z.of_N 63) with 63%Z in *.
             rewrite zlor_shiftl by (assumption || lia). unfold in_range. change (64 - 1)%Z with 63%Z.
             change (Z.of_N 127 - 128)%Z with (-1)%Z.
             rewrite (proj2 (Z.leb_le _ _)), (proj2 (Z.ltb_lt _ _)) by lia. reflexivity.
          -- unfold in_range. change (64 - 1)%Z with 63%Z. change (Z.of_N 63) with 63%Z in *.
             rewrite (proj2 (Z.leb_gt _ (result + _))) by nia. reflexivity.
      + rewrite shl_i64_small by (assumption || lia). unfold bind at 1, ret at 1.
        unfold add_u8. rewrite (proj2 (N.ltb_lt (shift + 7) 256)) by lia. unfold bind at 1, ret at 1.
        rewrite lor_low by assumption. rewrite shl_i64_m1 by lia.
        rewrite (proj2 (N.leb_gt 64 (shift + 7))) by lia. cbv zeta iota.
        pose proof (zpow_pos shift).
        destruct (N.ltb_spec (b2n b) 64); cbn [negb]; unfold bind, ret.
        * rewrite (in_range_small 64 shift); [reflexivity|lia|nia].
        * rewrite lor_sign by (apply s_bound; assumption).
          rewrite (in_range_small 64 shift); [f_equal; f_equal; ring|lia|nia].
    - intros b r1 Hb Hx'. cbv beta in Hx'. rewrite land_7F in Hx'.
      destruct k as [|k].
      { unfold shl_i64 in Hx'. rewrite (proj2 (N.ltb_lt shift 64)) in Hx' by lia. unfold bind at 1, ret at 1 in Hx'.
        unfold add_u8 in Hx'. rewrite (proj2 (N.ltb_lt (shift + 7) 256)) in Hx' by lia. unfold bind at 1, ret at 1 in Hx'.
        rewrite byte_80, (proj2 (N.ltb_ge _ _) Hb) in Hx'.
        eapply leb_end; exact Hx'. }
      rewrite shl_i64_small in Hx' by (apply mod128_lt || lia). unfold bind at 1, ret at 1 in Hx'.
      unfold add_u8 in Hx'. rewrite (proj2 (N.ltb_lt (shift + 7) 256)) in Hx' by lia. unfold bind at 1, ret at 1 in Hx'.
      rewrite byte_80, (proj2 (N.ltb_ge _ _) Hb) in Hx'.
      rewrite lor_low in Hx' by (assumption || apply mod128_lt).
      replace (N.succ (11 - N.of_nat (S (S k)))) with (11 - N.of_nat (S k))%N in Hx' by lia.
      apply IH in Hx'; [|lia|lia|].
      + eapply leb_post_ext; [exact Hx'|]. intros cs b' _ _. unfold s_fin. rewrite sraw_app_cons, zpow_add7.
        replace (result + 2 ^ Z.of_N shift * Z.of_N (b2n b mod 128) + 2 ^ Z.of_N shift * 128 * sraw (cs ++ [b']))%Z
          with (result + 2 ^ Z.of_N shift * (Z.of_N (b2n b mod 128) + 128 * sraw (cs ++ [b'])))%Z by ring. reflexivity.
      + apply s_bound; [exact Hr|apply mod128_lt].
  Qed.
End I64.

Section S33.
  Context {R C : Type} `{Lawful R C}.
  Lemma s33_loop_spec k shift result (r : R) x r' :
    k <= 5 -> shift = (7 * (5 - N.of_nat k))%N -> (0 <= result < 2 ^ Z.of_N shift)%Z ->
    s33_loop (seqN (6 - N.of_nat k) k) result shift r = (x, r') ->
    leb_post (abs r) k x (abs r') S33_RepresentationTooLong S33_Io (s_fin 33 S33_IncorrectSignExtension result shift).
  Proof.
    revert shift result r; induction k as [|k IH]; intros shift result r Hk Hs Hr Hx.
    { eapply leb_end; eauto. }
    cbn [seqN s33_loop] in Hx. eapply leb_step; [exact Hx| |].
    - intros b r1 Hb. unfold s_fin. cbn [app]. rewrite sraw_one by assumption.
      rewrite byte_40, byte_80, land_7F, (proj2 (N.ltb_lt _ _) Hb), N.mod_small by assumption.
      rewrite shl_i64_small by (assumption || lia). unfold bind at 1, ret at 1.
      unfold add_u8. rewrite (proj2 (N.ltb_lt (shift + 7) 256)) by lia. unfold bind at 1, ret at 1.
      rewrite lor_low by assumption. rewrite shl_i64_m1 by lia. cbv zeta.
      pose proof (zpow_pos shift).
      destruct k as [|k].
      + vm_compute in Hs. subst shift. const (33 <=? 28 + 7)%N. cbn [andb].
        unfold in_range. change (33 - 1)%Z with 32%Z. change (Z.of_N 28) with 28%Z in *.
        destruct (N.ltb_spec (b2n b) 64); cbn [negb andb].
        * rewrite byte_70_pos by assumption. destruct (N.ltb_spec (b2n b) 16); cbn [negb].
          -- rewrite (proj2 (Z.leb_le _ _)), (proj2 (Z.ltb_lt _ _)) by lia. reflexivity.
          -- rewrite (proj2 (Z.ltb_ge (result + _) _)) by lia. rewrite andb_false_r. reflexivity.
        * rewrite byte_70_neg by assumption. destruct (N.leb_spec 112 (b2n b)); cbn [negb].
          -- unfold bind, ret. change (Z.of_N (28 + 7)) with 35%Z.
             rewrite zlor_shiftl by lia.
             rewrite (proj2 (Z.leb_le _ _)), (proj2 (Z.ltb_lt _ _)) by lia. cbn [andb]. f_equal; f_equal; lia.
          -- rewrite (proj2 (Z.leb_gt _ (result + _))) by lia. reflexivity.
      + rewrite (proj2 (N.leb_gt 33 (shift + 7))) by lia. cbn [andb].
        destruct (N.ltb_spec (b2n b) 64); cbn [negb]; unfold bind, ret.
        * rewrite (in_range_small 33 shift); [reflexivity|lia|nia].
        * rewrite lor_sign by (apply s_bound; assumption).
          rewrite (in_range_small 33 shift); [f_equal; f_equal; ring|lia|nia].
    - intros b r1 Hb Hx'. cbv beta in Hx'. rewrite land_7F in Hx'.
      rewrite shl_i64_small in Hx' by (apply mod128_lt || lia). unfold bind at 1, ret at 1 in Hx'.
      unfold add_u8 in Hx'. rewrite (proj2 (N.ltb_lt (shift + 7) 256)) in Hx' by lia. unfold bind at 1, ret at 1 in Hx'.
      rewrite byte_80, (proj2 (N.ltb_ge _ _) Hb) in Hx'.
      rewrite lor_low in Hx' by (assumption || apply mod128_lt).
      destruct k as [|k].
      { eapply leb_end; exact Hx'. }
      replace (N.succ (6 - N.of_nat (S (S k)))) with (6 - N.of_nat (S k))%N in Hx' by lia.
      apply IH in Hx'; [|lia|lia|].
      + eapply leb_post_ext; [exact Hx'|]. intros cs b' _ _. unfold s_fin. rewrite sraw_app_cons, zpow_add7.
        replace (result + 2 ^ Z.of_N shift * Z.of_N (b2n b mod 128) + 2 ^ Z.of_N shift * 128 * sraw (cs ++ [b']))%Z
          with (result + 2 ^ Z.of_N shift * (Z.of_N (b2n b mod 128) + 128 * sraw (cs ++ [b'])))%Z by ring. reflexivity.
      + apply s_bound; [exact Hr|apply mod128_lt].
  Qed.
End S33.

(** ** The five decoders *)
Definition fin_u {E} (w : N) (e : E) (cs : list byte) (b : byte) : res E N :=
  if (uraw (cs ++ [b]) <? 2 ^ w)%N then Ok (uraw (cs ++ [b])) else Err e.
Definition fin_s {E} (w : Z) (e : E) (cs : list byte) (b : byte) : res E Z :=
  if in_range w (sraw (cs ++ [b])) then Ok (sraw (cs ++ [b])) else Err e.
Lemma fin_u_ext {E} w (e : E) cs b : u_fin w e 0 0 cs b = fin_u w e cs b.
Proof. unfold u_fin, fin_u. change (2 ^ 0)%N with 1%N. rewrite N.mul_1_l, N.add_0_l. reflexivity. Qed.
Lemma fin_s_ext {E} w (e : E) cs b : s_fin w e 0 0 cs b = fin_s w e cs b.
Proof. unfold s_fin, fin_s. change (2 ^ Z.of_N 0)%Z with 1%Z. rewrite Z.mul_1_l, Z.add_0_l. reflexivity. Qed.

Section Top.
  Context {R C : Type} `{Lawful R C}.
  Lemma decode_u32_spec (r : R) x r' : decode_u32 r = (x, r') ->
    leb_post (abs r) 5 x (abs r') U32_RepresentationTooLong U32_Io (fin_u 32 U32_TooLarge).
  Proof.
    intros Hr. apply (u32_loop_spec 5 0 0) in Hr; [|lia|reflexivity|reflexivity].
    eapply leb_post_ext; [exact Hr|]. intros. apply fin_u_ext.
  Qed.
  Lemma decode_u64_spec (r : R) x r' : decode_u64 r = (x, r') ->
    leb_post (abs r) 10 x (abs r') U64_RepresentationTooLong U64_Io (fin_u 64 U64_TooLarge).
  Proof.
    intros Hr. apply (u64_loop_spec 10 0 0) in Hr; [|lia|reflexivity|reflexivity].
    eapply leb_post_ext; [exact Hr|]. intros. apply fin_u_ext.
  Qed.
  Lemma decode_i32_spec (r : R) x r' : decode_i32 r = (x, r') ->
    leb_post (abs r) 5 x (abs r') I32_RepresentationTooLong I32_Io (fin_s 32 I32_TooLarge).
  Proof.
    intros Hr. apply (i32_loop_spec 5 0 0) in Hr; [|lia|reflexivity|cbn; lia].
    eapply leb_post_ext; [exact Hr|]. intros. apply fin_s_ext.
  Qed.
  Lemma decode_i64_spec (r : R) x r' : decode_i64 r = (x, r') ->
    leb_post (abs r) 10 x (abs r') I64_RepresentationTooLong I64_Io (fin_s 64 I64_IncorrectSignExtension).
  Proof.
    intros Hr. apply (i64_loop_spec 10 0 0) in Hr; [|lia|reflexivity|cbn; lia].
    eapply leb_post_ext; [exact Hr|]. intros. apply fin_s_ext.
  Qed.
  Lemma decode_s33_spec (r : R) x r' : decode_s33 r = (x, r') ->
    leb_post (abs r) 5 x (abs r') S33_RepresentationTooLong S33_Io (fin_s 33 S33_IncorrectSignExtension).
  Proof.
    intros Hr. apply (s33_loop_spec 5 0 0) in Hr; [|lia|reflexivity|cbn; lia].
    eapply leb_post_ext; [exact Hr|]. intros. apply fin_s_ext.
  Qed.
End Top.

(** a machine delivers one thing only: the first non-continuation byte is determined *)
Lemma leb_split_det {C} `{Machine C} (c : C) cs1 c1 cs2 b c3 :
  bsteps c cs1 c1 -> Forall (fun x => (128 <= b2n x)%N) cs1 ->
  bsteps c (cs2 ++ [b]) c3 -> Forall (fun x => (128 <= b2n x)%N) cs2 -> (b2n b < 128)%N ->
  (cs1 = cs2 /\ next c1 = (AByte b, c3)) \/ (exists y ys, cs2 = cs1 ++ y :: ys /\ exists c4, next c1 = (AByte y, c4)).
Proof.
  intros H1 F1 H2 F2 Hb. revert cs2 H2 F2. induction H1 as [c|c x c1' cs1 c1 E Hs IH]; intros cs2 H2 F2.
  - destruct cs2 as [|y ys]; cbn in H2; apply bsteps_cons_inv in H2 as (c4 & Hn & Ht).
    + apply bsteps_nil_inv in Ht as ->. left; auto.
    + right. exists y, ys. split; [reflexivity|]. eauto.
  - inversion F1; subst. destruct cs2 as [|y ys]; cbn in H2; apply bsteps_cons_inv in H2 as (c4 & Hn & Ht).
    + rewrite E in Hn. injection Hn as -> ->. lia.
    + rewrite E in Hn. injection Hn as -> ->. inversion F2; subst.
      destruct (IH ltac:(assumption) ys Ht ltac:(assumption)) as [[-> ?]|(z & zs & -> & ?)].
      * left; auto.
      * right. exists z, zs. split; [reflexivity|assumption].
Qed.

(** what [leb_post] says about inputs that do start with a complete encoding *)
Lemma leb_complete {C} `{Machine C} {E A} (c : C) k (x : res E A) c' long io fin cs b c3 :
  leb_post c k x c' long io fin -> bsteps c (cs ++ [b]) c3 -> leb_shape cs b -> length cs < k ->
  c' = c3 /\ x = fin cs b.
Proof.
  intros (cs1 & c1 & Hs & Hf & Hx) Hb [F2 Hb2] Hk.
  destruct (leb_split_det c cs1 c1 cs b c3 Hs Hf Hb F2 Hb2) as [[-> Hn]|(y & ys & -> & c4 & Hn)].
  - destruct Hx as [(?&?&?)|[(?&b'&Hn'&?&->)|[(?&Hn'&?)|(?&kk&Hn'&?)]]]; [lia| | |]; rewrite Hn in Hn'; try discriminate.
    injection Hn' as -> ->. auto.
  - exfalso. rewrite app_length in Hk; cbn in Hk. assert (Hy : (128 <= b2n y)%N).
    { rewrite Forall_app in F2. destruct F2 as [_ F2]. inversion F2; assumption. }
    destruct Hx as [(?&?&?)|[(?&b'&Hn'&?&->)|[(?&Hn'&?)|(?&kk&Hn'&?)]]]; [lia| | |]; rewrite Hn in Hn'; try discriminate.
    injection Hn' as -> ->. lia.
Qed.

Lemma parses_leb {R C E A} `{Lawful R C} (p : M R E A) (G : lang A) k long io (fin : list byte -> byte -> res E A) :
  (forall r x r', p r = (x, r') -> leb_post (abs r) k x (abs r') long io fin) ->
  (forall v bs, G v bs <-> exists cs b, bs = cs ++ [b] /\ leb_shape cs b /\ length cs < k /\ fin cs b = Ok v) ->
  Parses p G.
Proof.
  intros Hp HG. split.
  - intros r a r' Hr. destruct (Hp _ _ _ Hr) as (cs & c1 & Hs & Hf & Hx).
    destruct Hx as [(?&?&?)|[(?&b&Hn&?&Hx)|[(?&?&?)|(?&?&?&?)]]]; try discriminate.
    exists (cs ++ [b]). split; [eapply bsteps_app; [eassumption|apply bsteps_one; assumption]|].
    apply HG. exists cs, b. repeat split; auto.
  - intros r a bs c' Ha Hb. apply HG in Ha as (cs & b & -> & Hsh & Hl & Hf).
    destruct (p r) as [x r'] eqn:Er. destruct (leb_complete _ _ _ _ _ _ _ _ _ _ (Hp _ _ _ Er) Hb Hsh Hl) as [<- ->].
    left. exists r'. rewrite Hf. auto.
Qed.

Lemma Bu_fin {E} w (e : E) k v bs : (0 < w)%N -> (7 * (N.of_nat k - 1) < w <= 7 * N.of_nat k)%N -> 
  Bu w v bs <-> exists cs b, bs = cs ++ [b] /\ leb_shape cs b /\ length cs < k /\ fin_u w e cs b = Ok v.
Proof.
  intros Hw Hk. rewrite Bu_iff. split.
  - intros (cs & b & -> & Hs & Hl & -> & Hv). exists cs, b. repeat split; try apply Hs.
    + destruct Hl as [Hl| ->]; cbn; lia.
    + unfold fin_u. rewrite (proj2 (N.ltb_lt _ _) Hv). reflexivity.
  - intros (cs & b & -> & Hs & Hl & Hf). unfold fin_u in Hf.
    destruct (N.ltb_spec (uraw (cs ++ [b])) (2 ^ w)); [|discriminate]. injection Hf as <-.
    exists cs, b. repeat split; try apply Hs; auto. left. lia.
Qed.
Lemma Bs_fin {E} w (e : E) k v bs : (0 < w)%Z -> (7 * (Z.of_nat k - 1) < w <= 7 * Z.of_nat k)%Z -> 
  Bs w v bs <-> exists cs b, bs = cs ++ [b] /\ leb_shape cs b /\ length cs < k /\ fin_s w e cs b = Ok v.
Proof.
  intros Hw Hk. rewrite Bs_iff by assumption. split.
  - intros (cs & b & -> & Hs & Hl & -> & Hv). exists cs, b. repeat split; try apply Hs.
    + lia.
    + unfold fin_s, in_range. rewrite (proj2 (Z.leb_le _ _)), (proj2 (Z.ltb_lt _ _)) by lia. reflexivity.
  - intros (cs & b & -> & Hs & Hl & Hf). unfold fin_s, in_range in Hf.
    destruct (Z.leb_spec (- 2 ^ (w - 1)) (sraw (cs ++ [b]))); [|discriminate].
    destruct (Z.ltb_spec (sraw (cs ++ [b])) (2 ^ (w - 1))); [|discriminate]. injection Hf as <-.
    exists cs, b. repeat split; try apply Hs; auto. lia.
Qed.

Section ParsesTop.
  Context {R C : Type} `{Lawful R C}.
  Lemma parses_u32 : Parses (decode_u32 : M R _ _) Bu32.
  Proof. eapply parses_leb; [apply decode_u32_spec|]. intros. apply Bu_fin; lia. Qed.
  Lemma parses_u64 : Parses (decode_u64 : M R _ _) Bu64.
  Proof. eapply parses_leb; [apply decode_u64_spec|]. intros. apply Bu_fin; lia. Qed.
  Lemma parses_i32 : Parses (decode_i32 : M R _ _) Bi32.
  Proof. eapply parses_leb; [apply decode_i32_spec|]. intros. apply Bs_fin; lia. Qed.
  Lemma parses_i64 : Parses (decode_i64 : M R _ _) Bi64.
  Proof. eapply parses_leb; [apply decode_i64_spec|]. intros. apply Bs_fin; lia. Qed.
  Lemma parses_s33 : Parses (decode_s33 : M R _ _) Bs33.
  Proof. eapply parses_leb; [apply decode_s33_spec|]. intros. apply Bs_fin; lia. Qed.
End ParsesTop.

Lemma Bu_range w v bs : Bu w v bs -> (v < 2 ^ w)%N.
Proof. intros HB. apply Bu_iff in HB as (cs & b & _ & _ & _ & _ & ?). assumption. Qed.
Lemma Bs_range w v bs : (0 < w)%Z -> Bs w v bs -> (- 2 ^ (w - 1) <= v < 2 ^ (w - 1))%Z.
Proof. intros Hw HB. apply Bs_iff in HB as (cs & b & _ & _ & _ & _ & ?); assumption. Qed.
Lemma Bu_nonempty w : nonempty (Bu w).
Proof. intros v HB. inversion HB. Qed.
Lemma Bs_nonempty w : nonempty (Bs w).
Proof. intros v HB. inversion HB. Qed.
