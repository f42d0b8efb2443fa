From Verif Require Import Model.Prelude Model.Io Model.Ast Model.Errors Model.Integer.
From Verif Require Import Proofs.Machine Proofs.Reads Proofs.Parses Proofs.Leb Proofs.Final.
From Verif Require Import Spec.Lang Spec.Streams Spec.Leb.
From Coq Require Import Lia ZifyBool ZifyNat ZifyN.
Ltac Zify.zify_post_hook ::= Z.div_mod_to_equations.

Lemma uraw_unsigned bs : uraw bs = leb_unsigned bs.
Proof. induction bs as [|b bs IH]; [reflexivity|]. cbn [uraw leb_unsigned]. rewrite IH. reflexivity. Qed.
Lemma unsigned_lt bs : (leb_unsigned bs < 2 ^ (7 * N.of_nat (length bs)))%N.
Proof.
  induction bs as [|b bs IH]; [cbn; lia|]. cbn [leb_unsigned length].
  replace (7 * N.of_nat (S (length bs)))%N with (7 + 7 * N.of_nat (length bs))%N by lia. rewrite N.pow_add_r.
  change (2 ^ 7)%N with 128%N in *. lia.
Qed.
Lemma sraw_signed bs : bs <> [] -> sraw bs = leb_signed bs.
Proof.
  induction bs as [|b bs IH]; [congruence|]. intros _. destruct bs as [|b' bs].
  - unfold leb_signed. cbn [sraw leb_unsigned length]. unfold val. fold (b2n b). change (2 ^ 7)%N with 128%N.
    change (2 ^ (7 * Z.of_nat 1 - 1))%Z with 64%Z. change (2 ^ (7 * Z.of_nat 1))%Z with 128%Z.
    destruct (N.ltb_spec (b2n b mod 128) 64); destruct (Z.ltb_spec (Z.of_N (b2n b mod 128 + 128 * 0)) 64); lia.
  - rewrite sraw_cons, IH by discriminate. clear IH. unfold leb_signed.
    pose proof (unsigned_lt (b' :: bs)) as HU.
    remember (b' :: bs) as l. assert (Hl : (1 <= Z.of_nat (length l))%Z) by (subst; cbn; lia).
    assert (E1 : (2 ^ (7 * Z.of_nat (length (b :: l))) = 128 * 2 ^ (7 * Z.of_nat (length l)))%Z).
    { cbn [length]. replace (7 * Z.of_nat (S (length l)))%Z with (7 + 7 * Z.of_nat (length l))%Z by lia. rewrite Z.pow_add_r by lia. reflexivity. }
    assert (E2 : (2 ^ (7 * Z.of_nat (length (b :: l)) - 1) = 128 * 2 ^ (7 * Z.of_nat (length l) - 1))%Z).
    { cbn [length]. replace (7 * Z.of_nat (S (length l)) - 1)%Z with (7 + (7 * Z.of_nat (length l) - 1))%Z by lia. rewrite Z.pow_add_r by lia. reflexivity. }
    rewrite E1, E2. cbn [leb_unsigned]. unfold val. fold (b2n b). change (2 ^ 7)%N with 128%N.
    set (P := (2 ^ (7 * Z.of_nat (length l)))%Z) in *. set (H := (2 ^ (7 * Z.of_nat (length l) - 1))%Z) in *.
    destruct (Z.ltb_spec (Z.of_N (leb_unsigned l)) H); destruct (Z.ltb_spec (Z.of_N (b2n b mod 128 + 128 * leb_unsigned l)) (128 * H)); lia.
Qed.

Lemma continues_iff b : continues b <-> (128 <= b2n b)%N.
Proof. unfold continues, val. fold (b2n b). change (2 ^ 7)%N with 128%N. reflexivity. Qed.
Lemma continues_all cs : Forall continues cs <-> Forall (fun b => (128 <= b2n b)%N) cs.
Proof. split; apply Forall_impl; intros b; apply continues_iff. Qed.

Lemma leb_outcomes_of {E A} k (p : M (list byte) E A) fin result long io :
  (forall r x r', p r = (x, r') -> leb_post (abs r) k x (abs r') long io fin) ->
  (forall cs b, fin cs b = result (cs ++ [b])) ->
  leb_outcomes k p result long io.
Proof.
  intros Hp Hf. split.
  - intros cs b rest Hc Hl Hb. destruct (p (cs ++ b :: rest)) as [x r'] eqn:EP. apply continues_all in Hc.
    rewrite continues_iff in Hb.
    destruct (Verif.Proofs.Leb.leb_complete _ _ _ _ _ _ _ cs b (map AByte rest) (Hp _ _ _ EP)) as [Ha ->]; auto.
    + replace (cs ++ b :: rest) with ((cs ++ [b]) ++ rest) by (rewrite <- app_assoc; reflexivity). apply bsteps_slice. eauto.
    + split; [assumption|lia].
    + apply map_AByte_inj in Ha as ->. rewrite Hf. reflexivity.
  - intros cs rest Hc Hl. destruct (p (cs ++ rest)) as [x r'] eqn:EP. destruct (Hp _ _ _ EP) as (cs' & c1 & Hb & Hc' & Hx).
    apply continues_all in Hc. apply bsteps_slice in Hb as (rest' & Hq & ->).
    assert (Hlen : forall b l, length cs' < k -> rest' = b :: l -> (128 <= b2n b)%N).
    { intros b l Hlt ->. assert (HN : nth_error (cs ++ rest) (length cs') = Some b).
      { rewrite Hq, nth_error_app2 by lia. rewrite Nat.sub_diag. reflexivity. }
      rewrite nth_error_app1 in HN by lia. apply nth_error_In in HN. rewrite Forall_forall in Hc. exact (Hc b HN). }
    assert (Hne : length cs' < k -> rest' <> []).
    { intros Hlt ->. apply (f_equal (@length _)) in Hq. rewrite !app_length in Hq. cbn in Hq. lia. }
    destruct Hx as [(Hl' & Hr & ->)|[(Hl' & b & Hn & Hb & _)|[(Hl' & Hn & _)|(Hl' & kk & Hn & _)]]].
    + apply map_AByte_inj in Hr as ->. f_equal.
      apply (f_equal (skipn k)) in Hq. rewrite !skipn_app in Hq. rewrite !(skipn_all2 (n:=k)) in Hq by lia. rewrite Hl, Hl', !Nat.sub_diag in Hq. exact (eq_sym Hq).
    + exfalso. destruct rest' as [|b' l]; [discriminate|]. cbn in Hn. injection Hn as -> _. specialize (Hlen _ _ Hl' eq_refl). lia.
    + exfalso. destruct rest' as [|b' l]; [apply Hne; auto|discriminate].
    + exfalso. destruct rest' as [|b' l]; discriminate.
  - intros cs Hc Hl. destruct (p cs) as [x r'] eqn:EP. destruct (Hp _ _ _ EP) as (cs' & c1 & Hb & Hc' & Hx).
    apply continues_all in Hc. apply bsteps_slice in Hb as (rest' & -> & ->). rewrite app_length in Hl.
    destruct Hx as [(Hl' & Hr & ->)|[(Hl' & b & Hn & Hb & _)|[(Hl' & Hn & ->)|(Hl' & kk & Hn & _)]]].
    + lia.
    + exfalso. destruct rest' as [|b' l]; [discriminate|]. cbn in Hn. injection Hn as -> _.
      rewrite Forall_app in Hc. destruct Hc as [_ Hc]. apply Forall_inv in Hc. rewrite continues_iff in Hc. lia.
    + destruct rest' as [|b' l]; [|discriminate]. cbn in Hn. injection Hn as Hn. change (@nil atom) with (map AByte []) in Hn. 
      apply map_AByte_inj in Hn. rewrite <- Hn. reflexivity.
    + exfalso. destruct rest' as [|b' l]; discriminate.
Qed.
(** the three cases are exhaustive *)
Lemma leb_cases k bs :
  (exists cs b rest, bs = cs ++ b :: rest /\ Forall continues cs /\ length cs < k /\ ~ continues b)
  \/ (exists cs rest, bs = cs ++ rest /\ Forall continues cs /\ length cs = k)
  \/ (Forall continues bs /\ length bs < k).
Proof.
  revert k; induction bs as [|b bs IH]; intros k.
  - destruct k; [right; left; exists [], []; auto|right; right; cbn; auto with arith].
  - destruct k as [|k]; [right; left; exists [], (b :: bs); auto|].
    destruct (N.le_gt_cases 128 (b2n b)) as [Hb|Hb].
    + apply continues_iff in Hb. destruct (IH k) as [(cs & b' & rest & -> & Hc & Hl & Hn)|[(cs & rest & -> & Hc & Hl)|[Hc Hl]]].
      * left. exists (b :: cs), b', rest. cbn. auto with arith.
      * right; left. exists (b :: cs), rest. cbn. auto.
      * right; right. cbn. auto with arith.
    + left. exists [], b, bs. cbn. rewrite continues_iff. split; [reflexivity|]. split; [constructor|]. split; [lia|lia].
Qed.

Lemma fin_u_result {E} w (e : E) cs b : fin_u w e cs b = (let v := leb_unsigned (cs ++ [b]) in fits (unsigned_fits w v) v e).
Proof. unfold fin_u. rewrite uraw_unsigned. reflexivity. Qed.
Lemma fin_s_result {E} w (e : E) cs b : fin_s w e cs b = (let v := leb_signed (cs ++ [b]) in fits (signed_fits w v) v e).
Proof. unfold fin_s. rewrite sraw_signed by (destruct cs; discriminate). reflexivity. Qed.

Lemma u32_outcomes : leb_outcomes 5 decode_u32 (fun bs => let v := leb_unsigned bs in fits (unsigned_fits 32 v) v U32_TooLarge) U32_RepresentationTooLong U32_Io.
Proof. eapply leb_outcomes_of; [apply decode_u32_spec|]. apply fin_u_result. Qed.
Lemma u64_outcomes : leb_outcomes 10 decode_u64 (fun bs => let v := leb_unsigned bs in fits (unsigned_fits 64 v) v U64_TooLarge) U64_RepresentationTooLong U64_Io.
Proof. eapply leb_outcomes_of; [apply decode_u64_spec|]. apply fin_u_result. Qed.
Lemma i32_outcomes : leb_outcomes 5 decode_i32 (fun bs => let v := leb_signed bs in fits (signed_fits 32 v) v I32_TooLarge) I32_RepresentationTooLong I32_Io.
Proof. eapply leb_outcomes_of; [apply decode_i32_spec|]. apply fin_s_result. Qed.
Lemma i64_outcomes : leb_outcomes 10 decode_i64 (fun bs => let v := leb_signed bs in fits (signed_fits 64 v) v I64_IncorrectSignExtension) I64_RepresentationTooLong I64_Io.
Proof. eapply leb_outcomes_of; [apply decode_i64_spec|]. apply fin_s_result. Qed.
Lemma s33_outcomes : leb_outcomes 5 decode_s33 (fun bs => let v := leb_signed bs in fits (signed_fits 33 v) v S33_IncorrectSignExtension) S33_RepresentationTooLong S33_Io.
Proof. eapply leb_outcomes_of; [apply decode_s33_spec|]. apply fin_s_result. Qed.

Lemma unsigned_app cs bs : leb_unsigned (cs ++ bs) = (leb_unsigned cs + 2 ^ (7 * N.of_nat (length cs)) * leb_unsigned bs)%N.
Proof.
  induction cs as [|c cs IH]; cbn [app leb_unsigned length]; [change (7 * N.of_nat 0)%N with 0%N; rewrite N.pow_0_r; lia|].
  rewrite IH. replace (7 * N.of_nat (S (length cs)))%N with (7 + 7 * N.of_nat (length cs))%N by lia. rewrite N.pow_add_r. lia.
Qed.
Lemma i64_tenth_byte cs b rest : Forall continues cs -> length cs = 9 -> ~ continues b ->
  ((exists v, decode_i64 (cs ++ b :: rest) = (Ok v, rest)) <-> b = x00 \/ b = x7f).
Proof.
  intros Hc Hl Hb. rewrite (leb_whole _ _ _ _ _ i64_outcomes cs b rest Hc ltac:(lia) Hb). cbv zeta.
  pose proof (unsigned_lt cs) as Hu. rewrite Hl in Hu. rewrite continues_iff in Hb.
  assert (HV : leb_unsigned (cs ++ [b]) = (leb_unsigned cs + 2 ^ 63 * b2n b)%N).
  { rewrite unsigned_app, Hl. cbn [leb_unsigned]. unfold val. fold (b2n b). change (2 ^ (7 * N.of_nat 9))%N with (2 ^ 63)%N.
    rewrite (N.mod_small (b2n b)) by (change (2 ^ 7)%N with 128%N; lia). lia. }
  unfold leb_signed, fits, signed_fits. rewrite HV, app_length, Hl. change (length [b]) with 1.
  change (7 * Z.of_nat (9 + 1))%Z with 70%Z. change (70 - 1)%Z with 69%Z. change (64 - 1)%Z with 63%Z.
  assert (Hb0 : b = x00 <-> b2n b = 0%N) by (split; [intros ->; reflexivity|intros E; destruct b; try discriminate E; reflexivity]).
  assert (Hb7 : b = x7f <-> b2n b = 127%N) by (split; [intros ->; reflexivity|intros E; destruct b; try discriminate E; reflexivity]).
  rewrite Hb0, Hb7. change (2 ^ (7 * N.of_nat 9))%N with 9223372036854775808%N in Hu.
  change (2 ^ 63)%N with 9223372036854775808%N. change (2 ^ 63)%Z with 9223372036854775808%Z.
  change (2 ^ 69)%Z with 590295810358705651712%Z. change (2 ^ 70)%Z with 1180591620717411303424%Z.
  set (u := leb_unsigned cs) in *. set (x := b2n b) in *.
  split.
  - intros [v Hv]. match type of Hv with ((if ?c then _ else _), _) = _ => destruct c eqn:EC; [|discriminate] end.
    destruct (Z.ltb_spec (Z.of_N (u + 9223372036854775808 * x)) 590295810358705651712); lia.
  - intros Hx. eexists. match goal with |- ((if ?c then _ else _), _) = _ => assert (c = true) as -> end; [|reflexivity].
    destruct (Z.ltb_spec (Z.of_N (u + 9223372036854775808 * x)) 590295810358705651712); lia.
Qed.

From Verif Require Import Model.Helpers.
Lemma f32_total b0 b1 b2 b3 rest : decode_f32 (b0 :: b1 :: b2 :: b3 :: rest) = (Ok (le_value [b0; b1; b2; b3]), rest).
Proof.
  pose proof (p_complete _ _ (GHelpers.parses_f32 (R := list byte)) ([b0; b1; b2; b3] ++ rest) (le_value [b0; b1; b2; b3]) [b0; b1; b2; b3] (map AByte rest)
    (conj eq_refl eq_refl)) as HC.
  destruct HC as [(r' & HE & Ha)|Hg].
  - apply bsteps_slice. eauto.
  - apply map_AByte_inj in Ha as ->. exact HE.
  - exfalso. revert Hg. pose proof (SafeWalk.safe_f32 (env := Build_Env (1 + length ([b0;b1;b2;b3] ++ rest)) (2 ^ 32 + N.of_nat (length ([b0;b1;b2;b3] ++ rest))) (fun _ => 0%N)) (1 + length ([b0;b1;b2;b3] ++ rest)) ([b0;b1;b2;b3] ++ rest)) as HS.
    destruct (decode_f32 ([b0;b1;b2;b3] ++ rest)) as [[| |[]|] r']; unfold Safe.short, gave_up in *; try tauto; destruct HS as [_ HS]; cbn [alloc_limit stack_limit budget list_reader] in HS; lia.
Qed.
Lemma f64_total b0 b1 b2 b3 b4 b5 b6 b7 rest : decode_f64 (b0 :: b1 :: b2 :: b3 :: b4 :: b5 :: b6 :: b7 :: rest) = (Ok (le_value [b0; b1; b2; b3; b4; b5; b6; b7]), rest).
Proof.
  pose proof (p_complete _ _ (GHelpers.parses_f64 (R := list byte)) ([b0; b1; b2; b3; b4; b5; b6; b7] ++ rest) (le_value [b0; b1; b2; b3; b4; b5; b6; b7]) [b0; b1; b2; b3; b4; b5; b6; b7] (map AByte rest)
    (conj eq_refl eq_refl)) as HC.
  destruct HC as [(r' & HE & Ha)|Hg].
  - apply bsteps_slice. eauto.
  - apply map_AByte_inj in Ha as ->. exact HE.
  - exfalso. revert Hg. pose proof (SafeWalk.safe_f64 (env := Build_Env (1 + length ([b0; b1; b2; b3; b4; b5; b6; b7] ++ rest)) (2 ^ 32 + N.of_nat (length ([b0; b1; b2; b3; b4; b5; b6; b7] ++ rest))) (fun _ => 0%N)) (1 + length ([b0; b1; b2; b3; b4; b5; b6; b7] ++ rest)) ([b0; b1; b2; b3; b4; b5; b6; b7] ++ rest)) as HS.
    destruct (decode_f64 ([b0; b1; b2; b3; b4; b5; b6; b7] ++ rest)) as [[| |[]|] r']; unfold Safe.short, gave_up in *; try tauto; destruct HS as [_ HS]; cbn [alloc_limit stack_limit budget list_reader] in HS; lia.
Qed.
Lemma le_value_inj bs1 : forall bs2, length bs1 = length bs2 -> le_value bs1 = le_value bs2 -> bs1 = bs2.
Proof.
  induction bs1 as [|b1 bs1 IH]; intros [|b2 bs2] Hl Hv; try discriminate; [reflexivity|]. cbn [le_value length] in *.
  unfold val in *. fold (b2n b1) (b2n b2) in *. pose proof (b2n_lt b1). pose proof (b2n_lt b2). change (2 ^ 8)%N with 256%N in Hv.
  assert (E : b2n b1 = b2n b2) by lia. f_equal; [|apply IH; lia].
  unfold b2n in E. apply (f_equal Byte.of_N) in E. rewrite !Byte.of_to_N in E. congruence.
Qed.
