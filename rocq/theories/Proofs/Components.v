(** Proofs for Properties/Components.v *)
From Verif Require Import Model.Prelude Model.Io Model.Ast Model.Errors Model.Integer Model.Helpers Model.Types Model.Instr Model.Sections.
From Verif Require Import Spec.Lang Spec.Types Spec.Instr Spec.Module Spec.Streams.
From Verif Require Import Proofs.Machine Proofs.Reads Proofs.Parses Proofs.Leb Proofs.Loop Proofs.GHelpers Proofs.GTypes Proofs.GInstr Proofs.GControl Proofs.GSections Proofs.Safe Proofs.SafeWalk Proofs.Final Proofs.Utf8.
From Coq Require Import Lia ZifyBool ZifyNat ZifyN.

Lemma sufficient_le env n m : m <= n -> sufficient env n -> sufficient env m.
Proof. intros Hm [[? ?] ?]; split; [split|]; [assumption|lia|lia]. Qed.
(** with the resources, there is either a value or an error *)
Lemma decodes_answers {E A} (p : Env -> M (list byte) E A) X env bs :
  decodes p X -> sufficient env (length bs) -> exists rest, (exists a, p env bs = (Ok a, rest)) \/ (exists e, p env bs = (Err e, rest)).
Proof.
  intros HD HS. destruct (p env bs) as [[a|e|pn|] rest] eqn:EP; [exists rest; eauto|exists rest; eauto|exfalso..].
  - destruct (decodes_total _ _ HD env bs HS) as (e & rest' & HE); [|congruence].
    intros a pre rest' -> HX. pose proof (decodes_complete _ _ HD env a pre rest' HS HX). congruence.
  - destruct (decodes_total _ _ HD env bs HS) as (e & rest' & HE); [|congruence].
    intros a pre rest' -> HX. pose proof (decodes_complete _ _ HD env a pre rest' HS HX). congruence.
Qed.
Lemma decodes_u32 : decodes (fun _ => decode_u32) Bu32.
Proof. eapply decodes_of; intros env; [apply parses_u32|apply safe_u32]. Qed.
Lemma Bu32_lt n bs : Bu32 n bs -> (n < 2 ^ 32)%N.
Proof.
  intros HB. pose (env := Build_Env (2 + length bs) (2 ^ 32 + N.of_nat (length bs)) (fun _ => 0%N)).
  pose proof (decodes_complete _ _ decodes_u32 env n bs []) as HC. rewrite app_nil_r in HC.
  specialize (HC ltac:(unfold sufficient, env; cbn [alloc_limit stack_limit]; lia) HB). pose proof (safe_u32 (env := env) (S (length bs)) bs) as HS. cbn beta in HS, HC. rewrite HC in HS. apply HS.
Qed.

Section List.
  Context {E A : Type} (p : Env -> M (list byte) E A) (X : lang A) (HD : decodes p X).
  Notation step env := (list_step (fun _ : unit => x <- p env ;; ret (x, tt))).
  Lemma step_eq env i (items : list A) u bs : step env (i, items, u) bs =
    match p env bs with (Ok a, r) => (Ok ((i + 1)%N, a :: items, tt), r) | (Err e, r) => (Err (ParseElement i e), r) | (Panic x, r) => (Panic x, r) | (Stuck, r) => (Stuck, r) end.
  Proof. unfold list_step, bind, map_err, ret. destruct (p env bs) as [[]]; reflexivity. Qed.
  Lemma loop_sound env n : forall i items u bs s' rest, iterM (step env) n (i, items, u) bs = (Ok s', rest) ->
    exists xs pre, bs = pre ++ rest /\ length xs = n /\ s' = ((i + N.of_nat n)%N, rev xs ++ items, tt) /\ Bseq X xs pre.
  Proof.
    induction n as [|n IH]; intros i items u bs s' rest HE.
    - cbn in HE. injection HE as <- <-. exists [], []. destruct u. rewrite N.add_0_r. repeat split. constructor.
    - cbn [iterM] in HE. unfold bind at 1 in HE. rewrite step_eq in HE. destruct (p env bs) as [[a|e|pn|] r] eqn:EP; try discriminate.
      destruct (decodes_sound _ _ HD _ _ _ _ EP) as (pre1 & -> & HX). destruct (IH _ _ _ _ _ _ HE) as (xs & pre & -> & Hl & -> & HB).
      exists (a :: xs), (pre1 ++ pre). rewrite <- app_assoc. split; [reflexivity|]. split; [cbn; lia|]. split; [|constructor; assumption].
      cbn [rev]. rewrite <- app_assoc. cbn. f_equal. f_equal. lia.
  Qed.
  Lemma loop_complete env xs : forall i items u pre rest, sufficient env (length (pre ++ rest)) -> Bseq X xs pre ->
    iterM (step env) (length xs) (i, items, u) (pre ++ rest) = (Ok ((i + N.of_nat (length xs))%N, rev xs ++ items, tt), rest).
  Proof.
    induction xs as [|x xs IH]; intros i items u pre rest HS HB.
    - inversion HB; subst. cbn. destruct u. rewrite N.add_0_r. reflexivity.
    - inversion HB as [|x' xs' bs1 bs2 HX HB' Hx' Hp']; subst. rewrite <- app_assoc in *. cbn [iterM length]. unfold bind at 1. rewrite step_eq.
      rewrite (decodes_complete _ _ HD env x bs1 (bs2 ++ rest) HS HX). rewrite IH; [|eapply sufficient_le; [|exact HS]; rewrite !app_length; lia|assumption].
      cbn [rev length]. rewrite <- app_assoc. cbn. f_equal. f_equal. f_equal. f_equal. lia.
  Qed.
  Lemma loop_total env n : forall s bs, sufficient env (length bs) ->
    exists rest, (exists s', iterM (step env) n s bs = (Ok s', rest)) \/ (exists e, iterM (step env) n s bs = (Err e, rest)).
  Proof.
    induction n as [|n IH]; intros [[i items] u] bs HS; [exists bs; left; eexists; reflexivity|].
    assert (HU : iterM (step env) (S n) (i, items, u) bs = match step env (i, items, u) bs with (Ok a, r) => iterM (step env) n a r | (Err e, r) => (Err e, r) | (Panic x, r) => (Panic x, r) | (Stuck, r) => (Stuck, r) end) by reflexivity.
    rewrite HU, step_eq. clear HU.
    destruct (decodes_answers p X env bs HD HS) as (r & [[a Ha]|[e He]]).
    - rewrite Ha. apply IH. destruct (decodes_sound _ _ HD _ _ _ _ Ha) as (pre & -> & _). eapply sufficient_le; [|exact HS]. rewrite app_length. lia.
    - rewrite He. eauto.
  Qed.

  Lemma list_unfold env bs : decode_list (p env) bs =
    match decode_u32 bs with
    | (Ok n, r) => match alloc (E := DecodeListError E) n r with
      | (Ok _, r) => match iterM (step env) (N.to_nat n) (0%N, [], tt) r with
         | (Ok (_, items, _), r') => (Ok (rev items), r') | (Err e, r') => (Err e, r') | (Panic x, r') => (Panic x, r') | (Stuck, r') => (Stuck, r') end
      | (Err e, r') => (Err e, r') | (Panic x, r') => (Panic x, r') | (Stuck, r') => (Stuck, r') end
    | (Err e, r') => (Err (DecodeLength e), r') | (Panic x, r') => (Panic x, r') | (Stuck, r') => (Stuck, r') end.
  Proof.
    unfold decode_list, decode_list_st, bind at 1, map_err at 1. destruct (decode_u32 bs) as [[n|e|pn|] r]; try reflexivity.
    unfold bind at 1. destruct (alloc n r) as [[[]|e|pn|] r1]; try reflexivity.
    unfold bind at 1. rewrite loopN_iter. destruct (iterM _ _ _ r1) as [[[[? ?] ?]|e|pn|] r2]; reflexivity.
  Qed.
  Lemma decodes_list : decodes (fun env => decode_list (p env)) (Blist X).
  Proof.
    assert (Hal : forall env n r, (n < 2 ^ 32)%N -> (2 ^ 32 - 1 <= @alloc_limit env)%N -> alloc (E := DecodeListError E) (R := list byte) n r = (Ok tt, r)).
    { intros env n r Hn Hl. unfold alloc. destruct (N.leb_spec n alloc_limit); [reflexivity|lia]. }
    assert (HSnd : forall env bs a rest, decode_list (p env) bs = (Ok a, rest) -> exists pre, bs = pre ++ rest /\ Blist X a pre).
    { intros env bs l rest HE. rewrite list_unfold in HE. destruct (decode_u32 bs) as [[n|e|pn|] r] eqn:E1; try discriminate.
      destruct (decodes_sound _ _ decodes_u32 env _ _ _ E1) as (pre1 & -> & Hn).
      unfold alloc in HE. destruct (n <=? alloc_limit)%N; cbn in HE; [|discriminate].
      destruct (iterM _ _ _ r) as [[s'|e|pn|] r'] eqn:E2; try discriminate.
      destruct (loop_sound _ _ _ _ _ _ _ _ E2) as (xs & pre & -> & Hl & -> & HB). injection HE as <- <-.
      exists (pre1 ++ pre). rewrite app_nil_r, rev_involutive, <- app_assoc. split; [reflexivity|]. constructor; [|assumption].
      rewrite Hl, N2Nat.id. exact Hn. }
    split; [exact HSnd| |].
    - intros env l pre rest HS HB. inversion HB as [l' bs1 bs2 Hn Hq Hl' Hpre]; subst. rewrite list_unfold. rewrite <- app_assoc in *.
      pose proof (decodes_complete _ _ decodes_u32 env _ bs1 (bs2 ++ rest) HS Hn) as E1. cbn beta in E1. rewrite E1.
      rewrite Hal; [|eapply Bu32_lt; eassumption|exact (proj1 (proj1 HS))]. rewrite Nat2N.id.
      rewrite loop_complete; [|eapply sufficient_le; [|exact HS]; rewrite !app_length; lia|assumption].
      rewrite app_nil_r, rev_involutive. reflexivity.
    - intros env bs HS HN. destruct (decode_list (p env) bs) as [[l|e|pn|] rest] eqn:EL; [exfalso|eauto|exfalso..].
      + destruct (HSnd _ _ _ _ EL) as (pre & -> & HB). eapply HN; eauto.
      + rewrite list_unfold in EL. destruct (decodes_answers _ _ env bs decodes_u32 HS) as (r & [[n Hn]|[e He]]); cbn beta in *; [rewrite Hn in EL|rewrite He in EL; discriminate].
        destruct (decodes_sound _ _ decodes_u32 env _ _ _ Hn) as (pre1 & -> & Hn').
        rewrite Hal in EL; [|eapply Bu32_lt; eassumption|exact (proj1 (proj1 HS))].
        destruct (loop_total env (N.to_nat n) (0%N, [], tt) r) as (r2 & [[[[? ?] ?] E2]|[e E2]]); [eapply sufficient_le; [|exact HS]; rewrite app_length; lia| |]; rewrite E2 in EL; discriminate.
      + rewrite list_unfold in EL. destruct (decodes_answers _ _ env bs decodes_u32 HS) as (r & [[n Hn]|[e He]]); cbn beta in *; [rewrite Hn in EL|rewrite He in EL; discriminate].
        destruct (decodes_sound _ _ decodes_u32 env _ _ _ Hn) as (pre1 & -> & Hn').
        rewrite Hal in EL; [|eapply Bu32_lt; eassumption|exact (proj1 (proj1 HS))].
        destruct (loop_total env (N.to_nat n) (0%N, [], tt) r) as (r2 & [[[[? ?] ?] E2]|[e E2]]); [eapply sufficient_le; [|exact HS]; rewrite app_length; lia| |]; rewrite E2 in EL; discriminate.
  Qed.
End List.

(** a decoder that needs no resources *)
Definition bigenv (n : nat) : Env := Build_Env (2 + n) (2 ^ 32 + N.of_nat n) (fun _ => 0%N).
Lemma bigenv_ok n : sufficient (bigenv n) n.
Proof. unfold sufficient, bigenv. cbn [alloc_limit stack_limit]. lia. Qed.
Lemma decodes_word {E A} (p : M (list byte) E A) G a pre rest : decodes (fun _ => p) G -> G a pre -> p (pre ++ rest) = (Ok a, rest).
Proof. intros HD HG. exact (decodes_complete _ _ HD (bigenv _) a pre rest (bigenv_ok _) HG). Qed.
Lemma read_byte_cons b rest : (read_byte : M (list byte) _ _) (b :: rest) = (Ok b, rest).
Proof. destruct rest; reflexivity. Qed.

Lemma name_not_utf8 env s bs rest : sufficient env (length (bs ++ rest)) -> Blist Bbyte s bs -> ~ utf8 s -> decode_name (bs ++ rest) = (Err (Name_Utf8 s), rest).
Proof.
  intros HS HB HU. unfold decode_name, bind, map_err.
  pose proof (decodes_complete _ _ (decodes_of (fun env => decode_byte_vector) (Blist Bbyte) 0 any (fun env => parses_byte_vector) (fun env => safe_byte_vector _)) env s bs rest HS HB) as HE.
  cbn beta in HE. rewrite HE. destruct (from_utf8 s) eqn:EU; [|reflexivity]. apply from_utf8_iff in EU. contradiction.
Qed.
Lemma limits_bad_flag b rest : ~ In b [x00; x01; x04; x05] -> parse_limits (b :: rest) = (Err (Lim_UnexpectedFlagByte b), rest).
Proof. intros HB. unfold parse_limits, bind at 1, map_err at 1. rewrite read_byte_cons. destruct b; try reflexivity; exfalso; apply HB; cbn; tauto. Qed.
Lemma globaltype_bad_mut t bs b rest : Bvaltype t bs -> b <> x00 -> b <> x01 ->
  decode_globaltype (bs ++ b :: rest) = (Err (GT_InvalidMutability (InvalidMutabilityByte b)), rest).
Proof.
  intros HB H0 H1. unfold decode_globaltype, bind, map_err.
  rewrite (decodes_word decode_valtype Bvaltype t bs (b :: rest)); [|eapply decodes_of; intros env; [apply parses_valtype|apply safe_valtype]|assumption].
  rewrite read_byte_cons. destruct b; try reflexivity; congruence.
Qed.
Lemma tagtype_bad b rest : b <> x00 -> decode_tagtype (b :: rest) = (Err (Tag_InvalidMarkerByte b), rest).
Proof. intros HB. unfold decode_tagtype, bind at 1, map_err at 1. rewrite read_byte_cons. destruct b; try reflexivity; congruence. Qed.
Lemma externtype_bad b rest : ~ In b [x00; x01; x02; x03; x04] -> decode_externtype (b :: rest) = (Err (Ext_InvalidMarkerByte b), rest).
Proof. intros HB. unfold decode_externtype, bind at 1, map_err at 1. rewrite read_byte_cons. destruct b; try reflexivity; exfalso; apply HB; cbn; tauto. Qed.
Lemma blocktype_disjoint t x bs : (Bvaltype t bs -> bs <> [x40] /\ ~ Bs33 (Z.of_N x) bs) /\ ~ Bs33 (Z.of_N x) [x40].
Proof.
  assert (HD : decodes (fun _ => decode_blocktype) Bblocktype) by (eapply decodes_of; intros env; [apply parses_blocktype|apply safe_blocktype]).
  split; [intros HB; split|].
  - intros ->. pose proof (decodes_unambiguous _ _ HD _ _ _ (Bbt_val _ _ HB) Bbt_empty). discriminate.
  - intros HI. pose proof (decodes_unambiguous _ _ HD _ _ _ (Bbt_val _ _ HB) (Bbt_idx _ _ HI)). discriminate.
  - intros HI. pose proof (decodes_unambiguous _ _ HD _ _ _ (Bbt_idx _ _ HI) Bbt_empty). discriminate.
Qed.
Lemma memarg_bad_flags n bs rest : Bu32 n bs -> (2 ^ 7 <= n)%N -> decode_memarg (bs ++ rest) = (Err (MA_InvalidFlagsBit n), rest).
Proof.
  intros HB Hn. unfold decode_memarg, bind at 1, map_err at 1. rewrite (decodes_word decode_u32 Bu32 n bs rest decodes_u32 HB).
  repeat match goal with |- context [(if ?c then _ else _)] => destruct c eqn:?EC; [exfalso; cbn in *; lia|] end. reflexivity.
Qed.
Lemma elem_bad_bitfield env n bs rest : Bu32 n bs -> (7 < n)%N -> @parse_elem env _ _ (bs ++ rest) = (Err (El_InvalidBitfield n), rest).
Proof.
  intros HB Hn. unfold parse_elem, bind at 1, map_err at 1. rewrite (decodes_word decode_u32 Bu32 n bs rest decodes_u32 HB).
  unfold switch, pmatch. repeat match goal with |- context [(n =? ?k)%N] => destruct (N.eqb_spec n k); [exfalso; lia|] end. reflexivity.
Qed.
Lemma data_bad_bitfield env n bs rest : Bu32 n bs -> (2 < n)%N -> @parse_data env _ _ (bs ++ rest) = (Err (Dat_InvalidBitfield n), rest).
Proof.
  intros HB Hn. unfold parse_data, bind at 1, map_err at 1. rewrite (decodes_word decode_u32 Bu32 n bs rest decodes_u32 HB).
  unfold switch, pmatch. repeat match goal with |- context [(n =? ?k)%N] => destruct (N.eqb_spec n k); [exfalso; lia|] end. reflexivity.
Qed.
Lemma tabletype_not_40 t bs : ~ Btabletype t (x40 :: bs).
Proof.
  intros HB. inversion HB as [rt l bs1 bs2 HR HL Ht Hb]. inversion HR; subst; try discriminate.
  match goal with HA : Babsheaptype _ _ |- _ => inversion HA; subst; discriminate end.
Qed.
Lemma export_bad env nm b x bs1 bs2 rest : sufficient env (length (bs1 ++ b :: bs2 ++ rest)) ->
  Bname nm bs1 -> Bidx x bs2 -> ~ In b [x00; x01; x02; x03; x04] ->
  parse_export (bs1 ++ b :: bs2 ++ rest) = (Err (Exp_InvalidDescriptorMarkerByte (InvalidExportDescMarker b)), rest).
Proof.
  intros HS HB HI Hb. unfold parse_export, bind, map_err.
  pose proof (decodes_complete _ _ (decodes_of (fun env => decode_name) Bname 0 any (fun env => parses_name) (fun env => safe_name _)) env nm bs1 _ HS HB) as HE.
  cbn beta in HE. rewrite HE, read_byte_cons, (decodes_word decode_u32 Bu32 x bs2 rest decodes_u32 HI).
  destruct b; try reflexivity; exfalso; apply Hb; cbn; tauto.
Qed.
