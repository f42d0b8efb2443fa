(** Grammar of instructions and expressions (src/decode/instructions.rs, helpers.rs) *)
From Verif Require Import Model.Prelude Model.Io Model.Ast Model.Errors Model.Integer Model.Helpers Model.Types Model.Instr.
From Verif Require Import Proofs.Machine Proofs.Reads Proofs.Parses Proofs.Leb Proofs.GHelpers Proofs.GTypes.
From Verif Require Import Spec.Lang Spec.Types Spec.Instr.
From Coq Require Import Lia ZifyBool ZifyNat ZifyN.
Local Open Scope N_scope.

Lemma assocN_In {A} n (tbl : list (N * A)) a : assocN n tbl = Some a -> In (n, a) tbl.
Proof.
  induction tbl as [|[k x] tbl IH]; cbn; [discriminate|].
  destruct (N.eqb_spec n k) as [->|Hn]; [intros [= ->]; auto|auto].
Qed.
(** every entry of a model table is in a specification table *)
Lemma assocN_table {A B} (tbl : list (N * A)) (ref : list (N * B)) (g : A -> B) :
  Forall (fun x => assocN (fst x) ref = Some (g (snd x))) tbl ->
  forall n a, assocN n tbl = Some a -> In (n, g a) ref.
Proof.
  intros HF n a Ha. apply assocN_In in Ha. rewrite Forall_forall in HF. specialize (HF _ Ha). apply assocN_In in HF. exact HF.
Qed.
Ltac by_table := intros; eapply assocN_table; [repeat constructor|eassumption].

Lemma plain_in n i : assocN n plain_ops = Some i -> In (n, imm0 i) ops.
Proof. apply (assocN_table plain_ops ops imm0). repeat constructor. Qed.
Lemma mem_in n f : assocN n mem_ops = Some f -> In (n, imm1 f Bmemarg) ops.
Proof. apply (assocN_table mem_ops ops (fun f => imm1 f Bmemarg)). repeat constructor. Qed.
Lemma plain_fb_in n i : assocN n plain_fb_ops = Some i -> In (n, imm0 i) ops_fb.
Proof. apply (assocN_table plain_fb_ops ops_fb imm0). repeat constructor. Qed.
Lemma plain_fc_in n i : assocN n plain_fc_ops = Some i -> In (n, imm0 i) ops_fc.
Proof. apply (assocN_table plain_fc_ops ops_fc imm0). repeat constructor. Qed.
Lemma plain_fd_in n i : assocN n plain_fd_ops = Some i -> In (n, imm0 i) ops_fd.
Proof. apply (assocN_table plain_fd_ops ops_fd imm0). repeat constructor. Qed.
Lemma vec_mem_in n f : assocN n vec_mem_ops = Some f -> In (n, imm1 f Bmemarg) ops_fd.
Proof. apply (assocN_table vec_mem_ops ops_fd (fun f => imm1 f Bmemarg)). repeat constructor. Qed.
Lemma vec_mem_lane_in n f : assocN n vec_mem_lane_ops = Some f -> In (n, imm2 f Bmemarg Bbyte) ops_fd.
Proof. apply (assocN_table vec_mem_lane_ops ops_fd (fun f => imm2 f Bmemarg Bbyte)). repeat constructor. Qed.
Lemma vec_lane_in n f : assocN n vec_lane_ops = Some f -> In (n, imm1 f Bbyte) ops_fd.
Proof. apply (assocN_table vec_lane_ops ops_fd (fun f => imm1 f Bbyte)). repeat constructor. Qed.

Section Small.
  Context {env : Env} {R C : Type} `{Lawful R C}.

  Lemma parses_sub_u32 {E} a b : b <= a -> Parses (sub_u32 a b : M R E N) (g_ret (a - b)).
  Proof. intros Hb. unfold sub_u32. rewrite (proj2 (N.leb_le _ _) Hb). apply parses_ret. Qed.

  Lemma parses_memarg : Parses (decode_memarg : M R _ _) Bmemarg.
  Proof.
    eapply parses_ext.
    { unfold decode_memarg. parses_step; [parses|].
      eapply parses_bind with (K := fun z => g_bind Bu64 (fun o => g_ret (mkMemarg (fst z) (snd z) o))).
      - apply parses_if; intros E1; [parses|]. apply parses_if; intros E2; [|parses].
        parses_step; [parses|]. parses_step; [apply parses_sub_u32; apply N.ltb_ge in E1; exact E1|]. parses.
      - intros [x a'] _. parses. }
    intros t bs. rewrite g_bind_iff. split.
    - intros (n & bs1 & bs2 & -> & Hn & ([x al] & b1 & b2 & -> & Hx & Hk)). cbn [fst snd] in Hk.
      apply g_bind_ret in Hk as (o & -> & Ho).
      destruct (N.ltb_spec n (2 ^ 6)) as [E1|E1]; [|destruct (N.ltb_spec n (2 ^ 7)) as [E2|E2]; [|destruct Hx]].
      + destruct Hx as [[= -> ->] ->]. cbn [app]. constructor; assumption.
      + destruct Hx as (x' & b3 & b4 & -> & Hx' & Hk). apply g_bind_ret in Hk as (al' & [= -> ->] & [-> ->]).
        rewrite app_nil_r. constructor; auto.
    - inversion 1 as [n m bs1 bs2 Hn Hl Hm|n x m bs1 bs2 bs3 Hn Hl Hx Hm]; subst.
      + exists n, bs1, bs2. split; [reflexivity|]. split; [assumption|].
        exists (0, n), [], bs2. split; [reflexivity|]. rewrite (proj2 (N.ltb_lt _ _) Hl).
        split; [split; reflexivity|]. apply g_bind_ret. eauto.
      + exists n, bs1, (bs2 ++ bs3). split; [reflexivity|]. split; [assumption|].
        exists (x, n - 2 ^ 6), bs2, bs3. split; [reflexivity|].
        rewrite (proj2 (N.ltb_ge n (2 ^ 6))), (proj2 (N.ltb_lt n (2 ^ 7))) by apply Hl. split.
        * exists x, bs2, []. rewrite app_nil_r. split; [reflexivity|]. split; [assumption|]. apply g_bind_ret. eexists. split; [reflexivity|]. split; reflexivity.
        * apply g_bind_ret. eauto.
  Qed.

  Lemma parses_laneidx : Parses (decode_laneidx : M R _ _) Bbyte.
  Proof. apply parses_map_err, parses_read_byte. Qed.

  Lemma parses_catch : Parses (decode_catch : M R _ _) Bcatch.
  Proof.
    eapply parses_ext; [unfold decode_catch; parses|].
    intros t bs. rewrite g_bind_byte. split.
    - intros (m & bs' & -> & Hm). arm_cases Hm m.
      + destruct Hm as (x & b1 & b2 & -> & Hx & Hm). apply g_bind_ret in Hm as (l & -> & Hl). constructor; assumption.
      + destruct Hm as (x & b1 & b2 & -> & Hx & Hm). apply g_bind_ret in Hm as (l & -> & Hl). constructor; assumption.
      + apply g_bind_ret in Hm as (l & -> & Hl). constructor; assumption.
      + apply g_bind_ret in Hm as (l & -> & Hl). constructor; assumption.
      + destruct Hm.
    - inversion 1; subst; eexists _, _; (split; [reflexivity|]); arms.
      + eexists _, _, _. split; [reflexivity|]. split; [eassumption|]. apply g_bind_ret. eauto.
      + eexists _, _, _. split; [reflexivity|]. split; [eassumption|]. apply g_bind_ret. eauto.
      + apply g_bind_ret. eauto.
      + apply g_bind_ret. eauto.
  Qed.
  Lemma parses_castop : Parses (decode_castop : M R _ _) Bcastop.
  Proof.
    eapply parses_ext; [unfold decode_castop; parses|].
    intros t bs. rewrite g_bind_byte. split.
    - intros (m & bs' & -> & Hm). arm_cases Hm m; try (destruct Hm as [-> ->]; constructor). destruct Hm.
    - inversion 1; subst; eexists _, _; (split; [reflexivity|]); arms; split; reflexivity.
  Qed.
End Small.
#[export] Hint Resolve parses_memarg parses_laneidx parses_catch parses_castop : parses.

(** ** block types *)
Section ReadByte.
  Context {R C : Type} `{Lawful R C}.
  Lemma read_byte_next (r : R) b c1 : next (abs r) = (AByte b, c1) -> exists r1, read_byte r = (Ok b, r1) /\ abs r1 = c1.
  Proof.
    intros Hn. destruct (read_byte r) as [x r1] eqn:E. apply read_byte_spec in E. rewrite Hn in E. inversion E; subst. eauto.
  Qed.
End ReadByte.

Lemma chain_next {R C} `{Lawful R C} b (r : R) : next (abs (mkChain [b] false r) : Pend C) = (AByte b, (([], abs r) : Pend C)).
Proof. reflexivity. Qed.

Definition valtype_start (b : byte) : bool :=
  ((0x63 <=? b2n b) && (b2n b <=? 0x64) || (0x69 <=? b2n b) && (b2n b <=? 0x74) || (0x7B <=? b2n b) && (b2n b <=? 0x7F))%bool.

Section Block.
  Context {env : Env}.
  Lemma absheaptype_reject {R C} `{Lawful R C} (r : R) b c1 :
    next (abs r) = (AByte b, c1) -> valtype_start b = false -> exists e r', decode_absheaptype r = (Err e, r') /\ abs r' = c1.
  Proof.
    intros Hn Hb. destruct (read_byte_next r b c1 Hn) as (r1 & Er & Ha).
    unfold decode_absheaptype, bind, map_err. rewrite Er.
    destruct (absheaptype_from_marker b) as [t|] eqn:E.
    { exfalso. apply absheaptype_marker in E. inversion E; subst; discriminate. }
    unfold throw. eauto.
  Qed.
  Lemma reftype_reject {R C} `{Lawful R C} (r : R) b c1 :
    next (abs r) = (AByte b, c1) -> valtype_start b = false -> exists e r', decode_reftype r = (Err e, r') /\ abs r' = c1.
  Proof.
    intros Hn Hb. destruct (read_byte_next r b c1 Hn) as (r1 & Er & Ha).
    unfold decode_reftype. unfold bind at 1. unfold map_err at 1. rewrite Er. cbn [switch pmatch].
    destruct (N.eqb_spec (b2n b) 0x63) as [E|_]; [byte_known E; discriminate|].
    destruct (N.eqb_spec (b2n b) 0x64) as [E|_]; [byte_known E; discriminate|].
    unfold bind, with_chain, map_err.
    destruct (absheaptype_reject (C := Pend C) (mkChain [b] false r1) b (([], abs r1) : Pend C) (chain_next _ _) Hb) as (e & ch & -> & Hch).
    eexists _, _. split; [reflexivity|]. apply (f_equal snd) in Hch. cbn in Hch. rewrite <- Ha. exact Hch.
  Qed.
  Lemma valtype_reject {R C} `{Lawful R C} (r : R) b c1 :
    next (abs r) = (AByte b, c1) -> valtype_start b = false -> exists e r', decode_valtype r = (Err e, r') /\ abs r' = c1.
  Proof.
    intros Hn Hb. destruct (read_byte_next r b c1 Hn) as (r1 & Er & Ha).
    unfold decode_valtype. unfold bind at 1. unfold map_err at 1. rewrite Er. cbn [switch pmatch].
    repeat match goal with |- context [N.eqb (b2n b) ?k] => destruct (N.eqb_spec (b2n b) k) as [E|_]; [byte_known E; discriminate|] end.
    unfold bind, with_chain, map_err.
    destruct (reftype_reject (C := Pend C) (mkChain [b] false r1) b (([], abs r1) : Pend C) (chain_next _ _) Hb) as (e & ch & -> & Hch).
    eexists _, _. split; [reflexivity|]. apply (f_equal snd) in Hch. cbn in Hch. rewrite <- Ha. exact Hch.
  Qed.

  Context {R C : Type} `{Lawful R C}.
  (** the body run on the chained reader *)
  Definition bt_body (b : byte) : M (Chain R) BlockTypeError BlockType :=
    t <- try_ok decode_valtype ;;
    match t with
    | Some t => ret (BT_T t)
    | None =>
        with_chain b (
          x <- map_err BT_DecodeIndex decode_s33 ;;
          if (x <? 0)%Z then throw (BT_NegativeTypeIndex x)
          else
            x <- u32_try_from_unwrap x ;;
            ret (BT_I x))
    end.
  Definition bt_idx {R'} `{Reader R'} : M R' BlockTypeError BlockType :=
    x <- map_err BT_DecodeIndex decode_s33 ;;
    if (x <? 0)%Z then throw (BT_NegativeTypeIndex x)
    else
      x <- u32_try_from_unwrap x ;;
      ret (BT_I x).
  Lemma blocktype_unfold : (decode_blocktype : M R _ _) =
    (b <- map_err BT_ReadMarkerByte read_byte ;; if b2n b =? 0x40 then ret BT_Empty else with_chain b (bt_body b)).
  Proof. reflexivity. Qed.
  Lemma parses_bt_idx {R' C'} `{Lawful R' C'} : Parses (bt_idx : M R' _ _) (fun a bs => exists x, a = BT_I x /\ Btypeidx33 x bs).
  Proof. apply parses_idx33. Qed.
  Lemma bt_idx_nonempty : nonempty (fun a bs => exists x, a = BT_I x /\ Btypeidx33 x bs).
  Proof. intros a (x & _ & HB). eapply Bs_nonempty; eauto. Qed.

  Lemma bt_body_run b r : bt_body b r =
    match decode_valtype r with
    | (Ok t, r') => (Ok (BT_T t), r')
    | (Err _, r') => with_chain b bt_idx r'
    | (Panic p, r') => (Panic p, r')
    | (Stuck, r') => (Stuck, r')
    end.
  Proof. unfold bt_body, bind at 1, try_ok. destruct (decode_valtype r) as [[t|e|p|] r']; reflexivity. Qed.
  Lemma Bblocktype_nonempty : nonempty Bblocktype.
  Proof. intros t HB. inversion HB; subst; [eapply Bvt_nonempty; eauto|eapply Bs_nonempty; eauto]. Qed.

  Lemma parses_bt_body b : b2n b <> 0x40 ->
    Parses (with_chain b (bt_body b) : M R _ _) (fun t bs => Bblocktype t (b :: bs)).
  Proof.
    intros Hb40. pose proof (parses_valtype (R := Chain R) (C := Pend C)) as [VS VC].
    pose proof (parses_with_chain b _ _ (parses_bt_idx (R' := Chain (Chain R)) (C' := Pend (Pend C))) bt_idx_nonempty) as [IS IC].
    split.
    - intros r t r' Hr. unfold with_chain at 1 in Hr.
      destruct (bt_body b (mkChain [b] false r)) as [x ch] eqn:EB. injection Hr as -> <-.
      rewrite bt_body_run in EB.
      destruct (decode_valtype (mkChain [b] false r)) as [[v|e|pn|] c1] eqn:EV; try discriminate.
      + injection EB as <- <-. destruct (VS _ _ _ EV) as (bs & Hb & HG).
        apply (bsteps_pend_one_inv b (abs r) bs) in Hb as [[-> _]|(bs' & -> & _ & Hb)].
        { exfalso. eapply Bvt_nonempty; eauto. }
        exists bs'. split; [assumption|]. constructor. assumption.
      + destruct (IS _ _ _ EB) as (bs & Hb & y & -> & HI).
        destruct (valtype_start b) eqn:Est.
        { exfalso. apply Bs33_first in HI. unfold valtype_start in Est. lia. }
        destruct (valtype_reject (C := Pend C) (mkChain [b] false r) b (([], abs r) : Pend C) (chain_next _ _) Est) as (e' & c1' & EV' & Ha).
        rewrite EV in EV'. injection EV' as -> ->. rewrite Ha in Hb.
        apply bsteps_pend_nil_inv in Hb as [_ Hb]; [|reflexivity]. exists bs. split; [exact Hb|]. constructor. exact HI.
    - intros r t bs c' HG Hb.
      assert (EW : with_chain b (bt_body b) r = let '(x, c) := bt_body b (mkChain [b] false r) in (x, c_second c)) by reflexivity.
      rewrite EW; clear EW. rewrite bt_body_run.
      inversion HG as [|v bs1 HV|y bs1 HI]; subst.
      { exfalso. apply Hb40. reflexivity. }
      + assert (Hb' : bsteps (abs (mkChain [b] false r)) (b :: bs) (([], c') : Pend C)).
        { econstructor; [reflexivity|]. apply bsteps_pend. exact Hb. }
        destruct (VC _ _ _ _ HV Hb') as [(c1 & -> & Ha)|Hg].
        * left. exists (c_second c1). split; [reflexivity|]. apply (f_equal snd) in Ha. exact Ha.
        * right. destruct (decode_valtype (mkChain [b] false r)) as [[v'|e|pn|] c1]; cbn in *; try contradiction; exact Hg.
      + assert (Est : valtype_start b = false).
        { apply Bs33_first in HI. unfold valtype_start. lia. }
        destruct (valtype_reject (C := Pend C) (mkChain [b] false r) b (([], abs r) : Pend C) (chain_next _ _) Est) as (e' & c1' & EV' & Ha).
        rewrite EV'.
        assert (Hb' : bsteps (abs c1') bs (([], c') : Pend C)).
        { rewrite Ha. apply bsteps_pend. exact Hb. }
        destruct (IC c1' (BT_I y) bs _ (ex_intro _ y (conj eq_refl HI)) Hb') as [(c2 & E2 & Ha2)|Hg].
        * left. rewrite E2. exists (c_second c2). split; [reflexivity|]. apply (f_equal snd) in Ha2. exact Ha2.
        * right. destruct (with_chain b bt_idx c1'); exact Hg.
  Qed.
  Lemma parses_blocktype : Parses (decode_blocktype : M R _ _) Bblocktype.
  Proof.
    rewrite blocktype_unfold. eapply parses_ext.
    { parses_step; [parses|]. parses_step; [parses|]. apply parses_bt_body. apply N.eqb_neq. assumption. }
    intros t bs. rewrite g_bind_byte. split.
    - intros (m & bs' & -> & Hm). destruct (N.eqb_spec (b2n m) 0x40) as [E|E]; [|exact Hm].
      byte_known E. destruct Hm as [-> ->]. constructor.
    - intros HB. destruct bs as [|b bs]; [exfalso; eapply Bblocktype_nonempty; eauto|].
      exists b, bs. split; [reflexivity|]. destruct (N.eqb_spec (b2n b) 0x40) as [E|E]; [|exact HB].
      byte_known E. inversion HB as [|? ? HV|? ? HV]; subst; [split; reflexivity|exfalso..].
      + apply Bvaltype_first in HV. vm_compute in HV. intuition congruence.
      + apply Bs33_first in HV. vm_compute in HV. intuition congruence.
  Qed.
End Block.
#[export] Hint Resolve parses_blocktype : parses.
