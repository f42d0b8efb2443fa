(** The errors of immediates and of instructions without a body are their faults. *)
From Verif Require Import Model.Prelude Model.Io Model.Ast Model.Errors Model.Integer Model.Helpers Model.Types Model.Instr.
From Verif Require Import Proofs.Machine Proofs.Reads Proofs.Parses Proofs.Leb Proofs.Loop Proofs.GHelpers Proofs.GTypes Proofs.GInstr Proofs.GPrefix Proofs.Utf8 Proofs.FinalInt Proofs.Blames Proofs.FTypes.
From Verif Require Import Spec.Lang Spec.Types Spec.Instr Spec.Streams Spec.Leb Spec.Faults.
From Coq Require Import Lia ZifyBool ZifyNat ZifyN.

Lemma Bs33_one b : (64 <= b2n b < 128)%N -> Bs33 (Z.of_N (b2n b) - 128)%Z [b].
Proof.
  intros Hb. replace (Z.of_N (b2n b) - 128)%Z with (Z.of_N (val b) - 2 ^ 7)%Z by reflexivity.
  apply Bs_neg; change (Byte.to_N b) with (b2n b) in *; unfold val; fold (b2n b); try lia.
Qed.

Section Block.
  Context {env : Env} {R C : Type} `{HL : Lawful R C}.

  Lemma bt_idx_low b (HB : (64 <= b2n b < 128)%N) {R' C'} `{Lawful R' C'} (r : R') :
    (exists r', with_chain b bt_idx r = (Err (BT_NegativeTypeIndex (Z.of_N (b2n b) - 128)%Z), r')) \/ gave_up (fst (with_chain b bt_idx r)).
  Proof.
    pose proof (parses_s33 (R := Chain R') (C := Pend C')) as [_ PC].
    assert (Hb : bsteps (abs (mkChain [b] false r)) [b] (([], abs r) : Pend C')) by (econstructor; [reflexivity|constructor]).
    unfold with_chain, bt_idx, bind, map_err.
    destruct (PC _ _ _ _ (Bs33_one b HB) Hb) as [(r' & -> & _)|Hg].
    - destruct (Z.ltb_spec (Z.of_N (b2n b) - 128) 0); [|lia]. left. eexists. reflexivity.
    - right. destruct (decode_s33 (mkChain [b] false r)) as [[x|e|pn|] r1]; cbn in *; auto; contradiction.
  Qed.
  Lemma blames_bt_high b : valtype_start b = true ->
    Blames (with_chain b (bt_body b) : M R _ _)
      (fun bs stop e => (exists e', Fvaltype (b :: bs) stop e') /\ e = BT_NegativeTypeIndex (Z.of_N (b2n b) - 128)%Z).
  Proof.
    intros Hs. pose proof (blames_valtype (R := Chain R) (C := Pend C)) as [VS VC].
    assert (HB : (64 <= b2n b < 128)%N) by (unfold valtype_start in Hs; lia).
    pose proof (fun c => bt_idx_low b HB (R' := Chain R) (C' := Pend C) c) as HI.
    split.
    - intros r bs stop e r' HD Hr. unfold with_chain at 1 in Hr.
      destruct (bt_body b (mkChain [b] false r)) as [x ch] eqn:EB. injection Hr as -> <-. rewrite bt_body_run in EB.
      destruct (decode_valtype (mkChain [b] false r)) as [[v|e0|pn|] c1] eqn:EV; try discriminate.
      split; [exists e0; eapply VS; [|exact EV]; cbn; apply delivers_pend; exact HD|].
      destruct (HI c1) as [(r2 & E2)|Hg]; rewrite EB in *; [congruence|destruct Hg].
    - intros r bs stop e HD ((e' & HF) & ->).
      assert (EW : with_chain b (bt_body b) r = let '(x, c) := bt_body b (mkChain [b] false r) in (x, c_second c)) by reflexivity.
      rewrite EW; clear EW. rewrite bt_body_run.
      assert (HD' : delivers (abs (mkChain [b] false r)) (b :: bs) stop) by (cbn; apply delivers_pend; exact HD).
      destruct (VC _ _ _ _ HD' HF) as [(c1 & ->)|Hg].
      + destruct (HI c1) as [(r2 & ->)|Hg]; [left; eauto|right]. destruct (with_chain b bt_idx c1); exact Hg.
      + right. destruct (decode_valtype (mkChain [b] false r)) as [[v'|e|pn|] c1]; cbn in *; try contradiction; exact Hg.
  Qed.
  Lemma blames_bt_low b : valtype_start b = false ->
    Blames (with_chain b (bt_body b) : M R _ _) (fun bs stop e => Ftypeidx33 BT_DecodeIndex BT_NegativeTypeIndex (b :: bs) stop e).
  Proof.
    intros Hs.
    pose proof (blames_chain b _ _ (blames_s33_idx (R := Chain (Chain R)) (C := Pend (Pend C)) BT_DecodeIndex BT_NegativeTypeIndex BT_I)) as [IS IC].
    change (bind (map_err BT_DecodeIndex decode_s33) (fun x => if (x <? 0)%Z then throw (BT_NegativeTypeIndex x) else bind (u32_try_from_unwrap x) (fun x => ret (BT_I x))))
      with (bt_idx : M (Chain (Chain R)) _ _) in *.
    split.
    - intros r bs stop e r' HD Hr. unfold with_chain at 1 in Hr.
      destruct (bt_body b (mkChain [b] false r)) as [x ch] eqn:EB. injection Hr as -> <-. rewrite bt_body_run in EB.
      destruct (valtype_reject (C := Pend C) (mkChain [b] false r) b (([], abs r) : Pend C) (chain_next _ _) Hs) as (e' & c1' & EV' & Ha).
      rewrite EV' in EB. eapply IS; [|exact EB]. rewrite Ha. apply delivers_pend_nil. exact HD.
    - intros r bs stop e HD HF.
      assert (EW : with_chain b (bt_body b) r = let '(x, c) := bt_body b (mkChain [b] false r) in (x, c_second c)) by reflexivity.
      rewrite EW; clear EW. rewrite bt_body_run.
      destruct (valtype_reject (C := Pend C) (mkChain [b] false r) b (([], abs r) : Pend C) (chain_next _ _) Hs) as (e' & c1' & EV' & Ha).
      rewrite EV'.
      assert (HD' : delivers (abs c1') bs stop) by (rewrite Ha; apply delivers_pend_nil; exact HD).
      destruct (IC c1' bs stop e HD' HF) as [(r2 & ->)|Hg]; [left; eauto|right]. destruct (with_chain b bt_idx c1'); exact Hg.
  Qed.
  Lemma blames_blocktype : Blames (decode_blocktype : M R _ _) Fblocktype.
  Proof.
    rewrite blocktype_unfold. apply blames_peek. intros b.
    destruct b; byte_cmp; try apply blames_ret;
      first [apply blames_bt_low; reflexivity
            |eapply blames_ext; [apply blames_bt_high; reflexivity|]; intros bs stop e; unfold nothing; cbn].
    all: try solve [split; [intros [(e' & He) ->]; solve [contradiction|destruct He as (e2 & [] & _)]|intros []]].
    - reflexivity.
    - reflexivity.
  Qed.
End Block.

Section Immediates.
  Context {env : Env} {R C : Type} `{HL : Lawful R C}.

  Lemma blames_field_idx {E E' B} (h : _ -> E) (g : E' -> E) (f : DecodeU32Error -> E') (q : N -> M R E B) K :
    (forall e, h e = g (f e)) -> (forall a, Blames (q a) (K a)) ->
    Blames (bind (map_err g (map_err f decode_u32)) q) (field h Fu32 Bu32 K).
  Proof.
    intros Hh Hq. eapply blames_ext.
    { eapply blames_bind; [apply parses_map_err, parses_map_err, parses_u32|apply blames_map_err, blames_map_err, blames_u32|]. intros a _. apply Hq. }
    intros bs stop e. unfold field, at_. split; (intros [(e' & HF & ->)|HA]; [left|right; exact HA]).
    - destruct HF as (e0 & HF & ->). exists e0. split; [assumption|]. symmetry. apply Hh.
    - exists (f e'). split; [eauto|]. apply Hh.
  Qed.
  Lemma blames_at_idx {E E' B} (h : _ -> E) (g : E' -> E) (f : DecodeU32Error -> E') (q : N -> M R E B) :
    (forall e, h e = g (f e)) -> (forall a r e r', q a r <> (Err e, r')) ->
    Blames (bind (map_err g (map_err f decode_u32)) q) (at_ h Fu32).
  Proof.
    intros Hh Hq. apply blames_pure; [|exact Hq]. eapply blames_ext; [apply blames_idx|].
    intros bs stop e. unfold at_. split; intros (e' & HF & ->); exists e'; (split; [assumption|]); [symmetry|]; apply Hh.
  Qed.
  Lemma blames_at {E E' A B} (h f : E -> E') (p : M R E A) (q : A -> M R E' B) F :
    (forall e, h e = f e) -> Blames p F -> (forall a r e r', q a r <> (Err e, r')) -> Blames (bind (map_err f p) q) (at_ h F).
  Proof.
    intros Hh Hp Hq. apply blames_pure; [|exact Hq]. eapply blames_ext; [apply blames_map_err; exact Hp|].
    intros bs stop e. unfold at_. split; intros (e' & HF & ->); exists e'; (split; [assumption|]); [symmetry|]; apply Hh.
  Qed.
  Lemma blames_fld {E E' A B} (h f : E -> E') (p : M R E A) (q : A -> M R E' B) F G K :
    (forall e, h e = f e) -> Parses p G -> Blames p F -> (forall a, Blames (q a) (K a)) -> Blames (bind (map_err f p) q) (field h F G K).
  Proof.
    intros Hh HP Hp Hq. eapply blames_ext; [apply blames_field; [exact HP|exact Hp|intros a _; apply Hq]|].
    intros bs stop e. unfold field, at_. split; (intros [(e' & HF & ->)|HA]; [left|right; exact HA]);
    exists e'; (split; [assumption|]); [symmetry|]; apply Hh.
  Qed.
  Lemma blames_bind_ret {E A B} (a : A) (q : A -> M R E B) F : Blames (q a) F -> Blames (bind (ret a) q) F.
  Proof. intros HB. eapply blames_eqv; [|exact HB]. reflexivity. Qed.
  Lemma blames_bind_throw {E A B} (e : E) (q : A -> M R E B) : Blames (bind (throw e) q) (wrong e).
  Proof. eapply blames_eqv; [|apply blames_throw]. reflexivity. Qed.
  Lemma blames_assoc {E A B D} (p : M R E A) (q : A -> M R E B) (k : B -> M R E D) F :
    Blames (bind p (fun a => bind (q a) k)) F -> Blames (bind (bind p q) k) F.
  Proof. intros HB. eapply blames_eqv; [|exact HB]. intros r. unfold bind. destruct (p r) as [[a|e|pn|] r1]; reflexivity. Qed.


  Lemma blames_memarg : Blames (decode_memarg : M R _ _) Fmemarg.
  Proof.
    apply blames_field; [apply parses_u32|apply blames_u32|]. intros n _.
    destruct (N.ltb_spec n (2 ^ 6)) as [Hn|Hn].
    { apply blames_bind_ret. apply blames_last, blames_u64. }
    destruct (N.ltb_spec n (2 ^ 7)).
    - apply blames_assoc. apply blames_field_idx; [reflexivity|]. intros x. apply blames_assoc.
      unfold sub_u32. destruct (N.leb_spec (2 ^ 6) n); [|exfalso; revert Hn; apply N.lt_nge; assumption].
      apply blames_bind_ret, blames_bind_ret, blames_last, blames_u64.
    - apply blames_bind_throw.
  Qed.
  Lemma blames_laneidx {E} (g : _ -> E) : Blames (map_err g decode_laneidx : M R _ _) (at_ (fun e => g (LaneIdxE e)) (Fbytes 1)).
  Proof.
    apply blames_at2, blames_map_err, blames_map_err. eapply blames_ext; [apply blames_read_byte|].
    intros bs stop e. unfold Fbytes. split; intros [Hb ->]; (split; [|reflexivity]).
    - subst. cbn. reflexivity.
    - destruct bs; [reflexivity|]. cbn [length] in Hb. lia.
  Qed.
  Lemma blames_catch : Blames (decode_catch : M R _ _) Fcatch.
  Proof.
    unfold decode_catch, Fcatch, decode_tagidx, decode_labelidx. apply blames_byte. intros b. cbv zeta.
    destruct b; known; try apply blames_throw;
      repeat first [apply blames_at_idx; [reflexivity|discriminate] | apply blames_field_idx; [reflexivity|intros ?]].
  Qed.
  Lemma blames_cast_arm {A} (k : bool -> bool -> N -> HeapType -> HeapType -> M R ParseError A) :
    (forall n1 n2 l h1 h2 r e r', k n1 n2 l h1 h2 r <> (Err e, r')) ->
    Blames ('(nullable1, nullable2) <- map_err PE_Control decode_castop ;;
            l <- ctl Ctl_LabelIdx decode_labelidx ;;
            ht1 <- ctl Ctl_HeapType decode_heaptype ;;
            ht2 <- ctl Ctl_HeapType decode_heaptype ;;
            k nullable1 nullable2 l ht1 ht2) Fbr_on_cast.
  Proof.
    intros Hk. eapply blames_eqv with (q := b <- map_err (fun e => PE_Control (Ctl_ReadCastNullabilityMarker e)) read_byte ;;
      '(nullable1, nullable2) <- switch (b2n b)
        [ (P1 0x00, ret (false, false))
        ; (P1 0x01, ret (true, false))
        ; (P1 0x02, ret (false, true))
        ; (P1 0x03, ret (true, true)) ]
        (throw (PE_Control (Ctl_InvalidCastNullabilityMarker b))) ;;
            l <- ctl Ctl_LabelIdx decode_labelidx ;;
            ht1 <- ctl Ctl_HeapType decode_heaptype ;;
            ht2 <- ctl Ctl_HeapType decode_heaptype ;;
            k nullable1 nullable2 l ht1 ht2).
    { intros r. unfold decode_castop, bind, map_err, switch, pmatch.
      destruct (read_byte r) as [[b|e|pn|] r1]; try reflexivity.
      repeat (destruct (b2n b =? _)%N; [reflexivity|]). reflexivity. }
    unfold Fbr_on_cast. apply blames_byte. intros b. unfold ctl, decode_labelidx.
    destruct b; known; try apply blames_bind_throw.
    all: apply blames_bind_ret; cbv beta iota;
      apply blames_field_idx; [reflexivity|]; intros l;
      apply blames_fld; [reflexivity|apply parses_heaptype|apply blames_heaptype|]; intros h1;
      apply blames_at; [reflexivity|apply blames_heaptype|]; intros h2; apply Hk.
  Qed.
End Immediates.

(** ** Sub-opcodes *)
Lemma assigned_none tbl n B : forallb (fun k => k <? B)%N (map fst tbl) = true -> (B <= n)%N -> assigned tbl n = false.
Proof.
  intros HF Hn. unfold assigned. destruct (existsb (N.eqb n) (map fst tbl)) eqn:E; [|reflexivity]. exfalso.
  apply existsb_exists in E as (x & Hx & Ex). apply N.eqb_eq in Ex. subst x. rewrite forallb_forall in HF. apply HF in Hx. lia.
Qed.
Lemma assocN_beyond {A} (tbl : list (N * A)) n B : forallb (fun k => k <? B)%N (map fst tbl) = true -> (B <= n)%N -> assocN n tbl = None.
Proof.
  intros HF Hn. destruct (assocN n tbl) eqn:E; [|reflexivity]. exfalso. apply assocN_In in E. apply (in_map fst) in E.
  rewrite forallb_forall in HF. apply HF in E. cbn in E. lia.
Qed.
Fixpoint below (k : nat) : list N := match k with O => [] | S k => below k ++ [N.of_nat k] end.
Lemma below_all (P : N -> Prop) k : Forall P (below k) -> forall n, (n < N.of_nat k)%N -> P n.
Proof.
  intros HF n Hn. rewrite Forall_forall in HF. apply HF. clear -Hn. induction k as [|k IH]; [lia|]. cbn. apply in_or_app.
  destruct (N.eq_dec n (N.of_nat k)) as [->|Hne]; [right; left; reflexivity|left; apply IH; lia].
Qed.
(** the faults of one arm *)
Ltac arm_ := 
  repeat first
  [ apply blames_ret | apply blames_throw
  | apply blames_at_idx; [reflexivity|discriminate]
  | apply blames_at; [reflexivity|first [apply blames_u32|apply blames_heaptype|apply blames_memarg|apply blames_i32|apply blames_i64|apply blames_read_exact]|intros; discriminate]
  | apply blames_field_idx; [reflexivity|intros ?]
  | apply blames_cast_arm; intros; discriminate ].
Section Prefixed.
  Context {env : Env} {R C : Type} `{HL : Lawful R C}.
  Ltac red_idx := unfold rf, agg, ctl, num, mem, tab, vec, decode_typeidx, decode_dataidx, decode_elemidx, decode_memidx, decode_tableidx, decode_labelidx in *.
  Lemma blames_fb : Blames (parse_fb : M R _ _) (field (fun e => PE_Reference (Ref_ReadSubOpcode e)) Fu32 Bu32 Ffb).
  Proof.
    unfold parse_fb, rf at 1. apply blames_field; [apply parses_u32|apply blames_u32|]. intros n _.
    destruct (N.lt_ge_cases n 32) as [Hn|Hn].
    - revert n Hn. apply (below_all _ 32). cbn [below app N.of_nat Pos.of_succ_nat Pos.succ].
      repeat (apply Forall_cons; [red_arms; unfold Ffb; repeat match goal with |- context [assigned ?t ?n] => const (assigned t n) end; cbv beta iota; red_idx; arm_|]); apply Forall_nil.
    - assert (HF : Ffb n = wrong (PE_InvalidMarkerByteAfterFB n)).
      { unfold Ffb. rewrite (assigned_none ops_fb n 31 eq_refl) by lia.
        destruct n as [|p]; [lia|]. do 5 (destruct p as [p|p|]; try reflexivity; try (exfalso; lia)). }
      rewrite HF. cbn [switch pmatch].
      repeat match goal with |- context [N.eqb n ?k] => destruct (N.eqb_spec n k) as [?|_]; [exfalso; lia|] end. cbn [orb andb].
      destruct (N.leb_spec n 23); [exfalso; lia|]. rewrite andb_false_r.
      rewrite (assocN_beyond plain_fb_ops n 31 eq_refl) by lia. apply blames_throw.
  Qed.
  Lemma blames_fc : Blames (parse_fc : M R _ _) (field (fun e => PE_Numeric (Num_ReadOpcode e)) Fu32 Bu32 Ffc).
  Proof.
    unfold parse_fc, num at 1. apply blames_field; [apply parses_u32|apply blames_u32|]. intros n _.
    destruct (N.lt_ge_cases n 32) as [Hn|Hn].
    - revert n Hn. apply (below_all _ 32). cbn [below app N.of_nat Pos.of_succ_nat Pos.succ].
      repeat (apply Forall_cons; [red_arms; unfold Ffc; repeat match goal with |- context [assigned ?t ?n] => const (assigned t n) end; cbv beta iota; red_idx; arm_|]); apply Forall_nil.
    - assert (HF : Ffc n = wrong (PE_InvalidMarkerByteAfterFC n)).
      { unfold Ffc. rewrite (assigned_none ops_fc n 18 eq_refl) by lia.
        destruct n as [|p]; [lia|]. do 5 (destruct p as [p|p|]; try reflexivity; try (exfalso; lia)). }
      rewrite HF. cbn [switch pmatch].
      repeat match goal with |- context [N.eqb n ?k] => destruct (N.eqb_spec n k) as [?|_]; [exfalso; lia|] end. cbn [orb andb].
      rewrite (assocN_beyond plain_fc_ops n 18 eq_refl) by lia. apply blames_throw.
  Qed.
  Definition fd_plain (n : N) : bool :=
    (((n <=? 11) || (n =? 92) || (n =? 93)) || ((84 <=? n) && (n <=? 91)) || ((n =? 12) || (n =? 13)) || ((21 <=? n) && (n <=? 34)))%N.
  Lemma fd_assigned n : fd_plain n = false -> assigned ops_fd n = match assocN n plain_fd_ops with Some _ => true | None => false end.
  Proof.
    destruct (N.lt_ge_cases n 276) as [Hn|Hn].
    - assert (HB : (fd_plain n || Bool.eqb (assigned ops_fd n) (match assocN n plain_fd_ops with Some _ => true | None => false end))%bool = true).
      { revert n Hn. apply (below_all _ 276). apply Forall_forall. apply forallb_forall. vm_compute. reflexivity. }
      intros Hp. rewrite Hp in HB. apply Bool.eqb_prop in HB. exact HB.
    - intros _. rewrite (assigned_none ops_fd n 276), (assocN_beyond plain_fd_ops n 276); auto.
  Qed.
  Lemma blames_fd : Blames (parse_fd : M R _ _) (field (fun e => PE_Vector (Vec_ReadOpcode e)) Fu32 Bu32 Ffd).
  Proof.
    unfold parse_fd, vec at 1. apply blames_field; [apply parses_u32|apply blames_u32|]. intros n _. unfold Ffd. cbn [switch pmatch].
    assert (Hinner : forall {E A B} (tbl : list (N * A)) (k : A -> B) r (e : E) r', (f <- inner n tbl ;; ret (k f) : M R E B) r <> (Err e, r')).
    { intros E A B tbl k r e r'. unfold inner, bind. destruct (assocN n tbl); discriminate. }
    replace ((0 <=? n) && (n <=? 11))%N with (n <=? 11)%N by (destruct n; reflexivity). rewrite orb_assoc.
    destruct ((n <=? 11) || (n =? 92) || (n =? 93))%N eqn:E1.
    { apply blames_at; [reflexivity|apply blames_memarg|]. intros m. apply (Hinner _ _ _ _ (fun f => f m)). }
    destruct ((84 <=? n) && (n <=? 91))%N eqn:E2.
    { apply blames_fld; [reflexivity|apply parses_memarg|apply blames_memarg|]. intros m.
      apply blames_pure; [apply blames_laneidx|]. intros l. apply (Hinner _ _ _ _ (fun f => f m l)). }
    destruct (N.eqb_spec n 12) as [E3|E3].
    { apply blames_last, blames_read_exact. }
    destruct (N.eqb_spec n 13) as [E4|E4]; cbn [orb].
    { apply blames_last, blames_read_exact. }
    destruct ((21 <=? n) && (n <=? 34))%N eqn:E5.
    { apply blames_pure; [apply blames_laneidx|]. intros l. apply (Hinner _ _ _ _ (fun f => f l)). }
    rewrite fd_assigned.
    2:{ unfold fd_plain. rewrite E1, E2, E5. destruct (N.eqb_spec n 12); [contradiction|]. destruct (N.eqb_spec n 13); [contradiction|]. reflexivity. }
    destruct (assocN n plain_fd_ops); [apply blames_ret|apply blames_throw].
  Qed.
End Prefixed.
