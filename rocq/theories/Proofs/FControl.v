(** The errors of instructions with a body and of expressions are their faults. *)
From Verif Require Import Model.Prelude Model.Io Model.Ast Model.Errors Model.Integer Model.Helpers Model.Types Model.Instr.
From Verif Require Import Proofs.Machine Proofs.Reads Proofs.Parses Proofs.Leb Proofs.Loop Proofs.GHelpers Proofs.GTypes Proofs.GInstr Proofs.GPrefix Proofs.GControl Proofs.Utf8 Proofs.FinalInt Proofs.Blames Proofs.FTypes Proofs.FInstr.
From Verif Require Import Spec.Lang Spec.Types Spec.Instr Spec.Module Spec.Streams Spec.Leb Spec.Faults.
From Coq Require Import Lia ZifyBool ZifyNat ZifyN.

Definition Fbody (ae : bool) : faulty ParseError := fun bs stop e =>
  (exists is w rest, bs = w ++ rest /\ Binstrs is w /\ Finstr rest stop e) \/
  (ae = false /\ exists is w rest, bs = w ++ x05 :: rest /\ Binstrs is w /\ e = PE_Control Ctl_UnexpectedElse).

Lemma head_case (b c : byte) (bs cs : list byte) : b :: bs = c :: cs -> b = c /\ bs = cs.
Proof. intros [= -> ->]. auto. Qed.
Lemma opening_first o h b bs rest : opening o h -> b :: bs = h ++ rest -> In b [x02; x03; x04; x1f].
Proof. intros Ho. destruct Ho; cbn; intros [= -> _]; tauto. Qed.

Section Body.
  Context {env : Env} {R C : Type} `{HL : Lawful R C}.
  Variable p : M R ParseError ParseResult.
  Hypothesis Hp : Parses p Gpr.
  Hypothesis HB : Blames p Finstr.

  Lemma blames_body_loop ae n acc : Blames (body_loop p ae n acc) (Fbody ae).
  Proof.
    revert acc; induction n as [|n IH]; intros acc; cbn [body_loop].
    { apply (blames_give_up Stuck). exact I. }
    eapply blames_ext.
    { eapply blames_bind with (K := fun pr => match pr with
        | PR_Instr i => Fbody ae
        | PR_End => nothing
        | PR_Else => if ae then nothing else wrong (PE_Control Ctl_UnexpectedElse)
        end); [exact Hp|exact HB|].
      intros [i| |] _; [apply blames_after_alloc, IH| |apply blames_ret]. destruct ae; [apply blames_ret|apply blames_throw]. }
    intros bs stop e. unfold after_, Fbody, nothing, wrong. split.
    - intros [He|([i| |] & pre & rest & -> & HG & HK)].
      + left. exists [], [], bs. repeat split; [constructor|assumption].
      + cbn in HG. destruct HK as [(is & w & rest' & -> & Hi & He)|(Hae & is & w & rest' & -> & Hi & He)].
        * left. exists (i :: is), (pre ++ w), rest'. rewrite <- app_assoc. repeat split; [constructor; assumption|assumption].
        * right. split; [assumption|]. exists (i :: is), (pre ++ w), rest'. rewrite <- app_assoc. repeat split; [constructor; assumption|assumption].
      + destruct ae; [destruct HK|]. cbn in HG. subst pre. right. split; [reflexivity|]. exists [], [], rest. repeat split; [constructor|assumption].
      + destruct HK.
    - intros [(is & w & rest & -> & Hi & He)|(Hae & is & w & rest & -> & Hi & He)].
      + destruct Hi as [|i is w1 w2 Hi His]; [left; exact He|]. right. exists (PR_Instr i), w1, (w2 ++ rest). rewrite <- app_assoc.
        split; [reflexivity|]. split; [exact Hi|]. left. eauto 6.
      + right. destruct Hi as [|i is w1 w2 Hi His].
        * exists PR_Else, [x05], rest. split; [reflexivity|]. split; [reflexivity|]. rewrite Hae. exact He.
        * exists (PR_Instr i), w1, (w2 ++ x05 :: rest). rewrite <- app_assoc.
          split; [reflexivity|]. split; [exact Hi|]. right. split; [assumption|]. eauto 6.
  Qed.
  Lemma blames_body ae : Blames (parse_body p ae) (Fbody ae).
  Proof. unfold parse_body. apply (blames_fuel (fun n => body_loop p ae n []) (fun r => S (budget r))). intros n. apply blames_body_loop. Qed.

  Lemma blames_try_table : Blames (parse_try_table p) (fun bs stop e => Finstr (x1f :: bs) stop e).
  Proof.
    unfold parse_try_table, ctl. eapply blames_ext.
    { apply blames_field; [apply parses_blocktype|apply blames_blocktype|]. intros bt _.
      apply blames_field; [apply parses_list, parses_catch|apply blames_list; [apply parses_catch|apply blames_catch]|]. intros cs _.
      apply blames_pure; [apply blames_body|]. intros [is pr]. discriminate. }
    intros bs stop e. unfold field, at_, after_, Fbody. split.
    - intros [(e' & He & ->)|(bt & w & rest & -> & Hbt & [(e' & He & ->)|(cs & w2 & rest2 & -> & Hcs & HF)])].
      + apply Fi_blocktype; [cbn; tauto|assumption].
      + eapply Fi_catches; eassumption.
      + destruct HF as [(is & w3 & rest3 & -> & Hi & He)|(_ & is & w3 & rest3 & -> & Hi & ->)].
        * pose proof (Fi_body _ _ _ _ _ stop e (op_try _ _ _ _ Hbt Hcs) Hi He) as HF. cbn in HF. rewrite <- app_assoc in HF. exact HF.
        * pose proof (Fi_else _ _ _ rest3 stop (op_try _ _ _ _ Hbt Hcs) Hi) as HF. cbn in HF. rewrite <- app_assoc in HF. exact HF.
    - intros HF. remember (x1f :: bs) as v eqn:Ev. destruct HF as [stop|b rest stop e Hb He|b rest stop e Hb He|bt w rest stop e Hbt He|o h is w rest stop e Ho Hi He|h is w rest stop Ho Hi].
      + discriminate.
      + injection Ev as -> _. exfalso. apply Hb. cbn. tauto.
      + injection Ev as -> ->. left. eauto.
      + injection Ev as <-. right. exists bt, w, rest. split; [reflexivity|]. split; [assumption|]. left. eauto.
      + right. destruct Ho as [| | | |bt cs w1 w2 Hbt Hcs]; try (injection Ev; discriminate).
        cbn in Ev. injection Ev as <-. exists bt, w1, (w2 ++ w ++ rest). rewrite <- app_assoc. split; [reflexivity|]. split; [assumption|]. right.
        exists cs, w2, (w ++ rest). split; [reflexivity|]. split; [assumption|]. left. eauto 6.
      + right. remember false as f eqn:Ef. destruct Ho as [| | | |bt cs w1 w2 Hbt Hcs]; try discriminate.
        cbn in Ev. injection Ev as <-. exists bt, w1, (w2 ++ w ++ x05 :: rest). rewrite <- app_assoc. split; [reflexivity|]. split; [assumption|]. right.
        exists cs, w2, (w ++ x05 :: rest). split; [reflexivity|]. split; [assumption|]. right. eauto 8.
  Qed.

  Lemma blames_block b : In b [x02; x03; x04] -> Blames (parse_block p (b2n b)) (fun bs stop e => Finstr (b :: bs) stop e).
  Proof.
    intros Hb. unfold parse_block, ctl. eapply blames_ext.
    { apply blames_field with (K := fun _ bs stop e => Fbody (b2n b =? 4)%N bs stop e \/
          after_ (Gbody (b2n b =? 4)%N) (fun x => match snd x with PR_Else => Fbody false | _ => nothing end) bs stop e); [apply parses_blocktype|apply blames_blocktype|]. intros bt _.
      eapply blames_bind; [apply parses_body; exact Hp|apply blames_body|]. intros [in1 parsed] (w & w' & _ & Hd). cbn [snd] in *.
      destruct Hb as [<-|[<-|[<-|[]]]]; cbn [switch pmatch]; byte_cmp.
      - destruct Hd as [[-> _]|([=] & _)]. apply blames_ret.
      - destruct Hd as [[-> _]|([=] & _)]. apply blames_ret.
      - destruct parsed.
        + apply blames_panic.
        + apply blames_pure; [apply blames_body|]. intros [? ?]. discriminate.
        + apply blames_ret. }
    intros bs stop e. unfold field, at_, after_, Fbody. split.
    - intros [(e' & He & ->)|(bt & w & rest & -> & Hbt & [HF|([is1 pr] & w1 & rest1 & -> & (w2 & Hi1 & Hd) & HF)])].
      + apply Fi_blocktype; [cbn in *; tauto|assumption].
      + assert (Ho : opening (b2n b =? 4)%N (b :: w)).
        { destruct Hb as [<-|[<-|[<-|[]]]]; econstructor; eassumption. }
        destruct HF as [(is & w3 & rest3 & -> & Hi & He)|(Hae & is & w3 & rest3 & -> & Hi & ->)].
        * exact (Fi_body _ _ _ _ _ stop e Ho Hi He).
        * rewrite Hae in Ho. exact (Fi_else _ _ _ rest3 stop Ho Hi).
      + cbn [fst snd] in *. destruct Hd as [[-> ->]|(Hae & -> & ->)]; [destruct HF|].
        assert (b = x04) as -> by (destruct Hb as [<-|[<-|[<-|[]]]]; auto; discriminate).
        pose proof (op_else _ _ _ _ Hbt Hi1) as Ho.
        destruct HF as [(is & w3 & rest3 & -> & Hi & He)|(_ & is & w3 & rest3 & -> & Hi & ->)].
        * pose proof (Fi_body _ _ _ _ _ stop e Ho Hi He) as HF. cbn in HF. rewrite <- !app_assoc in HF. rewrite <- !app_assoc. exact HF.
        * pose proof (Fi_else _ _ _ rest3 stop Ho Hi) as HF. cbn in HF. rewrite <- !app_assoc in HF. rewrite <- !app_assoc. exact HF.
    - intros HF. remember (b :: bs) as v eqn:Ev. destruct HF as [stop|b' rest stop e Hb' He|b' rest stop e Hb' He|bt w rest stop e Hbt He|o h is w rest stop e Ho Hi He|h is w rest stop Ho Hi].
      + discriminate.
      + injection Ev as -> _. exfalso. apply Hb'. cbn in *. tauto.
      + injection Ev as -> ->. left. eauto.
      + injection Ev as <- _. exfalso. cbn in Hb. intuition discriminate.
      + right. destruct Ho as [bt v Hbt|bt v Hbt|bt v Hbt|bt is1 v1 v2 Hbt Hi1|]; cbn in Ev.
        * injection Ev as <- <-. exists bt, v, (w ++ rest). split; [reflexivity|]. split; [assumption|]. left. left. eauto 6.
        * injection Ev as <- <-. exists bt, v, (w ++ rest). split; [reflexivity|]. split; [assumption|]. left. left. eauto 6.
        * injection Ev as <- <-. exists bt, v, (w ++ rest). split; [reflexivity|]. split; [assumption|]. left. left. eauto 6.
        * injection Ev as <- <-. exists bt, v1, (v2 ++ x05 :: w ++ rest). rewrite <- !app_assoc. split; [reflexivity|]. split; [assumption|]. right.
          exists (is1, PR_Else), (v2 ++ [x05]), (w ++ rest). rewrite <- !app_assoc. split; [reflexivity|]. split; [exists v2; auto|]. cbn. left. eauto 6.
        * injection Ev as <- _. exfalso. cbn in Hb. intuition discriminate.
      + right. remember false as f eqn:Ef. destruct Ho as [bt v Hbt|bt v Hbt|bt v Hbt|bt is1 v1 v2 Hbt Hi1|]; cbn in Ev.
        * injection Ev as <- <-. exists bt, v, (w ++ x05 :: rest). split; [reflexivity|]. split; [assumption|]. left. right. eauto 8.
        * injection Ev as <- <-. exists bt, v, (w ++ x05 :: rest). split; [reflexivity|]. split; [assumption|]. left. right. eauto 8.
        * discriminate.
        * injection Ev as <- <-. exists bt, v1, (v2 ++ x05 :: w ++ x05 :: rest). rewrite <- !app_assoc. split; [reflexivity|]. split; [assumption|]. right.
          exists (is1, PR_Else), (v2 ++ [x05]), (w ++ x05 :: rest). rewrite <- !app_assoc. split; [reflexivity|]. split; [exists v2; auto|]. cbn. right. eauto 8.
        * injection Ev as <- _. exfalso. cbn in Hb. intuition discriminate.
  Qed.
End Body.

Section Op.
  Context {env : Env} {R C : Type} `{HL : Lawful R C}.
  Variable p : M R ParseError ParseResult.
  Hypothesis Hp : Parses p Gpr.
  Hypothesis HB : Blames p Finstr.
  Ltac red_idx := unfold rf, agg, ctl, num, mem, tab, vec, var, decode_typeidx, decode_dataidx, decode_elemidx, decode_memidx, decode_tableidx, decode_labelidx, decode_tagidx, decode_localidx, decode_globalidx, decode_funcidx.
  Lemma blames_f32 {E} (g : _ -> E) : Blames (map_err g decode_f32 : M R _ _) (at_ (fun e => g (F32_ReadPayload e)) (Fbytes 4)).
  Proof. apply blames_at2, blames_map_err, blames_last, blames_read_exact. Qed.
  Lemma blames_f64 {E} (g : _ -> E) : Blames (map_err g decode_f64 : M R _ _) (at_ (fun e => g (F64_ReadPayload e)) (Fbytes 8)).
  Proof. apply blames_at2, blames_map_err, blames_last, blames_read_exact. Qed.
  Lemma inner_no_err {E A B} n (tbl : list (N * A)) (k : A -> B) r (e : E) r' : (f <- inner n tbl ;; ret (k f) : M R E B) r <> (Err e, r').
  Proof. unfold inner, bind. destruct (assocN n tbl); discriminate. Qed.
  Lemma Finstr_op b bs stop e : ~ In b [x02; x03; x04; x1f; x05; x0b] -> Finstr (b :: bs) stop e <-> Fop b bs stop e.
  Proof.
    intros Hb. split; [|apply Fi_op; exact Hb]. intros HF. remember (b :: bs) as v eqn:Ev.
    destruct HF as [stop|b' rest stop e Hb' He|b' rest stop e Hb' He|bt w rest stop e Hbt He|o h is w rest stop e Ho Hi He|h is w rest stop Ho Hi].
    - discriminate.
    - injection Ev as -> ->. exact He.
    - injection Ev as -> _. exfalso. apply Hb. cbn in *. tauto.
    - injection Ev as <- _. exfalso. apply Hb. cbn. tauto.
    - exfalso. apply Hb. pose proof (opening_first _ _ _ _ _ Ho (eq_sym Ev)) as HI. cbn in *. tauto.
    - exfalso. apply Hb. pose proof (opening_first _ _ _ _ _ Ho (eq_sym Ev)) as HI. cbn in *. tauto.
  Qed.
  Lemma Finstr_delim b bs stop e : In b [x05; x0b] -> Finstr (b :: bs) stop e <-> False.
  Proof.
    intros Hb. split; [|intros []]. intros HF. remember (b :: bs) as v eqn:Ev.
    destruct HF as [stop|b' rest stop e Hb' He|b' rest stop e Hb' He|bt w rest stop e Hbt He|o h is w rest stop e Ho Hi He|h is w rest stop Ho Hi].
    - discriminate.
    - injection Ev as -> ->. apply Hb'. cbn in *. tauto.
    - injection Ev as -> _. cbn in *. intuition (subst; discriminate).
    - injection Ev as <- _. cbn in *. intuition (subst; discriminate).
    - pose proof (opening_first _ _ _ _ _ Ho (eq_sym Ev)) as HI. cbn in *. intuition (subst; discriminate).
    - pose proof (opening_first _ _ _ _ _ Ho (eq_sym Ev)) as HI. cbn in *. intuition (subst; discriminate).
  Qed.
  Lemma blames_op b : ~ In b [x02; x03; x04; x1f; x05; x0b] -> Blames (parse_op p b) (Fop b).
  Proof.
    intros Hb.
    destruct b; try (exfalso; apply Hb; cbn; tauto); clear Hb; unfold parse_op; cbv zeta;
      match goal with |- context [b2n ?b] => const (b2n b) end; red_arms; apply blames_pure; try discriminate;
      unfold Fop; repeat match goal with |- context [assigned ?t ?n] => const (assigned t n) end; cbv beta iota; red_idx;
      first [ apply blames_ret | apply blames_throw
            | apply blames_at_idx; [reflexivity|discriminate]
            | apply blames_fb | apply blames_fc | apply blames_fd
            | apply blames_pure; [first [apply blames_f32|apply blames_f64]|discriminate]
            | apply blames_at; [reflexivity|apply blames_memarg|intros ?; apply inner_no_err]
            | apply blames_last, blames_heaptype
            | apply blames_last, blames_i32 | apply blames_last, blames_i64
            | apply blames_field_idx; [reflexivity|intros ?; apply blames_at_idx; [reflexivity|discriminate]]
            | idtac ].
    - apply blames_field; [apply parses_list, parses_labelidx|apply blames_list; [apply parses_labelidx|apply blames_labelidx]|]. intros ls _.
      apply blames_at_idx; [reflexivity|discriminate].
    - apply (blames_last (fun e => PE_Parametric (Par_DecodeList e))). apply blames_list; [apply parses_valtype|apply blames_valtype].
  Qed.
  Lemma blames_parse_op b : Blames (parse_op p b) (fun bs stop e => Finstr (b :: bs) stop e).
  Proof.
    destruct (in_dec Byte.byte_eq_dec b [x02; x03; x04; x1f; x05; x0b]) as [Hb|Hb].
    - destruct Hb as [<-|[<-|[<-|[<-|[<-|[<-|[]]]]]]]; unfold parse_op; cbv zeta.
      + const (b2n x02). red_arms. apply blames_pure; [|discriminate]. apply (blames_block p Hp HB x02). cbn; tauto.
      + const (b2n x03). red_arms. apply blames_pure; [|discriminate]. apply (blames_block p Hp HB x03). cbn; tauto.
      + const (b2n x04). red_arms. apply blames_pure; [|discriminate]. apply (blames_block p Hp HB x04). cbn; tauto.
      + const (b2n x1f). red_arms. apply blames_pure; [|discriminate]. apply blames_try_table; assumption.
      + const (b2n x05). red_arms. eapply blames_ext; [apply blames_ret|]. intros. rewrite Finstr_delim; [reflexivity|cbn; tauto].
      + const (b2n x0b). red_arms. eapply blames_ext; [apply blames_ret|]. intros. rewrite Finstr_delim; [reflexivity|cbn; tauto].
    - eapply blames_ext; [apply blames_op; exact Hb|]. intros bs stop e. rewrite Finstr_op by exact Hb. reflexivity.
  Qed.
End Op.

Section Parse.
  Context {env : Env} {R C : Type} `{HL : Lawful R C}.
  Lemma blames_parse d : Blames (parse d : M R _ _) Finstr.
  Proof.
    induction d as [|d IH]; cbn [parse].
    { apply (blames_give_up (Panic StackOverflow)). exact I. }
    eapply blames_ext.
    { apply blames_byte with (K := fun b bs stop e => Finstr (b :: bs) stop e). intros b. apply blames_parse_op; [apply parses_parse|exact IH]. }
    intros [|b bs] stop e; [|reflexivity]. cbn. split.
    - intros ->. constructor.
    - intros HF. remember [] as v eqn:Ev.
      destruct HF as [stop|b' rest stop e Hb' He|b' rest stop e Hb' He|bt w rest stop e Hbt He|o h is w rest stop e Ho Hi He|h is w rest stop Ho Hi]; try discriminate.
      + reflexivity.
      + destruct Ho; discriminate.
      + destruct Ho; discriminate.
  Qed.
  Lemma blames_expr_loop n acc d : Blames (expr_loop n acc d : M R _ _) Fexpr.
  Proof.
    revert acc d; induction n as [|n IH]; intros acc d; cbn [expr_loop].
    { apply (blames_give_up Stuck). exact I. }
    eapply blames_ext.
    { eapply blames_bind with (K := fun pr => match pr with
        | PR_Instr i => Fexpr | PR_End => nothing | PR_Else => wrong Expr_UnexpectedElse end);
        [apply parses_map_err, parses_parse|apply blames_map_err, blames_parse|].
      intros [i| |] _; [apply blames_after_alloc, IH|apply blames_throw|apply blames_ret]. }
    intros bs stop e. unfold after_, at_, nothing, wrong. split.
    - intros [(e' & He & ->)|([i| |] & pre & rest & -> & HG & HK)].
      + apply (Fexpr_instr [] []); [constructor|assumption].
      + cbn in HG. destruct HK as [is w rest stop e Hi He|is w rest stop Hi].
        * rewrite app_assoc. eapply Fexpr_instr; [constructor; eassumption|assumption].
        * rewrite app_assoc. eapply Fexpr_else. constructor; eassumption.
      + subst. cbn in HG. subst pre. apply (Fexpr_else [] []). constructor.
      + destruct HK.
    - intros HF. destruct HF as [is w rest stop e Hi He|is w rest stop Hi].
      + destruct Hi as [|i is w1 w2 Hi His]; [left; eauto|]. right. exists (PR_Instr i), w1, (w2 ++ rest). rewrite <- app_assoc.
        split; [reflexivity|]. split; [exact Hi|]. econstructor; eassumption.
      + right. destruct Hi as [|i is w1 w2 Hi His].
        * exists PR_Else, [x05], rest. split; [reflexivity|]. split; reflexivity.
        * exists (PR_Instr i), w1, (w2 ++ x05 :: rest). rewrite <- app_assoc.
          split; [reflexivity|]. split; [exact Hi|]. econstructor; eassumption.
  Qed.
  Lemma blames_expr : Blames (decode_expr : M R _ _) Fexpr.
  Proof. unfold decode_expr. apply (blames_fuel (fun n => expr_loop n [] false) (fun r => S (budget r))). intros n. apply blames_expr_loop. Qed.
End Parse.
