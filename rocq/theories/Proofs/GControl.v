(** Grammar of instructions with nested bodies and of expressions *)
From Verif Require Import Model.Prelude Model.Io Model.Ast Model.Errors Model.Integer Model.Helpers Model.Types Model.Instr.
From Verif Require Import Proofs.Machine Proofs.Reads Proofs.Parses Proofs.Leb Proofs.GHelpers Proofs.GTypes Proofs.GInstr Proofs.GPrefix.
From Verif Require Import Spec.Lang Spec.Types Spec.Instr Spec.Module.
From Coq Require Import Lia ZifyBool ZifyNat ZifyN.
Local Open Scope N_scope.

Definition Gpr : lang ParseResult := fun pr bs =>
  match pr with PR_Instr i => Binstr i bs | PR_Else => bs = [x05] | PR_End => bs = [x0b] end.
Definition Gbody (allow_else : bool) : lang (list instr * ParseResult) := fun x bs =>
  exists bs1, Binstrs (fst x) bs1 /\
    ((snd x = PR_End /\ bs = bs1 ++ [x0b]) \/ (allow_else = true /\ snd x = PR_Else /\ bs = bs1 ++ [x05])).

Lemma Gpr_nonempty : nonempty Gpr.
Proof. intros [i| |] HB; [inversion HB|discriminate|discriminate]. Qed.

Section Body.
  Context {env : Env} {R C : Type} `{Lawful R C}.
  Variable p : M R ParseError ParseResult.
  Hypothesis Hp : Parses p Gpr.

  Lemma parses_body_loop ae n acc :
    Parses (body_loop p ae n acc) (fun x bs => exists is, fst x = rev acc ++ is /\ Gbody ae (is, snd x) bs).
  Proof.
    revert acc; induction n as [|n IH]; intros acc; cbn [body_loop].
    { apply parses_give_up. exact I. }
    eapply parses_ext.
    { eapply parses_bind with (K := fun pr => match pr with
        | PR_Instr i => fun x bs => exists is, fst x = rev (i :: acc) ++ is /\ Gbody ae (is, snd x) bs
        | PR_End => g_ret (rev acc, PR_End)
        | PR_Else => if ae then g_ret (rev acc, PR_Else) else g_fail
        end); [exact Hp|].
      intros [i| |] _; [apply parses_after_alloc, IH| |parses].
      destruct ae; parses. }
    intros [is d] bs. unfold g_bind, Gbody. cbn [fst snd]. split.
    - intros ([i| |] & bs1 & bs2 & -> & Hpr & Hk).
      + destruct Hk as (js & Ej & bs3 & Hj & Hd). cbn [fst snd] in *. subst is. exists (i :: js). split; [cbn; rewrite <- app_assoc; reflexivity|].
        exists (bs1 ++ bs3). split; [constructor; assumption|].
        destruct Hd as [[-> ->]|(-> & -> & ->)]; [left|right]; rewrite app_assoc; auto.
      + destruct ae; [|destruct Hk]. destruct Hk as [[= -> ->] ->]. red in Hpr. subst.
        exists []. rewrite app_nil_r. split; [reflexivity|]. exists []. split; [constructor|]. right. auto.
      + destruct Hk as [[= -> ->] ->]. red in Hpr. subst.
        exists []. rewrite app_nil_r. split; [reflexivity|]. exists []. split; [constructor|]. left. auto.
    - intros (js & -> & bs1 & Hj & Hd). inversion Hj as [|i js' b1 b2 Hi Hjs]; subst.
      + rewrite app_nil_r. destruct Hd as [[-> ->]|(-> & -> & ->)].
        * exists PR_End, [x0b], []. split; [reflexivity|]. split; [reflexivity|]. split; reflexivity.
        * exists PR_Else, [x05], []. split; [reflexivity|]. split; [reflexivity|]. split; reflexivity.
      + exists (PR_Instr i), b1, (b2 ++ (if match d with PR_Else => true | _ => false end then [x05] else [x0b])).
        destruct Hd as [[-> ->]|(-> & -> & ->)]; (split; [rewrite <- app_assoc; reflexivity|]); (split; [exact Hi|]);
        exists js'; (split; [cbn; rewrite <- app_assoc; reflexivity|]); exists b2; auto.
  Qed.
  Lemma parses_body ae : Parses (parse_body p ae) (Gbody ae).
  Proof.
    unfold parse_body. apply (parses_fuel (fun n => body_loop p ae n []) (fun r => S (budget r))).
    intros n. eapply parses_ext; [apply parses_body_loop|]. intros [is d] bs. cbn [fst snd rev app]. split.
    - intros (js & -> & HG). exact HG.
    - intros HG. eauto.
  Qed.

  Lemma parses_try_table : Parses (parse_try_table p) (fun i bs => exists bt cs is b1 b2 b3,
    i = I_TryTable bt cs is /\ bs = b1 ++ b2 ++ b3 ++ [x0b] /\ Bblocktype bt b1 /\ Blist Bcatch cs b2 /\ Binstrs is b3).
  Proof.
    unfold parse_try_table, ctl. eapply parses_ext.
    { parses_step; [parses|]. parses_step; [parses|]. eapply parses_bind_pair; [apply parses_body|]. parses. intros. apply parses_ret. }
    intros i bs. unfold g_bind, g_ret, Gbody. split.
    - intros (bt & b1 & ? & -> & Hbt & cs & b2 & ? & -> & Hcs & [is d] & ? & ? & -> & (b3 & Hi & Hd) & -> & ->). cbn [fst snd] in *.
      destruct Hd as [[-> ->]|([=] & _)]. eexists _, _, _, b1, b2, b3. rewrite app_nil_r. auto.
    - intros (bt & cs & is & b1 & b2 & b3 & -> & -> & Hbt & Hcs & Hi).
      eexists bt, b1, _. split; [reflexivity|]. split; [assumption|].
      eexists cs, b2, _. split; [reflexivity|]. split; [assumption|].
      exists (is, PR_End), (b3 ++ [x0b]), []. rewrite app_nil_r. split; [reflexivity|]. cbn.
      split; [|auto]. exists b3. auto.
  Qed.

  Lemma parses_block op : Parses (parse_block p op) (fun i bs => exists bt is b1 b2, 
    Bblocktype bt b1 /\ Binstrs is b2 /\
    (op = 2 /\ i = I_Block bt is /\ bs = b1 ++ b2 ++ [x0b] \/
     op = 3 /\ i = I_Loop bt is /\ bs = b1 ++ b2 ++ [x0b] \/
     op = 4 /\ i = I_If bt is None /\ bs = b1 ++ b2 ++ [x0b] \/
     op = 4 /\ exists is2 b3, i = I_If bt is (Some is2) /\ bs = b1 ++ b2 ++ [x05] ++ b3 ++ [x0b] /\ Binstrs is2 b3)).
  Proof.
    unfold parse_block, ctl. eapply parses_ext.
    { parses_step; [parses|].
      eapply parses_bind_pair; [apply parses_body|]. intros in1 parsed _.
      apply parses_switch; [|parses]. repeat (apply ap_cons; [parses|]); [|apply ap_nil].
      eapply (parses_ext _ (match parsed with
         | PR_End => g_ret (I_If a in1 None)
         | PR_Else => g_bind (Gbody false) (fun x => g_ret (I_If a in1 (Some (fst x))))
         | PR_Instr _ => g_fail end)); [|reflexivity].
      destruct parsed; [parses| |parses].
      apply parses_bind; [apply parses_body|]. intros [in2 d2] _. apply parses_ret. }
    intros i bs. unfold g_bind at 1 2. cbn [switch pmatch]. split.
    - intros (bt & b1 & ? & -> & Hbt & [is d] & ? & bs2 & -> & (b2 & Hi & Hd) & Hk). cbn [fst snd] in *.
      exists bt, is, b1, b2. split; [assumption|]. split; [assumption|].
      destruct (N.eqb_spec op 2) as [->|E2]; [|destruct (N.eqb_spec op 3) as [->|E3]; [|destruct (N.eqb_spec op 4) as [->|E4]; [|destruct Hk]]].
      + destruct Hd as [[-> ->]|([=] & _)]. destruct Hk as [-> ->]. rewrite app_nil_r. left. auto.
      + destruct Hd as [[-> ->]|([=] & _)]. destruct Hk as [-> ->]. rewrite app_nil_r. right; left. auto.
      + destruct Hd as [[-> ->]|(_ & -> & ->)].
        * destruct Hk as [-> ->]. rewrite app_nil_r. right; right; left. auto.
        * right; right; right. split; [reflexivity|]. apply g_bind_ret in Hk as ([is2 d] & -> & b3 & Hi2 & Hd). cbn [fst snd] in *.
          destruct Hd as [[-> ->]|([=] & _)]. exists is2, b3. rewrite <- !app_assoc. auto.
    - intros (bt & is & b1 & b2 & Hbt & Hi & Hc). exists bt, b1.
      destruct Hc as [(-> & -> & ->)|[(-> & -> & ->)|[(-> & -> & ->)|(-> & is2 & b3 & -> & -> & Hi2)]]];
      eexists; (split; [reflexivity|]); (split; [assumption|]).
      + exists (is, PR_End), (b2 ++ [x0b]), []. rewrite app_nil_r. split; [reflexivity|]. split; [exists b2; auto|]. split; reflexivity.
      + exists (is, PR_End), (b2 ++ [x0b]), []. rewrite app_nil_r. split; [reflexivity|]. split; [exists b2; auto|]. split; reflexivity.
      + exists (is, PR_End), (b2 ++ [x0b]), []. rewrite app_nil_r. split; [reflexivity|]. split; [exists b2; auto|]. split; reflexivity.
      + exists (is, PR_Else), (b2 ++ [x05]), (b3 ++ [x0b]). rewrite <- app_assoc. split; [reflexivity|]. split; [exists b2; auto|].
        cbn. apply g_bind_ret. exists (is2, PR_End). split; [reflexivity|]. exists b3. auto.
  Qed.
End Body.

Lemma cons_inj_eq {A} (x y : A) l m : x :: l = y :: m -> x = y /\ l = m.
Proof. intros [= -> ->]. auto. Qed.

Section Op.
  Context {env : Env} {R C : Type} `{Lawful R C}.
  Variable p : M R ParseError ParseResult.
  Hypothesis Hp : Parses p Gpr.
  Hint Resolve parses_fb parses_fc parses_fd parses_inner : parses.

  Lemma parse_op_lang opcode : Parses (parse_op p opcode) (fun pr bs => Gpr pr (opcode :: bs)).
  Proof.
    unfold parse_op. eapply parses_ext.
    { parses_step; [parses|]. parses_step; [|parses]. 
      unfold ctl, rf, var, tab, mem, num, vec.
      parses_step; [|parses].
      repeat (apply ap_cons; [first [apply parses_block; exact Hp|apply parses_try_table; exact Hp|solve [parses]]|]). apply ap_nil. }
    intros pr bs. split.
    - intros HK. cbn [switch pmatch] in HK. remember (b2n opcode) as op eqn:Hop.
      destruct (N.eqb_spec op 0x0B) as [->|E0].
      { symmetry in Hop. byte_known Hop. destruct HK as [-> ->]. reflexivity. }
      destruct (N.eqb_spec op 0x05) as [->|E1].
      { symmetry in Hop. byte_known Hop. destruct HK as [-> ->]. reflexivity. }
      apply g_bind_ret in HK as (i & -> & HK). cbn [Gpr].
      assert (Hops : sub_lang ops op i bs -> Binstr i (opcode :: bs)).
      { intros (X & HI & HX). econstructor; [|exact HX]. unfold val. fold (b2n opcode). rewrite <- Hop. exact HI. }
      assert (Hlit : forall k b, op = k -> Byte.of_N k = Some b -> opcode = b).
      { intros k b -> Hb. apply b2n_of_N in Hop || (symmetry in Hop; apply b2n_of_N in Hop). congruence. }
      clear Hop.
      destruct (N.eqb_spec op 27) as [->|E2]; [apply Hops; in_tbl; exact HK|].
      destruct (N.eqb_spec op 28) as [->|E3]; [apply Hops; in_tbl; apply g_imm1 in HK; exact HK|].
      destruct ((2 <=? op) && (op <=? 4))%bool eqn:ER.
      { destruct HK as (bt & is & b1 & b2 & Hbt & Hi & [(-> & -> & ->)|[(-> & -> & ->)|[(-> & -> & ->)|(-> & is2 & b3 & -> & -> & Hi2)]]]);
        (rewrite (Hlit _ _ eq_refl eq_refl)); constructor; assumption. }
      num_cases HK op.
      all: try (apply Hops; in_tbl; first [apply g_imm1 in HK|apply g_imm2 in HK]; exact HK).
      all: try (cbv [N.leb N.compare Pos.compare Pos.compare_cont andb] in HK; apply Hops; in_tbl; first [apply g_imm1 in HK|apply g_imm2 in HK]; exact HK).
      + destruct HK as (bt & cs & is & b1 & b2 & b3 & -> & -> & Hbt & Hc & Hi).
        rewrite (Hlit _ _ eq_refl eq_refl). constructor; assumption.
      + destruct HK as (n & b1 & b2 & -> & Hn & X & HI & HX). rewrite (Hlit _ _ eq_refl eq_refl). econstructor; eassumption.
      + cbv [N.leb N.compare Pos.compare Pos.compare_cont andb] in HK.
        destruct HK as (n & b1 & b2 & -> & Hn & X & HI & HX). rewrite (Hlit _ _ eq_refl eq_refl). econstructor; eassumption.
      + cbv [N.leb N.compare Pos.compare Pos.compare_cont andb] in HK.
        destruct HK as (n & b1 & b2 & -> & Hn & X & HI & HX). rewrite (Hlit _ _ eq_refl eq_refl). econstructor; eassumption.
      + destruct ((40 <=? op) && (op <=? 62))%bool.
        * apply g_inner in HK as (f & Hf & HK). apply Hops. eapply sub_lang_in; [apply mem_in; exact Hf|exact HK].
        * destruct (assocN op plain_ops) as [j|] eqn:EA; [|destruct HK].
          apply Hops. eapply sub_lang_in; [apply plain_in; exact EA|exact HK].
    - intros HG. destruct pr as [i| |]; cbn [Gpr] in HG.
      + inversion HG; subst; cbn [switch pmatch].
        1: { match goal with HI : In (val opcode, ?X) ops, HX : ?X i bs |- _ => 
               pose proof (sub_lang_in _ _ _ _ _ HI HX) as HS; clear HI HX end.
             clear HG. revert HS. change (val opcode) with (b2n opcode). generalize (b2n opcode) as n. intros n. revert n i bs.
             refine (sub_lang_back ops (fun n i bs => _ (PR_Instr i) bs) _).
             unfold ops. cbn [run map app N.succ Pos.succ].
             repeat (apply Forall_cons;
               [intros i bs HX; cbn [snd] in HX; red_arms; cbn [fst]; apply g_bind_ret; exists i; split; [reflexivity|];
                lazymatch type of HX with
                | imm0 _ _ _ => exact HX
                | imm2 _ _ _ _ _ => apply g_imm2; exact HX
                | imm1 _ Bmemarg _ _ => apply g_inner; eexists; split; [reflexivity|exact HX]
                | imm1 _ _ _ _ => apply g_imm1; exact HX
                end|]); apply Forall_nil. }
        all: cbv [b2n Byte.to_N]; red_arms.
        all: apply g_bind_ret; eexists; (split; [reflexivity|]).
        1-3: eexists _, _, _; (split; [reflexivity|]); (split; [eassumption|]); eexists; (split; eassumption).
        1: exists bt, is, bs1, bs2; split; [assumption|]; split; [assumption|]; left; repeat split.
        1: exists bt, is, bs1, bs2; split; [assumption|]; split; [assumption|]; right; left; repeat split.
        1: exists bt, is, bs1, bs2; split; [assumption|]; split; [assumption|]; right; right; left; repeat split.
        1: exists bt, is1, bs1, bs2; split; [assumption|]; split; [assumption|]; right; right; right; split; [reflexivity|];
           exists is2, bs3; repeat split; assumption.
        exists bt, cs, is, bs1, bs2, bs3. repeat split; assumption.
      + injection HG as -> ->. arms. split; reflexivity.
      + injection HG as -> ->. arms. split; reflexivity.
  Qed.
End Op.

(** the predicate of src/decode/helpers.rs:47-66 computes [mentions_data] *)
Lemma existsb_iff {A} (f : A -> bool) (P : A -> Prop) l : Forall (fun x => f x = true <-> P x) l ->
  (existsb f l = true <-> exists x, In x l /\ P x).
Proof.
  intros HF. rewrite existsb_exists. rewrite Forall_forall in HF. split; intros (x & Hx & Hf); exists x; (split; [assumption|]); apply (HF x Hx); assumption.
Qed.
Ltac body_iff rec l := apply existsb_iff; induction l; constructor; [apply rec|assumption].
Fixpoint contains_data_iff (i : instr) : instruction_contains_data_index i = true <-> mentions_data i.
Proof.
  destruct i; try (split; [discriminate|intros Hm; inversion Hm]);
  try (split; [intros _; constructor|intros _; reflexivity]);
  cbn [instruction_contains_data_index].
  - assert (HL : existsb instruction_contains_data_index l = true <-> exists x, In x l /\ mentions_data x) by (body_iff contains_data_iff l).
    rewrite HL. split; [intros (x & Hi & Hx); econstructor; eassumption|]. intros Hm; inversion Hm; subst; eauto.
  - assert (HL : existsb instruction_contains_data_index l = true <-> exists x, In x l /\ mentions_data x) by (body_iff contains_data_iff l).
    rewrite HL. split; [intros (x & Hi & Hx); econstructor; eassumption|]. intros Hm; inversion Hm; subst; eauto.
  - assert (HL : existsb instruction_contains_data_index l = true <-> exists x, In x l /\ mentions_data x) by (body_iff contains_data_iff l).
    destruct o as [l0|].
    + assert (HL0 : existsb instruction_contains_data_index l0 = true <-> exists x, In x l0 /\ mentions_data x) by (body_iff contains_data_iff l0).
      rewrite Bool.orb_true_iff, HL, HL0. split.
      * intros [(x & Hi & Hx)|(x & Hi & Hx)]; [eapply md_then|eapply md_else]; eassumption.
      * intros Hm; inversion Hm; subst; eauto.
    + rewrite Bool.orb_false_r, HL. split; [intros (x & Hi & Hx); econstructor; eassumption|]. intros Hm; inversion Hm; subst; eauto.
  - assert (HL : existsb instruction_contains_data_index l0 = true <-> exists x, In x l0 /\ mentions_data x) by (body_iff contains_data_iff l0).
    rewrite HL. split; [intros (x & Hi & Hx); econstructor; eassumption|]. intros Hm; inversion Hm; subst; eauto.
Qed.

Section Parse.
  Context {env : Env} {R C : Type} `{Lawful R C}.
  Lemma parses_parse d : Parses (parse d : M R _ _) Gpr.
  Proof.
    induction d as [|d IH]; cbn [parse]; [apply (parses_give_up (Panic StackOverflow)); exact I|].
    eapply parses_ext.
    { parses_step; [parses|]. apply parse_op_lang. exact IH. }
    intros pr bs. split.
    - intros (b & bs1 & bs2 & -> & Hb & HG). red in Hb. subst bs1. exact HG.
    - destruct bs as [|b bs]; [intros HG; destruct (Gpr_nonempty pr HG)|].
      intros HG. exists b, [b], bs. split; [reflexivity|]. split; [reflexivity|exact HG].
  Qed.
  
  Definition Gexpr : lang (Expr * bool) := fun x bs =>
    Bexpr (fst x) bs /\ snd x = existsb instruction_contains_data_index (fst x).
  Lemma parses_expr_loop n acc e :
    Parses (expr_loop n acc e : M R _ _) (fun x bs => exists is, fst x = rev acc ++ is /\ Bexpr is bs /\
      snd x = orb e (existsb instruction_contains_data_index is)).
  Proof.
    revert acc e; induction n as [|n IH]; intros acc e; cbn [expr_loop].
    { apply parses_give_up. exact I. }
    eapply parses_ext.
    { eapply parses_bind with (K := fun pr => match pr with
        | PR_Instr i => fun x bs => exists is, fst x = rev (i :: acc) ++ is /\ Bexpr is bs /\
             snd x = orb (if instruction_contains_data_index i then true else e) (existsb instruction_contains_data_index is)
        | PR_End => g_ret (rev acc, e)
        | PR_Else => g_fail
        end); [apply parses_map_err, parses_parse|].
      intros [i| |] _; [apply parses_after_alloc, IH|parses|parses]. }
    intros [is d] bs. unfold g_bind. cbn [fst snd]. split.
    - intros ([i| |] & bs1 & bs2 & -> & Hpr & Hk).
      + destruct Hk as (js & Ej & Hj & Hd). cbn [fst snd] in *. subst is d. exists (i :: js). split; [cbn; rewrite <- app_assoc; reflexivity|].
        split.
        * inversion Hj; subst. rewrite app_assoc. constructor. constructor; assumption.
        * cbn [existsb]. destruct (instruction_contains_data_index i), e; reflexivity.
      + destruct Hk.
      + destruct Hk as [[= -> ->] ->]. red in Hpr. subst.
        exists []. rewrite app_nil_r. split; [reflexivity|]. split; [apply (Bexpr_intro [] []); constructor|]. destruct e; reflexivity.
    - intros (js & -> & Hj & ->). inversion Hj as [js' b1 Hi]; subst. inversion Hi as [|i js' b2 b3 Hi1 Hjs]; subst.
      + exists PR_End, [x0b], []. split; [reflexivity|]. split; [reflexivity|]. rewrite app_nil_r, Bool.orb_false_r. split; reflexivity.
      + exists (PR_Instr i), b2, (b3 ++ [x0b]). split; [rewrite app_assoc; reflexivity|]. split; [exact Hi1|].
        exists js'. split; [cbn; rewrite <- app_assoc; reflexivity|]. split; [constructor; assumption|].
        cbn [existsb]. destruct (instruction_contains_data_index i), e; reflexivity.
  Qed.
  Lemma parses_decode_expr : Parses (decode_expr : M R _ _) Gexpr.
  Proof.
    unfold decode_expr. apply (parses_fuel (fun n => expr_loop n [] false) (fun r => S (budget r))).
    intros n. eapply parses_ext; [apply parses_expr_loop|]. intros [is d] bs. unfold Gexpr. cbn [fst snd rev app orb]. split.
    - intros (js & -> & HG). exact HG.
    - intros HG. eauto.
  Qed.
End Parse.
