(** Grammar of the prefixed opcodes 0xFB, 0xFC, 0xFD (src/decode/instructions.rs) *)
From Verif Require Import Model.Prelude Model.Io Model.Ast Model.Errors Model.Integer Model.Helpers Model.Types Model.Instr.
From Verif Require Import Proofs.Machine Proofs.Reads Proofs.Parses Proofs.Leb Proofs.GHelpers Proofs.GTypes Proofs.GInstr.
From Verif Require Import Spec.Lang Spec.Types Spec.Instr.
From Coq Require Import Lia ZifyBool ZifyNat ZifyN.
Local Open Scope N_scope.

(** ** prefixed opcodes *)
Lemma g_imm1 {A} (f : A -> instr) (X : lang A) i bs : g_bind X (fun a => g_ret (f a)) i bs <-> imm1 f X i bs.
Proof.
  rewrite g_bind_ret. split; [intros (a & -> & Ha); constructor; assumption|].
  inversion 1; subst. eauto.
Qed.
Lemma g_imm2 {A B} (f : A -> B -> instr) (X : lang A) (Y : lang B) i bs :
  g_bind X (fun a => g_bind Y (fun b => g_ret (f a b))) i bs <-> imm2 f X Y i bs.
Proof.
  split.
  - intros (a & bs1 & bs2 & -> & Ha & Hb). apply g_bind_ret in Hb as (b & -> & Hb). constructor; assumption.
  - inversion 1; subst. eexists _, _, _. split; [reflexivity|]. split; [eassumption|]. apply g_bind_ret. eauto.
Qed.
Lemma Bbytes_16 l bs : (bs = l /\ lenN l = 16) <-> Bbytes 16 l bs.
Proof. unfold Bbytes, lenN. split; intros [? ?]; split; auto; lia. Qed.

(** the instruction named by sub-opcode [n] *)
Definition sub_lang (tbl : list (N * lang instr)) (n : N) : lang instr := fun i bs => exists X, In (n, X) tbl /\ X i bs.
Lemma sub_lang_back (tbl : list (N * lang instr)) (K : N -> lang instr) :
  Forall (fun e : N * lang instr => forall i bs, (snd e : lang instr) i bs -> K (fst e) i bs) tbl ->
  forall n i bs, sub_lang tbl n i bs -> K n i bs.
Proof. rewrite Forall_forall. intros HF n i bs (X & HI & HX). exact (HF _ HI i bs HX). Qed.

(** cases of a switch on a number in hypothesis [H] *)
Ltac num_cases H n :=
  cbn [switch pmatch] in H;
  repeat match type of H with
  | context [N.eqb n ?k] =>
      let E := fresh "E" in destruct (N.eqb_spec n k) as [E|E];
      [ subst n; cbn [orb andb negb] in H; cbv beta iota in H
      | cbn [orb andb negb] in H; cbv beta iota in H ]
  end.
Ltac in_tbl := eexists; split; [eapply assocN_In; reflexivity|].
Ltac red_arms := cbv [switch pmatch assocN N.eqb Pos.eqb N.leb N.compare Pos.compare Pos.compare_cont andb orb].

Lemma g_cast f i bs :
  g_bind Bcastop (fun z => g_bind Bidx (fun l => g_bind Bheaptype (fun h1 => g_bind Bheaptype (fun h2 =>
    g_ret (f l (mkRefType (fst z) h1) (mkRefType (snd z) h2)))))) i bs <-> Bbr_on_cast f i bs.
Proof.
  split.
  - intros ([n1 n2] & bs1 & b2 & -> & Hz & l & bs2 & b3 & -> & Hl & h1 & bs3 & b4 & -> & Hh & Hk).
    apply g_bind_ret in Hk as (h2 & -> & Hh2). constructor; assumption.
  - inversion 1; subst. eexists (_, _), _, _. split; [reflexivity|]. split; [eassumption|].
    eexists _, _, _. split; [reflexivity|]. split; [eassumption|].
    eexists _, _, _. split; [reflexivity|]. split; [eassumption|].
    apply g_bind_ret. eexists. split; [reflexivity|assumption].
Qed.
Lemma sub_lang_in (tbl : list (N * lang instr)) n (X : lang instr) i bs : In (n, X) tbl -> X i bs -> sub_lang tbl n i bs.
Proof. intros HI HX. exists X. auto. Qed.
(** a set of opcodes spanned by a range arm is covered by the table of the inner match *)
Lemma g_inner {A} (X : lang A) (tbl : list (N * (A -> instr))) op i bs :
  g_bind X (fun a => g_bind (match assocN op tbl with Some f => g_ret f | None => g_fail end) (fun f => g_ret (f a))) i bs <->
  exists f, assocN op tbl = Some f /\ imm1 f X i bs.
Proof.
  split.
  - intros (a & bs1 & bs2 & -> & Ha & Hk). apply g_bind_ret in Hk as (f & -> & Hf).
    destruct (assocN op tbl) as [f'|]; [|destruct Hf]. destruct Hf as [-> ->]. rewrite app_nil_r. exists f'. split; [reflexivity|]. constructor. assumption.
  - intros (f & -> & Hi). inversion Hi; subst. exists a, bs, []. rewrite app_nil_r. split; [reflexivity|]. split; [assumption|].
    apply g_bind_ret. exists f. repeat split.
Qed.
Lemma g_inner2 {A A'} (X : lang A) (Y : lang A') (tbl : list (N * (A -> A' -> instr))) op i bs :
  g_bind X (fun a => g_bind Y (fun b => g_bind (match assocN op tbl with Some f => g_ret f | None => g_fail end) (fun f => g_ret (f a b)))) i bs <->
  exists f, assocN op tbl = Some f /\ imm2 f X Y i bs.
Proof.
  split.
  - intros (a & bs1 & bs2 & -> & Ha & b & bs3 & bs4 & -> & Hb & Hk). apply g_bind_ret in Hk as (f & -> & Hf).
    destruct (assocN op tbl) as [f'|]; [|destruct Hf]. destruct Hf as [-> ->]. rewrite app_nil_r. exists f'. split; [reflexivity|]. constructor; assumption.
  - intros (f & -> & Hi). inversion Hi; subst. exists a, bs1, bs2. split; [reflexivity|]. split; [assumption|].
    exists b, bs2, []. rewrite app_nil_r. split; [reflexivity|]. split; [assumption|].
    apply g_bind_ret. exists f. repeat split.
Qed.

Ltac one_op :=
  let i := fresh "i" in let bs := fresh "bs" in let HX := fresh "HX" in
  intros i bs HX; cbn [snd] in HX; red_arms;
  lazymatch type of HX with imm0 _ _ _ => exact HX | imm1 _ _ _ _ => apply g_imm1; exact HX | imm2 _ _ _ _ _ => apply g_imm2; exact HX | _ => apply g_cast; exact HX end.
Ltac all_ops := repeat (apply Forall_cons; [one_op|]); apply Forall_nil.

Section Prefixed.
  Context {env : Env} {R C : Type} `{Lawful R C}.
  Lemma parses_fb : Parses (parse_fb : M R _ _) (g_bind Bu32 (sub_lang ops_fb)).
  Proof.
    unfold parse_fb, rf, agg, ctl. eapply parses_bind; [parses|]. intros op _. eapply parses_ext.
    { parses. }
    intros i bs. split.
    - intros HK. num_cases HK op.
      all: try (in_tbl; first [apply g_imm1 in HK|apply g_imm2 in HK]; exact HK).
      + in_tbl. apply g_cast in HK. exact HK.
      + in_tbl. apply g_cast in HK. exact HK.
      + destruct ((20 <=? op) && (op <=? 23))%bool eqn:ER; [exfalso; lia|].
        destruct (assocN op plain_fb_ops) as [j|] eqn:EA; [|destruct HK]. 
        eapply sub_lang_in; [apply plain_fb_in; exact EA|exact HK].
    - revert op i bs. apply sub_lang_back. unfold ops_fb. cbn [run N.succ Pos.succ].
      all_ops.
  Qed.
  Lemma parses_fc : Parses (parse_fc : M R _ _) (g_bind Bu32 (sub_lang ops_fc)).
  Proof.
    unfold parse_fc, num, mem, tab. eapply parses_bind; [parses|]. intros op _. eapply parses_ext.
    { parses. }
    intros i bs. split.
    - intros HK. num_cases HK op.
      all: try (in_tbl; first [apply g_imm1 in HK|apply g_imm2 in HK]; exact HK).
      all: try (in_tbl; apply (g_imm2 (fun y x => I_MemoryInit x y)) in HK; exact HK).
      all: try (in_tbl; apply (g_imm2 (fun y x => I_TableInit x y)) in HK; exact HK).
      + destruct (assocN op plain_fc_ops) as [j|] eqn:EA; [|destruct HK]. 
        eapply sub_lang_in; [apply plain_fc_in; exact EA|exact HK].
    - revert op i bs. apply sub_lang_back. unfold ops_fc. cbn [run N.succ Pos.succ].
      all_ops.
  Qed.
  Lemma parses_inner {E A} op (tbl : list (N * A)) :
    Parses (inner op tbl : M R E A) (match assocN op tbl with Some f => g_ret f | None => g_fail end).
  Proof. unfold inner. destruct (assocN op tbl); [apply parses_ret|apply parses_panic]. Qed.
  Hint Resolve parses_inner : parses.
  Lemma parses_fd : Parses (parse_fd : M R _ _) (g_bind Bu32 (sub_lang ops_fd)).
  Proof.
    unfold parse_fd, vec. eapply parses_bind; [parses|]. intros op _. eapply parses_ext.
    { parses. }
    intros i bs. split.
    - intros HK. cbn [switch pmatch] in HK.
      destruct (_ || _)%bool eqn:E1 in HK.
      { apply g_inner in HK as (f & Hf & HK). eapply sub_lang_in; [apply vec_mem_in; exact Hf|exact HK]. }
      destruct (_ && _)%bool eqn:E2 in HK.
      { apply g_inner2 in HK as (f & Hf & HK). eapply sub_lang_in; [apply vec_mem_lane_in; exact Hf|exact HK]. }
      destruct (N.eqb_spec op 12) as [->|E3].
      { in_tbl. apply g_bind_ret in HK as (l & -> & HK). apply Bbytes_16 in HK. constructor. exact HK. }
      destruct (N.eqb_spec op 13) as [->|E4].
      { in_tbl. apply g_bind_ret in HK as (l & -> & HK). apply Bbytes_16 in HK. constructor. exact HK. }
      destruct (_ && _)%bool eqn:E5 in HK.
      { apply g_inner in HK as (f & Hf & HK). eapply sub_lang_in; [apply vec_lane_in; exact Hf|exact HK]. }
      destruct (assocN op plain_fd_ops) as [j|] eqn:EA; [|destruct HK]. 
      eapply sub_lang_in; [apply plain_fd_in; exact EA|exact HK].
    - revert op i bs. apply sub_lang_back. unfold ops_fd. cbn [run map app N.succ Pos.succ].
      repeat (apply Forall_cons;
        [first [one_op
         | intros i bs HX; cbn [snd] in HX; red_arms; apply g_inner; eexists; split; [reflexivity|exact HX]
         | intros i bs HX; cbn [snd] in HX; red_arms; apply g_inner2; eexists; split; [reflexivity|exact HX]
         | intros i bs HX; cbn [snd] in HX; red_arms; inversion HX; subst; apply g_bind_ret; eexists; split; [reflexivity|apply Bbytes_16; assumption] ]|]); apply Forall_nil.
  Qed.
End Prefixed.
