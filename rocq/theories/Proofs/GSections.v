(** Grammar of section contents (src/decode/sections) *)
From Verif Require Import Model.Prelude Model.Io Model.Ast Model.Errors Model.Integer Model.Helpers Model.Types Model.Instr Model.Sections Model.Module.
From Verif Require Import Proofs.Machine Proofs.Reads Proofs.Parses Proofs.Leb Proofs.GHelpers Proofs.GTypes Proofs.GInstr Proofs.GPrefix Proofs.GControl.
From Verif Require Import Spec.Lang Spec.Types Spec.Instr Spec.Module.
From Coq Require Import Lia ZifyBool ZifyNat ZifyN.
Local Open Scope N_scope.

(** build / take apart [g_bind .. (g_bind .. (g_ret ..))] *)
Ltac g_seq :=
  repeat first
  [ apply g_bind_ret; eexists; split; [reflexivity|eassumption]
  | eexists _, _, _; split; [reflexivity|]; split; [eassumption|] ].
Ltac g_inv H :=
  repeat match type of H with
  | g_bind _ (fun _ => g_ret _) _ _ =>
      let x := fresh "x" in let Hx := fresh "Hx" in apply g_bind_ret in H as (x & -> & Hx)
  | g_bind _ _ _ _ =>
      let x := fresh "x" in let b1 := fresh "b1" in let b2 := fresh "b2" in let Hx := fresh "Hx" in
      destruct H as (x & b1 & b2 & -> & Hx & H); cbv beta in H
  end.

Lemma Btabletype_nonempty : nonempty Btabletype.
Proof. intros t HB. inversion HB as [? ? b1 b2 Hr Hl E1 E2]; subst. inversion Hl; subst; destruct b1; discriminate. Qed.
Section Entries.
  Context {env : Env} {R C : Type} `{Lawful R C}.

  Lemma parses_expr : Parses (decode_expr_only : M R _ _) Bexpr.
  Proof.
    unfold decode_expr_only. eapply parses_ext.
    { eapply parses_bind_pair; [apply parses_decode_expr|]. intros. apply parses_ret. }
    intros e bs. rewrite g_bind_ret. unfold Gexpr. split.
    - intros ([e' d] & -> & HG & _). exact HG.
    - intros HG. eexists (e, _). cbn. auto.
  Qed.
  Hint Resolve parses_expr : parses.

  Lemma parses_import : Parses (parse_import : M R _ _) Bimport.
  Proof.
    unfold parse_import. eapply parses_ext; [parses|]. intros i bs. split.
    - intros HK. g_inv HK. constructor; assumption.
    - inversion 1; subst. g_seq.
  Qed.
  Lemma parses_global : Parses (parse_global : M R _ _) Bglobal.
  Proof.
    unfold parse_global. eapply parses_ext; [parses|]. intros i bs. split.
    - intros HK. g_inv HK. constructor; assumption.
    - inversion 1; subst. g_seq.
  Qed.
  Lemma parses_table : Parses (decode_table : M R _ _) Btable.
  Proof.
    unfold decode_table. eapply parses_ext.
    { parses_step; [parses|]. parses_step; [parses|].
      apply parses_with_chain; [parses_step; [apply parses_map_err, parses_tabletype|parses]|].
      intros hh (x & b1 & b2 & E & Hr & _ & ->). symmetry in E. apply app_eq_nil in E as [-> _]. eapply Btabletype_nonempty; eauto. }
    intros t bs. rewrite g_bind_byte. split.
    - intros (m & bs' & -> & Hm). arm_cases Hm m.
      + apply g_bind_byte in Hm as (m2 & bs2 & -> & Hm). arm_cases Hm m2; [|destruct Hm]. g_inv Hm. constructor; assumption.
      + g_inv Hm. constructor; assumption.
    - inversion 1 as [tt ? HT|]; subst.
      + destruct bs as [|b bs]; [exfalso; eapply Btabletype_nonempty; eauto|]. exists b, bs. split; [reflexivity|].
        destruct (N.eqb_spec (b2n b) 64) as [E|E].
        * exfalso. byte_known E. inversion HT as [rt l b1 b2 Hr Hl E1 E2]; subst.
          inversion Hr; subst; try (cbn in E2; discriminate).
          match goal with HA : Babsheaptype _ _ |- _ => inversion HA; subst; discriminate end.
        * g_seq.
      + eexists _, _. split; [reflexivity|]. arms. apply g_bind_byte. eexists _, _. split; [reflexivity|]. arms. g_seq.
  Qed.
  Lemma parses_export : Parses (parse_export : M R _ _) Bexport.
  Proof.
    unfold parse_export. eapply parses_ext.
    { parses_step; [parses|]. parses_step; [parses|].
      eapply parses_bind with (K := fun x => match externidx_from a0 x with inl d => g_ret (mkExport a d) | inr _ => g_fail end); [parses|].
      intros x _. destruct (externidx_from a0 x); parses. }
    intros i bs. split.
    - intros (nm & b1 & b2 & -> & Hnm & Hk). apply g_bind_byte in Hk as (m & b3 & -> & x & b4 & b5 & -> & Hx & Hk).
      unfold externidx_from in Hk. arm_cases Hk m; [..|destruct Hk]; destruct Hk as [-> ->]; rewrite app_nil_r; constructor; try assumption; constructor; assumption.
    - inversion 1 as [nm d b1 b2 Hn Hd]; subst. exists nm, b1, b2. split; [reflexivity|]. split; [assumption|].
      apply g_bind_byte. inversion Hd; subst; eexists _, _; (split; [reflexivity|]);
      eexists x, _, []; (split; [symmetry; apply app_nil_r|]); (split; [assumption|]); split; reflexivity.
  Qed.
  Lemma parses_elemkind : Parses (parse_elemkind : M R _ _) Belemkind.
  Proof.
    unfold parse_elemkind. eapply parses_ext; [parses|]. intros i bs. rewrite g_bind_byte. split.
    - intros (m & bs' & -> & Hm). arm_cases Hm m; [|destruct Hm]. destruct Hm as [-> ->]. constructor.
    - inversion 1; subst. eexists _, _. split; [reflexivity|]. arms. split; reflexivity.
  Qed.
  Hint Resolve parses_elemkind : parses.
  Lemma parses_elem : Parses (parse_elem : M R _ _) Belem.
  Proof.
    unfold parse_elem. eapply parses_ext; [parses; eapply parses_list; parses|]. intros i bs. split.
    - intros (n & b1 & b2 & -> & Hn & Hm). num_cases Hm n; [..|destruct Hm]; g_inv Hm; constructor; assumption.
    - inversion 1; subst; eexists _, _, _; (split; [reflexivity|]); (split; [eassumption|]); red_arms; g_seq.
  Qed.
  Hint Resolve parses_byte_vector : parses.
  Lemma parses_data : Parses (parse_data : M R _ _) Bdata.
  Proof.
    unfold parse_data. eapply parses_ext; [parses|]. intros i bs. split.
    - intros (n & b1 & b2 & -> & Hn & Hm). num_cases Hm n; [..|destruct Hm]; g_inv Hm; constructor; assumption.
    - inversion 1; subst; eexists _, _, _; (split; [reflexivity|]); (split; [eassumption|]); red_arms; g_seq.
  Qed.
End Entries.

(** ** code entries *)
Definition Glocal : lang Local_ := fun l bs =>
  exists b1 b2, bs = b1 ++ b2 /\ Bu32 (l_count l) b1 /\ Bvaltype (l_t l) b2.
Definition Gcode : lang Code := fun c bs =>
  exists b1 b2 b3, bs = b1 ++ b2 ++ b3 /\ Bu32 (c_size c) b1 /\ c_size c = lenN (b2 ++ b3) /\
    Blist Glocal (c_locals c) b2 /\ total_locals (c_locals c) < 2 ^ 32 /\
    Bexpr (c_expr c) b3 /\ c_data_index c = existsb instruction_contains_data_index (c_expr c).

Section CodeEntries.
  Context {env : Env} {R C : Type} `{Lawful R C}.
  Lemma parses_add_u64 {E} a b : Parses (add_u64 a b : M R E N) (if a + b <? 2 ^ 64 then g_ret (a + b) else g_fail).
  Proof. unfold add_u64. parses. Qed.
  Lemma parses_sub_u64 {E} a b : Parses (sub_u64 a b : M R E N) (if b <=? a then g_ret (a - b) else g_fail).
  Proof. unfold sub_u64. parses. Qed.

  Definition Xlocal (mx st : N) : lang (Local_ * N) := fun x bs =>
    Glocal (fst x) bs /\ snd x = st + l_count (fst x) /\ snd x <= mx /\ snd x < 2 ^ 64.
  Lemma parses_local mx st : Parses (parse_code_local mx st : M R _ _) (Xlocal mx st).
  Proof.
    unfold parse_code_local. eapply parses_ext.
    { parses_step; [parses|]. eapply parses_bind; [apply parses_add_u64|]. intros n _. parses. }
    intros [[c t] s] bs. unfold Xlocal, Glocal. cbn [fst snd l_count l_t]. split.
    - intros (n & b1 & b2 & -> & Hn & m & b3 & b4 & -> & Ha & Hk).
      destruct (N.ltb_spec (st + n) (2 ^ 64)) as [HL|]; [|destruct Ha]. destruct Ha as [-> ->].
      destruct (N.ltb_spec mx (st + n)) as [|HL2]; [destruct Hk|].
      apply g_bind_ret in Hk as (vt & [= -> -> ->] & Hv). cbn. split; [eauto|]. auto.
    - intros ((b1 & b2 & -> & Hc & Ht) & -> & Hle & Hlt).
      exists c, b1, b2. split; [reflexivity|]. split; [assumption|]. exists (st + c), [], b2. split; [reflexivity|].
      split; [destruct (N.ltb_spec (st + c) (2 ^ 64)); [split; reflexivity|lia]|].
      destruct (N.ltb_spec mx (st + c)); [lia|]. apply g_bind_ret. eauto.
  Qed.
  Lemma Bseq_st_locals st ls bs st' : st < 2 ^ 32 ->
    (Bseq_st (Xlocal (2 ^ 32 - 1)) st ls bs st' <-> Bseq Glocal ls bs /\ st' = st + total_locals ls /\ st' < 2 ^ 32).
  Proof.
    revert st bs st'; induction ls as [|l ls IH]; intros st bs st' Hst; cbn [total_locals fold_right].
    - split.
      + inversion 1; subst. split; [constructor|]. lia.
      + intros (Hs & -> & _). inversion Hs; subst. rewrite N.add_0_r. constructor.
    - fold (total_locals ls). split.
      + inversion 1 as [|? ? st1 ? b1 b2 ? HX Hr]; subst. destruct HX as (HG & E & Hle & _). cbn [fst snd] in *.
        apply IH in Hr; [|lia]. destruct Hr as (Hr & -> & Hlt). split; [constructor; assumption|]. lia.
      + intros (Hs & -> & Hlt). inversion Hs; subst. econstructor.
        * split; [eassumption|]. cbn [fst snd]. split; [reflexivity|]. lia.
        * apply IH; [lia|]. split; [assumption|]. lia.
  Qed.
  Lemma parses_locals : Parses (decode_list_st (parse_code_local (2 ^ 32 - 1)) 0 : M R _ _)
    (fun ls bs => Blist Glocal ls bs /\ total_locals ls < 2 ^ 32).
  Proof.
    eapply parses_ext; [apply parses_list_st; intros st; apply parses_local|]. intros ls bs. split.
    - intros (b1 & b2 & st' & -> & Hn & Hs). apply Bseq_st_locals in Hs; [|lia]. destruct Hs as (Hs & -> & Hlt).
      split; [constructor; assumption|lia].
    - intros [HB Hlt]. inversion HB; subst. eexists _, _, _. split; [reflexivity|]. split; [assumption|].
      apply Bseq_st_locals; [lia|]. split; [assumption|]. split; [reflexivity|lia].
  Qed.
End CodeEntries.
Section CodeEntries2.
  Context {env : Env} {R C : Type} `{Lawful R C}.
  Lemma parses_code : Parses (parse_code : M R _ _) Gcode.
  Proof.
    unfold parse_code. eapply parses_ext.
    { parses_step; [parses|].
      eapply parses_bind with (K := fun z => if negb (snd z =? 0) then g_fail else g_ret (mkCode a (fst (fst z)) (fst (snd (fst z))) (snd (snd (fst z))))).
      - parses_step. parses_step; [apply parses_map_err, parses_locals|]. parses_step; [apply parses_map_err, parses_decode_expr|]. apply parses_ret.
      - intros [[ls [e d]] lim] _. cbn [fst snd]. apply parses_if; [|intros _; parses].
        intros _. eapply parses_ext; [parses_step; [apply parses_sub_u64|apply parses_throw]|].
        intros c bs. unfold g_bind, g_fail. split; [intros (?&?&?&?&?&[])|intros []]. }
    intros [sz ls e d] bs. unfold Gcode. cbn [c_size c_locals c_expr c_data_index]. split.
    - intros (n & b1 & b2 & -> & Hn & [[ls' [e' d']] lim] & b3 & b4 & -> & (Ht & Hle & Hlim) & Hk). cbn [fst snd] in *.
      destruct (N.eqb_spec lim 0) as [->|]; cbn in Hk; [|destruct Hk]. destruct Hk as [[= -> -> -> ->] ->].
      destruct Ht as (ls0 & b5 & b6 & -> & [Hls Htot] & Hk). apply g_bind_ret in Hk as (ed & [= -> <-] & [He Hd]).
      rewrite app_nil_r. exists b1, b5, b6. split; [reflexivity|]. split; [assumption|]. split; [lia|]. auto.
    - intros (b1 & b2 & b3 & -> & Hn & -> & Hls & Htot & He & ->).
      eexists _, b1, _. split; [reflexivity|]. split; [eassumption|].
      eexists (ls, (e, existsb instruction_contains_data_index e), _), (b2 ++ b3), []. rewrite app_nil_r. split; [reflexivity|].
      split; [split; [|split; [|reflexivity]]|].
      + cbn [fst]. exists ls, b2, b3. split; [reflexivity|]. split; [auto|]. apply g_bind_ret. eexists (_, _). split; [reflexivity|]. split; [eassumption|reflexivity].
      + lia.
      + cbn [fst snd]. rewrite N.sub_diag. cbn. split; reflexivity.
  Qed.

  (** relation to the specification's view of a code entry *)
  Lemma total_expand ls : total_locals ls = N.of_nat (length (expand_locals ls)).
  Proof.
    induction ls as [|l ls IH]; [reflexivity|]. cbn [total_locals fold_right expand_locals flat_map].
    rewrite app_length, repeat_length. fold (total_locals ls) (expand_locals ls). lia.
  Qed.
  Lemma seq_locals ls bs : Bseq Glocal ls bs ->
    Bseq Blocals (map (fun l => repeat (l_t l) (N.to_nat (l_count l))) ls) bs.
  Proof.
    induction 1 as [|l ls b1 b2 Hl _ IH]; cbn; constructor; [|assumption].
    destruct Hl as (b3 & b4 & -> & Hn & Ht). constructor; assumption.
  Qed.
  Lemma seq_locals_inv locs bs : Bseq Blocals locs bs ->
    exists ls, Bseq Glocal ls bs /\ locs = map (fun l => repeat (l_t l) (N.to_nat (l_count l))) ls.
  Proof.
    induction 1 as [|l ls b1 b2 Hl _ (ls' & IH & ->)]; [exists []; split; [constructor|reflexivity]|].
    inversion Hl; subst. exists (mkLocal n t :: ls'). split; [|reflexivity]. constructor; [|assumption].
    eexists _, _. split; [reflexivity|]. split; assumption.
  Qed.
  Definition code_fn (c : Code) : list ValType * Expr := (expand_locals (c_locals c), c_expr c).
  Lemma Gcode_Bcode c bs : Gcode c bs -> Bcode (code_fn c) bs.
  Proof.
    intros (b1 & b2 & b3 & -> & Hn & E & Hls & Ht & He & _). constructor.
    - rewrite E in Hn. exact Hn.
    - unfold code_fn, expand_locals. rewrite flat_map_concat_map. inversion Hls as [? ? ? Hl Hq]; subst. constructor; [|assumption|].
      + constructor; [rewrite map_length; assumption|apply seq_locals; assumption].
      + rewrite <- flat_map_concat_map. fold (expand_locals (c_locals c)). rewrite <- total_expand. assumption.
  Qed.
  Lemma Bcode_Gcode f bs : Bcode f bs -> exists c, Gcode c bs /\ code_fn c = f.
  Proof.
    inversion 1 as [? b1 b2 Hn Hf]; subst. inversion Hf as [locs e b3 b4 Hl He Ht]; subst.
    inversion Hl as [? b5 b6 Hk Hq]; subst. apply seq_locals_inv in Hq as (ls & Hq & ->).
    exists (mkCode (lenN ((b5 ++ b6) ++ b4)) ls e (existsb instruction_contains_data_index e)). split.
    - exists b1, (b5 ++ b6), b4. cbn. split; [reflexivity|]. split; [assumption|]. split; [reflexivity|].
      split; [constructor; [rewrite map_length in Hk|]; assumption|].
      rewrite <- flat_map_concat_map in Ht. fold (expand_locals ls) in Ht. rewrite <- total_expand in Ht. auto.
    - unfold code_fn. cbn. unfold expand_locals. rewrite flat_map_concat_map. reflexivity.
  Qed.
End CodeEntries2.
