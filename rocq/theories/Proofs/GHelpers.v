(** Grammars of vectors, byte vectors, names and floats (src/decode/helpers.rs) *)
From Verif Require Import Model.Prelude Model.Io Model.Ast Model.Errors Model.Integer Model.Helpers.
From Verif Require Import Proofs.Machine Proofs.Reads Proofs.Parses Proofs.Leb Proofs.Loop Proofs.Utf8.
From Verif Require Import Spec.Lang Spec.Types.
From Coq Require Import Lia ZifyBool ZifyNat ZifyN.

#[export] Hint Resolve parses_u32 parses_u64 parses_i32 parses_i64 parses_s33 : parses.

(** sequences whose element grammar depends on a threaded state *)
Inductive Bseq_st {St T} (X : St -> lang (T * St)) : St -> list T -> list byte -> St -> Prop :=
| Bst_nil st : Bseq_st X st [] [] st
| Bst_cons st x st1 xs bs1 bs2 st2 : X st (x, st1) bs1 -> Bseq_st X st1 xs bs2 st2 -> Bseq_st X st (x :: xs) (bs1 ++ bs2) st2.

Section Idx.
  Context {R C : Type} `{Lawful R C}.
  Lemma parses_typeidx : Parses (decode_typeidx : M R _ _) Bidx. Proof. apply parses_map_err, parses_u32. Qed.
  Lemma parses_funcidx : Parses (decode_funcidx : M R _ _) Bidx. Proof. apply parses_map_err, parses_u32. Qed.
  Lemma parses_tableidx : Parses (decode_tableidx : M R _ _) Bidx. Proof. apply parses_map_err, parses_u32. Qed.
  Lemma parses_memidx : Parses (decode_memidx : M R _ _) Bidx. Proof. apply parses_map_err, parses_u32. Qed.
  Lemma parses_globalidx : Parses (decode_globalidx : M R _ _) Bidx. Proof. apply parses_map_err, parses_u32. Qed.
  Lemma parses_elemidx : Parses (decode_elemidx : M R _ _) Bidx. Proof. apply parses_map_err, parses_u32. Qed.
  Lemma parses_dataidx : Parses (decode_dataidx : M R _ _) Bidx. Proof. apply parses_map_err, parses_u32. Qed.
  Lemma parses_localidx : Parses (decode_localidx : M R _ _) Bidx. Proof. apply parses_map_err, parses_u32. Qed.
  Lemma parses_labelidx : Parses (decode_labelidx : M R _ _) Bidx. Proof. apply parses_map_err, parses_u32. Qed.
  Lemma parses_tagidx : Parses (decode_tagidx : M R _ _) Bidx. Proof. apply parses_map_err, parses_u32. Qed.
End Idx.
#[export] Hint Resolve parses_typeidx parses_funcidx parses_tableidx parses_memidx parses_globalidx parses_elemidx
  parses_dataidx parses_localidx parses_labelidx parses_tagidx : parses.

Section Lists.
  Context {env : Env} {R C : Type} `{Lawful R C}.

  Lemma parses_eqv {E A} (p q : M R E A) G : (forall r, p r = q r) -> Parses q G -> Parses p G.
  Proof.
    intros Hpq [S K]. split.
    - intros r a r'. rewrite Hpq. apply S.
    - intros r a bs c'. rewrite Hpq. apply K.
  Qed.

  Definition g_loop {St T} (X : St -> lang (T * St)) (n : nat) (s : N * list T * St) : lang (N * list T * St) :=
    fun s' bs => exists xs, length xs = n /\
      fst s' = ((fst (fst s) + N.of_nat n)%N, rev xs ++ snd (fst s)) /\ Bseq_st X (snd s) xs bs (snd s').
  Lemma parses_list_loop {St E T} (parse_fn : St -> M R E (T * St)) X n s :
    (forall st, Parses (parse_fn st) (X st)) -> Parses (iterM (list_step parse_fn) n s) (g_loop X n s).
  Proof.
    intros HX. revert s; induction n as [|n IH]; intros s; cbn [iterM].
    - eapply parses_ext; [apply parses_ret|]. intros s' bs. unfold g_ret, g_loop. split.
      + intros [-> ->]. exists []. split; [reflexivity|]. split; [|constructor].
        destruct s as [[i items] st]; cbn. f_equal; lia.
      + intros ([|x xs] & Hl & Hs & Hq); [|discriminate]. destruct s as [[i items] st], s' as [[i' items'] st']. cbn in *.
        inversion Hq; subst. injection Hs as -> ->. split; [f_equal; f_equal; lia|reflexivity].
    - eapply parses_ext.
      { eapply parses_bind with (G := fun s' bs => exists x st', X (snd s) (x, st') bs /\ s' = ((fst (fst s) + 1)%N, x :: snd (fst s), st')).
        - destruct s as [[i items] st]. unfold list_step. eapply parses_ext.
          { eapply parses_bind_pair; [apply parses_map_err, HX|]. intros x st' _. apply parses_ret. }
          intros s' bs. unfold g_bind, g_ret. split.
          + intros ([x st'] & bs1 & bs2 & -> & HXx & -> & ->). rewrite app_nil_r. eauto.
          + intros (x & st' & HXx & ->). exists (x, st'), bs, []. rewrite app_nil_r. auto.
        - intros s1 _. apply IH. }
      intros s' bs. unfold g_bind, g_loop. split.
      + intros (s1 & bs1 & bs2 & -> & (x & st' & HXx & ->) & (xs & Hl & Hs & Hq)). cbn in *.
        exists (x :: xs). split; [cbn; lia|]. split; [|econstructor; eauto].
        rewrite Hs. cbn [rev]. rewrite <- app_assoc. cbn. f_equal. lia.
      + intros ([|x xs] & Hl & Hs & Hq); [discriminate|]. inversion Hq; subst.
        eexists _, _, _. split; [reflexivity|]. split; [eauto|]. exists xs. cbn in *.
        split; [lia|]. split; [|assumption]. rewrite Hs, <- app_assoc. cbn. f_equal. lia.
  Qed.
  Lemma parses_list_st {St E T} (parse_fn : St -> M R E (T * St)) X st :
    (forall st, Parses (parse_fn st) (X st)) ->
    Parses (decode_list_st parse_fn st)
      (fun xs bs => exists bs1 bs2 st', bs = bs1 ++ bs2 /\ Bu32 (N.of_nat (length xs)) bs1 /\ Bseq_st X st xs bs2 st').
  Proof.
    intros HX. unfold decode_list_st. eapply parses_ext.
    { parses_step; [parses|]. parses_step; [parses|].
      eapply parses_bind with (K := fun s => g_ret (rev (snd (fst s)))).
      - eapply parses_eqv; [intros; apply loopN_iter|]. apply parses_list_loop, HX.
      - intros [[i items] st'] _. apply parses_ret. }
    intros xs bs. unfold g_bind, g_ret, g_loop. split.
    - intros (n & bs1 & bs2 & -> & Hn & [] & b3 & b4 & -> & [_ ->] & s & b5 & b6 & -> & (ys & Hl & Hs & Hq) & -> & ->).
      cbn in Hs, Hq.
      assert (Hy : rev (snd (fst s)) = ys) by (rewrite (f_equal snd Hs); cbn [snd]; rewrite app_nil_r, rev_involutive; reflexivity).
      rewrite Hy.
      exists bs1, b5, (snd s). split; [rewrite app_nil_r; reflexivity|]. split; [|assumption].
      rewrite Hl, N2Nat.id. exact Hn.
    - intros (bs1 & bs2 & st' & -> & Hn & Hq).
      exists (N.of_nat (length xs)), bs1, bs2. split; [reflexivity|]. split; [assumption|].
      exists tt, [], bs2. split; [reflexivity|]. split; [auto|].
      exists ((N.of_nat (length xs)), rev xs, st'), bs2, []. rewrite app_nil_r, Nat2N.id. split; [reflexivity|].
      split; [|cbn; rewrite rev_involutive; auto]. exists xs. cbn. rewrite app_nil_r. auto.
  Qed.
  Lemma Bseq_st_unit {T} (X : lang T) u xs bs u' :
    Bseq_st (fun (_ : unit) y bs => X (fst y) bs) u xs bs u' <-> Bseq X xs bs.
  Proof.
    split.
    - induction 1; constructor; assumption.
    - destruct u, u'. induction 1; [constructor|]. apply Bst_cons with (st1 := tt); assumption.
  Qed.
  Lemma parses_list {E T} (p : M R E T) X : Parses p X -> Parses (decode_list p) (Blist X).
  Proof.
    intros HX. eapply parses_ext.
    { apply (parses_list_st _ (fun (_ : unit) y bs => X (fst y) bs)). intros []. eapply parses_ext.
      - eapply parses_bind; [exact HX|]. intros. apply parses_ret.
      - intros [x []] bs. unfold g_bind, g_ret. cbn. split.
        + intros (a & bs1 & bs2 & -> & Ha & [= ->] & ->). rewrite app_nil_r. assumption.
        + intros Ha. exists x, bs, []. rewrite app_nil_r. auto. }
    intros xs bs. split.
    - intros (bs1 & bs2 & st' & -> & Hn & Hq). apply Bseq_st_unit in Hq. constructor; assumption.
    - inversion 1; subst. eexists _, _, tt. split; [reflexivity|]. split; [eassumption|]. apply Bseq_st_unit. assumption.
  Qed.

  Lemma Bseq_byte xs bs : Bseq Bbyte xs bs <-> bs = xs.
  Proof.
    split.
    - induction 1 as [|x xs bs1 bs2 Hx _ ->]; [reflexivity|]. red in Hx. subst. reflexivity.
    - intros ->. induction xs as [|x xs IH]; [constructor|]. change (x :: xs) with ([x] ++ xs) at 2. constructor; [reflexivity|assumption].
  Qed.
  Lemma parses_byte_vector : Parses (decode_byte_vector : M R _ _) (Blist Bbyte).
  Proof.
    eapply parses_ext; [unfold decode_byte_vector; parses|].
    intros xs bs. unfold g_bind, g_ret. split.
    - intros (n & bs1 & bs2 & -> & Hn & [] & b3 & b4 & -> & [_ ->] & -> & <-). cbn.
      constructor; [assumption|]. apply Bseq_byte. reflexivity.
    - inversion 1 as [? bs1 bs2 Hn Hq]; subst. apply Bseq_byte in Hq as ->.
      exists (N.of_nat (length xs)), bs1, xs. split; [reflexivity|]. split; [assumption|].
      exists tt, [], xs. auto.
  Qed.
  Lemma parses_name : Parses (decode_name : M R _ _) Bname.
  Proof.
    eapply parses_ext.
    { unfold decode_name. parses_step; [apply parses_map_err, parses_byte_vector|]. parses. }
    intros s bs. unfold g_bind, Bname. rewrite <- from_utf8_iff. split.
    - intros (n & bs1 & bs2 & -> & Hn & Hu). destruct (from_utf8 n) eqn:E; [|destruct Hu].
      destruct Hu as [-> ->]. rewrite app_nil_r. auto.
    - intros [Hl Hu]. exists s, bs, []. rewrite app_nil_r, Hu. split; [reflexivity|]. split; [assumption|]. split; reflexivity.
  Qed.
  Lemma from_le_value bs : from_le_bytes bs = le_value bs.
  Proof. induction bs as [|b bs IH]; cbn [from_le_bytes le_value]; [reflexivity|]. rewrite IH. reflexivity. Qed.
  Lemma parses_f32 : Parses (decode_f32 : M R _ _) Bf32.
  Proof.
    eapply parses_ext; [unfold decode_f32; parses|].
    intros x bs. unfold g_bind, g_ret, Bf32. split.
    - intros (n & bs1 & bs2 & -> & [-> Hn] & -> & ->). rewrite app_nil_r. split; [unfold lenN in Hn; lia|apply from_le_value].
    - intros [Hl ->]. exists bs, bs, []. rewrite app_nil_r. unfold lenN. split; [reflexivity|]. split; [split; [reflexivity|lia]|]. split; [symmetry; apply from_le_value|reflexivity].
  Qed.
  Lemma parses_f64 : Parses (decode_f64 : M R _ _) Bf64.
  Proof.
    eapply parses_ext; [unfold decode_f64; parses|].
    intros x bs. unfold g_bind, g_ret, Bf64. split.
    - intros (n & bs1 & bs2 & -> & [-> Hn] & -> & ->). rewrite app_nil_r. split; [unfold lenN in Hn; lia|apply from_le_value].
    - intros [Hl ->]. exists bs, bs, []. rewrite app_nil_r. unfold lenN. split; [reflexivity|]. split; [split; [reflexivity|lia]|]. split; [symmetry; apply from_le_value|reflexivity].
  Qed.
End Lists.
#[export] Hint Resolve parses_list parses_byte_vector parses_name parses_f32 parses_f64 : parses.
