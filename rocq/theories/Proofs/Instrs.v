(** Instructions: unassigned opcodes, explicit decoding of words, misplaced [else]. *)
From Verif Require Import Model.Prelude Model.Io Model.Ast Model.Errors Model.Integer Model.Helpers Model.Types Model.Instr Model.Sections.
From Verif Require Import Spec.Lang Spec.Types Spec.Instr Spec.Module Spec.Streams Spec.Else.
From Verif Require Import Proofs.Machine Proofs.Parses Proofs.Leb Proofs.GHelpers Proofs.GTypes Proofs.GInstr Proofs.GPrefix Proofs.GControl Proofs.GSections Proofs.Safe Proofs.SafeWalk Proofs.Final Proofs.FinalInt Proofs.Components Proofs.Modules.
From Coq Require Import Lia.

Lemma decodes_item : decodes (fun env => @parse env _ _ (@stack_limit env)) Gpr.
Proof. eapply decodes_of; intros env; [apply parses_parse|apply safe_parse, le_n]. Qed.
Lemma decodes_instr env i bs rest : sufficient env (length (bs ++ rest)) -> Binstr i bs ->
  @parse env _ _ (@stack_limit env) (bs ++ rest) = (Ok (PR_Instr i), rest).
Proof. intros HS HB. exact (decodes_complete _ _ decodes_item env (PR_Instr i) bs rest HS HB). Qed.

(** ** unassigned opcodes *)
Lemma existsb_In n (l : list N) : existsb (N.eqb n) l = false <-> ~ In n l.
Proof.
  split.
  - intros HE HI. assert (HT : existsb (N.eqb n) l = true) by (apply existsb_exists; exists n; split; [assumption|apply N.eqb_refl]). congruence.
  - intros HN. destruct (existsb (N.eqb n) l) eqn:HE; [|reflexivity]. apply existsb_exists in HE as (x & HI & Hx). apply N.eqb_eq in Hx. subst x. contradiction.
Qed.
Lemma bad_opcode (env : Env) p b (rest : list byte) : ~ In (val b) (map fst ops) -> ~ In b [x02; x03; x04; x05; x0b; x1f; xfb; xfc; xfd] ->
  parse_op p b rest = (Err (PE_InvalidOpcode b), rest).
Proof.
  intros H1 H2. apply existsb_In in H1. destruct b; try (vm_compute in H1; discriminate); try reflexivity; exfalso; apply H2; cbn; tauto.
Qed.
Lemma parse_eq (env : Env) d b (rest : list byte) : parse (S d) (b :: rest) = parse_op (parse d) b rest.
Proof.
  change (parse (S d) (b :: rest)) with (bind (map_err PE_ReadOpcode read_byte) (fun opcode => parse_op (parse d) opcode) (b :: rest)).
  unfold bind, map_err. rewrite read_byte_cons. reflexivity.
Qed.

Definition unmatched {A} (n : N) (arms : list (pat * A)) : bool := forallb (fun a => negb (pmatch (fst a) n)) arms.
Lemma switch_unmatched {A} n (arms : list (pat * A)) d : unmatched n arms = true -> switch n arms d = d.
Proof. induction arms as [|[p a] arms IH]; cbn; [reflexivity|]. intros HU. apply andb_prop in HU as [HU HU']. destruct (pmatch p n); [discriminate|auto]. Qed.
Lemma assocN_none {A} n (tbl : list (N * A)) : ~ In n (map fst tbl) -> assocN n tbl = None.
Proof. induction tbl as [|[k a] tbl IH]; cbn; [reflexivity|]. intros HN. destruct (N.eqb_spec n k) as [->|]; [tauto|apply IH; tauto]. Qed.

Lemma forallb_upto (f : N -> bool) k : forallb f (map N.of_nat (seq 0 k)) = true -> forall n, (n < N.of_nat k)%N -> f n = true.
Proof.
  intros HF n Hn. rewrite forallb_forall in HF. apply HF. apply in_map_iff. exists (N.to_nat n). split; [lia|]. apply in_seq. lia.
Qed.
Lemma bad_fb n bs (rest : list byte) : Bu32 n bs -> ~ In n (map fst ops_fb) -> parse_fb (bs ++ rest) = (Err (PE_InvalidMarkerByteAfterFB n), rest).
Proof.
  intros HB HN. unfold parse_fb, bind at 1, rf, map_err at 1. rewrite (decodes_word _ _ _ _ rest decodes_u32 HB).
  assert (Hn : (31 <= n)%N).
  { destruct (N.lt_ge_cases n 31) as [Hl|]; [|assumption]. exfalso. apply existsb_In in HN. revert HN.
    pose proof (forallb_upto (fun n => existsb (N.eqb n) (map fst ops_fb)) 31 eq_refl n Hl) as HF. cbv beta in HF. rewrite HF. discriminate. }
  rewrite switch_unmatched.
  - rewrite assocN_none; [reflexivity|]. cbn. intuition (subst; discriminate || lia).
  - cbn. repeat match goal with |- context [(n =? ?k)%N] => destruct (N.eqb_spec n k) as [->|_]; [exfalso; apply Hn; reflexivity|] | |- context [(?k <=? n)%N] => replace (k <=? n)%N with true by (symmetry; apply N.leb_le; lia) | |- context [(n <=? ?k)%N] => replace (n <=? k)%N with false by (symmetry; apply N.leb_gt; lia) end. reflexivity.
Qed.
Lemma bad_fc n bs (rest : list byte) : Bu32 n bs -> ~ In n (map fst ops_fc) -> parse_fc (bs ++ rest) = (Err (PE_InvalidMarkerByteAfterFC n), rest).
Proof.
  intros HB HN. unfold parse_fc, bind at 1, num, map_err at 1. rewrite (decodes_word _ _ _ _ rest decodes_u32 HB).
  assert (Hn : (18 <= n)%N).
  { destruct (N.lt_ge_cases n 18) as [Hl|]; [|assumption]. exfalso. apply existsb_In in HN. revert HN.
    pose proof (forallb_upto (fun n => existsb (N.eqb n) (map fst ops_fc)) 18 eq_refl n Hl) as HF. cbv beta in HF. rewrite HF. discriminate. }
  rewrite switch_unmatched.
  - rewrite assocN_none; [reflexivity|]. cbn. intuition (subst; discriminate || lia).
  - cbn. repeat match goal with |- context [(n =? ?k)%N] => destruct (N.eqb_spec n k) as [->|_]; [exfalso; apply Hn; reflexivity|] end. reflexivity.
Qed.
Definition fd_pats : list pat := [POr (PR 0 11) (POr (P1 92) (P1 93)); PR 84 91; P1 12; P1 13; PR 21 34].
Lemma bad_fd n bs (rest : list byte) : Bu32 n bs -> ~ In n (map fst ops_fd) -> parse_fd (bs ++ rest) = (Err (PE_Vector (Vec_InvalidOpcode n)), rest).
Proof.
  intros HB HN. unfold parse_fd, bind at 1, vec, map_err at 1. rewrite (decodes_word _ _ _ _ rest decodes_u32 HB).
  assert (HU : forallb (fun p => negb (pmatch p n)) fd_pats = true /\ existsb (N.eqb n) (map fst plain_fd_ops) = false).
  { apply existsb_In in HN. destruct (N.lt_ge_cases n 276) as [Hl|Hg].
    - pose proof (forallb_upto (fun n => existsb (N.eqb n) (map fst ops_fd) || (forallb (fun p => negb (pmatch p n)) fd_pats && negb (existsb (N.eqb n) (map fst plain_fd_ops)))) 276 ltac:(vm_compute; reflexivity) n Hl) as HF.
      cbv beta in HF. rewrite HN in HF. cbn [orb] in HF. apply andb_prop in HF as [HF1 HF2]. split; [exact HF1|]. apply Bool.negb_true_iff. exact HF2.
    - split.
      + cbn [fd_pats forallb pmatch]. repeat match goal with |- context [(n =? ?k)%N] => replace (n =? k)%N with false by (symmetry; apply N.eqb_neq; lia) | |- context [(n <=? ?k)%N] => replace (n <=? k)%N with false by (symmetry; apply N.leb_gt; lia) end.
        rewrite !Bool.andb_false_r. reflexivity.
      + apply existsb_In. intros HI. assert (HA : Forall (fun k => (k <? 276)%N = true) (map fst plain_fd_ops)) by (apply forallb_Forall || (apply Forall_forall; apply forallb_forall; vm_compute; reflexivity)).
        rewrite Forall_forall in HA. specialize (HA _ HI). apply N.ltb_lt in HA. lia. }
  destruct HU as [HU1 HU2]. rewrite switch_unmatched.
  - rewrite assocN_none; [reflexivity|]. apply existsb_In. exact HU2.
  - exact HU1.
Qed.

(** ** bodies *)
Lemma bind_err {R E A B} (p : M R E A) (q : A -> M R E B) r e r' : p r = (Err e, r') -> bind p q r = (Err e, r').
Proof. unfold bind. intros ->. reflexivity. Qed.
Lemma bind_ok {R E A B} (p : M R E A) (q : A -> M R E B) r a r' : p r = (Ok a, r') -> bind p q r = q a r'.
Proof. unfold bind. intros ->. reflexivity. Qed.
Lemma map_err_ok {R E E' A} (f : E -> E') (p : M R E A) r a r' : p r = (Ok a, r') -> map_err f p r = (Ok a, r').
Proof. unfold map_err. intros ->. reflexivity. Qed.
Lemma map_err_err {R E E' A} (f : E -> E') (p : M R E A) r a r' : p r = (Err a, r') -> map_err f p r = (Err (f a), r').
Proof. unfold map_err. intros ->. reflexivity. Qed.
(** [d] of the activations, and the heap, are enough for [n] bytes *)
Definition enough {env : Env} (d n : nat) : Prop := ((2 ^ 32 - 1 <= alloc_limit)%N /\ d <= stack_limit /\ (N.of_nat (n + stack_limit) <= alloc_limit + N.of_nat d)%N) /\ n < d.
(** the heap is enough for a vector that grows by at most an element a byte *)
Definition holds {env : Env} {A} (acc : list A) (n : nat) : Prop := (N.of_nat (length acc + n) <= alloc_limit)%N.
Lemma enough_holds {env : Env} {A} d n : enough d n -> @holds env A [] n.
Proof. unfold enough, holds. cbn [length]. lia. Qed.
Lemma holds_le {env : Env} {A} (acc : list A) n m : m <= n -> holds acc n -> holds acc m.
Proof. unfold holds. lia. Qed.
Lemma holds_cons {env : Env} {A} (a : A) (acc : list A) n m : m < n -> holds acc n -> holds (a :: acc) m.
Proof. unfold holds. cbn [length]. lia. Qed.
Lemma enough_le {env : Env} d n m : m <= n -> enough d n -> enough d m.
Proof. unfold enough. lia. Qed.
Lemma grow {env : Env} {R E A B} (a : A) (acc : list A) n (q : M R E B) r : holds acc (S n) -> bind (alloc (lenN (a :: acc))) (fun _ => q) r = q r.
Proof. unfold holds, bind, alloc, lenN. cbn [length]. intros HA. destruct (N.leb_spec (N.of_nat (S (length acc))) alloc_limit); [reflexivity|lia]. Qed.
Lemma word {env : Env} {E A} (p : M (list byte) E A) G d m Q a bs rest : Parses p G -> Safe d p m Q ->
  enough d (length (bs ++ rest)) -> G a bs -> p (bs ++ rest) = (Ok a, rest).
Proof.
  intros HP HS [Ha Hd] HG. unfold Safe, short in HS. destruct (p_complete _ _ HP (bs ++ rest) a bs (map AByte rest) HG) as [(r' & -> & Hr)|Hg].
  - apply bsteps_slice. eauto.
  - apply map_AByte_inj in Hr as ->. reflexivity.
  - exfalso. specialize (HS (bs ++ rest)). destruct (p (bs ++ rest)) as [[a'|e|[]|] r']; try contradiction; destruct HS as [_ HS]; try contradiction; cbn [budget list_reader] in HS; lia.
Qed.
Section Bodies.
  Context {env : Env}.
  Notation P d := (parse d : M (list byte) ParseError ParseResult).
  Lemma word_item d pr bs rest : enough d (length (bs ++ rest)) -> Gpr pr bs -> P d (bs ++ rest) = (Ok pr, rest).
  Proof. intros HE HG. eapply word; [apply parses_parse|apply safe_parse, HE|exact HE|exact HG]. Qed.
  Lemma Gpr_pos pr bs : Gpr pr bs -> 1 <= length bs.
  Proof. intros HG. destruct bs; [destruct (Gpr_nonempty _ HG)|cbn; lia]. Qed.

  Lemma body_prefix d ae is bs : Binstrs is bs -> forall rest fuel acc, enough d (length (bs ++ rest)) -> holds acc (length (bs ++ rest)) -> length (bs ++ rest) < fuel ->
    exists fuel', length rest < fuel' /\ holds (rev is ++ acc) (length rest) /\ body_loop (P d) ae fuel acc (bs ++ rest) = body_loop (P d) ae fuel' (rev is ++ acc) rest.
  Proof.
    induction 1 as [|i is b1 b2 Hi _ IH] using Binstrs_ind; intros rest fuel acc HE HA Hf.
    - exists fuel. auto.
    - destruct fuel as [|fuel]; [lia|]. rewrite <- app_assoc in *. cbn [body_loop]. unfold bind at 1. rewrite (word_item d (PR_Instr i) b1 (b2 ++ rest) HE Hi).
      pose proof (Gpr_pos (PR_Instr i) b1 Hi). rewrite app_length in Hf, HE, HA.
      rewrite (grow i acc (length (b2 ++ rest))) by (eapply holds_le; [|exact HA]; lia).
      destruct (IH rest fuel (i :: acc)) as (fuel' & Hf' & HA' & ->); [eapply enough_le; [|exact HE]; lia|eapply holds_cons; [|exact HA]; lia|lia|]. exists fuel'. cbn [rev]. rewrite <- app_assoc. auto.
  Qed.
  Lemma expr_prefix is bs : Binstrs is bs -> forall rest fuel acc e, enough stack_limit (length (bs ++ rest)) -> holds acc (length (bs ++ rest)) -> length (bs ++ rest) < fuel ->
    exists fuel' e', length rest < fuel' /\ expr_loop fuel acc e (bs ++ rest) = expr_loop fuel' (rev is ++ acc) e' rest.
  Proof.
    induction 1 as [|i is b1 b2 Hi _ IH] using Binstrs_ind; intros rest fuel acc e HE HA Hf.
    - exists fuel, e. auto.
    - destruct fuel as [|fuel]; [lia|]. rewrite <- app_assoc in *. cbn [expr_loop]. unfold bind at 1, map_err at 1. rewrite (word_item _ (PR_Instr i) b1 (b2 ++ rest) HE Hi).
      pose proof (Gpr_pos (PR_Instr i) b1 Hi). rewrite app_length in Hf, HE, HA.
      rewrite (grow i acc (length (b2 ++ rest))) by (eapply holds_le; [|exact HA]; lia).
      match goal with |- context [expr_loop fuel _ ?e0 _] => destruct (IH rest fuel (i :: acc) e0) as (fuel' & e' & Hf' & ->); [eapply enough_le; [|exact HE]; lia|eapply holds_cons; [|exact HA]; lia|lia|] end.
      exists fuel', e'. split; [assumption|]. cbn [rev]. rewrite <- app_assoc. reflexivity.
  Qed.
  Definition else_err {A} : list byte -> res ParseError A * list byte := fun rest => (Err (PE_Control Ctl_UnexpectedElse), rest).
  Lemma word_blocktype bt b rest : Bblocktype bt b -> decode_blocktype (b ++ rest) = (Ok bt, rest).
  Proof. apply (decodes_word _ _ _ _ rest). eapply decodes_of; intros; [apply parses_blocktype|apply safe_blocktype]. Qed.
  Lemma op_block p b (rest : list byte) : In b [x02; x03; x04] -> parse_op p b rest = bind (parse_block p (b2n b)) (fun ins => ret (PR_Instr ins)) rest.
  Proof. intros [<-|[<-|[<-|[]]]]; reflexivity. Qed.
  Lemma op_try p (rest : list byte) : parse_op p x1f rest = bind (parse_try_table p) (fun ins => ret (PR_Instr ins)) rest.
  Proof. reflexivity. Qed.
  Lemma enough_sub d n m : enough (S d) n -> m < n -> enough d m.
  Proof. unfold enough. lia. Qed.
  Lemma enough_pos d n : enough d n -> exists d', d = S d'.
  Proof. intros [_ Hd]. destruct d as [|d]; [lia|eauto]. Qed.
  (** the length of the rest of the input after what has been read *)
  Ltac len := repeat (progress cbn [app length] || rewrite app_length); lia.
  Lemma misplaced_else :
    (forall w, unfinished w -> forall rest d, enough d (length (w ++ x05 :: rest)) -> P d (w ++ x05 :: rest) = else_err rest) /\
    (forall ae w, open_body ae w -> forall rest d fuel acc, enough d (length (w ++ x05 :: rest)) -> holds acc (length (w ++ x05 :: rest)) -> length (w ++ x05 :: rest) < fuel ->
       body_loop (P d) ae fuel acc (w ++ x05 :: rest) = else_err rest).
  Proof.
    assert (BL : forall b, In b [x02; x03; x04] -> forall bt bs w, Bblocktype bt bs ->
      (forall rest d fuel acc, enough d (length (w ++ x05 :: rest)) -> holds acc (length (w ++ x05 :: rest)) -> length (w ++ x05 :: rest) < fuel -> body_loop (P d) (b2n b =? 0x04)%N fuel acc (w ++ x05 :: rest) = else_err rest) ->
      forall rest d, enough d (length ((b :: bs ++ w) ++ x05 :: rest)) -> P d ((b :: bs ++ w) ++ x05 :: rest) = else_err rest).
    { intros b Hb bt bs w Hbt IH rest d HE. destruct (enough_pos _ _ HE) as [d' ->]. cbn [app]. rewrite parse_eq, (op_block _ _ _ Hb). apply bind_err. rewrite <- app_assoc.
      unfold parse_block. erewrite bind_ok by (apply map_err_ok, (word_blocktype _ _ _ Hbt)). apply bind_err. unfold parse_body.
      assert (HE' : enough d' (length (w ++ x05 :: rest))) by (eapply enough_sub; [exact HE|len]). apply IH; [exact HE'|exact (enough_holds _ _ HE')|apply Nat.lt_succ_diag_r]. }
    apply unfinished_open_ind.
    - intros bt b w Hb _ IH. apply (BL x02) with bt; [cbn; auto|exact Hb|exact IH].
    - intros bt b w Hb _ IH. apply (BL x03) with bt; [cbn; auto|exact Hb|exact IH].
    - intros bt b w Hb _ IH. apply (BL x04) with bt; [cbn; auto|exact Hb|exact IH].
    - intros bt b is b1 w Hb Hi _ IH rest d HE. destruct (enough_pos _ _ HE) as [d' ->]. cbn [app]. rewrite parse_eq, (op_block _ _ _ (or_intror (or_intror (or_introl eq_refl)))).
      apply bind_err. rewrite <- !app_assoc. cbn [app].
      unfold parse_block. erewrite bind_ok by (apply map_err_ok, (word_blocktype _ _ _ Hb)). erewrite bind_ok.
      2:{ unfold parse_body. edestruct (body_prefix d' (b2n x04 =? 4)%N _ _ Hi (x05 :: w ++ x05 :: rest)) as (f' & Hf & _ & ->); [| |apply Nat.lt_succ_diag_r|].
          - eapply enough_sub; [exact HE|]. len.
          - eapply enough_holds, enough_sub; [exact HE|]. len.
          - destruct f' as [|f']; [lia|]. cbn [body_loop]. erewrite bind_ok by (apply (word_item d' PR_Else [x05]); [eapply enough_sub; [exact HE|]; len|reflexivity]). reflexivity. }
      cbv beta iota. cbn [switch pmatch b2n Byte.to_N N.eqb Pos.eqb]. apply bind_err. unfold parse_body.
      assert (HE' : enough d' (length (w ++ x05 :: rest))) by (eapply enough_sub; [exact HE|len]). apply IH; [exact HE'|exact (enough_holds _ _ HE')|apply Nat.lt_succ_diag_r].
    - intros bt b cs b1 w Hb Hc _ IH rest d HE. destruct (enough_pos _ _ HE) as [d' ->]. cbn [app]. rewrite parse_eq, op_try.
      apply bind_err. rewrite <- !app_assoc.
      unfold parse_try_table. erewrite bind_ok by (apply map_err_ok, (word_blocktype _ _ _ Hb)).
      erewrite bind_ok by (apply map_err_ok; eapply (word _ _ d' _ _ cs b1); [apply parses_list, parses_catch|apply safe_list, safe_catch|eapply enough_sub; [exact HE|]; len|exact Hc]).
      apply bind_err. unfold parse_body.
      assert (HE' : enough d' (length (w ++ x05 :: rest))) by (eapply enough_sub; [exact HE|len]). apply IH; [exact HE'|exact (enough_holds _ _ HE')|apply Nat.lt_succ_diag_r].
    - intros is w Hi rest d fuel acc HE HA Hf. edestruct (body_prefix d false _ _ Hi) as (f' & Hf' & _ & ->); [exact HE|exact HA|exact Hf|].
      destruct f' as [|f']; [lia|]. cbn [body_loop]. erewrite bind_ok by (apply (word_item d PR_Else [x05]); [|reflexivity]; eapply enough_le; [|exact HE]; rewrite !app_length; cbn [length app]; lia). reflexivity.
    - intros ae is b w Hi Hw IH rest d fuel acc HE HA Hf. rewrite <- app_assoc in *. edestruct (body_prefix d ae _ _ Hi) as (f' & Hf' & _ & ->); [exact HE|exact HA|exact Hf|].
      destruct f' as [|f']; [lia|]. cbn [body_loop]. apply bind_err. apply IH. eapply enough_le; [|exact HE]. rewrite !app_length. cbn [length]. lia.
  Qed.
  Lemma expr_else_top is w rest : Binstrs is w -> enough stack_limit (length (w ++ x05 :: rest)) -> decode_expr (w ++ x05 :: rest) = (Err Expr_UnexpectedElse, rest).
  Proof.
    intros Hi HE. unfold decode_expr. edestruct (expr_prefix _ _ Hi) as (f' & e' & Hf' & ->); [exact HE|exact (enough_holds _ _ HE)|apply Nat.lt_succ_diag_r|].
    destruct f' as [|f']; [lia|]. cbn [expr_loop]. erewrite bind_ok by (apply map_err_ok, (word_item _ PR_Else [x05]); [|reflexivity]; eapply enough_le; [|exact HE]; rewrite !app_length; cbn [length app]; lia). reflexivity.
  Qed.
  Lemma expr_else_nested is b w rest : Binstrs is b -> unfinished w -> enough stack_limit (length (b ++ w ++ x05 :: rest)) ->
    decode_expr (b ++ w ++ x05 :: rest) = (Err (Expr_ParseInstruction (PE_Control Ctl_UnexpectedElse)), rest).
  Proof.
    intros Hi Hw HE. unfold decode_expr. edestruct (expr_prefix _ _ Hi) as (f' & e' & Hf' & ->); [exact HE|exact (enough_holds _ _ HE)|apply Nat.lt_succ_diag_r|].
    destruct f' as [|f']; [lia|]. cbn [expr_loop]. apply bind_err, map_err_err. apply misplaced_else; [exact Hw|]. eapply enough_le; [|exact HE]. rewrite !app_length. cbn [length]. lia.
  Qed.
End Bodies.

(** ** an unexpected [else] is reported only for a misplaced [else] *)
Lemma slice_sound {E A} (p : M (list byte) E A) G bs a rest : Parses p G -> p bs = (Ok a, rest) -> exists pre, bs = pre ++ rest /\ G a pre.
Proof.
  intros HP Hp. destruct (p_sound _ _ HP _ _ _ Hp) as (pre & Hb & HG). apply bsteps_slice in Hb as (rest' & -> & Hr). apply map_AByte_inj in Hr as ->. exists pre. auto.
Qed.
Lemma errs_map {R E E' A} (f : E -> E') (p : M R E A) (P : E' -> Prop) : Errs p (fun e => P (f e)) -> Errs (map_err f p) P.
Proof. intros HE r e r' Hm. unfold map_err in Hm. specialize (HE r). destruct (p r) as [[a|e0|pn|] r0]; try discriminate. injection Hm as <- <-. eapply HE. reflexivity. Qed.
Lemma errs_switch {R E A} n (arms : list (pat * M R E A)) d P : Forall (fun a => Errs (snd a) P) arms -> Errs d P -> Errs (switch n arms d) P.
Proof. intros HF Hd. induction HF as [|[q a] arms Ha _ IH]; [exact Hd|]. cbn. destruct (pmatch q n); assumption. Qed.
Lemma bind_err_inv {R E A B} (p : M R E A) (q : A -> M R E B) r e r' : bind p q r = (Err e, r') ->
  p r = (Err e, r') \/ exists a r1, p r = (Ok a, r1) /\ q a r1 = (Err e, r').
Proof. unfold bind. destruct (p r) as [[a|e0|pn|] r1]; intros Hb; try discriminate; [right; eauto|left; injection Hb as -> ->; reflexivity]. Qed.
Lemma grow_err {env : Env} {R E B} n (q : M R E B) r e r' : bind (alloc n) (fun _ => q) r = (Err e, r') -> q r = (Err e, r').
Proof. unfold bind, alloc. destruct (n <=? alloc_limit)%N; [exact (fun h => h)|discriminate]. Qed.
Section OnlyElse.
  Context {env : Env}.
  Notation P d := (parse d : M (list byte) ParseError ParseResult).
  Definition other (e : ParseError) : Prop := e <> PE_Control Ctl_UnexpectedElse.
  Ltac errs := repeat first
    [ apply errs_ret | apply errs_panic | apply errs_throw; discriminate | apply errs_map_err; intros ?; discriminate
    | apply errs_switch; [repeat (constructor; cbn [snd])|] | apply errs_bind; [|intros ?]
    | match goal with |- Errs (match ?x with _ => _ end) _ => destruct x end ].
  Lemma other_castop : Errs (map_err PE_Control decode_castop : M (list byte) _ _) other.
  Proof. apply errs_map. unfold decode_castop. errs. Qed.
  Lemma other_fb : Errs (parse_fb : M (list byte) _ _) other.
  Proof. unfold parse_fb, agg, rf, ctl. errs. all: try apply other_castop. Qed.
  Lemma other_fc : Errs (parse_fc : M (list byte) _ _) other.
  Proof. unfold parse_fc, num, mem, tab. errs. Qed.
  Lemma other_inner {A} op (tbl : list (N * A)) : Errs (inner op tbl : M (list byte) _ _) other.
  Proof. unfold inner. errs. Qed.
  Lemma other_fd : Errs (parse_fd : M (list byte) _ _) other.
  Proof. unfold parse_fd, vec. errs; try apply other_inner. Qed.
  Lemma other_op p b : ~ In b [x02; x03; x04; x1f] -> Errs (parse_op p b : M (list byte) _ _) other.
  Proof.
    intros HN. unfold parse_op, ctl, rf, var, tab, mem, num. cbv zeta.
    destruct b; try (exfalso; apply HN; cbn; tauto); cbn [switch pmatch b2n Byte.to_N N.eqb Pos.eqb N.leb N.compare Pos.compare Pos.compare_cont andb orb];
      first [apply errs_ret | apply errs_bind; [|intros ?; apply errs_ret]]; try apply other_fb; try apply other_fc; try apply other_fd; errs; try apply other_inner.
  Qed.
  Lemma open_cons ae i pre w : Binstr i pre -> open_body ae w -> open_body ae (pre ++ w).
  Proof.
    intros Hi HO. destruct HO as [is w Hw|ae is b w Hb Hw].
    - eapply open_here. constructor; eassumption.
    - rewrite app_assoc. eapply open_inside; [|exact Hw]. constructor; eassumption.
  Qed.
  Lemma body_else d ae : (forall bs rest, P d bs = (Err (PE_Control Ctl_UnexpectedElse), rest) -> exists w, bs = w ++ x05 :: rest /\ unfinished w) ->
    forall fuel acc bs rest, body_loop (P d) ae fuel acc bs = (Err (PE_Control Ctl_UnexpectedElse), rest) -> exists w, bs = w ++ x05 :: rest /\ open_body ae w.
  Proof.
    intros IHd. induction fuel as [|fuel IH]; cbn [body_loop]; intros acc bs rest Hl; [discriminate|].
    apply bind_err_inv in Hl as [Hl|(pr & bs' & Hp & Hl)].
    - destruct (IHd _ _ Hl) as (w & -> & Hw). exists w. split; [reflexivity|]. apply (open_inside ae [] []); [constructor|exact Hw].
    - destruct (slice_sound _ _ _ _ _ (parses_parse d) Hp) as (pre & -> & HG). destruct pr as [i| |]; cbn [Gpr] in HG.
      + apply grow_err in Hl. destruct (IH _ _ _ Hl) as (w & -> & Hw). exists (pre ++ w). rewrite app_assoc. split; [reflexivity|]. eapply open_cons; eassumption.
      + destruct ae; [discriminate|]. injection Hl as <-. subst pre. exists []. split; [reflexivity|]. apply (open_here [] []). constructor.
      + discriminate.
  Qed.
  Lemma only_else d : forall bs rest, P d bs = (Err (PE_Control Ctl_UnexpectedElse), rest) -> exists w, bs = w ++ x05 :: rest /\ unfinished w.
  Proof.
    induction d as [|d IH]; intros bs rest Hp; [discriminate|]. destruct bs as [|b bs].
    - exfalso. unfold parse in Hp. apply bind_err_inv in Hp as [Hp|(a & r1 & Hp & _)]; vm_compute in Hp; discriminate.
    - rewrite parse_eq in Hp. destruct (in_dec Byte.byte_eq_dec b [x02; x03; x04; x1f]) as [Hin|Hn].
      2:{ exfalso. eapply (other_op _ _ Hn); [exact Hp|reflexivity]. }
      assert (HB : In b [x02; x03; x04] \/ b = x1f) by (cbn in *; intuition auto). clear Hin. destruct HB as [Hb| ->].
      + rewrite (op_block _ _ _ Hb) in Hp. apply bind_err_inv in Hp as [Hp|(a & r1 & _ & Hp)]; [|discriminate].
        unfold parse_block in Hp. apply bind_err_inv in Hp as [Hp|(bt & r1 & Hbt & Hp)].
        { exfalso. unfold ctl, map_err in Hp. destruct (decode_blocktype bs) as [[]]; discriminate. }
        unfold ctl, map_err in Hbt. destruct (decode_blocktype bs) as [[bt'| | |] r0] eqn:Eb; try discriminate. injection Hbt as -> ->.
        destruct (slice_sound _ _ _ _ _ parses_blocktype Eb) as (b1 & -> & HBt).
        apply bind_err_inv in Hp as [Hp|([in1 parsed] & r2 & Hbody & Hp)].
        * destruct (body_else d _ IH _ _ _ _ Hp) as (w & -> & Hw). exists (b :: b1 ++ w). split; [cbn; rewrite <- app_assoc; reflexivity|].
          destruct Hb as [<-|[<-|[<-|[]]]]; econstructor; eassumption.
        * destruct (slice_sound _ _ _ _ _ (parses_body _ (parses_parse d) _) Hbody) as (pre & -> & bs1 & HI & HD). cbn [fst snd] in HI, HD.
          destruct Hb as [<-|[<-|[<-|[]]]]; [discriminate|discriminate|]. cbn in HD. destruct HD as [[-> ->]|(_ & -> & ->)]; [discriminate|].
          cbn [switch pmatch b2n Byte.to_N N.eqb Pos.eqb] in Hp. apply bind_err_inv in Hp as [Hp|([in2 p2] & r3 & _ & Hp)]; [|discriminate].
          destruct (body_else d _ IH _ _ _ _ Hp) as (w & -> & Hw). exists (x04 :: b1 ++ bs1 ++ x05 :: w). split; [cbn; rewrite <- !app_assoc; reflexivity|]. econstructor; eassumption.
      + rewrite op_try in Hp. apply bind_err_inv in Hp as [Hp|(a & r1 & _ & Hp)]; [|discriminate].
        unfold parse_try_table in Hp. apply bind_err_inv in Hp as [Hp|(bt & r1 & Hbt & Hp)].
        { exfalso. unfold ctl, map_err in Hp. destruct (decode_blocktype bs) as [[]]; discriminate. }
        unfold ctl, map_err in Hbt. destruct (decode_blocktype bs) as [[bt'| | |] r0] eqn:Eb; try discriminate. injection Hbt as -> ->.
        destruct (slice_sound _ _ _ _ _ parses_blocktype Eb) as (b1 & -> & HBt).
        apply bind_err_inv in Hp as [Hp|(cs & r2 & Hcs & Hp)].
        { exfalso. unfold ctl, map_err in Hp. destruct (decode_list decode_catch r1) as [[]]; discriminate. }
        unfold ctl, map_err in Hcs. destruct (decode_list decode_catch r1) as [[cs'| | |] r0] eqn:Ec; try discriminate. injection Hcs as -> ->.
        destruct (slice_sound _ _ _ _ _ (parses_list _ _ parses_catch) Ec) as (b2 & -> & HCs).
        apply bind_err_inv in Hp as [Hp|([in2 p2] & r3 & _ & Hp)]; [|discriminate].
        destruct (body_else d _ IH _ _ _ _ Hp) as (w & -> & Hw). exists (x1f :: b1 ++ b2 ++ w). split; [cbn; rewrite <- !app_assoc; reflexivity|]. econstructor; eassumption.
  Qed.
  Lemma expr_only_else fuel : forall acc e bs rest,
    (expr_loop fuel acc e bs = (Err Expr_UnexpectedElse, rest) -> exists is w, bs = w ++ x05 :: rest /\ Binstrs is w) /\
    (expr_loop fuel acc e bs = (Err (Expr_ParseInstruction (PE_Control Ctl_UnexpectedElse)), rest) -> exists is b w, bs = b ++ w ++ x05 :: rest /\ Binstrs is b /\ unfinished w).
  Proof.
    induction fuel as [|fuel IH]; intros acc e bs rest; cbn [expr_loop]; [split; discriminate|].
    split; intros Hl; (apply bind_err_inv in Hl as [Hl|(pr & bs' & Hp & Hl)];
      [unfold map_err in Hl; destruct (P stack_limit bs) as [[]] eqn:Ep; try discriminate; injection Hl as -> ->
      |unfold map_err in Hp; destruct (P stack_limit bs) as [[]] eqn:Ep; try discriminate; injection Hp as -> ->;
       destruct (slice_sound _ _ _ _ _ (parses_parse _) Ep) as (pre & -> & HG); destruct pr as [i| |]; cbn [Gpr] in HG; try discriminate]).
    - apply grow_err in Hl. destruct (proj1 (IH _ _ _ _) Hl) as (is & w & -> & Hw). exists (i :: is), (pre ++ w). rewrite app_assoc. split; [reflexivity|]. constructor; assumption.
    - injection Hl as <-. subst pre. exists [], []. split; [reflexivity|constructor].
    - destruct (only_else _ _ _ Ep) as (w & -> & Hw). exists [], [], w. repeat split; [constructor|exact Hw].
    - apply grow_err in Hl. destruct (proj2 (IH _ _ _ _) Hl) as (is & b & w & -> & HI & Hw). exists (i :: is), (pre ++ b), w. rewrite <- app_assoc. repeat split; [constructor; assumption|exact Hw].
  Qed.
End OnlyElse.
