(** Every vector of a decoded module was allocated within the limit. *)
From Verif Require Import Model.Prelude Model.Io Model.Ast Model.Errors Model.Integer Model.Helpers Model.Types Model.Instr Model.Sections Model.Module.
From Verif Require Import Spec.Lang Spec.Types Spec.Instr Spec.Module Spec.Streams Spec.Resources.
From Verif Require Import Proofs.Machine Proofs.Reads Proofs.Safe Proofs.Parses Proofs.Leb Proofs.Loop Proofs.GHelpers Proofs.GTypes Proofs.GInstr Proofs.GControl Proofs.GSections Proofs.GModule Proofs.GAssemble Proofs.SafeWalk Proofs.Need.
From Coq Require Import Lia ZifyBool ZifyNat ZifyN.

Section Fits.
  Context {env : Env}.
  Definition F (l : list nat) : Prop := Forall (fun n => (N.of_nat n <= alloc_limit)%N) l.
  Lemma F_nil : F [].
  Proof. constructor. Qed.
  Lemma F_cons n l : F (n :: l) <-> (N.of_nat n <= alloc_limit)%N /\ F l.
  Proof. apply Forall_cons_iff. Qed.
  Lemma F_app l1 l2 : F (l1 ++ l2) <-> F l1 /\ F l2.
  Proof. apply Forall_app. Qed.
  Lemma F_flat {A} (v : A -> list nat) l : F (flat_map v l) <-> Forall (fun a => F (v a)) l.
  Proof. apply forall_flat. Qed.
  Lemma F_zero : (N.of_nat 0 <= alloc_limit)%N.
  Proof. apply N.le_0_l. Qed.

  Section R.
  Context {R C : Type} `{Lawful R C}.
  Lemma fit_list {E T} (f : M R E T) (v : T -> list nat) : Ens f (fun a => F (v a)) -> Ens (decode_list f) (fun l => F (length l :: flat_map v l)).
  Proof.
    intros Hf r l r' HE. apply F_cons. split; [|apply F_flat; exact (ens_list f _ Hf _ _ _ HE)].
    unfold decode_list in HE. apply Need.list_ok in HE as (n & r0 & st' & _ & Hn & Hl & _). rewrite Hl. exact Hn.
  Qed.
  Lemma fit_len {E T} (f : M R E T) : Ens (decode_list f) (fun l => F [length l]).
  Proof. eapply ens_weaken; [apply (fit_list f (fun _ => [])); intros ? ? ? _; apply F_nil|]. intros l HF. apply F_cons in HF as [HF _]. apply F_cons. split; [exact HF|apply F_nil]. Qed.
  Lemma fit_bytes : Ens (decode_byte_vector : M R _ _) (fun l => F [length l]).
  Proof.
    intros r l r' HE. unfold decode_byte_vector, bind, map_err, alloc in HE. destruct (decode_u32 r) as [[n| | |] r0]; try discriminate.
    destruct (N.leb_spec n alloc_limit); [|discriminate]. cbn [ret] in HE. destruct (read_exact n r0) as [[b| | |] r1] eqn:Er; try discriminate. injection HE as <- _.
    apply read_exact_sound in Er as [Er _]. apply F_cons. split; [|apply F_nil]. unfold lenN in Er. rewrite Er. assumption.
  Qed.
  Lemma fit_name : Ens (decode_name : M R _ _) (fun l => F [length l]).
  Proof. unfold decode_name. eapply ens_bind; [apply ens_map_err, (fit_bytes)|]. intros b HF. destruct (from_utf8 b); [apply ens_ret, HF|apply ens_throw]. Qed.
  Lemma fit_rest : Ens (read_to_end : M R _ _) (fun l => F [length l]).
  Proof.
    intros r l r' HE. destruct (read_to_end_spec _ _ _ HE) as (bs & c1 & _ & [(Hl & [([= <-] & _)|(k & _ & ? & _)])|(_ & ?)]); [|discriminate..].
    apply F_cons. split; [exact Hl|apply F_nil].
  Qed.
  End R.

  (** the solver: [F] of a result from [F] of its parts *)
  Ltac fsolve := cbn [flat_map app]; rewrite ?F_cons, ?F_app, ?F_flat in *; repeat split; try apply F_nil; try apply F_zero; try assumption; try tauto.
  Tactic Notation "kn" uconstr(l) := eapply ens_bind; [apply ens_map_err; apply l|intros ? ?; cbv beta in *].
  Ltac skip := apply ens_then; intros ?.

  Section R2.
  Context {R C : Type} `{Lawful R C}.
  Hypothesis Hone : (N.of_nat 1 <= alloc_limit)%N.
  (** types *)
  Lemma fit_result : Ens (decode_result_type : M R _ _) (fun l => F [length l]).
  Proof. unfold decode_result_type. apply ens_map_err, (fit_len (C:=C)). Qed.
  Lemma fit_comptype : Ens (decode_comptype : M R _ _) (fun t => F (comptype_vectors t)).
  Proof.
    unfold decode_comptype. skip. apply ens_switch_cons; [skip; apply ens_ret, F_nil|]. apply ens_switch_cons; [kn (fit_len (C:=C)); apply ens_ret; assumption|].
    apply ens_switch_cons; [|apply ens_switch_nil, ens_throw]. kn fit_result. kn fit_result. apply ens_ret. cbn [comptype_vectors]. fsolve.
  Qed.
  End R2.
  Section R3.
  Context {R C : Type} `{Lawful R C}.
  Hypothesis Hone : (N.of_nat 1 <= alloc_limit)%N.
  Lemma fit_subtype : Ens (decode_subtype : M R _ _) (fun st => F (length (supertypes st) :: comptype_vectors (comptype st))).
  Proof.
    unfold decode_subtype. skip. apply ens_switch_cons; [|apply ens_switch_nil, ens_with_chain].
    - kn (fit_len (C:=C)). kn (fit_comptype (C:=C)). apply ens_ret. cbn [supertypes comptype]. fsolve.
    - kn (fit_comptype (C:=Pend C)). apply ens_ret. cbn [supertypes comptype length]. fsolve.
  Qed.
  End R3.
  Section R4.
  Context {R C : Type} `{Lawful R C}.
  Hypothesis Hone : (N.of_nat 1 <= alloc_limit)%N.
  Lemma fit_rectype : Ens (decode_rectype : M R _ _) (fun t => F (rectype_vectors t)).
  Proof.
    unfold decode_rectype. skip. destruct (_ =? _)%N.
    - apply ens_map_err. unfold rectype_vectors. apply fit_list, fit_subtype.
    - apply ens_with_chain. kn (fit_subtype (C:=Pend C)). apply ens_ret. unfold rectype_vectors. cbn [length flat_map]. rewrite app_nil_r, F_cons. split; assumption.
  Qed.
  Lemma fit_import : Ens (parse_import : M R _ _) (fun i => F (import_vectors i)).
  Proof. unfold parse_import. kn (fit_name (C:=C)). kn (fit_name (C:=C)). skip. apply ens_ret. unfold import_vectors. cbn [im_module im_item]. fsolve. Qed.
  Lemma fit_export : Ens (parse_export : M R _ _) (fun e => F [length (ex_name e)]).
  Proof. unfold parse_export. kn (fit_name (C:=C)). do 2 skip. destruct (externidx_from _ _); [apply ens_ret; assumption|apply ens_throw]. Qed.
  Lemma fit_custom : Ens (decode_section_custom : M R _ _) (fun c => F (custom_vectors c)).
  Proof. unfold decode_section_custom. kn (fit_name (C:=C)). kn (fit_rest (C:=C)). apply ens_ret. unfold custom_vectors. cbn [cs_name cs_contents]. fsolve. Qed.

  (** instructions *)
  Definition fit_pr (x : ParseResult) : Prop := match x with PR_Instr i => F (instr_vectors i) | _ => True end.
  Definition fit_is (is : list instr) : Prop := F (length is :: flat_map instr_vectors is).
  Lemma fit_rev is : fit_is is -> fit_is (rev is).
  Proof. unfold fit_is. rewrite !F_cons, !F_flat, rev_length. intros [HA HB]. split; [exact HA|apply Forall_rev, HB]. Qed.
  Lemma fit_is_nil : fit_is [].
  Proof. apply F_cons. split; [apply F_zero|apply F_nil]. Qed.
  Lemma fit_push i is : (lenN (i :: is) <= alloc_limit)%N -> F (instr_vectors i) -> fit_is is -> fit_is (i :: is).
  Proof. unfold fit_is. rewrite !F_cons, !F_flat, Forall_cons_iff. intros HA HB [_ HC]. auto. Qed.
  Lemma fit_body (p : M R ParseError ParseResult) ae : Ens p fit_pr -> Ens (parse_body p ae) (fun x => fit_is (fst x)).
  Proof.
    intros Hp r [is tok] r' HE. unfold parse_body in HE. cbn [fst].
    assert (HG : forall n acc r, fit_is acc -> body_loop p ae n acc r = (Ok (is, tok), r') -> fit_is is); [|eapply HG; [apply fit_is_nil|exact HE]].
    clear r HE. induction n as [|n IH]; intros acc r HA HE; [discriminate|]. cbn [body_loop] in HE. unfold bind at 1 in HE. destruct (p r) as [[x| | |] r1] eqn:Ep; try discriminate.
    pose proof (Hp _ _ _ Ep) as HX. destruct x as [i| |].
    - apply grown in HE as [Hn HE]. eapply IH; [|exact HE]. apply fit_push; assumption.
    - destruct ae; [|discriminate]. injection HE as <- _ _. apply fit_rev, HA.
    - injection HE as <- _ _. apply fit_rev, HA.
  Qed.
  Local Notation V := (fun i => F (instr_vectors i)).
  Lemma fit_block p op : Ens p fit_pr -> Ens (parse_block p op : M R _ _) V.
  Proof.
    intros Hp. unfold parse_block. skip. eapply ens_bind; [apply fit_body, Hp|]. intros [in1 tok] H1'. cbn [fst] in H1'.
    apply ens_switch_cons; [apply ens_ret, H1'|]. apply ens_switch_cons; [apply ens_ret, H1'|]. apply ens_switch_cons; [|apply ens_switch_nil, ens_panic].
    destruct tok; [apply ens_panic| |].
    - eapply ens_bind; [apply fit_body, Hp|]. intros [in2 tok2] H2'. cbn [fst] in H2'. apply ens_ret. cbn [instr_vectors]. rewrite app_comm_cons. apply F_app. split; assumption.
    - apply ens_ret. cbn [instr_vectors]. rewrite app_nil_r. exact H1'.
  Qed.
  Lemma fit_try p : Ens p fit_pr -> Ens (parse_try_table p : M R _ _) V.
  Proof.
    intros Hp. unfold parse_try_table, ctl. skip. kn (fit_len (C:=C)). eapply ens_bind; [apply fit_body, Hp|]. intros [in1 tok] H1'. apply ens_ret. cbn [instr_vectors]. 
    apply F_cons. split; [|exact H1']. match goal with HF : F [_] |- _ => apply F_cons in HF as [HF _]; exact HF end.
  Qed.
  Definition none (i : instr) : Prop := instr_vectors i = [].
  Lemma none_fit i : none i -> V i.
  Proof. unfold none. intros ->. apply F_nil. Qed.
  Lemma none_assoc {E} op tbl (d : M R E instr) : forallb (fun x => match instr_vectors (snd x) with [] => true | _ => false end) tbl = true -> Ens d none -> Ens (match assocN op tbl with Some i => ret i | None => d end) none.
  Proof.
    intros HT Hd. destruct (assocN op tbl) as [i|] eqn:Ea; [|exact Hd]. apply ens_ret. apply GInstr.assocN_In in Ea. rewrite forallb_forall in HT. specialize (HT _ Ea). cbn [snd] in HT. unfold none. destruct (instr_vectors i); [reflexivity|discriminate].
  Qed.
  Ltac lf := repeat first [ apply ens_ret; reflexivity | apply ens_throw | apply ens_panic | apply ens_switch_cons | apply ens_switch_nil | apply none_assoc; [reflexivity|]
    | eapply ens_bind; [apply (had_inner _ _ (fun f => forall m, none (f m))); repeat (constructor; [intros; reflexivity|]); constructor|intros ? HX; apply ens_ret, HX]
    | eapply ens_bind; [apply (had_inner _ _ (fun f => forall m l, none (f m l))); repeat (constructor; [intros; reflexivity|]); constructor|intros ? HX; apply ens_ret, HX]
    | apply ens_then; intros ? ].
  Lemma fit_fb : Ens (parse_fb : M R _ _) none.
  Proof. unfold parse_fb. lf. destruct a0. lf. destruct (_ =? _)%N; lf. Qed.
  Lemma fit_fc : Ens (parse_fc : M R _ _) none.
  Proof. unfold parse_fc. lf. Qed.
  Lemma fit_fd : Ens (parse_fd : M R _ _) none.
  Proof. unfold parse_fd. lf. Qed.
  Lemma fit_op p opcode : Ens p fit_pr -> Ens (parse_op p opcode : M R _ _) fit_pr.
  Proof.
    intros Hp. unfold parse_op. do 2 (apply ens_switch_cons; [apply ens_ret; exact I|]). apply ens_switch_nil.
    assert (HL : forall E (q : M R E instr), Ens q none -> Ens q V) by (intros E q Hq; eapply ens_weaken; [exact Hq|exact none_fit]).
    eapply (ens_bind _ _ V); [|intros i Hi; apply ens_ret; exact Hi].
    repeat (apply ens_switch_cons; [first [apply fit_block, Hp | apply fit_try, Hp | apply HL; solve [lf | apply fit_fb | apply fit_fc | apply fit_fd]
      | solve [kn (fit_len (C:=C)); apply ens_ret; assumption] | solve [kn (fit_len (C:=C)); skip; apply ens_ret; assumption]]|]).
    apply HL. lf.
  Qed.
  Lemma fit_parse d : Ens (parse d : M R _ _) fit_pr.
  Proof. induction d as [|d IH]; [apply ens_panic|]. cbn [parse]. skip. apply fit_op, IH. Qed.
  Lemma fit_expr : Ens (decode_expr : M R _ _) (fun x => F (expr_vectors (fst x))).
  Proof.
    intros r [e x] r' HE. unfold decode_expr in HE. cbn [fst].
    assert (HG : forall n acc b r, fit_is acc -> expr_loop n acc b r = (Ok (e, x), r') -> fit_is e); [|eapply HG; [apply fit_is_nil|exact HE]].
    clear r HE. induction n as [|n IH]; intros acc b r HA HE; [discriminate|]. cbn [expr_loop] in HE. unfold bind at 1 in HE. destruct (map_err _ _ r) as [[y| | |] r1] eqn:Ep; try discriminate.
    pose proof (ens_map_err _ _ _ (fit_parse stack_limit) _ _ _ Ep) as HX. destruct y as [i| |]; [|discriminate|].
    - apply grown in HE as [Hn HE]. eapply IH; [|exact HE]. apply fit_push; assumption.
    - injection HE as <- _ _. apply fit_rev, HA.
  Qed.
  Lemma fit_expr_only : Ens (decode_expr_only : M R _ _) (fun e => F (expr_vectors e)).
  Proof. unfold decode_expr_only. eapply ens_bind; [apply fit_expr|]. intros [e x] HX. apply ens_ret, HX. Qed.
  Lemma fit_one i : none i -> F (expr_vectors [i]).
  Proof. intros Hi. unfold expr_vectors. cbn [length flat_map]. rewrite Hi. apply F_cons. split; [exact Hone|apply F_nil]. Qed.
  Lemma fit_table : Ens (decode_table : M R _ _) (fun t => F (expr_vectors (t_init t))).
  Proof.
    unfold decode_table. skip. destruct (_ =? _)%N.
    - skip. destruct (negb _); [apply ens_throw|]. skip. kn fit_expr_only. apply ens_ret. assumption.
    - apply ens_with_chain. skip. apply ens_ret, fit_one. reflexivity.
  Qed.
  Lemma fit_global : Ens (parse_global : M R _ _) (fun t => F (expr_vectors (g_init t))).
  Proof. unfold parse_global. skip. kn fit_expr_only. apply ens_ret. assumption. Qed.
  Lemma fit_data : Ens (parse_data : M R _ _) (fun d => F (data_vectors d)).
  Proof.
    assert (HD : forall n l, F [n] -> F l -> F (n :: l)) by (intros n l HA HB; apply F_cons; apply F_cons in HA as [HA _]; auto).
    unfold parse_data. skip. apply ens_switch_cons; [|apply ens_switch_cons; [|apply ens_switch_cons; [|apply ens_switch_nil, ens_throw]]].
    - kn fit_expr_only. kn (fit_bytes (C:=C)). apply ens_ret. apply HD; assumption.
    - kn (fit_bytes (C:=C)). apply ens_ret. apply HD; [assumption|apply F_nil].
    - skip. kn fit_expr_only. kn (fit_bytes (C:=C)). apply ens_ret. apply HD; assumption.
  Qed.
  Lemma fit_reffuncs y : F [length y] -> F (length (funcidx_into_reffunc y) :: flat_map expr_vectors (funcidx_into_reffunc y)).
  Proof.
    intros HF. apply F_cons in HF as [HF _]. apply F_cons. unfold funcidx_into_reffunc. rewrite map_length. split; [exact HF|]. apply F_flat, Forall_map, Forall_forall. intros; apply fit_one. reflexivity.
  Qed.
  Lemma fit_elem : Ens (parse_elem : M R _ _) (fun e => F (elem_vectors e)).
  Proof.
    assert (HL : forall {E} (f : _ -> E), Ens (map_err f (decode_list (decode_expr_only : M R _ _))) (fun l => F (length l :: flat_map expr_vectors l))) by (intros; apply ens_map_err, fit_list, fit_expr_only).
    assert (HI : forall {E} (f : _ -> E), Ens (map_err f (decode_list (decode_funcidx : M R _ _))) (fun l => F [length l])) by (intros; apply ens_map_err, fit_len).
    assert (HE : forall {E} (f : _ -> E), Ens (map_err f (decode_expr_only : M R _ _)) (fun e => F (expr_vectors e))) by (intros; apply ens_map_err, fit_expr_only).
    unfold parse_elem. skip.
    repeat (apply ens_switch_cons; [repeat first [apply ens_ret; unfold elem_vectors; cbn [e_init e_mode]; rewrite ?app_nil_r, ?app_comm_cons; solve [apply fit_reffuncs; assumption | assumption | apply F_app; split; [first [assumption|apply fit_reffuncs; assumption]|assumption]]
      | eapply ens_bind; [apply HL|intros ? ?] | eapply ens_bind; [apply HI|intros ? ?] | eapply ens_bind; [apply HE|intros ? ?] | apply ens_then; intros ?]|]).
    apply ens_switch_nil, ens_throw.
  Qed.
  End R4.

  (** sections *)
  Definition section_vectors (x : section) : list nat :=
    match x with
    | SCustom c => custom_vectors c
    | SType l => length l :: flat_map rectype_vectors l
    | SImport l => length l :: flat_map import_vectors l
    | SFunction l => [length l]
    | STable l => length l :: flat_map (fun t => expr_vectors (t_init t)) l
    | SMemory l => [length l]
    | STag l => [length l]
    | SGlobal l => length l :: flat_map (fun g => expr_vectors (g_init g)) l
    | SExport l => length l :: flat_map (fun e => [length (ex_name e)]) l
    | SStart _ | SDataCount _ => []
    | SElement l => length l :: flat_map elem_vectors l
    | SCode l => length l :: flat_map (fun c => length (fst c) :: expr_vectors (snd c)) l
    | SData l => length l :: flat_map data_vectors l
    end.
  Section R5.
  Context {R C : Type} `{Lawful R C}.
  Hypothesis Hone : (N.of_nat 1 <= alloc_limit)%N.
  Lemma fit_code : Ens (parse_code : M R _ _) (fun c => F (expr_vectors (c_expr c))).
  Proof.
    unfold parse_code. apply ens_then; intros sz. eapply ens_bind; [apply (ens_with_take sz _ (fun y => F (expr_vectors (fst (snd y)))))|].
    - apply ens_then; intros ls. eapply ens_bind; [apply ens_map_err, fit_expr|]. intros [e x] HX. apply ens_ret, HX.
    - intros [[ls [e x]] lim] HX. destruct (negb _); [apply ens_then; intros; apply ens_throw|]. apply ens_ret, HX.
  Qed.
  Definition QF (k : SectionKind) (s s' : st) : Prop := exists x, kind_of x = k /\ apply_section x s = Some s' /\ F (section_vectors x).
  Lemma fit_section k s : Ens (decode_section k s : M R _ _) (QF k s).
  Proof.
    assert (HP : forall E E' A (f : E -> E') (p : M R E A) (c : A -> section) g, Ens p (fun a => F (section_vectors (c a))) ->
      (forall a, kind_of (c a) = k /\ apply_section (c a) s = Some (g a)) -> Ens (bind (map_err f p) (fun a => ret (g a))) (QF k s)).
    { intros E E' A f p c g Hp Hc. eapply ens_bind; [apply ens_map_err, Hp|]. intros a Ha. apply ens_ret. exists (c a). destruct (Hc a) as (K1 & K2). auto. }
    destruct k; cbn [decode_section]; unfold decode_type_section, decode_import_section, decode_function_section, decode_memory_section, decode_tag_section, decode_export_section, decode_table_section, decode_global_section, decode_element_section, decode_code_section, decode_data_section.
    - apply (HP _ _ _ _ _ SCustom); [cbn [section_vectors]; apply fit_custom|]. repeat split.
    - apply (HP _ _ _ _ _ SType); [cbn [section_vectors]; apply ens_map_err, fit_list, fit_rectype, Hone|]. repeat split.
    - apply (HP _ _ _ _ _ SImport); [cbn [section_vectors]; apply ens_map_err, fit_list, fit_import|]. repeat split.
    - apply (HP _ _ _ _ _ SFunction); [cbn [section_vectors]; apply ens_map_err, fit_len|]. repeat split.
    - apply (HP _ _ _ _ _ STable); [cbn [section_vectors]; apply ens_map_err, fit_list, fit_table, Hone|]. repeat split.
    - apply (HP _ _ _ _ _ SMemory); [cbn [section_vectors]; apply ens_map_err, fit_len|]. repeat split.
    - apply (HP _ _ _ _ _ STag); [cbn [section_vectors]; apply ens_map_err, fit_len|]. repeat split.
    - apply (HP _ _ _ _ _ SGlobal); [cbn [section_vectors]; apply ens_map_err, fit_list, fit_global|]. repeat split.
    - apply (HP _ _ _ _ _ SExport); [cbn [section_vectors]; apply ens_map_err, fit_list, fit_export|]. repeat split.
    - apply (HP _ _ _ _ _ SStart); [intros ? ? ? _; apply F_nil|]. repeat split.
    - apply (HP _ _ _ _ _ SElement); [cbn [section_vectors]; apply ens_map_err, fit_list, fit_elem, Hone|]. repeat split.
    - apply (HP _ _ _ _ _ SDataCount); [intros ? ? ? _; apply F_nil|]. repeat split.
    - eapply ens_bind with (P := fun cs => F (length cs :: flat_map (fun c => expr_vectors (c_expr c)) cs) /\ exists bs, Blist Gcode cs bs).
      { apply ens_map_err, ens_map_err. intros r a r' HE. split; [eapply (fit_list (C:=C)); [exact fit_code|exact HE]|]. destruct (p_sound (C:=C) _ _ (parses_list (C:=C) _ _ (parses_code (C:=C))) _ _ _ HE) as (w & _ & HG). eauto. }
      intros cs [HX (bs & HG)].
      destruct (N.eqb_spec (lenN cs) (lenN (funcs (st_module s)))) as [Hlen|]; cbn [negb]; [|apply ens_throw]. intros r s' r' HE. unfold bind in HE.
      destruct (fill_codes _ _ _ _ r) as [[[fs d]| | |] r1] eqn:EF; try discriminate. injection HE as <- <-.
      pose proof (had_fill _ _ _ _ _ _ _ EF) as HF.
      unfold lenN in Hlen. assert (Hlen' : length cs = length (funcs (st_module s))) by lia.
      destruct (p_sound _ _ (fill_codes_pure (R:=R) cs [] (funcs (st_module s)) (st_data_idx s) Hlen') _ _ _ EF) as (w & _ & HQ).
      destruct HQ as [HQ _]. injection HQ as -> ->. exists (SCode (map code_fn cs)). split; [reflexivity|]. split.
      + cbn [apply_section]. unfold lenN. rewrite map_length, Hlen', N.eqb_refl. rewrite fill_map, (flags _ _ HG). reflexivity.
      + cbn [section_vectors]. rewrite map_length. apply F_cons in HX as [HX1 HX2]. apply F_cons. split; [exact HX1|].
        apply F_flat, Forall_map. rewrite F_flat in HX2. rewrite Forall_forall in *. intros c Hc. apply F_cons. split; [apply (HF c Hc)|apply (HX2 c Hc)].
    - eapply ens_bind; [apply ens_map_err, ens_map_err, fit_list, fit_data|]. intros x HX. destruct (data_count (st_module s)) eqn:ED.
      + destruct (_ =? _)%N eqn:EQ; cbn [negb]; [|apply ens_throw]. apply ens_ret. exists (SData x). cbn [apply_section]. rewrite ED, EQ. repeat split. exact HX.
      + apply ens_ret. exists (SData x). cbn [apply_section]. rewrite ED. repeat split. exact HX.
  Unshelve. all: first [exact C | eassumption].
  Qed.
  End R5.
  Section R6.
  Context {R C : Type} `{Lawful R C}.
  Hypothesis Hone : (N.of_nat 1 <= alloc_limit)%N.
  Definition heads (s : st) : Prop := (N.of_nat (length (section_headers (st_module s))) <= alloc_limit)%N.
  Lemma fit_step h s (r : R) s' r' : section_step h s r = (Ok s', r') -> exists x, apply_one (x, sh_size h) s = Some s' /\ F (section_vectors x) /\ heads s'.
  Proof.
    destruct h as [hk hs]. unfold section_step, with_take. cbn [sh_kind sh_size]. intros Hr. unfold bind in Hr.
    pose proof (validate_pure (st_module s) (mkHeader hk hs) (mkTake hs r)) as HV; cbn [sh_kind] in HV.
    destruct (order_ok (st_module s) hk) eqn:EO; [cbn [sh_kind sh_size] in *; rewrite HV in Hr|destruct HV as (e & HV); rewrite HV in Hr; discriminate].
    destruct (decode_section hk s (mkTake hs r)) as [[s1|e|pn|] t] eqn:E; try discriminate.
    destruct (N.eqb_spec (t_limit t) 0) as [El|El]; cbn [negb] in Hr.
    2: { unfold sub_u64 in Hr. destruct (_ <=? _)%N; discriminate. }
    unfold alloc in Hr. match type of Hr with context [(?a <=? alloc_limit)%N] => destruct (N.leb_spec a alloc_limit) as [Ha'|]; [|discriminate] end.
    injection Hr as <- <-. destruct (fit_section Hone hk s _ _ _ E) as (x & Hk & Ha & Hn). exists x. split; [|split; [exact Hn|]].
    - unfold apply_one. cbn [fst snd]. rewrite Hk, EO, Ha. reflexivity.
    - unfold heads. destruct (sk_eqb hk SK_Custom); exact Ha'.
  Qed.
  Lemma fit_loop n : forall s (r : R) s' r', heads s -> section_loop n s r = (Ok s', r') -> exists xs, apply_all xs s = Some s' /\ Forall (fun x => F (section_vectors (fst x))) xs /\ heads s'.
  Proof.
    induction n as [|n IH]; intros s r s' r' HH Hr; [discriminate|]. cbn [section_loop] in Hr |- *.
    unfold bind at 1, map_err in Hr. destruct (decode_section_header r) as [[[h|]| | |] r2] eqn:Eh; try discriminate.
    - unfold bind in Hr. destruct (section_step h s r2) as [[s1|e|pn|] r3] eqn:Es; try discriminate.
      apply fit_step in Es as (x & Ha & Hn & Hh). apply IH in Hr as (xs & Has & Hns & Hh'); [|exact Hh]. exists ((x, sh_size h) :: xs). split; [cbn [apply_all]; rewrite Ha; exact Has|]. split; [constructor; assumption|exact Hh'].
    - injection Hr as <- <-. exists []. split; [reflexivity|]. split; [constructor|exact HH].
  Qed.
  Lemma fit_module (r : R) m r' : decode_module r = (Ok m, r') -> exists xs, assemble xs = Some m /\ Forall (fun x => F (section_vectors (fst x))) xs /\ (N.of_nat (length xs) <= alloc_limit)%N.
  Proof.
    unfold decode_module. unfold bind at 1. intros Hr.
    destruct (map_err DM_ParsePreamble parse_preamble r) as [[u|e|pn|] r1] eqn:E1; try discriminate.
    unfold bind in Hr |- *. unfold section_loop' in Hr |- *.
    destruct (section_loop _ _ r1) as [[s|e|pn|] r2] eqn:E2; try discriminate.
    assert (H00 : heads (mkSt default_module false false)) by exact F_zero.
    destruct (fit_loop _ _ _ _ _ H00 E2) as (xs & Hall & HL & HH). exists xs.
    pose proof (final_pure s r2) as HF. destruct (final_ok s) eqn:EF; [|destruct HF as (e & HF)]; rewrite HF in Hr; [|discriminate].
    injection Hr as <- <-. assert (HA : assemble xs = Some (st_module s)) by (unfold assemble; rewrite Hall, EF; reflexivity).
    split; [exact HA|]. split; [exact HL|]. apply assemble_iff in HA as [_ HA]. unfold heads in HH. rewrite HA in HH. cbn [section_headers module_of] in HH. rewrite map_length in HH. exact HH.
  Qed.
  End R6.

  (** each part of a module is in one section *)
  Lemma the_fits {A} (f : section -> list A) k cs : (forall x, kind_of x <> k -> f x = []) -> k <> SK_Custom -> ksorted (kinds cs) ->
    Forall (fun x => (N.of_nat (length (f x)) <= alloc_limit)%N) cs -> (N.of_nat (length (the f cs)) <= alloc_limit)%N.
  Proof.
    intros Hf Hk. induction cs as [|x cs IH]; intros HS HF; [apply F_zero|]. apply Forall_cons_iff in HF as [HX HF].
    change (x :: cs) with ([x] ++ cs) in HS |- *. rewrite kinds_app in HS. apply ksorted_app in HS as (_ & HS & HL).
    rewrite the_app, the_one, app_length. destruct (sk_eqb (kind_of x) k) eqn:EK.
    - assert (EQ : kind_of x = k) by (destruct (kind_of x), k; first [reflexivity|discriminate]).
      rewrite (the_nil f k cs Hf Hk), Nat.add_0_r; [exact HX|]. intros HI. specialize (HL k k). unfold klt in HL. enough (sk_rank k < sk_rank k)%N by lia. apply HL; [|exact HI].
      apply has_iff; [exact Hk|]. unfold GAssemble.has. cbn [existsb]. rewrite EQ. destruct k; reflexivity.
    - rewrite Hf; [apply IH; assumption|]. intros EQ. rewrite EQ in EK. destruct k; discriminate.
  Qed.

  Lemma F_map {A} (f : A -> nat) l : F (map f l) <-> F (flat_map (fun a => [f a]) l).
  Proof. induction l as [|a l IH]; [reflexivity|]. cbn [map flat_map app]. rewrite !F_cons, IH. reflexivity. Qed.
  Lemma the_flat {A} (f : section -> list A) (v : A -> list nat) cs : Forall (fun x => F (flat_map v (f x))) cs -> F (flat_map v (the f cs)).
  Proof. induction 1 as [|x cs HX _ IH]; [apply F_nil|]. change (x :: cs) with ([x] ++ cs). rewrite the_app, the_one, flat_map_app. apply F_app. split; assumption. Qed.
  Lemma filter_short {A} (f : A -> bool) l : length (filter f l) <= length l.
  Proof. induction l as [|a l IH]; [apply le_n|]. cbn [filter length]. destruct (f a); cbn [length]; lia. Qed.
  Lemma customs_short cs : length (the get_custom cs) <= length cs.
  Proof. induction cs as [|x cs IH]; [apply le_n|]. change (x :: cs) with ([x] ++ cs). rewrite the_app, the_one, !app_length. destruct x; cbn; lia. Qed.
  Lemma combine_func (a : list TypeIdx) (b : list (list ValType * Expr)) : F (flat_map (fun c => length (fst c) :: expr_vectors (snd c)) b) ->
    F (flat_map func_vectors (map (fun '(x, (ls, e)) => mkFunc x ls e) (combine a b))).
  Proof.
    revert b. induction a as [|x a IH]; intros [|[ls e] b] HF; try apply F_nil. cbn [combine map flat_map] in *. apply F_app in HF as [HA HB]. apply F_app. split; [exact HA|apply IH, HB].
  Qed.
  Lemma fits_all xs m : assemble xs = Some m -> Forall (fun x => F (section_vectors (fst x))) xs -> (N.of_nat (length xs) <= alloc_limit)%N -> F (vectors m).
  Proof.
    intros HA HF HN. apply assemble_iff in HA as [HC ->]. destruct HC as [HO HL _ _]. apply order_iff in HO. fold (kinds (map fst xs)) in HO.
    assert (HF' : Forall (fun x => F (section_vectors x)) (map fst xs)) by (apply Forall_map; exact HF). clear HF.
    assert (HN' : (N.of_nat (length (map fst xs)) <= alloc_limit)%N) by (rewrite map_length; exact HN).
    assert (HT : forall A (f : section -> list A) k, (forall x, kind_of x <> k -> f x = []) -> k <> SK_Custom ->
      (forall x, f x = [] \/ exists l, section_vectors x = length (f x) :: l) -> (N.of_nat (length (the f (map fst xs))) <= alloc_limit)%N).
    { intros A f k K1 K2 K3. apply (the_fits f k _ K1 K2 HO). eapply Forall_impl; [|exact HF']. intros x HX. destruct (K3 x) as [->|(l & K4)]; [apply F_zero|]. cbv beta in HX. rewrite K4 in HX. apply F_cons in HX. apply HX. }
    assert (HV : forall A (f : section -> list A) v, (forall x, F (section_vectors x) -> F (flat_map v (f x))) -> F (flat_map v (the f (map fst xs)))).
    { intros A f v K1. apply the_flat. eapply Forall_impl; [|exact HF']. exact K1. }
    set (cs := map fst xs) in *. unfold vectors, module_of. cbn [parsed_section_kinds section_headers custom_sections types funcs tables mems globals elems datas imports exports tags]. fold cs.
    rewrite !F_app, !F_cons.
    assert (HK : forall x k, kind_of x <> k \/ kind_of x = k) by (intros [] []; first [right; reflexivity | left; discriminate]).
    Local Ltac one HT f k := apply (HT _ f k); [intros []; cbn; congruence|discriminate|intros []; cbn; eauto].
    Local Ltac many HV := apply HV; intros []; cbn [section_vectors]; rewrite ?F_cons; cbn; try (intros; apply F_nil); try tauto.
    repeat match goal with |- _ /\ _ => split end; try apply F_nil.
    - rewrite map_length. unfold non_custom. pose proof (filter_short (fun s => negb (is_custom s)) cs). lia.
    - rewrite map_length. exact HN.
    - pose proof (customs_short cs). lia.
    - one HT get_type SK_Type.
    - rewrite map_length, combine_length, HL, Nat.min_id. one HT get_code SK_Code.
    - one HT get_table SK_Table.
    - one HT get_memory SK_Memory.
    - one HT get_global SK_Global.
    - one HT get_element SK_Element.
    - one HT get_data SK_Data.
    - one HT get_import SK_Import.
    - one HT get_export SK_Export.
    - one HT get_tag SK_Tag.
    - many HV.
    - many HV.
    - apply combine_func. many HV.
    - many HV.
    - many HV.
    - many HV.
    - many HV.
    - many HV.
    - apply F_map. many HV.
  Qed.
End Fits.
