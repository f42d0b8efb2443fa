(** The memory that decoding a module takes: no more than its vectors, and its
    groups of locals. *)
From Verif Require Import Model.Prelude Model.Io Model.Ast Model.Errors Model.Integer Model.Helpers Model.Types Model.Instr Model.Sections Model.Module.
From Verif Require Import Spec.Lang Spec.Types Spec.Instr Spec.Module Spec.Streams Spec.Layout Spec.Resources.
From Verif Require Import Proofs.Machine Proofs.Reads Proofs.Safe Proofs.Parses Proofs.Leb Proofs.Loop Proofs.GHelpers Proofs.GTypes Proofs.GInstr Proofs.GControl Proofs.GSections Proofs.GModule Proofs.GAssemble Proofs.SafeWalk Proofs.Diag Proofs.Final Proofs.Unamb Proofs.Need Proofs.Fits.
From Verif Require Import Properties.Vectors.
From Coq Require Import Lia ZifyBool ZifyNat ZifyN.

(** [p1] succeeds like [p2] when the result is in [Q] *)
Definition Suf {R E A} (p1 p2 : M R E A) (Q : A -> Prop) : Prop := forall r a r', p2 r = (Ok a, r') -> Q a -> p1 r = (Ok a, r').
Section Comb.
  Context {R : Type}.
  Lemma suf_refl {E A} (p : M R E A) Q : Suf p p Q.
  Proof. intros r a r' HE _. exact HE. Qed.
  Lemma suf_map_err {E E' A} (f : E -> E') (p1 p2 : M R E A) Q : Suf p1 p2 Q -> Suf (map_err f p1) (map_err f p2) Q.
  Proof.
    intros Hp r a r' HE HQ. unfold map_err in *. destruct (p2 r) as [[a'| | |] r1] eqn:E2; try discriminate. injection HE as <- <-.
    rewrite (Hp _ _ _ E2 HQ). reflexivity.
  Qed.
  Lemma suf_bind {E A B} (p1 p2 : M R E A) (q1 q2 : A -> M R E B) (P : A -> Prop) Q :
    Suf p1 p2 P -> (forall a, Suf (q1 a) (q2 a) Q) -> (forall a r b r', q2 a r = (Ok b, r') -> Q b -> P a) -> Suf (bind p1 q1) (bind p2 q2) Q.
  Proof.
    intros Hp Hq HQ r b r' HE HB. unfold bind in *. destruct (p2 r) as [[a| | |] r1] eqn:E2; try discriminate.
    rewrite (Hp _ _ _ E2 (HQ _ _ _ _ HE HB)). apply Hq; assumption.
  Qed.
  Lemma suf_then {E A B} (p : M R E A) (q1 q2 : A -> M R E B) Q : (forall a, Suf (q1 a) (q2 a) Q) -> Suf (bind p q1) (bind p q2) Q.
  Proof. intros Hq. apply (suf_bind _ _ _ _ (fun _ => True)); auto. apply suf_refl. Qed.
  Lemma suf_same {E A B} (p1 p2 : M R E A) (q : A -> M R E B) (P : A -> Prop) (Q : B -> Prop) :
    Suf p1 p2 P -> (forall a r b r', q a r = (Ok b, r') -> Q b -> P a) -> Suf (bind p1 q) (bind p2 q) Q.
  Proof. intros Hp HQ. apply (suf_bind _ _ _ _ P); [exact Hp|intros; apply suf_refl|exact HQ]. Qed.
  Lemma suf_with_chain {E A} b (p1 p2 : M (Chain R) E A) Q : Suf p1 p2 Q -> Suf (with_chain b p1) (with_chain b p2) Q.
  Proof.
    intros Hp r a r' HE HQ. unfold with_chain in *. destruct (p2 (mkChain [b] false r)) as [x c] eqn:E2. injection HE as -> <-.
    rewrite (Hp _ _ _ E2 HQ). reflexivity.
  Qed.
  Lemma suf_with_take {E A} n (p1 p2 : M (Take R) E A) Q : Suf p1 p2 Q -> Suf (with_take n p1) (with_take n p2) (fun x => Q (fst x)).
  Proof.
    intros Hp r [a k] r' HE HQ. unfold with_take in *. destruct (p2 (mkTake n r)) as [x c] eqn:E2. destruct x; try discriminate. injection HE as <- <- <-.
    rewrite (Hp _ _ _ E2 HQ). reflexivity.
  Qed.
  Lemma suf_weaken {E A} (p1 p2 : M R E A) (Q Q' : A -> Prop) : Suf p1 p2 Q -> (forall a, Q' a -> Q a) -> Suf p1 p2 Q'.
  Proof. intros Hp HQ r a r' HE Ha. apply Hp; auto. Qed.
  Lemma suf_switch_nil {E A} n (d1 d2 : M R E A) Q : Suf d1 d2 Q -> Suf (switch n [] d1) (switch n [] d2) Q.
  Proof. auto. Qed.
  Lemma suf_switch_cons {E A} n p (a1 a2 : M R E A) l1 l2 d1 d2 Q :
    Suf a1 a2 Q -> Suf (switch n l1 d1) (switch n l2 d2) Q -> Suf (switch n ((p, a1) :: l1) d1) (switch n ((p, a2) :: l2) d2) Q.
  Proof. intros Ha Hd. cbn. destruct (pmatch p n); assumption. Qed.
End Comb.

Section Lists.
  Context {R C : Type} `{Lawful R C} (e1 e2 : Env).
  Lemma suf_list_st {St E T : Type} (f1 f2 : St -> M R E (T * St)) st (Q : T -> Prop) : (forall st, Suf (f1 st) (f2 st) (fun x => Q (fst x))) ->
    Suf (@decode_list_st e1 R _ _ _ _ f1 st) (@decode_list_st e2 R _ _ _ _ f2 st) (fun l => (N.of_nat (length l) <= @alloc_limit e1)%N /\ Forall Q l).
  Proof.
    intros Hf r xs r' HE [HL HQ]. apply list_ok in HE as (n & r0 & st' & Hu & _ & Hn & HS). apply list_ok.
    exists n, r0, st'. split; [exact Hu|]. split; [lia|]. split; [exact Hn|]. clear Hu Hn HL.
    induction HS as [|st0 r1 x st1 r2 xs st2 r3 Hx _ IH]; [constructor|]. inversion HQ as [|? ? HQx HQs]; subst. econstructor; [apply Hf; [exact Hx|exact HQx]|apply IH, HQs].
  Qed.
  Lemma suf_list {E T : Type} (f1 f2 : M R E T) (v : T -> list nat) (Q : T -> Prop) : Suf f1 f2 (fun a => @F e1 (v a) /\ Q a) ->
    Suf (@decode_list e1 R _ _ _ f1) (@decode_list e2 R _ _ _ f2) (fun l => @F e1 (length l :: flat_map v l) /\ Forall Q l).
  Proof.
    intros Hf. eapply suf_weaken; [apply (suf_list_st _ _ _ (fun a => @F e1 (v a) /\ Q a))|].
    - intros _. apply (suf_bind _ _ _ _ (fun a => @F e1 (v a) /\ Q a)); [exact Hf|intros; apply suf_refl|]. intros a r b r' [= <- <-]. auto.
    - intros l [HF HQ]. apply F_cons in HF as [HL HF]. split; [exact HL|]. apply forall_and. split; [apply F_flat, HF|exact HQ].
  Qed.
  Lemma suf_len {E T : Type} (f : M R E T) : Suf (@decode_list e1 R _ _ _ f) (@decode_list e2 R _ _ _ f) (fun l => @F e1 [length l]).
  Proof.
    eapply suf_weaken; [apply (suf_list f f (fun _ => []) any), suf_refl|]. intros l HF. apply F_cons in HF as [HL _]. split; [|apply Forall_forall; intros; exact I].
    apply F_cons. split; [exact HL|]. apply F_flat, Forall_forall. intros; apply F_nil.
  Qed.
  Lemma suf_flat {E T : Type} (f1 f2 : M R E T) (v : T -> list nat) : Suf f1 f2 (fun a => @F e1 (v a)) ->
    Suf (@decode_list e1 R _ _ _ f1) (@decode_list e2 R _ _ _ f2) (fun l => @F e1 (length l :: flat_map v l)).
  Proof.
    intros Hf. eapply suf_weaken; [apply (suf_list f1 f2 v any)|]; [eapply suf_weaken; [exact Hf|]; intros a [HF _]; exact HF|].
    intros l HF. split; [exact HF|]. apply Forall_forall; intros; exact I.
  Qed.
End Lists.

(** from [Q b] where [b] is what the rest of the decoder makes of [a] *)
Ltac back := intros ? ? ? ? HE HQ; unfold bind, map_err, ret, throw, panic_with, switch in HE;
  repeat match type of HE with context [match ?x with _ => _ end] => destruct x; try discriminate HE end;
  repeat match type of HE with (_, _) = (_, _) => injection HE as <- <- end.

Section Walk.
  Context (e1 e2 : Env) (Hprobe : @probe e1 = @probe e2) (Hstack : 0 < @stack_limit e1 <= @stack_limit e2).
  Local Notation F := (@F e1).
  Ltac fs := repeat first [rewrite (@F_cons e1) in * | rewrite (@F_app e1) in *]; repeat match goal with |- _ /\ _ => split end; try apply F_nil; tauto.
  Ltac st := apply suf_then; intros ?.

  Section Types_.
  Context {R C : Type} `{Lawful R C}.
  Lemma suf_result_type : Suf (@decode_result_type e1 R _) (@decode_result_type e2 R _) (fun l => F [length l]).
  Proof. apply suf_map_err, suf_len. Qed.
  Lemma suf_comptype : Suf (@decode_comptype e1 R _) (@decode_comptype e2 R _) (fun t => F (comptype_vectors t)).
  Proof.
    unfold decode_comptype. st. apply suf_switch_cons; [apply suf_refl|]. apply suf_switch_cons; [|apply suf_switch_cons; [|apply suf_refl]].
    - eapply suf_same; [apply suf_map_err, suf_len|]. back. exact HQ.
    - eapply suf_bind; [apply suf_map_err, suf_result_type| |].
      + intros x0. eapply suf_same; [apply suf_map_err, suf_result_type|]. back. cbn [comptype_vectors] in HQ. fs.
      + back. cbn [comptype_vectors] in HQ. fs.
  Qed.
  End Types_.
  Lemma suf_subtype {R C} `{Lawful R C} : Suf (@decode_subtype e1 R _) (@decode_subtype e2 R _) (fun t => F (length (supertypes t) :: comptype_vectors (comptype t))).
  Proof.
    unfold decode_subtype. st. apply suf_switch_cons.
    - eapply suf_bind; [apply suf_map_err, suf_len| |].
      + intros x. eapply suf_same; [apply suf_map_err, suf_comptype|]. back. cbn [supertypes comptype] in HQ. fs.
      + back. cbn [supertypes comptype] in HQ. fs.
    - cbn [switch]. apply suf_with_chain. eapply suf_same; [apply suf_map_err, suf_comptype|]. back. cbn [supertypes comptype] in HQ. fs.
  Qed.
  Lemma suf_rectype {R C} `{Lawful R C} : Suf (@decode_rectype e1 R _) (@decode_rectype e2 R _) (fun t => F (rectype_vectors t)).
  Proof.
    unfold decode_rectype. st. destruct (_ =? _)%N.
    - apply suf_map_err. unfold rectype_vectors. apply suf_flat, suf_subtype.
    - apply suf_with_chain. eapply suf_same; [apply suf_map_err, suf_subtype|]. back. unfold rectype_vectors in HQ. cbn [length flat_map] in HQ. rewrite app_nil_r in HQ. fs.
  Qed.

  Section Rest.
  Context {R C : Type} `{Lawful R C}.
  Lemma suf_byte_vector : Suf (@decode_byte_vector e1 R _) (@decode_byte_vector e2 R _) (fun l => F [length l]).
  Proof.
    intros r a r' HE HF. apply F_cons in HF as [HF _]. unfold decode_byte_vector, bind, map_err in *. destruct (decode_u32 r) as [[n| | |] r0] eqn:Eu; try discriminate.
    unfold alloc in *. destruct (n <=? @alloc_limit e2)%N; [|discriminate]. unfold ret in *. destruct (read_exact n r0) as [[b| | |] r1] eqn:Er; try discriminate. injection HE as <- <-.
    pose proof (proj1 (read_exact_sound _ _ _ _ Er)) as HL. unfold lenN in HL. destruct (N.leb_spec n (@alloc_limit e1)); [|lia]. rewrite Er. reflexivity.
  Qed.
  Lemma suf_name : Suf (@decode_name e1 R _) (@decode_name e2 R _) (fun l => F [length l]).
  Proof. unfold decode_name. eapply suf_same; [apply suf_map_err, suf_byte_vector|]. back. exact HQ. Qed.
  Lemma suf_import : Suf (@parse_import e1 R _) (@parse_import e2 R _) (fun i => F (import_vectors i)).
  Proof.
    unfold parse_import. eapply suf_bind; [apply suf_map_err, suf_name| |].
    - intros a. eapply suf_same; [apply suf_map_err, suf_name|]. back. unfold import_vectors in HQ. cbn [im_module im_item] in HQ. fs.
    - back. unfold import_vectors in HQ. cbn [im_module im_item] in HQ. fs.
  Qed.
  Lemma suf_export : Suf (@parse_export e1 R _) (@parse_export e2 R _) (fun e => F [length (ex_name e)]).
  Proof. unfold parse_export. eapply suf_same; [apply suf_map_err, suf_name|]. back. exact HQ. Qed.
  Lemma rest_acc n : forall i acc (r : R) a r', @read_to_end_loop R _ e2 n i acc r = (Ok a, r') -> exists d, a = acc ++ d.
  Proof.
    induction n as [|n IH]; intros i acc r a r' HE; [discriminate|]. cbn [read_to_end_loop] in HE. destruct (read r _) as [x r1]. destruct x as [[|b d]|k|]; try discriminate.
    - injection HE as <- <-. exists []. rewrite app_nil_r. reflexivity.
    - destruct (_ <=? N.succ _)%N; [|discriminate]. destruct (_ <=? @alloc_limit e2)%N; [|discriminate]. apply IH in HE as (d' & ->). rewrite <- app_assoc. eauto.
    - destruct k; try discriminate. eapply IH; exact HE.
  Qed.
  Lemma suf_rest : Suf (@read_to_end R _ e1) (@read_to_end R _ e2) (fun l => F [length l]).
  Proof.
    intros r a r' HE HF. apply F_cons in HF as [HF _]. revert HE. unfold read_to_end. generalize (S (budget r)). intros n.
    generalize (@nil byte) 0. revert r. induction n as [|n IH]; intros r acc i HE; [discriminate|]. cbn [read_to_end_loop] in *.
    rewrite Hprobe in *. destruct (read r _) as [x r1] eqn:Er. destruct x as [[|b d]|k|]; try exact HE.
    - destruct (_ <=? N.succ _)%N; [|discriminate]. destruct (_ <=? @alloc_limit e2)%N; [|discriminate].
      destruct (rest_acc _ _ _ _ _ _ HE) as (d' & Ha). 
      rewrite (proj2 (N.leb_le (lenN (acc ++ b :: d)) (@alloc_limit e1))) by (unfold lenN; rewrite Ha, app_length in HF; lia).
      apply IH; exact HE.
    - destruct k; try exact HE. apply IH; exact HE.
  Qed.
  Lemma suf_custom : Suf (@decode_section_custom e1 R _) (@decode_section_custom e2 R _) (fun c => F (custom_vectors c)).
  Proof.
    unfold decode_section_custom. eapply suf_bind; [apply suf_map_err, suf_name| |].
    - intros nm. eapply suf_same; [apply suf_map_err, suf_rest|]. back. unfold custom_vectors in HQ. cbn [cs_name cs_contents] in HQ. fs.
    - back. unfold custom_vectors in HQ. cbn [cs_name cs_contents] in HQ. fs.
  Qed.

  (** instructions *)
  Definition pr (d : nat) (x : ParseResult) : Prop := low_pr d x /\ match x with PR_Instr i => F (instr_vectors i) | _ => True end.
  Definition ins (d : nat) (is : list instr) : Prop := low d is /\ F (length is :: flat_map instr_vectors is).
  Lemma ins_prefix d a b : ins d (a ++ b) -> ins d a.
  Proof.
    intros [[Hd HL] HF]. apply Forall_app in HL as [HL _]. rewrite flat_map_app, F_cons, F_app in HF. destruct HF as (HN & HF & _). split; [split; assumption|]. apply F_cons. split; [|exact HF].
    rewrite app_length in HN. lia.
  Qed.
  Lemma ins_last d a i : ins d (a ++ [i]) -> pr d (PR_Instr i).
  Proof.
    intros [[Hd HL] HF]. apply Forall_app in HL as [_ HL]. rewrite flat_map_app, F_cons, F_app in HF. destruct HF as (_ & _ & HF). cbn [flat_map] in HF. rewrite app_nil_r in HF. split; [|exact HF].
    split; [exact Hd|]. inversion HL; assumption.
  Qed.
  Lemma suf_body (p1 p2 : M R ParseError ParseResult) ae d : Suf p1 p2 (pr d) -> Suf (@parse_body e1 R _ p1 ae) (@parse_body e2 R _ p2 ae) (fun x => ins d (fst x)).
  Proof.
    intros Hp r [is tok] r' HE HQ. unfold parse_body in *. cbn [fst] in HQ. revert HE. generalize (S (budget r)). intros n.
    generalize (@nil instr). revert r. induction n as [|n IH]; intros r acc HE; [discriminate|]. cbn [body_loop] in *. unfold bind at 1 in HE. unfold bind at 1.
    destruct (p2 r) as [[x| | |] r1] eqn:E2; try discriminate.
    assert (HX : pr d x /\ match x with PR_Instr i => (lenN (i :: acc) <= @alloc_limit e1)%N | _ => True end).
    { destruct x as [i| |]; [|split; [split; [split; [apply HQ|exact I]|exact I]|exact I]..]. apply grown in HE as [_ HE]. apply body_acc in HE as (is' & ->).
      apply ins_prefix in HQ. cbn [rev] in HQ. split; [exact (ins_last _ _ _ HQ)|]. destruct HQ as [_ HQ]. apply F_cons in HQ as [HQ _]. rewrite app_length, rev_length in HQ. cbn [length] in HQ. unfold lenN. cbn [length]. lia. }
    destruct HX as [HX HA]. rewrite (Hp _ _ _ E2 HX). destruct x as [i| |]; try exact HE. apply grown in HE as [_ HE]. rewrite grow_ok by exact HA. apply IH. exact HE.
  Qed.
  Lemma q_body d bt is : nesting (I_Block bt is) < S d /\ F (length is :: flat_map instr_vectors is) -> ins d is.
  Proof. intros [HL HF]. split; [apply (low_block d bt), HL|exact HF]. Qed.
  Lemma q_if d bt is1 is2 : nesting (I_If bt is1 is2) < S d /\ F (instr_vectors (I_If bt is1 is2)) -> ins d is1 /\ match is2 with Some is => ins d is | None => True end.
  Proof.
    intros [HL HF]. apply low_if in HL as [HL1 HL2]. cbn [instr_vectors] in HF. rewrite app_comm_cons in HF. apply F_app in HF as [HF1 HF2].
    split; [split; assumption|]. destruct is2; [split; assumption|exact I].
  Qed.
  Lemma suf_block (p1 p2 : M R ParseError ParseResult) op d : Suf p1 p2 (pr d) ->
    Suf (@parse_block e1 R _ p1 op) (@parse_block e2 R _ p2 op) (fun i => nesting i < S d /\ F (instr_vectors i)).
  Proof.
    intros Hp. unfold parse_block, ctl. st.
    apply (suf_bind _ _ _ _ (fun x => ins d (fst x))); [apply suf_body; assumption| |].
    - intros [in1 tok]. apply suf_switch_cons; [apply suf_refl|]. apply suf_switch_cons; [apply suf_refl|]. apply suf_switch_cons; [|apply suf_refl].
      destruct tok; [apply suf_refl| |apply suf_refl].
      apply (suf_bind _ _ _ _ (fun x => ins d (fst x))); [apply suf_body; assumption|intros [? ?]; apply suf_refl|].
      intros [in2 tok2] r b r' [= <- <-] HQ. apply q_if in HQ. apply HQ.
    - intros [in1 tok] r b r' HE HQ. unfold switch, pmatch in HE. destruct (_ =? 2)%N; [injection HE as <- <-; exact (q_body _ _ _ HQ)|].
      destruct (_ =? 3)%N; [injection HE as <- <-; exact (q_body _ a _ HQ)|]. destruct (_ =? 4)%N; [|discriminate].
      destruct tok; [discriminate| |injection HE as <- <-; apply q_if in HQ; apply HQ].
      unfold bind in HE. destruct (parse_body p2 false r) as [[[in2 t2]| | |] r2]; try discriminate. injection HE as <- <-. apply q_if in HQ. apply HQ.
  Qed.
  Lemma suf_try (p1 p2 : M R ParseError ParseResult) d : Suf p1 p2 (pr d) ->
    Suf (@parse_try_table e1 R _ p1) (@parse_try_table e2 R _ p2) (fun i => nesting i < S d /\ F (instr_vectors i)).
  Proof.
    intros Hp. unfold parse_try_table, ctl. st.
    eapply suf_bind; [apply suf_map_err, suf_len| |].
    - intros cs. apply (suf_bind _ _ _ _ (fun x => ins d (fst x))); [apply suf_body; assumption|intros [? ?]; apply suf_refl|].
      intros [in1 tok] r b r' [= <- <-] [HL HF]. cbn [instr_vectors] in HF. apply F_cons in HF as [_ HF]. apply (q_body _ a). split; [exact HL|exact HF].
    - intros cs r b r' HE [HL HF]. unfold bind in HE. destruct (parse_body p2 false r) as [[[in2 t2]| | |] r2]; try discriminate. injection HE as <- <-. cbn [instr_vectors] in HF. apply F_cons in HF as [HF _]. apply F_cons. split; [exact HF|apply F_nil].
  Qed.
  Lemma suf_op (p1 p2 : M R ParseError ParseResult) d opcode : Suf p1 p2 (pr d) -> Suf (@parse_op e1 R _ p1 opcode) (@parse_op e2 R _ p2 opcode) (pr (S d)).
  Proof.
    intros Hp. unfold parse_op. do 2 (apply suf_switch_cons; [apply suf_refl|]). apply suf_switch_nil.
    apply (suf_same _ _ _ (fun i => nesting i < S d /\ F (instr_vectors i))).
    - repeat (apply suf_switch_cons; [first [apply suf_refl | apply suf_block; assumption | apply suf_try; assumption |
        eapply suf_same; [apply suf_map_err, suf_len|]; back; destruct HQ as [_ HQ]; exact HQ |
        eapply suf_bind; [apply suf_map_err, suf_len|intros; apply suf_refl|]; back; destruct HQ as [_ HQ]; exact HQ ]|]).
      apply suf_refl.
    - intros i r b r' [= <- <-] [[_ HL] HF]. split; assumption.
  Qed.
  Lemma suf_parse d1 : forall d2, d1 <= d2 -> Suf (@parse e1 R _ d1) (@parse e2 R _ d2) (pr d1).
  Proof.
    induction d1 as [|d1 IH]; intros d2 Hd; [intros r a r' _ [[HX _] _]; lia|]. destruct d2 as [|d2]; [lia|]. cbn [parse].
    st. apply suf_op, IH. lia.
  Qed.
  Definition exq (e : Expr) : Prop := ins (@stack_limit e1) e.
  Lemma suf_expr : Suf (@decode_expr e1 R _) (@decode_expr e2 R _) (fun x => exq (fst x)).
  Proof.
    intros r [e x] r' HE HQ. unfold decode_expr in *. cbn [fst] in HQ. unfold exq in HQ. revert HE. generalize (S (budget r)). intros n.
    generalize (@nil instr) false. revert r. induction n as [|n IH]; intros r acc b HE; [discriminate|]. cbn [expr_loop] in *. unfold bind at 1 in HE. unfold bind at 1.
    destruct (map_err Expr_ParseInstruction (@parse e2 R _ _) r) as [[y| | |] r1] eqn:E2; try discriminate.
    assert (HX : pr (@stack_limit e1) y /\ match y with PR_Instr i => (lenN (i :: acc) <= @alloc_limit e1)%N | _ => True end).
    { destruct y as [i| |]; [|split; [split; [split; [apply HQ|exact I]|exact I]|exact I]..]. apply grown in HE as [_ HE]. destruct (expr_acc _ _ _ _ _ _ _ _ HE) as (is' & ->).
      apply ins_prefix in HQ. cbn [rev] in HQ. split; [exact (ins_last _ _ _ HQ)|]. destruct HQ as [_ HQ]. apply F_cons in HQ as [HQ _]. rewrite app_length, rev_length in HQ. cbn [length] in HQ. unfold lenN. cbn [length]. lia. }
    destruct HX as [HX HA].
    rewrite (suf_map_err Expr_ParseInstruction _ _ _ (suf_parse (@stack_limit e1) (@stack_limit e2) (proj2 Hstack)) _ _ _ E2 HX). destruct y; try exact HE.
    apply grown in HE as [_ HE]. rewrite grow_ok by exact HA. apply IH. exact HE.
  Qed.
  Lemma suf_expr_only : Suf (@decode_expr_only e1 R _) (@decode_expr_only e2 R _) exq.
  Proof. apply (suf_same _ _ _ _ _ suf_expr). intros [e x] r b r' [= <- <-]. auto. Qed.
  End Rest.

  Local Notation lows := (@lows e1).
  Section Entries.
  Context {R C : Type} `{Lawful R C}.
  Lemma suf_table : Suf (@decode_table e1 R _) (@decode_table e2 R _) (fun t => F (expr_vectors (t_init t)) /\ lows (t_init t)).
  Proof.
    unfold decode_table. st. destruct (_ =? _)%N; [|apply suf_refl]. st. destruct (negb _); [apply suf_refl|]. st.
    eapply suf_same; [apply suf_map_err, suf_expr_only|]. back. split; apply HQ.
  Qed.
  Lemma suf_global : Suf (@parse_global e1 R _) (@parse_global e2 R _) (fun t => F (expr_vectors (g_init t)) /\ lows (g_init t)).
  Proof. unfold parse_global. st. eapply suf_same; [apply suf_map_err, suf_expr_only|]. back. split; apply HQ. Qed.
  Lemma q_data i mo : F (data_vectors (mkData i mo)) /\ Forall lows (data_exprs (mkData i mo)) -> F [length i] /\ match mo with DM_Active _ o => exq o | DM_Passive => True end.
  Proof.
    unfold data_vectors, data_exprs. cbn [d_mode d_init]. intros [K1 K2]. apply F_cons in K1 as [K1 K3]. split; [apply F_cons; split; [exact K1|apply F_nil]|].
    destruct mo; [exact I|]. inversion K2; subst. split; assumption.
  Qed.
  Ltac dq := back; match goal with K : F (data_vectors _) /\ _ |- _ => apply q_data in K; apply K end.
  Lemma suf_data : Suf (@parse_data e1 R _) (@parse_data e2 R _) (fun t => F (data_vectors t) /\ Forall lows (data_exprs t)).
  Proof.
    unfold parse_data. st. apply suf_switch_cons; [|apply suf_switch_cons; [|apply suf_switch_cons; [|apply suf_refl]]].
    - eapply suf_bind; [apply suf_map_err, suf_expr_only| |dq]. intros e. eapply suf_same; [apply suf_map_err, suf_byte_vector|dq].
    - eapply suf_same; [apply suf_map_err, suf_byte_vector|dq].
    - st. eapply suf_bind; [apply suf_map_err, suf_expr_only| |dq]. intros e. eapply suf_same; [apply suf_map_err, suf_byte_vector|dq].
  Qed.
  Lemma suf_funcidxs {E} (f : _ -> E) : Suf (map_err f (@decode_list e1 R _ _ _ decode_funcidx)) (map_err f (@decode_list e2 R _ _ _ decode_funcidx)) (fun l => F [length l]).
  Proof. apply suf_map_err, suf_len. Qed.
  Lemma suf_exprs {E} (f : _ -> E) : Suf (map_err f (@decode_list e1 R _ _ _ (@decode_expr_only e1 R _))) (map_err f (@decode_list e2 R _ _ _ (@decode_expr_only e2 R _)))
    (fun l => F (length l :: flat_map expr_vectors l) /\ Forall lows l).
  Proof. apply suf_map_err, suf_list. eapply suf_weaken; [apply suf_expr_only|]. intros e [HA HB]. split; assumption. Qed.
  Lemma q_elem t i mo : F (elem_vectors (mkElem t i mo)) /\ Forall lows (elem_exprs (mkElem t i mo)) ->
    F [length i] /\ (F (length i :: flat_map expr_vectors i) /\ Forall lows i) /\ match mo with EM_Active _ o => exq o | _ => True end.
  Proof.
    unfold elem_vectors, elem_exprs. cbn [e_mode e_init]. intros [K1 K2]. apply F_cons in K1 as [K1 K3]. apply F_app in K3 as [K3 K4]. apply Forall_app in K2 as [K2 K5].
    split; [apply F_cons; split; [exact K1|apply F_nil]|]. split; [split; [apply F_cons; split; assumption|exact K2]|].
    destruct mo; [exact I| |exact I]. inversion K5; subst. split; assumption.
  Qed.
  Ltac eqk := back; match goal with K : F (elem_vectors _) /\ _ |- _ => apply q_elem in K; unfold funcidx_into_reffunc in K; first [apply K | rewrite map_length in K; apply K] end.
  Lemma suf_elem : Suf (@parse_elem e1 R _) (@parse_elem e2 R _) (fun t => F (elem_vectors t) /\ Forall lows (elem_exprs t)).
  Proof.
    unfold parse_elem. apply suf_then; intros n.
    repeat (apply suf_switch_cons; [repeat (first [eapply suf_bind; [solve [apply suf_map_err, suf_expr_only]|intros ?|solve [eqk]]
      | eapply suf_same; [solve [apply suf_funcidxs]|solve [eqk]] | eapply suf_same; [solve [apply suf_exprs]|solve [eqk]] | apply suf_then; intros ?])|]).
    apply suf_refl.
  Qed.
  Lemma suf_locals : Suf (@decode_list_st e1 R _ _ _ _ (parse_code_local (2 ^ 32 - 1)%N) 0%N) (@decode_list_st e2 R _ _ _ _ (parse_code_local (2 ^ 32 - 1)%N) 0%N) (fun l => F [length l]).
  Proof.
    eapply suf_weaken; [apply (suf_list_st e1 e2 _ _ _ any)|].
    - intros st. apply suf_refl.
    - intros l HF. apply F_cons in HF as [HF _]. split; [exact HF|]. apply Forall_forall. intros; exact I.
  Qed.
  End Entries.
  Section Code.
  Context {R C : Type} `{Lawful R C}.
  Definition code_vectors (c : Code) : list nat := length (c_locals c) :: expr_vectors (c_expr c).
  Lemma suf_code : Suf (@parse_code e1 R _) (@parse_code e2 R _) (fun c => F (code_vectors c) /\ lows (c_expr c)).
  Proof.
    unfold parse_code. st.
    apply (suf_same _ _ _ (fun x => (fun y => F (length (fst y) :: expr_vectors (fst (snd y))) /\ lows (fst (snd y))) (fst x))).
    - apply (suf_with_take _ _ _ (fun y => F (length (fst y) :: expr_vectors (fst (snd y))) /\ lows (fst (snd y)))).
      eapply suf_bind; [apply suf_map_err, suf_locals| |].
      + intros ls. eapply suf_same; [apply suf_map_err, suf_expr|]. intros [e x] r b r' [= <- <-] [HF HL]. cbn [fst snd] in *. apply F_cons in HF as [_ HF]. split; assumption.
      + intros ls r b r' HE [HF _]. unfold bind in HE. destruct (map_err _ _ r) as [[[e x]| | |] r1]; try discriminate. injection HE as <- <-. cbn [fst snd] in HF. apply F_cons in HF as [HF _]. apply F_cons. split; [exact HF|apply F_nil].
    - intros [[ls [e x]] lim] r b r' HE HQ. destruct (negb _).
      + unfold bind, sub_u64 in HE. destruct (_ <=? _)%N; discriminate.
      + injection HE as <- <-. exact HQ.
  Qed.
  Lemma suf_code_section : Suf (@decode_code_section e1 R _) (@decode_code_section e2 R _) (fun cs => F (length cs :: flat_map code_vectors cs) /\ Forall (fun c => lows (c_expr c)) cs).
  Proof. apply suf_map_err, suf_list, suf_code. Qed.
  Definition good (x : section) : Prop := @need e1 x /\ F (section_vectors x).
  Definition QG (k : SectionKind) (s s' : st) : Prop := exists x, kind_of x = k /\ apply_section x s = Some s' /\ good x.
  Ltac qk := intros ? ? ? ? [= <- <-] (y & Hk & Ha & Hn & HF); destruct y; try discriminate Hk; cbn [apply_section] in Ha; injection Ha as <-; first [exact (conj HF Hn) | exact HF].
  Lemma suf_section k s (r : R) s' r' : @decode_section e2 R _ k s r = (Ok s', r') -> QG k s s' ->
    (k = SK_Code -> forall cs t, @decode_code_section e2 R _ r = (Ok cs, t) -> F (map (fun c => length (c_locals c)) cs)) -> @decode_section e1 R _ k s r = (Ok s', r').
  Proof.
    intros HE HQ HR. revert HE HQ. destruct k.
    13: { intros HE HQ. specialize (HR eq_refl). cbn [decode_section] in *. unfold bind at 1, map_err at 1 in HE. unfold bind at 1, map_err at 1.
      destruct (@decode_code_section e2 R _ r) as [[cs| | |] r1] eqn:Ec; try discriminate. specialize (HR _ _ eq_refl).
      assert (HN : Forall (@code_need e1) cs).
      { apply (code_back e1 e2 Hstack 0 (N.le_0_l _) cs s r1 s' r' HE). destruct HQ as (x & Kk & Ka & Kn & _). exists x. split; [exact Kk|]. split; assumption. }
      assert (HS : exists x, x = SCode (map code_fn cs) /\ F (section_vectors x)).
      { destruct HQ as (x & Hk & Ha & _ & HF). exists x. split; [|exact HF]. destruct x as [| | | | | | | | | | | |fs|]; try discriminate Hk. f_equal. cbn [apply_section] in Ha.
        destruct (N.eqb_spec (lenN cs) (lenN (funcs (st_module s)))) as [Hlen|]; [|discriminate]. cbn [negb] in HE.
        unfold bind in HE. destruct (fill_codes _ _ _ _ r1) as [[[fs' d]| | |] r2] eqn:EF; try discriminate. injection HE as <- <-.
        unfold lenN in Hlen. assert (Hlen' : length cs = length (funcs (st_module s))) by lia.
        destruct (p_sound _ _ (fill_codes_pure (env:=e2) (R:=R) cs [] (funcs (st_module s)) (st_data_idx s) Hlen') _ _ _ EF) as (w & _ & HG).
        destruct HG as [HG _]. injection HG as -> ->.
        destruct (N.eqb_spec (lenN fs) (lenN (funcs (st_module s)))) as [Hf|]; [|discriminate]. injection Ha as Ha _. cbn [app] in Ha. rewrite <- fill_map in Ha.
        apply (fill_inj e1 e2 Hstack 0 (N.le_0_l _)) in Ha; [exact Ha|unfold lenN in Hf; lia|rewrite map_length; lia]. }
      destruct HS as (x & -> & HF). cbn [section_vectors] in HF. rewrite map_length, F_cons in HF. destruct HF as [HF1 HF2].
      rewrite (suf_code_section r cs r1 Ec).
      - destruct (negb _); [discriminate|]. unfold bind in *.
        destruct (@fill_codes e2 R _ _ _ _ r1) as [[[fs d]| | |] r2] eqn:EF; try discriminate. rewrite (suff_fill e1 e2 Hstack 0 (N.le_0_l _) cs) with (a := (fs, d)) (r' := r2); [exact HE| |exact EF].
        eapply Forall_impl; [|exact HN]. intros c HX. apply HX.
      - split; [|eapply Forall_impl; [|exact HN]; intros c HX; apply HX]. apply F_cons. split; [exact HF1|]. apply F_flat. rewrite F_flat, Forall_map in HF2. apply F_map, F_flat in HR.
        rewrite Forall_forall in *. intros c Hc. specialize (HF2 c Hc). specialize (HR c Hc). unfold code_vectors. apply F_cons in HR as [HR _]. apply F_cons in HF2 as [_ HF2]. apply F_cons. split; assumption. }
    all: intros HE HQ; clear HR; revert HE HQ; revert r s' r'; cbn [decode_section]; unfold decode_type_section, decode_import_section, decode_function_section, decode_memory_section, decode_tag_section, decode_export_section, decode_table_section, decode_global_section, decode_element_section, decode_data_section.
    - eapply suf_same; [apply suf_map_err, suf_custom|]. intros ? ? ? ? [= <- <-] (y & Hk & Ha & Hn & HF); destruct y; try discriminate Hk; cbn [apply_section] in Ha; injection Ha as Ha. apply app_inj_tail in Ha as [_ <-]. exact HF.
    - eapply suf_same; [apply suf_map_err, suf_map_err, suf_flat, suf_rectype|qk].
    - eapply suf_same; [apply suf_map_err, suf_map_err, suf_flat, suf_import|qk].
    - eapply suf_same; [apply suf_map_err, suf_map_err, suf_len|]. intros a ? ? ? [= <- <-] (y & Hk & Ha & Hn & HF); destruct y as [| | |l0| | | | | | | | | |]; try discriminate Hk; cbn [apply_section] in Ha; injection Ha as Ha. apply app_inv_head, (f_equal (@length _)) in Ha. rewrite !map_length in Ha. cbn [section_vectors] in HF. unfold TypeIdx, u32 in *. rewrite Ha in HF. exact HF.
    - eapply suf_same; [apply suf_map_err, suf_map_err, suf_list, suf_table|qk].
    - eapply suf_same; [apply suf_map_err, suf_map_err, suf_len|qk].
    - eapply suf_same; [apply suf_map_err, suf_map_err, suf_len|qk].
    - eapply suf_same; [apply suf_map_err, suf_map_err, suf_list, suf_global|qk].
    - eapply suf_same; [apply suf_map_err, suf_map_err, suf_flat, suf_export|qk].
    - apply suf_refl.
    - eapply suf_same; [apply suf_map_err, suf_map_err, suf_list, suf_elem|qk].
    - apply suf_refl.
    - eapply suf_same; [apply suf_map_err, suf_map_err, suf_list, suf_data|].
      intros ds r s' r' HE (y & Hk & Ha & Hn & HF). destruct y; try discriminate Hk. cbn [apply_section] in Ha. destruct (data_count (st_module s)).
      + destruct (_ =? _)%N in HE; [|discriminate]. destruct (_ =? _)%N in Ha; [|discriminate]. injection HE as <- _. injection Ha as <-. exact (conj HF Hn).
      + injection HE as <- _. injection Ha as <-. exact (conj HF Hn).
  Qed.
  End Code.

  Definition run (c : Code) : nat := length (c_locals c).
  Section Runs.
  Context {R C : Type} `{Lawful R C}.
  Lemma bsteps_len (c : C) w1 c1 : bsteps c w1 c1 -> forall w2 c2, bsteps c w2 c2 -> length w1 = length w2 -> w1 = w2.
  Proof.
    induction 1 as [c|c b c1 w1 c3 Hn _ IH]; intros w2 c2 Hs HL; [destruct w2; [reflexivity|discriminate]|].
    inversion Hs as [|? b' c1' w2' ? Hn' Hs']; subst; [discriminate|]. rewrite Hn in Hn'. injection Hn' as <- <-. f_equal. eapply IH; [exact Hs'|]. injection HL as HL. exact HL.
  Qed.
  Lemma had_runs : Ens (@parse_code e2 R _) (fun c => (N.of_nat (run c) <= @alloc_limit e2)%N).
  Proof.
    unfold parse_code. apply ens_then; intros sz. eapply (ens_bind _ _ (fun x => (fun y => (N.of_nat (length (fst y)) <= @alloc_limit e2)%N) (fst x))).
    - apply (ens_with_take _ _ (fun y => (N.of_nat (length (fst y)) <= @alloc_limit e2)%N)). eapply (ens_bind _ _ (fun ls => (N.of_nat (length ls) <= @alloc_limit e2)%N)).
      + apply ens_map_err. intros r ls r' HE. apply list_ok in HE as (n & r0 & st' & _ & HA & Hn & _). lia.
      + intros ls HL. apply ens_then; intros [e x]. apply ens_ret. exact HL.
    - intros [[ls [e x]] lim] HL. destruct (negb _); [apply ens_then; intros; apply ens_throw|]. apply ens_ret. exact HL.
  Qed.
  Lemma had_code_runs : Ens (@decode_code_section e2 R _) (fun cs => @Fits.F e2 (map run cs)).
  Proof.
    apply ens_map_err. eapply ens_weaken; [apply ens_list, had_runs|]. intros cs HF. apply Forall_map. exact HF.
  Qed.
  End Runs.
  Section Module_.
  Context {R C : Type} `{Lawful R C}.
  Lemma code_bytes s n (r : R) s1 t w : @decode_section e2 _ _ SK_Code s (mkTake n r) = (Ok s1, t) -> t_limit t = 0%N -> bsteps (abs r) w (abs (t_inner t)) -> lenN w = n ->
    exists cs t1, @decode_code_section e2 _ _ (mkTake n r) = (Ok cs, t1) /\ Blist Gcode cs w.
  Proof.
    intros HE Ht Hw Hn. cbn [decode_section] in HE. unfold bind at 1, map_err at 1 in HE. destruct (@decode_code_section e2 _ _ (mkTake n r)) as [[cs| | |] t1] eqn:Ec; try discriminate.
    exists cs, t1. split; [reflexivity|].
    destruct (p_sound _ _ (parses_map_err CodeSec_DecodeList _ _ (parses_list _ _ (parses_code (env:=e2) (R:=Take R)))) _ _ _ Ec) as (w' & Hw' & HG).
    assert (HT : abs t1 = abs t).
    { destruct (N.eqb_spec (lenN cs) (lenN (funcs (st_module s)))) as [Hlen|]; [|discriminate]. cbn [negb] in HE.
      unfold bind in HE. destruct (@fill_codes e2 _ _ _ _ _ t1) as [[[fs d]| | |] t2] eqn:EF; try discriminate. injection HE as <- <-.
      unfold lenN in Hlen. assert (Hlen' : length cs = length (funcs (st_module s))) by lia.
      destruct (p_sound _ _ (fill_codes_pure (env:=e2) (R:=Take R) cs [] (funcs (st_module s)) (st_data_idx s) Hlen') _ _ _ EF) as (w2 & Hw2 & HG2).
      destruct HG2 as [_ ->]. apply bsteps_nil_inv in Hw2. symmetry. exact Hw2. }
    rewrite HT in Hw'. apply bsteps_take_inv in Hw' as (K1 & K2 & K3). cbn [t_limit t_inner abs take_lawful] in K1, K2, K3. unfold take_abs in K1, K2, K3. cbn [t_limit t_inner] in K1, K2, K3.
    rewrite <- (bsteps_len _ _ _ K3 _ _ Hw); [exact HG|]. unfold lenN in *. lia.
  Qed.
  Definition heads (s : st) : nat := length (section_headers (st_module s)).
  Lemma suf_step h s (r : R) s' r' : @section_step e2 R _ h s r = (Ok s', r') ->
    exists x w, bsteps (abs r) w (abs r') /\ kind_of x = sh_kind h /\ sh_size h = lenN w /\ Bcontents x w /\ apply_one (x, sh_size h) s = Some s' /\
      (sh_kind h = SK_Code -> exists cs, Blist Gcode cs w /\ @Fits.F e2 (map run cs)) /\ heads s' = S (heads s) /\
      ((N.of_nat (heads s') <= @alloc_limit e1)%N -> good x -> (sh_kind h = SK_Code -> forall cs, Blist Gcode cs w -> F (map run cs)) -> @section_step e1 R _ h s r = (Ok s', r')).
  Proof.
    intros Hr. pose proof (safe_section_step (env:=e2) (R:=R) h s r) as HX. rewrite Hr in HX. destruct HX as (_ & _ & HX). revert Hr.
    destruct h as [hk hs]. destruct (fenced_section (env:=e2) (R:=R) hs hk s) as [S K]. clear K.
    unfold section_step, with_take. cbn [sh_kind sh_size]. intros Hr. unfold bind in Hr |- *.
    pose proof (validate_pure (st_module s) (mkHeader hk hs) (mkTake hs r)) as HV; cbn [sh_kind] in HV.
    destruct (order_ok (st_module s) hk) eqn:EO; [cbn [sh_kind sh_size] in *; rewrite HV in Hr |- *|destruct HV as (e & HV); rewrite HV in Hr; discriminate].
    destruct (@decode_section e2 _ _ hk s (mkTake hs r)) as [[s1|e|pn|] t] eqn:E; try discriminate.
    destruct (N.eqb_spec (t_limit t) 0) as [El|El]; cbn [negb] in Hr.
    2: { unfold sub_u64 in Hr. destruct (_ <=? _)%N; discriminate. }
    destruct (S _ _ _ E El) as (w & Hb & Hl' & x & Hk & HC & Ha). unfold alloc in Hr. destruct (_ <=? @alloc_limit e2)%N; [|discriminate]. injection Hr as <- <-.
    exists x, w. split; [exact Hb|]. split; [exact Hk|]. split; [cbn; lia|]. split; [exact HC|]. split.
    { unfold apply_one. cbn [fst snd]. rewrite Hk, EO, Ha. reflexivity. }
    split.
    { intros ->. destruct (code_bytes _ _ _ _ _ _ E El Hb Hl') as (cs & t1 & Hcs & HG). exists cs. split; [exact HG|]. exact (had_code_runs (R:=Take R) (C:=Take C) _ _ _ Hcs). }
    split; [exact HX|].
    intros HA HN HR. rewrite (suf_section (R:=Take R) (C:=Take C) hk s (mkTake hs r) s1 t E); [|exists x; auto|].
    - rewrite (proj2 (N.eqb_eq _ _) El). cbn [negb]. unfold alloc. rewrite (proj2 (N.leb_le _ (@alloc_limit e1))); [reflexivity|]. unfold heads in HA. destruct (sk_eqb hk SK_Custom) in HA; exact HA.
    - intros -> cs t1 Hcs. destruct (code_bytes _ _ _ _ _ _ E El Hb Hl') as (cs' & t1' & Hcs' & HG). rewrite Hcs in Hcs'. injection Hcs' as <- _. exact (HR eq_refl cs HG).
  Qed.
  Lemma suf_loop n : forall s (r : R) s' r', @section_loop e2 R _ n s r = (Ok s', r') ->
    exists xs ps w c1, bsteps (abs r) w c1 /\ at_end c1 (abs r') /\ Bseq Bsection xs w /\ parts ps w /\ apply_all xs s = Some s' /\
      (forall v, In (SK_Code, v) ps -> exists cs, Blist Gcode cs v /\ @Fits.F e2 (map run cs)) /\ heads s <= heads s' /\
      ((N.of_nat (heads s') <= @alloc_limit e1)%N -> Forall (fun x => good (fst x)) xs -> (forall v cs, In (SK_Code, v) ps -> Blist Gcode cs v -> F (map run cs)) -> @section_loop e1 R _ n s r = (Ok s', r')).
  Proof.
    induction n as [|n IH]; intros s r s' r' Hr; [discriminate|]. pose proof Hr as Hs. cbn [section_loop] in Hr |- *.
    unfold bind at 1, map_err in Hr. unfold bind at 1, map_err.
    destruct (decode_section_header r) as [[[h|]| | |] r2] eqn:Eh; try discriminate.
    - destruct (header_sound _ _ _ Eh) as (nb & HU & Hh). unfold bind in Hr |- *.
      destruct (@section_step e2 R _ h s r2) as [[s1|e|pn|] r3] eqn:Es; try discriminate.
      destruct (suf_step _ _ _ _ _ Es) as (x & b2 & Hb2 & Hk & Hsz & HC & Ha & HR & HH & HS).
      destruct (IH _ _ _ _ Hr) as (xs & ps & b3 & c1 & Hb3 & He & Hq & Hp & Hall & HRs & HHs & HL).
      exists ((x, sh_size h) :: xs), ((sh_kind h, b2) :: ps), ((id_of (sh_kind h) :: nb ++ b2) ++ b3), c1. split.
      { rewrite app_comm_cons. eapply bsteps_app; [|exact Hb3]. eapply bsteps_app; [exact Hh|exact Hb2]. }
      split; [exact He|].
      split. { constructor; [|exact Hq]. rewrite Hsz in *. rewrite <- Hk. constructor; assumption. }
      split. { cbn [app]. rewrite <- app_assoc. constructor; [rewrite Hsz in HU; exact HU|exact Hp]. }
      split. { cbn [apply_all]. rewrite Ha. exact Hall. }
      split. { intros v [[= K1 <-]|HI]; [exact (HR K1)|exact (HRs v HI)]. }
      split; [lia|].
      intros HB HN HK. inversion HN as [|? ? HN1 HN2]; subst. rewrite HS; [|lia|exact HN1|intros K1 cs HG; apply (HK b2 cs); [left; rewrite K1; reflexivity|exact HG]].
      apply HL; [exact HB|exact HN2|]. intros v cs HI. apply HK. right. exact HI.
    - injection Hr as <- <-. destruct (section_loop_sound (env:=e2) (R:=R) _ _ _ _ _ Hs) as (xs & w & c1 & K1 & K2 & K3 & K4).
      assert (HE : at_end (abs r) (abs r2)).
      { clear - Eh H1. unfold decode_section_header, read_section_id, bind, map_err in Eh. destruct (read_byte r) as [y r3] eqn:Eb. pose proof (read_byte_spec _ _ _ Eb) as Hspec.
        destruct y as [id|k|pn|]; [| |discriminate|discriminate].
        - destruct (section_from_marker id); [|discriminate]. destruct (decode_u32 r3) as [[]]; discriminate.
        - destruct k; try discriminate. injection Eh as <-. red. destruct (next (abs r)) as [[b| |k] c2]; try discriminate; injection Hspec as Hs; subst; auto. }
      exists [], [], [], (abs r). split; [constructor|]. split; [exact HE|]. split; [constructor|]. split; [constructor|]. split; [reflexivity|].
      split; [intros v []|]. split; [apply le_n|]. intros _ _ _. reflexivity.
  Qed.
  Lemma suf_module (r : R) m r' : @decode_module e2 R _ r = (Ok m, r') -> exists xs ps w c1,
    bsteps (abs r) (preamble ++ w) c1 /\ at_end c1 (abs r') /\ Bseq Bsection xs w /\ parts ps w /\ assemble xs = Some m /\
    (forall v, In (SK_Code, v) ps -> exists cs, Blist Gcode cs v /\ @Fits.F e2 (map run cs)) /\
    ((N.of_nat (length (section_headers m)) <= @alloc_limit e1)%N -> Forall (fun x => good (fst x)) xs -> (forall v cs, In (SK_Code, v) ps -> Blist Gcode cs v -> F (map run cs)) -> @decode_module e1 R _ r = (Ok m, r')).
  Proof.
    unfold decode_module. unfold bind at 1. intros Hr.
    unfold bind at 1. destruct (map_err DM_ParsePreamble parse_preamble r) as [[u|e|pn|] r1] eqn:E1; try discriminate.
    destruct (p_sound _ _ (parses_map_err DM_ParsePreamble _ _ (parses_preamble (R:=R))) _ _ _ E1) as (b0 & Hb0 & ->).
    unfold bind in Hr |- *. unfold section_loop' in Hr |- *.
    destruct (@section_loop e2 R _ _ _ r1) as [[s|e|pn|] r2] eqn:E2; try discriminate.
    destruct (suf_loop _ _ _ _ _ E2) as (xs & ps & w & c1 & Hb & He & Hq & Hp & Hall & HR & HH & HL). exists xs, ps, w, c1.
    pose proof (final_pure s r2) as HF. unfold assemble. rewrite Hall. destruct (final_ok s) eqn:EF; [|destruct HF as (e & HF)]; rewrite HF in Hr; [|discriminate].
    injection Hr as <- <-. split; [eapply bsteps_app; [exact Hb0|exact Hb]|]. split; [exact He|]. split; [exact Hq|]. split; [exact Hp|]. split; [reflexivity|]. split; [exact HR|].
    intros HA HN HK. rewrite HL; [exact HF|exact HA|exact HN|exact HK].
  Qed.
  End Module_.
End Walk.

(** the sections of a module whose vectors fit *)
Section Back.
  Context {env : Env}.
  Local Notation F := (@Fits.F env).
  Lemma the_in {A} (f : section -> list A) cs x a : In x cs -> In a (f x) -> In a (the f cs).
  Proof. intros K1 K2. apply in_flat_map. eauto. Qed.
  Lemma the_len {A} (f : section -> list A) cs x : In x cs -> length (f x) <= length (the f cs).
  Proof.
    induction cs as [|y cs IH]; intros []; change (y :: cs) with ([y] ++ cs); rewrite the_app, the_one, app_length; [subst; lia|]. specialize (IH ltac:(assumption)). lia.
  Qed.
  Lemma combine_back (a : list TypeIdx) : forall b : list (list ValType * Expr), length a = length b ->
    F (flat_map func_vectors (map (fun '(x, (ls, e)) => mkFunc x ls e) (combine a b))) -> F (flat_map (fun c => length (fst c) :: expr_vectors (snd c)) b).
  Proof.
    induction a as [|x a IH]; intros [|[ls e] b] HL HF; try discriminate; [apply F_nil|]. cbn [combine map flat_map] in *. apply F_app in HF as [HA HB]. apply F_app. split; [exact HA|apply IH; [injection HL as HL; exact HL|exact HB]].
  Qed.
  Lemma F_in {A} (v : A -> list nat) l1 l2 : (forall a, In a l1 -> In a l2) -> F (flat_map v l2) -> F (flat_map v l1).
  Proof. rewrite !F_flat, !Forall_forall. auto. Qed.
  Lemma fits_back xs m : assemble xs = Some m -> F (vectors m) -> Forall (fun x => F (section_vectors (fst x))) xs.
  Proof.
    intros HA HF. apply assemble_iff in HA as [HC ->]. destruct HC as [_ HL _ _]. unfold vectors, module_of in HF. cbn [parsed_section_kinds section_headers custom_sections types funcs tables mems globals elems datas imports exports tags] in HF.
    set (cs := map fst xs) in *. rewrite !F_app, !F_cons, map_length, map_length, map_length, combine_length, HL, Nat.min_id in HF. rewrite F_map in HF.
    destruct HF as [HN HV]. destruct HN as (_ & _ & _ & N1 & N2 & N3 & N4 & N5 & N6 & N7 & N8 & N9 & N10 & _). destruct HV as (V1 & V2 & V3 & V4 & V5 & V6 & V7 & V8 & V9).
    apply combine_back in V3; [|exact HL].
    assert (HX : forall x, In x cs -> F (section_vectors x)); [|apply Forall_forall; intros x Hx; apply HX, in_map, Hx].
    intros x Hx.
    assert (HT : forall A (f : section -> list A), (N.of_nat (length (the f cs)) <= alloc_limit)%N -> (N.of_nat (length (f x)) <= alloc_limit)%N).
    { intros A f K1. pose proof (the_len f cs x Hx). lia. }
    assert (HM : forall A (f : section -> list A) v, F (flat_map v (the f cs)) -> F (flat_map v (f x))).
    { intros A f v. apply F_in. intros a. apply the_in, Hx. }
    destruct x as [c|l|l|l|l|l|l|l|l|l|l|l|l|l]; cbn [section_vectors]; try apply F_nil; rewrite ?F_cons.
    - specialize (HM _ get_custom _ V1). cbn [get_custom flat_map] in HM. rewrite app_nil_r in HM. exact HM.
    - split; [exact (HT _ get_type N1)|exact (HM _ get_type _ V2)].
    - split; [exact (HT _ get_import N8)|exact (HM _ get_import _ V8)].
    - split; [|apply F_nil]. rewrite <- HL in N2. exact (HT _ get_function N2).
    - split; [exact (HT _ get_table N3)|exact (HM _ get_table _ V4)].
    - split; [exact (HT _ get_memory N4)|apply F_nil].
    - split; [exact (HT _ get_tag N10)|apply F_nil].
    - split; [exact (HT _ get_global N5)|exact (HM _ get_global _ V5)].
    - split; [exact (HT _ get_export N9)|exact (HM _ get_export _ V9)].
    - split; [exact (HT _ get_element N6)|exact (HM _ get_element _ V6)].
    - split; [exact (HT _ get_code N2)|exact (HM _ get_code _ V3)].
    - split; [exact (HT _ get_data N7)|exact (HM _ get_data _ V7)].
  Qed.
End Back.

(** the groups of locals of a file *)
Lemma grouped_code c w : Gcode c w -> Bgrouped (run c) w.
Proof.
  intros (b1 & b2 & b3 & -> & Hn & HL & Hls & Ht & He & _). inversion Hls as [? k q Hk Hq]; subst. unfold run.
  rewrite <- (map_length (fun l => repeat (l_t l) (N.to_nat (l_count l))) (c_locals c)). apply (Bgrouped_intro _ (c_expr c)).
  - constructor; [rewrite map_length; exact Hk|apply seq_locals; exact Hq].
  - exact He.
  - rewrite <- flat_map_concat_map. fold (expand_locals (c_locals c)). rewrite <- total_expand. exact Ht.
  - rewrite HL in Hn. exact Hn.
Qed.
Lemma code_grouped n w : Bgrouped n w -> exists c, Gcode c w /\ run c = n.
Proof.
  inversion 1 as [locs e b1 b2 b4 Hl He Ht Hn]; subst. inversion Hl as [? b5 b6 Hk Hq]; subst. apply seq_locals_inv in Hq as (ls & Hq & ->).
  exists (mkCode (lenN ((b5 ++ b6) ++ b4)) ls e (existsb instruction_contains_data_index e)). split.
  - exists b1, (b5 ++ b6), b4. cbn. split; [reflexivity|]. split; [exact Hn|]. split; [reflexivity|].
    split; [constructor; [rewrite map_length in Hk|]; assumption|].
    rewrite <- flat_map_concat_map in Ht. fold (expand_locals ls) in Ht. rewrite <- total_expand in Ht. auto.
  - unfold run. cbn [c_locals]. rewrite map_length. reflexivity.
Qed.
Lemma grouped_codes cs w : Blist Gcode cs w -> Blist Bgrouped (map run cs) w.
Proof.
  inversion 1 as [? k q Hk Hq]; subst. constructor; [rewrite map_length; exact Hk|]. clear - Hq. induction Hq as [|c cs b1 b2 Hc _ IH]; [constructor|]. cbn [map]. constructor; [apply grouped_code, Hc|exact IH].
Qed.
Lemma codes_grouped gs w : Blist Bgrouped gs w -> exists cs, Blist Gcode cs w /\ map run cs = gs.
Proof.
  inversion 1 as [? k q Hk Hq]; subst.
  assert (HX : exists cs, Bseq Gcode cs q /\ map run cs = gs).
  { clear - Hq. induction Hq as [|g gs b1 b2 Hg _ (cs & IH & <-)]; [exists []; split; [constructor|reflexivity]|]. apply code_grouped in Hg as (c & Hc & <-). exists (c :: cs). split; [constructor; assumption|reflexivity]. }
  destruct HX as (cs & Hc & <-). exists cs. split; [|reflexivity]. rewrite map_length in Hk. constructor; assumption.
Qed.
(** exactly what it takes to decode a file *)
Lemma exact_module (env : Env) (evs : list event) bs m : content evs = (bs, Ends) -> Bmodule m bs -> 0 < stack_limit -> (0 < alloc_limit)%N ->
  (fst (decode_module evs) = Ok m <-> shallow stack_limit m /\ @Fits.F env (vectors m) /\ forall n, local_groups bs n -> (N.of_nat n <= alloc_limit)%N).
Proof.
  intros Hc HB Hs Ha. split.
  - intros Hd. destruct (decode_module evs) as [x r'] eqn:HE. cbn [fst] in Hd. subst x.
    destruct (suf_module env env eq_refl (conj Hs (le_n _)) evs m r' HE) as (xs & ps & w & c1 & Hb & He & Hq & Hp & Hm & HR & _).
    assert (H1 : (N.of_nat 1 <= alloc_limit)%N) by lia.
    destruct (had_module Hs evs m r' HE) as (xs' & Hm' & HN). apply (needs_module env xs' m Hs Hm') in HN as [HN _]. split; [exact HN|].
    destruct (fit_module H1 evs m r' HE) as (xs'' & Hm'' & HF & HL). split; [exact (fits_all xs'' m Hm'' HF HL)|].
    destruct (bsteps_events_content evs _ _ _ Hb He) as (e & Hc' & _). rewrite Hc in Hc'. injection Hc' as -> _.
    intros n (ps' & rest & v & gs & Er & Hp' & HI & HG & Hn). apply (app_inv_head preamble w rest) in Er. subst rest. rewrite (parts_unamb _ _ _ Hp' Hp) in HI.
    destruct (HR v HI) as (cs & HG1 & HF1). apply codes_grouped in HG as (cs2 & HG2 & <-). rewrite (decodes_unambiguous _ _ D_code _ _ _ HG2 HG1) in Hn.
    exact (proj1 (Forall_forall _ _) HF1 n Hn).
  - intros (Hsh & HV & HG). rewrite (decode_slice evs bs Hc). rewrite <- (decode_slice (plain bs Ends) bs) by (apply content_plain; discriminate).
    set (e2 := Build_Env (stack_limit + (length bs + 2)) (2 ^ 32 + N.of_nat (length bs))%N (@probe env)).
    assert (H2 : fst (@decode_module e2 _ _ (plain bs Ends)) = Ok m).
    { rewrite (decode_slice (env:=e2) (plain bs Ends) bs) by (apply content_plain; discriminate). apply (module_complete_slice (env:=e2)); [|exact HB]. unfold sufficient, e2. cbn [alloc_limit stack_limit]. lia. }
    destruct (@decode_module e2 _ _ (plain bs Ends)) as [x r'] eqn:E. cbn [fst] in H2. subst x.
    destruct (suf_module env e2 eq_refl (conj Hs (Nat.le_add_r _ _)) _ m r' E) as (xs & ps & w & c1 & Hb & He & Hq & Hp & Hm & _ & HK).
    destruct (bsteps_events_content (plain bs Ends) _ _ _ Hb He) as (e & Hc' & _). rewrite content_plain in Hc' by discriminate. injection Hc' as -> _.
    rewrite HK; [reflexivity| | |].
    + unfold vectors in HV. apply F_app in HV as [HV _]. rewrite !F_cons in HV. apply HV.
    + pose proof (fits_back xs m Hm HV) as HF.
      assert (HN : Forall (fun x => @need env (fst x)) xs).
      { apply (needs_module env xs m Hs Hm). split; [exact Hsh|]. intros f Hf. apply (proj1 (Forall_forall _ _) HV). unfold vectors. do 2 (apply in_or_app; right). apply in_or_app. right. apply in_or_app. left.
        apply in_flat_map. exists f. split; [exact Hf|left; reflexivity]. }
      rewrite Forall_forall in *. intros x Hx. split; [exact (HN x Hx)|exact (HF x Hx)].
    + intros v cs HI Hcs. apply Forall_forall. intros n Hn. apply HG. exists ps, w, v, (map run cs). split; [reflexivity|]. split; [exact Hp|]. split; [exact HI|]. split; [apply grouped_codes, Hcs|exact Hn].
Qed.
