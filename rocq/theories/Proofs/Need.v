(** How much stack and heap an accepted input needs. *)
From Verif Require Import Model.Prelude Model.Io Model.Ast Model.Errors Model.Integer Model.Helpers Model.Types Model.Instr Model.Sections Model.Module.
From Verif Require Import Spec.Lang Spec.Types Spec.Instr Spec.Module Spec.Streams Spec.Resources.
From Verif Require Import Proofs.Machine Proofs.Reads Proofs.Safe Proofs.Parses Proofs.Leb Proofs.Loop Proofs.GHelpers Proofs.GTypes Proofs.GInstr Proofs.GControl Proofs.GSections Proofs.GModule Proofs.GAssemble Proofs.SafeWalk Proofs.Sim Proofs.Final Proofs.Diag Proofs.Components.
From Verif Require Import Properties.Vectors.
From Coq Require Import Lia ZifyBool ZifyNat ZifyN.

(** ** readers have at least as much budget as bytes *)
Section Budget.
  Context {R C : Type} `{Lawful R C}.
  Lemma bsteps_budget w : forall (r : R) c, bsteps (abs r) w c -> length w <= budget r.
  Proof.
    induction w as [|b w IH]; intros r c Hb; [cbn; lia|]. apply bsteps_cons_inv in Hb as (c1 & Hn & Hb).
    destruct (read_byte r) as [x r1] eqn:E. pose proof (read_byte_spec _ _ _ E) as HS. rewrite Hn in HS. injection HS as -> <-.
    pose proof (@safe_read_byte (bigenv 0) R _ _ 0 r) as HB. rewrite E in HB. destruct HB as [_ [HB _]]. specialize (IH _ _ Hb). cbn. lia.
  Qed.
End Budget.

(** [p1] (with the resources of the smaller environment) succeeds like [p2]
    when the result is in [Q] and there are at most [l] bytes to read *)
Definition Suff {R E A} `{Reader R} (l : nat) (p1 p2 : M R E A) (Q : A -> Prop) : Prop :=
  forall r a r', budget r <= l -> p2 r = (Ok a, r') -> Q a -> p1 r = (Ok a, r').
Definition Eats {R E A} `{Reader R} (p : M R E A) : Prop := forall r a r', p r = (Ok a, r') -> budget r' < budget r.
Definition Mono {R E A} `{Reader R} (p : M R E A) : Prop := forall r, budget (snd (p r)) <= budget r.

Section Comb.
  Context {R C : Type} `{Lawful R C}.
  Lemma mono_safe {E A} (env : Env) d (p : M R E A) m Q : Safe d p m Q -> Mono p.
  Proof. intros HS r. specialize (HS r). destruct (p r). destruct HS as [HR _]. apply reach_budget. exact HR. Qed.
  Lemma eats_safe {E A} (env : Env) d (p : M R E A) Q : Safe d p 1 Q -> Eats p.
  Proof. intros HS r a r' HE. specialize (HS r). rewrite HE in HS. destruct HS as (_ & HS & _). lia. Qed.
  Lemma mono_map_err {E E' A} (f : E -> E') (p : M R E A) : Mono p -> Mono (map_err f p).
  Proof. intros Hp r. unfold map_err. specialize (Hp r). destruct (p r) as [[]]; exact Hp. Qed.
  Lemma mono_bind {E A B} (p : M R E A) (q : A -> M R E B) : Mono p -> (forall a, Mono (q a)) -> Mono (bind p q).
  Proof. intros Hp Hq r. unfold bind. specialize (Hp r). destruct (p r) as [[a| | |] r1]; cbn [snd] in *; try exact Hp. specialize (Hq a r1). lia. Qed.
  Lemma mono_ret {E A} (a : A) : Mono (ret a : M R E A).
  Proof. intros r. cbn. lia. Qed.
  Lemma suff_refl {E A} l (p : M R E A) Q : Suff l p p Q.
  Proof. intros r a r' _ HE _. exact HE. Qed.
  Lemma suff_map_err {E E' A} l (f : E -> E') (p1 p2 : M R E A) Q : Suff l p1 p2 Q -> Suff l (map_err f p1) (map_err f p2) Q.
  Proof.
    intros Hp r a r' Hr HE HQ. unfold map_err in *. destruct (p2 r) as [[a'| | |] r1] eqn:E2; try discriminate. injection HE as <- <-.
    rewrite (Hp _ _ _ Hr E2 HQ). reflexivity.
  Qed.
  Lemma suff_bind {E A B} l (p1 p2 : M R E A) (q1 q2 : A -> M R E B) (Qp : A -> Prop) Q :
    Suff l p1 p2 Qp -> Mono p2 -> (forall a, Suff l (q1 a) (q2 a) Q) ->
    (forall a r b r', q2 a r = (Ok b, r') -> Q b -> Qp a) -> Suff l (bind p1 q1) (bind p2 q2) Q.
  Proof.
    intros Hp Hm Hq HQ r b r' Hr HE HB. unfold bind in *. specialize (Hm r). destruct (p2 r) as [[a| | |] r1] eqn:E2; try discriminate. cbn [snd] in Hm.
    rewrite (Hp _ _ _ Hr E2 (HQ _ _ _ _ HE HB)). apply Hq; [lia|exact HE|exact HB].
  Qed.
  (** the first step is the same in both *)
  Lemma suff_then {E A B} l (p : M R E A) (q1 q2 : A -> M R E B) Q :
    Mono p -> (forall a, Suff l (q1 a) (q2 a) Q) -> Suff l (bind p q1) (bind p q2) Q.
  Proof. intros Hm Hq. apply (suff_bind _ _ _ _ _ (fun _ => True)); auto. apply suff_refl. Qed.
  (** the second step is the same in both *)
  Lemma suff_same {E A B} l (p1 p2 : M R E A) (q : A -> M R E B) (Qp : A -> Prop) (Q : B -> Prop) :
    Suff l p1 p2 Qp -> (forall a r b r', q a r = (Ok b, r') -> Q b -> Qp a) -> Suff l (bind p1 q) (bind p2 q) Q.
  Proof.
    intros Hp HQ r b r' Hr HE HB. unfold bind in *. destruct (p2 r) as [[a| | |] r1] eqn:E2; try discriminate.
    rewrite (Hp _ _ _ Hr E2 (HQ _ _ _ _ HE HB)). exact HE.
  Qed.
  (** ... and eats a byte *)
  Lemma suff_byte {E B} l (f : io_error -> E) (q1 q2 : byte -> M R E B) Q :
    (forall l' b, l = S l' -> Suff l' (q1 b) (q2 b) Q) -> Suff l (bind (map_err f read_byte) q1) (bind (map_err f read_byte) q2) Q.
  Proof.
    intros Hq r b r' Hr HE HB. unfold bind, map_err in *. pose proof (@safe_read_byte (bigenv 0) R _ _ 0 r) as HS.
    destruct (read_byte r) as [[x| | |] r1] eqn:E2; try discriminate. destruct HS as [_ [HS _]]. destruct l as [|l]; [lia|].
    eapply Hq; [reflexivity| |exact HE|exact HB]. lia.
  Qed.
  Lemma suff_with_chain {E A} l b (p1 p2 : M (Chain R) E A) Q : Suff (S l) p1 p2 Q -> Suff l (with_chain b p1) (with_chain b p2) Q.
  Proof.
    intros Hp r a r' Hr HE HQ. unfold with_chain in *. destruct (p2 (mkChain [b] false r)) as [x c] eqn:E2. injection HE as -> <-.
    assert (Hb : budget (mkChain [b] false r) <= S l) by (cbn; lia). rewrite (Hp _ _ _ Hb E2 HQ). reflexivity.
  Qed.
  Lemma suff_with_take {E A} l n (p1 p2 : M (Take R) E A) Q : Suff l p1 p2 Q -> Suff l (with_take n p1) (with_take n p2) (fun x => Q (fst x)).
  Proof.
    intros Hp r [a k] r' Hr HE HQ. unfold with_take in *. destruct (p2 (mkTake n r)) as [x c] eqn:E2. destruct x; try discriminate. injection HE as <- <- <-.
    assert (Hb : budget (mkTake n r) <= l) by (cbn; lia). rewrite (Hp _ _ _ Hb E2 HQ). reflexivity.
  Qed.
  Lemma suff_weaken {E A} l l' (p1 p2 : M R E A) (Q Q' : A -> Prop) : Suff l p1 p2 Q -> l' <= l -> (forall a, Q' a -> Q a) -> Suff l' p1 p2 Q'.
  Proof. intros Hp Hl HQ r a r' Hr HE Ha. apply Hp; auto. lia. Qed.
  Lemma suff_switch_nil {E A} l n (d1 d2 : M R E A) Q : Suff l d1 d2 Q -> Suff l (switch n [] d1) (switch n [] d2) Q.
  Proof. auto. Qed.
  Lemma suff_switch_cons {E A} l n p (a1 a2 : M R E A) l1 l2 d1 d2 Q :
    Suff l a1 a2 Q -> Suff l (switch n l1 d1) (switch n l2 d2) Q -> Suff l (switch n ((p, a1) :: l1) d1) (switch n ((p, a2) :: l2) d2) Q.
  Proof. intros Ha Hd. cbn. destruct (pmatch p n); assumption. Qed.
End Comb.

Definition nonempty {A} (G : lang A) : Prop := forall a, ~ G a [].
(** a success takes at least one byte off the stream *)
Definition Takes {R C E A} `{Lawful R C} (p : M R E A) : Prop := forall r a r', p r = (Ok a, r') -> exists w, w <> [] /\ bsteps (abs r) w (abs r').
Lemma takes_parses {R C E A} `{Lawful R C} (p : M R E A) G : Parses p G -> nonempty G -> Takes p.
Proof. intros HP HN r a r' HE. destruct (p_sound _ _ HP _ _ _ HE) as (w & Hb & HG). exists w. split; [intros ->; exact (HN _ HG)|exact Hb]. Qed.

Section Lists.
  Context {R C : Type} `{Lawful R C} {St E T : Type} (e1 e2 : Env).
  Lemma iter_ok n (f : St -> M R E (T * St)) : forall i items st r z r', iterM (list_step f) n (i, items, st) r = (Ok z, r') <->
    exists xs st', length xs = n /\ in_sequence f st r xs st' r' /\ z = ((i + N.of_nat n)%N, rev xs ++ items, st').
  Proof.
    induction n as [|n IH]; intros i items st r z r'; cbn [iterM].
    - split.
      + intros [= <- <-]. exists [], st. split; [reflexivity|]. split; [constructor|]. cbn. rewrite N.add_0_r. reflexivity.
      + intros (xs & st' & Hl & HS & ->). destruct xs; [|discriminate]. inversion HS; subst. cbn. rewrite N.add_0_r. reflexivity.
    - unfold bind at 1. rewrite step_eq. destruct (f st r) as [[[a st1]|e|pn|] r1] eqn:Ef.
      + rewrite IH. split.
        * intros (xs & st' & Hl & HS & ->). exists (a :: xs), st'. split; [cbn; lia|]. split; [econstructor; eassumption|]. cbn [rev]. rewrite <- app_assoc. cbn. f_equal. f_equal. lia.
        * intros (xs & st' & Hl & HS & ->). destruct xs as [|x xs]; [discriminate|]. inversion HS as [|? ? ? st2 r2 ? ? ? Hf HS']; subst. rewrite Ef in Hf. injection Hf as <- <- <-.
          exists xs, st'. split; [cbn in Hl; lia|]. split; [exact HS'|]. cbn [rev]. rewrite <- app_assoc. cbn. f_equal. f_equal. lia.
      + split; [discriminate|]. intros (xs & st' & Hl & HS & _). destruct xs; [discriminate|]. inversion HS; subst. congruence.
      + split; [discriminate|]. intros (xs & st' & Hl & HS & _). destruct xs; [discriminate|]. inversion HS; subst. congruence.
      + split; [discriminate|]. intros (xs & st' & Hl & HS & _). destruct xs; [discriminate|]. inversion HS; subst. congruence.
  Qed.
  Lemma list_ok {env : Env} (f : St -> M R E (T * St)) st r xs r' : decode_list_st f st r = (Ok xs, r') <->
    exists n r0 st', decode_u32 r = (Ok n, r0) /\ (n <= alloc_limit)%N /\ N.of_nat (length xs) = n /\ in_sequence f st r0 xs st' r'.
  Proof.
    unfold decode_list_st, bind at 1, map_err at 1. destruct (decode_u32 r) as [[n|e|pn|] r0]; try (split; [discriminate|intros (? & ? & ? & ? & _); discriminate]).
    unfold bind at 1, alloc. destruct (N.leb_spec n alloc_limit) as [Ha|Ha].
    - unfold ret at 1. unfold bind at 1. rewrite loopN_iter. destruct (iterM _ (N.to_nat n) (0%N, [], st) r0) as [z r1] eqn:EI. split.
      + destruct z as [[[i items] st']| | |]; try discriminate. intros [= <- <-]. apply iter_ok in EI as (ys & st1 & Hl & HS & [= -> -> ->]).
        rewrite app_nil_r, rev_involutive. exists n, r0, st1. repeat split; try assumption. lia.
      + intros (n' & r0' & st' & [= <- <-] & _ & Hl & HS). assert (EX := proj2 (iter_ok (N.to_nat n) f 0%N [] st r0 _ r') (ex_intro _ xs (ex_intro _ st' (conj (eq_trans (eq_sym (Nat2N.id _)) (f_equal N.to_nat Hl)) (conj HS eq_refl))))).
        rewrite EI in EX. injection EX as -> ->. rewrite app_nil_r, rev_involutive. reflexivity.
    - split; [discriminate|]. intros (n' & r0' & st' & [= <- <-] & Hn & _). lia.
  Qed.
  Lemma seq_takes (f : St -> M R E (T * St)) : (forall st, Takes (f st)) -> forall st r xs st' r', in_sequence f st r xs st' r' -> length xs <= budget r.
  Proof.
    intros HT st r xs st' r' HS. assert (exists w, bsteps (abs r) w (abs r') /\ length xs <= length w) as (w & Hb & Hl).
    { induction HS as [|st r x st1 r1 xs st2 r2 Hf _ (w & Hb & Hl)]; [exists []; split; [constructor|cbn; lia]|].
      destruct (HT _ _ _ _ Hf) as (v & Hv & Hbv). exists (v ++ w). split; [eapply bsteps_app; eassumption|]. rewrite app_length. destruct v; [congruence|cbn; lia]. }
    apply bsteps_budget in Hb. lia.
  Qed.
  Lemma suff_list_st l (f1 f2 : St -> M R E (T * St)) st (Q : T -> Prop) : (N.of_nat l <= @alloc_limit e1)%N ->
    (forall st, Suff l (f1 st) (f2 st) (fun x => Q (fst x))) -> (forall st, Mono (f2 st)) -> (forall st, Takes (f2 st)) ->
    Suff l (@decode_list_st e1 R _ _ _ _ f1 st) (@decode_list_st e2 R _ _ _ _ f2 st) (Forall Q).
  Proof.
    intros HL Hf Hm HT r xs r' Hr HE HQ. apply list_ok in HE as (n & r0 & st' & Hu & _ & Hn & HS). apply list_ok.
    assert (Hr0 : budget r0 <= l). { pose proof (mono_safe (bigenv 0) 0 _ _ _ (safe_u32 (env:=bigenv 0) (R:=R) 0) r) as HM. rewrite Hu in HM. cbn in HM. lia. }
    exists n, r0, st'. split; [exact Hu|]. pose proof (seq_takes _ HT _ _ _ _ _ HS) as Hl. split; [lia|]. split; [exact Hn|]. clear Hu Hn Hl.
    induction HS as [|st0 r1 x st1 r2 xs st2 r3 Hx _ IH]; [constructor|]. inversion HQ as [|? ? HQx HQs]; subst. econstructor.
    - apply Hf; [exact Hr0|exact Hx|exact HQx].
    - apply IH; [exact HQs|]. specialize (Hm st0 r1). rewrite Hx in Hm. cbn in Hm. lia.
  Qed.
End Lists.
Lemma suff_list {R C} `{Lawful R C} {E T : Type} (e1 e2 : Env) l (f1 f2 : M R E T) (Q : T -> Prop) : (N.of_nat l <= @alloc_limit e1)%N ->
  Suff l f1 f2 Q -> Mono f2 -> Takes f2 -> Suff l (@decode_list e1 R _ _ _ f1) (@decode_list e2 R _ _ _ f2) (Forall Q).
Proof.
  intros HL Hf Hm HT. apply (suff_list_st e1 e2 l _ _ _ Q HL).
  - intros _. apply (suff_bind _ _ _ _ _ Q); [exact Hf|exact Hm|intros; apply suff_refl|]. intros a r b r' [= <- <-]. auto.
  - intros _. apply mono_bind; [exact Hm|]. intros; apply mono_ret.
  - intros _ r [x u] r' HE. unfold bind in HE. destruct (f2 r) as [[a| | |] r1] eqn:Ef; try discriminate. injection HE as <- _ <-. exact (HT _ _ _ Ef).
Qed.

(** ** words that cannot be empty *)
Lemma ne_u32 : nonempty Bu32. Proof. intros a HB. inversion HB. Qed.
Lemma ne_s33 : nonempty Bs33. Proof. intros a HB. inversion HB. Qed.
Create HintDb ne.
Ltac nebase := fail.
Ltac ne := intros ? HB; inversion HB; subst; repeat match goal with
  | HX : _ ++ _ = [] |- _ => apply app_eq_nil in HX as [? ?]; subst
  | HX : [] = _ ++ _ |- _ => symmetry in HX
  end; try discriminate; try (match goal with HX : ?G ?a [] |- False => refine ((_ : nonempty G) a HX); solve [eauto 2 with ne] end).
#[local] Hint Resolve ne_u32 ne_s33 : ne.
Lemma ne_idx : nonempty Bidx. Proof. exact ne_u32. Qed. #[local] Hint Resolve ne_idx : ne.
Lemma ne_list {A} (X : lang A) : nonempty (Blist X).
Proof. intros xs HB. remember [] as w eqn:Ew. destruct HB as [xs b1 b2 HU _]. apply app_eq_nil in Ew as [-> _]. exact (ne_u32 _ HU). Qed. #[local] Hint Resolve ne_list : ne.
Lemma ne_name : nonempty Bname. Proof. intros a [HB _]. eapply ne_list; exact HB. Qed. #[local] Hint Resolve ne_name : ne.
Lemma ne_absheaptype : nonempty Babsheaptype. Proof. ne. Qed. #[local] Hint Resolve ne_absheaptype : ne.
Lemma ne_reftype : nonempty Breftype. Proof. ne. Qed. #[local] Hint Resolve ne_reftype : ne.
Lemma ne_numtype : nonempty Bnumtype. Proof. ne. Qed. #[local] Hint Resolve ne_numtype : ne.
Lemma ne_vectype : nonempty Bvectype. Proof. ne. Qed. #[local] Hint Resolve ne_vectype : ne.
Lemma ne_valtype : nonempty Bvaltype. Proof. ne. Qed. #[local] Hint Resolve ne_valtype : ne.
Lemma ne_packtype : nonempty Bpacktype. Proof. ne. Qed. #[local] Hint Resolve ne_packtype : ne.
Lemma ne_storagetype : nonempty Bstoragetype. Proof. ne. Qed. #[local] Hint Resolve ne_storagetype : ne.
Lemma ne_fieldtype : nonempty Bfieldtype. Proof. ne. Qed. #[local] Hint Resolve ne_fieldtype : ne.
Lemma ne_comptype : nonempty Bcomptype. Proof. ne. Qed. #[local] Hint Resolve ne_comptype : ne.
Lemma ne_subtype : nonempty Bsubtype. Proof. ne. Qed. #[local] Hint Resolve ne_subtype : ne.
Lemma ne_rectype : nonempty Brectype. Proof. ne. Qed. #[local] Hint Resolve ne_rectype : ne.
Lemma ne_limits : nonempty Blimits. Proof. ne. Qed. #[local] Hint Resolve ne_limits : ne.
Lemma ne_memtype : nonempty Bmemtype. Proof. ne. Qed. #[local] Hint Resolve ne_memtype : ne.
Lemma ne_tagtype : nonempty Btagtype. Proof. ne. Qed. #[local] Hint Resolve ne_tagtype : ne.
Lemma ne_globaltype : nonempty Bglobaltype. Proof. ne. Qed. #[local] Hint Resolve ne_globaltype : ne.
Lemma ne_tabletype : nonempty Btabletype. Proof. ne. Qed. #[local] Hint Resolve ne_tabletype : ne.
Lemma ne_catch : nonempty Bcatch. Proof. ne. Qed. #[local] Hint Resolve ne_catch : ne.
Lemma ne_import : nonempty Bimport. Proof. ne. Qed. #[local] Hint Resolve ne_import : ne.
Lemma ne_table : nonempty Btable. Proof. ne. Qed. #[local] Hint Resolve ne_table : ne.
Lemma ne_global : nonempty Bglobal. Proof. ne. Qed. #[local] Hint Resolve ne_global : ne.
Lemma ne_export : nonempty Bexport. Proof. ne. Qed. #[local] Hint Resolve ne_export : ne.
Lemma ne_expr : nonempty Bexpr. Proof. ne. Qed. #[local] Hint Resolve ne_expr : ne.
Lemma ne_elem : nonempty Belem. Proof. ne. Qed. #[local] Hint Resolve ne_elem : ne.
Lemma ne_data : nonempty Bdata. Proof. ne. Qed. #[local] Hint Resolve ne_data : ne.
Lemma ne_code : nonempty Gcode.
Proof. intros c (b1 & b2 & b3 & HX & HU & _). symmetry in HX. apply app_eq_nil in HX as [-> _]. exact (ne_u32 _ HU). Qed. #[local] Hint Resolve ne_code : ne.
Lemma ne_local mx st : nonempty (Xlocal mx st).
Proof. intros c [(b1 & b2 & HX & HU & _) _]. symmetry in HX. apply app_eq_nil in HX as [-> _]. exact (ne_u32 _ HU). Qed.

(** ** nesting *)
Lemma fold_max_lt (l : list instr) d : 0 < d -> (fold_right (fun j n => Nat.max (nesting j) n) 0 l < d <-> Forall (fun i => nesting i < d) l).
Proof.
  intros Hd. induction l as [|i l IH]; cbn; [split; [constructor|intros; exact Hd]|]. split.
  - intros HL. constructor; [lia|]. apply IH. lia.
  - inversion 1; subst. assert (HX : fold_right (fun j n => Nat.max (nesting j) n) 0 l < d) by (apply IH; assumption). lia.
Qed.
Definition low (d : nat) (e : list instr) : Prop := 0 < d /\ Forall (fun i => nesting i < d) e.
Lemma low_block d bt is : nesting (I_Block bt is) < S d <-> low d is.
Proof. cbn. unfold low. split; [intros HL; split; [lia|apply fold_max_lt; lia]|intros [H0 HF]; apply fold_max_lt in HF; lia]. Qed.
Lemma low_loop d bt is : nesting (I_Loop bt is) < S d <-> low d is.
Proof. exact (low_block d bt is). Qed.
Lemma low_try d bt cs is : nesting (I_TryTable bt cs is) < S d <-> low d is.
Proof. exact (low_block d bt is). Qed.
Lemma low_if d bt is1 is2 : nesting (I_If bt is1 is2) < S d <-> low d is1 /\ match is2 with Some is => low d is | None => True end.
Proof.
  cbn. unfold low. split.
  - intros HL. split; [split; [lia|apply fold_max_lt; lia]|]. destruct is2; [split; [lia|apply fold_max_lt; lia]|exact I].
  - intros [[H0 HF] H2]. apply fold_max_lt in HF; [|exact H0]. destruct is2; [|lia]. destruct H2 as [_ H2]. apply fold_max_lt in H2; lia.
Qed.
Definition low_pr (d : nat) (x : ParseResult) : Prop := 0 < d /\ match x with PR_Instr i => nesting i < d | _ => True end.

(** ** the walk *)
Ltac post := intros ? ? ? ? HP ?; unfold bind, map_err, ret, throw, panic_with, switch in HP;
  repeat match type of HP with context [match ?x with _ => _ end] => destruct x; try discriminate HP end;
  repeat match type of HP with (_, _) = (_, _) => injection HP as <- <- end; cbn in *; try tauto.
Ltac msafe e := eapply (mono_safe e 0); solve [eapply safe_u32|eapply safe_read_byte0|eapply safe_read_exact0|eapply safe_typeidx|eapply safe_tableidx|eapply safe_memidx|eapply safe_funcidx
  |eapply safe_fieldtype|eapply safe_valtype|eapply safe_tabletype|eapply safe_globaltype|eapply safe_externtype|eapply safe_reftype|eapply safe_elemkind|eapply safe_blocktype|eapply safe_catch
  |eapply safe_memtype|eapply safe_tagtype|eapply safe_labelidx
  |eapply (safe_result_type (env:=e))|eapply (safe_comptype (env:=e))|eapply (safe_subtype (env:=e))|eapply (safe_rectype (env:=e))|eapply (safe_name (env:=e))|eapply (safe_byte_vector (env:=e))|eapply (safe_import (env:=e))|eapply (safe_export (env:=e))].
Ltac takes := eapply takes_parses; [solve [apply parses_valtype|apply parses_typeidx|apply parses_funcidx|apply parses_labelidx|apply parses_fieldtype|apply parses_subtype|apply parses_rectype|apply parses_catch|apply parses_import
  |apply parses_memtype|apply parses_tagtype|apply parses_export|apply parses_table|apply parses_global|apply parses_elem|apply parses_data|apply parses_expr|apply parses_code]|eauto 2 with ne].
Ltac all_any := intros ? _; apply Forall_forall; intros; exact I.

Lemma expand_total ls : N.of_nat (length (expand_locals ls)) = total_locals ls.
Proof. unfold expand_locals, total_locals. induction ls as [|x ls IH]; cbn [flat_map fold_right]; [reflexivity|]. rewrite app_length, repeat_length. lia. Qed.
Section Walk.
  Context (e1 e2 : Env) (Hprobe : @probe e1 = @probe e2) (Hstack : 0 < @stack_limit e1 <= @stack_limit e2).
  Ltac mono := first [ msafe e2 | apply mono_ret | apply mono_map_err; mono | apply mono_bind; [mono|intros ?; mono] ].
  Ltac st := apply suff_then; [solve [mono]|intros ?].

  Section Generic.
  Context {R C : Type} `{Lawful R C}.
  Variable l : nat.
  Hypothesis Hl : (N.of_nat l <= @alloc_limit e1)%N.

  Lemma suff_list_any {E T} (f1 f2 : M R E T) : Suff l f1 f2 any -> Mono f2 -> Takes f2 -> Suff l (@decode_list e1 R _ _ _ f1) (@decode_list e2 R _ _ _ f2) any.
  Proof. intros Hf Hm HT. eapply suff_weaken; [apply suff_list; [exact Hl|exact Hf|exact Hm|exact HT]|lia|all_any]. Qed.
  Lemma suff_result_type : Suff l (@decode_result_type e1 R _) (@decode_result_type e2 R _) any.
  Proof. apply suff_map_err, suff_list_any; [apply suff_refl|mono|takes]. Qed.
  Lemma suff_comptype : Suff l (@decode_comptype e1 R _) (@decode_comptype e2 R _) any.
  Proof.
    unfold decode_comptype. st. apply suff_switch_cons; [apply suff_refl|]. apply suff_switch_cons; [|apply suff_switch_cons; [|apply suff_refl]].
    - apply (suff_bind _ _ _ _ _ any); [apply suff_map_err, suff_list_any; [apply suff_refl|mono|takes]| |intros; apply suff_refl|intros; exact I].
      apply mono_map_err. eapply (mono_safe e2 0), safe_list, safe_fieldtype.
    - apply (suff_bind _ _ _ _ _ any); [apply suff_map_err, suff_result_type|mono| |intros; exact I]. intros x0.
      apply (suff_bind _ _ _ _ _ any); [apply suff_map_err, suff_result_type|mono|intros; apply suff_refl|intros; exact I].
  Qed.
  End Generic.
  Lemma suff_subtype {R C} `{Lawful R C} l : (N.of_nat l <= @alloc_limit e1)%N -> Suff l (@decode_subtype e1 R _) (@decode_subtype e2 R _) any.
  Proof.
    intros Hl. unfold decode_subtype. apply suff_byte. intros l' b ->. apply suff_switch_cons.
    - apply (suff_bind _ _ _ _ _ any); [apply suff_map_err, suff_list_any; [lia|apply suff_refl|mono|takes]| | |intros; exact I].
      + apply mono_map_err. eapply (mono_safe e2 0), safe_list, safe_typeidx.
      + intros a. apply (suff_bind _ _ _ _ _ any); [apply suff_map_err, suff_comptype; lia|mono|intros; apply suff_refl|intros; exact I].
    - cbn [switch]. apply suff_with_chain. apply (suff_bind _ _ _ _ _ any); [apply suff_map_err, suff_comptype; lia|mono|intros; apply suff_refl|intros; exact I].
  Qed.
  Lemma suff_rectype {R C} `{Lawful R C} l : (N.of_nat l <= @alloc_limit e1)%N -> Suff l (@decode_rectype e1 R _) (@decode_rectype e2 R _) any.
  Proof.
    intros Hl. unfold decode_rectype. apply suff_byte. intros l' b ->. destruct (_ =? _)%N.
    - apply suff_map_err, suff_list_any; [lia|apply suff_subtype; lia|mono|takes].
    - apply suff_with_chain. apply (suff_bind _ _ _ _ _ any); [apply suff_map_err, suff_subtype; lia|mono|intros; apply suff_refl|intros; exact I].
  Qed.
  Section Generic2.
  Context {R C : Type} `{Lawful R C}.
  Variable l : nat.
  Hypothesis Hl : (N.of_nat l <= @alloc_limit e1)%N.
  Lemma suff_byte_vector : Suff l (@decode_byte_vector e1 R _) (@decode_byte_vector e2 R _) any.
  Proof.
    intros r a r' Hr HE _. unfold decode_byte_vector, bind, map_err in *. destruct (decode_u32 r) as [[n| | |] r0] eqn:Eu; try discriminate.
    assert (Hr0 : budget r0 <= l). { pose proof (mono_safe (bigenv 0) 0 _ _ _ (safe_u32 (env:=bigenv 0) (R:=R) 0) r) as HM. rewrite Eu in HM. cbn in HM. lia. }
    unfold alloc in *. destruct (n <=? @alloc_limit e2)%N; [|discriminate]. unfold ret in *. destruct (read_exact n r0) as [[b| | |] r1] eqn:Er; try discriminate. injection HE as <- <-.
    pose proof (@safe_read_exact (bigenv 0) R _ _ 0 n r0) as HS. rewrite Er in HS. destruct HS as [_ [HS _]]. destruct (N.leb_spec n (@alloc_limit e1)); [|lia]. rewrite Er. reflexivity.
  Qed.
  Lemma suff_name : Suff l (@decode_name e1 R _) (@decode_name e2 R _) any.
  Proof. unfold decode_name. apply (suff_bind _ _ _ _ _ any); [apply suff_map_err, suff_byte_vector|mono|intros; apply suff_refl|intros; exact I]. Qed.
  Lemma suff_import : Suff l (@parse_import e1 R _) (@parse_import e2 R _) any.
  Proof.
    unfold parse_import. apply (suff_bind _ _ _ _ _ any); [apply suff_map_err, suff_name|mono|intros a|intros; exact I].
    apply (suff_bind _ _ _ _ _ any); [apply suff_map_err, suff_name|mono|intros; apply suff_refl|intros; exact I].
  Qed.
  Lemma suff_export : Suff l (@parse_export e1 R _) (@parse_export e2 R _) any.
  Proof. unfold parse_export. apply (suff_bind _ _ _ _ _ any); [apply suff_map_err, suff_name|mono|intros; apply suff_refl|intros; exact I]. Qed.

  (** instructions *)
  Lemma grown {E B} {env : Env} n (q : M R E B) r b r' : bind (alloc n) (fun _ => q) r = (Ok b, r') -> (n <= alloc_limit)%N /\ q r = (Ok b, r').
  Proof. unfold bind, alloc. destruct (N.leb_spec n alloc_limit); [auto|discriminate]. Qed.
  Lemma grow_ok {E B} {env : Env} n (q : M R E B) r : (n <= alloc_limit)%N -> bind (alloc n) (fun _ => q) r = q r.
  Proof. unfold bind, alloc. intros Hn. rewrite (proj2 (N.leb_le _ _) Hn). reflexivity. Qed.
  Lemma body_acc (p : M R ParseError ParseResult) ae n : forall acc r is tok r', @body_loop e2 R p ae n acc r = (Ok (is, tok), r') -> exists is', is = rev acc ++ is'.
  Proof.
    induction n as [|n IH]; intros acc r is tok r' HE; [discriminate|]. cbn [body_loop] in HE. unfold bind at 1 in HE. destruct (p r) as [[[i| |]| | |] r1]; try discriminate.
    - apply grown in HE as [_ HE]. apply IH in HE as (is' & ->). cbn [rev]. rewrite <- app_assoc. eauto.
    - destruct ae; [|discriminate]. injection HE as <- <- <-. exists []. rewrite app_nil_r. reflexivity.
    - injection HE as <- <- <-. exists []. rewrite app_nil_r. reflexivity.
  Qed.
  Lemma suff_body (p1 p2 : M R ParseError ParseResult) ae d : Suff l p1 p2 (low_pr d) -> Eats p2 -> Suff l (@parse_body e1 R _ p1 ae) (@parse_body e2 R _ p2 ae) (fun x => low d (fst x)).
  Proof.
    intros Hp Hm r [is tok] r' Hr HE [Hd HF]. unfold parse_body in *. cbn [fst] in HF. revert HE. generalize (S (budget r)). intros n.
    assert (Hacc : length (@nil instr) + budget r <= l) by exact Hr. revert Hacc. generalize (@nil instr). revert r Hr.
    induction n as [|n IH]; intros r Hr acc Hacc HE; [discriminate|]. cbn [body_loop] in *. unfold bind at 1 in HE. unfold bind at 1. specialize (Hm r). destruct (p2 r) as [[x| | |] r1] eqn:E2; try discriminate. specialize (Hm _ _ eq_refl).
    assert (HX : low_pr d x).
    { split; [exact Hd|]. destruct x as [i| |]; try exact I. apply grown in HE as [_ HE]. apply body_acc in HE as (is' & ->). rewrite Forall_app in HF. destruct HF as [HF _]. cbn [rev] in HF. rewrite Forall_app in HF. destruct HF as [_ HF]. inversion HF; assumption. }
    rewrite (Hp _ _ _ Hr E2 HX). destruct x as [i| |]; try exact HE. apply grown in HE as [_ HE]. rewrite grow_ok by (unfold lenN; cbn [length]; lia). apply IH; [lia|cbn [length]; lia|exact HE].
  Qed.
  Lemma suff_block (p1 p2 : M R ParseError ParseResult) op d : Suff l p1 p2 (low_pr d) -> Eats p2 -> (forall ae, Mono (@parse_body e2 R _ p2 ae)) ->
    Suff l (@parse_block e1 R _ p1 op) (@parse_block e2 R _ p2 op) (fun i => nesting i < S d).
  Proof.
    intros Hp Hm Hmb. unfold parse_block, ctl. apply suff_then; [mono|]. intros bt.
    apply (suff_bind _ _ _ _ _ (fun x => low d (fst x))); [apply suff_body; assumption|apply Hmb| |].
    - intros [in1 tok]. apply suff_switch_cons; [apply suff_refl|]. apply suff_switch_cons; [apply suff_refl|]. apply suff_switch_cons; [|apply suff_refl].
      destruct tok; [apply suff_refl| |apply suff_refl].
      apply (suff_bind _ _ _ _ _ (fun x => low d (fst x))); [apply suff_body; assumption|apply Hmb|intros [? ?]; apply suff_refl|].
      intros [in2 tok2] r b r' [= <- <-] HQ. apply low_if in HQ. apply HQ.
    - intros [in1 tok] r b r' HE HQ. unfold switch, pmatch in HE. destruct (_ =? 2)%N; [injection HE as <- <-; apply low_block in HQ; exact HQ|].
      destruct (_ =? 3)%N; [injection HE as <- <-; apply low_loop in HQ; exact HQ|]. destruct (_ =? 4)%N; [|discriminate].
      destruct tok; [discriminate| |injection HE as <- <-; apply low_if in HQ; apply HQ].
      unfold bind in HE. destruct (parse_body p2 false r) as [[[in2 t2]| | |] r2]; try discriminate. injection HE as <- <-. apply low_if in HQ. apply HQ.
  Qed.
  Lemma suff_try (p1 p2 : M R ParseError ParseResult) d : Suff l p1 p2 (low_pr d) -> Eats p2 -> (forall ae, Mono (@parse_body e2 R _ p2 ae)) ->
    Suff l (@parse_try_table e1 R _ p1) (@parse_try_table e2 R _ p2) (fun i => nesting i < S d).
  Proof.
    intros Hp Hm Hmb. unfold parse_try_table, ctl. apply suff_then; [mono|]. intros bt.
    apply (suff_bind _ _ _ _ _ any); [apply suff_map_err, suff_list_any; [exact Hl|apply suff_refl|mono|takes]| | |intros; exact I].
    { apply mono_map_err. eapply (mono_safe e2 0), safe_list, safe_catch. }
    intros cs. apply (suff_bind _ _ _ _ _ (fun x => low d (fst x))); [apply suff_body; assumption|apply Hmb|intros [? ?]; apply suff_refl|].
    intros [in1 tok] r b r' [= <- <-] HQ. apply low_try in HQ. exact HQ.
  Qed.
  Lemma suff_op (p1 p2 : M R ParseError ParseResult) d opcode : Suff l p1 p2 (low_pr d) -> Eats p2 -> (forall ae, Mono (@parse_body e2 R _ p2 ae)) ->
    Suff l (@parse_op e1 R _ p1 opcode) (@parse_op e2 R _ p2 opcode) (low_pr (S d)).
  Proof.
    intros Hp Hm Hmb. unfold parse_op. do 2 (apply suff_switch_cons; [apply suff_refl|]). apply suff_switch_nil.
    apply (suff_same _ _ _ _ (fun i => nesting i < S d)).
    - repeat (apply suff_switch_cons; [first [apply suff_refl | apply suff_block; assumption | apply suff_try; assumption |
        apply (suff_same _ _ _ _ any); [apply suff_map_err, suff_list_any; [exact Hl|apply suff_refl|mono|takes]|intros; exact I] |
        apply (suff_bind _ _ _ _ _ any); [apply suff_map_err, suff_list_any; [exact Hl|apply suff_refl|mono|takes]| |intros; apply suff_refl|intros; exact I];
          apply mono_map_err; eapply (mono_safe e2 0), safe_list; solve [apply safe_valtype | apply safe_labelidx] ]|]).
      apply suff_refl.
    - intros i r b r' [= <- <-] [_ HQ]. exact HQ.
  Qed.
  Lemma suff_parse d1 : forall d2, d1 <= d2 -> d2 <= @stack_limit e2 -> Suff l (@parse e1 R _ d1) (@parse e2 R _ d2) (low_pr d1).
  Proof.
    induction d1 as [|d1 IH]; intros d2 Hd Hd2; [intros r a r' _ _ [HX _]; lia|]. destruct d2 as [|d2]; [lia|]. cbn [parse].
    apply suff_then; [mono|]. intros b. apply suff_op; [apply IH; lia|eapply (eats_safe e2); apply (safe_parse d2); lia|].
    intros ae. eapply (mono_safe e2), (safe_parse_body d2); [lia|apply safe_parse; lia].
  Qed.
  Let d1 := @stack_limit e1.
  Lemma expr_acc n : forall acc b r e x r', @expr_loop e2 R _ n acc b r = (Ok (e, x), r') -> exists e', e = rev acc ++ e'.
  Proof.
    induction n as [|n IH]; intros acc b r e x r' HE; [discriminate|]. cbn [expr_loop] in HE. unfold bind at 1 in HE. destruct (map_err _ _ r) as [[[i| |]| | |] r1]; try discriminate.
    - apply grown in HE as [_ HE]. apply IH in HE as (is' & ->). cbn [rev]. rewrite <- app_assoc. eauto.
    - injection HE as <- <- <-. exists []. rewrite app_nil_r. reflexivity.
  Qed.
  Lemma eats_parse : Eats (map_err Expr_ParseInstruction (@parse e2 R _ (@stack_limit e2))).
  Proof. eapply (eats_safe e2), safe_map_err, safe_parse, le_n. Qed.
  Lemma suff_expr : Suff l (@decode_expr e1 R _) (@decode_expr e2 R _) (fun x => low d1 (fst x)).
  Proof.
    intros r [e x] r' Hr HE [Hd HF]. unfold decode_expr in *. cbn [fst] in HF. revert HE. generalize (S (budget r)). intros n.
    assert (Hacc : length (@nil instr) + budget r <= l) by exact Hr. revert Hacc. generalize (@nil instr) false. revert r Hr.
    induction n as [|n IH]; intros r Hr acc b Hacc HE; [discriminate|]. cbn [expr_loop] in *. unfold bind at 1 in HE. unfold bind at 1.
    pose proof (eats_parse r) as HM.
    destruct (map_err Expr_ParseInstruction (@parse e2 R _ _) r) as [[y| | |] r1] eqn:E2; try discriminate. specialize (HM _ _ eq_refl).
    assert (HX : low_pr d1 y).
    { split; [exact Hd|]. destruct y as [i| |]; try exact I. apply grown in HE as [_ HE]. destruct (expr_acc _ _ _ _ _ _ _ HE) as (is' & ->). rewrite Forall_app in HF. destruct HF as [HF _]. cbn [rev] in HF. rewrite Forall_app in HF. destruct HF as [_ HF]. inversion HF; assumption. }
    assert (HD : d1 <= @stack_limit e2) by (unfold d1; lia).
    pose proof (suff_map_err l Expr_ParseInstruction _ _ _ (suff_parse d1 (@stack_limit e2) HD (le_n _)) _ _ _ Hr E2 HX) as HP. unfold d1 in HP. rewrite HP. destruct y; try exact HE.
    apply grown in HE as [_ HE]. rewrite grow_ok by (unfold lenN; cbn [length]; lia). apply IH; [lia|cbn [length]; lia|exact HE].
  Qed.
  Lemma suff_expr_only : Suff l (@decode_expr_only e1 R _) (@decode_expr_only e2 R _) (low d1).
  Proof. apply (suff_same _ _ _ _ _ _ suff_expr). intros [e x] r b r' [= <- <-]. auto. Qed.
  Lemma mono_expr : Mono (@decode_expr_only e2 R _).
  Proof. eapply (mono_safe e2), safe_expr_only. Qed.
  Lemma suff_table : Suff l (@decode_table e1 R _) (@decode_table e2 R _) (fun t => low d1 (t_init t)).
  Proof.
    unfold decode_table. apply suff_then; [mono|]. intros b0. destruct (_ =? _)%N; [|apply suff_refl].
    apply suff_then; [mono|]. intros b1. destruct (negb _); [apply suff_refl|]. apply suff_then; [mono|]. intros tt.
    apply (suff_same _ _ _ _ (low d1)); [apply suff_map_err, suff_expr_only|]. intros e r b r' [= <- <-]. auto.
  Qed.
  Lemma suff_global : Suff l (@parse_global e1 R _) (@parse_global e2 R _) (fun t => low d1 (g_init t)).
  Proof.
    unfold parse_global. apply suff_then; [mono|]. intros t.
    apply (suff_same _ _ _ _ (low d1)); [apply suff_map_err, suff_expr_only|]. intros e r b r' [= <- <-]. auto.
  Qed.
  Lemma suff_data : Suff l (@parse_data e1 R _) (@parse_data e2 R _) (fun t => Forall (low d1) (data_exprs t)).
  Proof.
    unfold parse_data. apply suff_then; [mono|]. intros n. apply suff_switch_cons; [|apply suff_switch_cons; [|apply suff_switch_cons; [|apply suff_refl]]].
    - apply (suff_bind _ _ _ _ _ (low d1)); [apply suff_map_err, suff_expr_only|apply mono_map_err, mono_expr| |].
      + intros e. apply (suff_same _ _ _ _ any); [apply suff_map_err, suff_byte_vector|intros; exact I].
      + intros e r b r' HE HQ. unfold bind in HE. destruct (map_err _ _ r) as [[]]; try discriminate. injection HE as <- <-. inversion HQ; assumption.
    - apply (suff_same _ _ _ _ any); [apply suff_map_err, suff_byte_vector|intros; exact I].
    - apply suff_then; [mono|]. intros x. apply (suff_bind _ _ _ _ _ (low d1)); [apply suff_map_err, suff_expr_only|apply mono_map_err, mono_expr| |].
      + intros e. apply (suff_same _ _ _ _ any); [apply suff_map_err, suff_byte_vector|intros; exact I].
      + intros e r b r' HE HQ. unfold bind in HE. destruct (map_err _ _ r) as [[]]; try discriminate. injection HE as <- <-. inversion HQ; assumption.
  Qed.
  Lemma suff_funcidxs {E} (f : _ -> E) : Suff l (map_err f (@decode_list e1 R _ _ _ decode_funcidx)) (map_err f (@decode_list e2 R _ _ _ decode_funcidx)) any.
  Proof. apply suff_map_err, suff_list_any; [exact Hl|apply suff_refl|mono|takes]. Qed.
  Lemma suff_exprs {E} (f : _ -> E) : Suff l (map_err f (@decode_list e1 R _ _ _ (@decode_expr_only e1 R _))) (map_err f (@decode_list e2 R _ _ _ (@decode_expr_only e2 R _))) (Forall (low d1)).
  Proof. apply suff_map_err, suff_list; [exact Hl|apply suff_expr_only|apply mono_expr|]. eapply takes_parses; [apply parses_expr|apply ne_expr]. Qed.
  Ltac eback := intros ? ? ? ? HE HQ; unfold bind in HE; repeat match type of HE with context [match ?x with _ => _ end] => destruct x; try discriminate HE end;
    injection HE as <- <-; unfold elem_exprs in HQ; cbn [e_init e_mode] in HQ; apply Forall_app in HQ as [HQ1 HQ2]; try exact HQ1; inversion HQ2; assumption.
  Lemma suff_elem : Suff l (@parse_elem e1 R _) (@parse_elem e2 R _) (fun t => Forall (low d1) (elem_exprs t)).
  Proof.
    unfold parse_elem. apply suff_then; [mono|]. intros n.
    repeat (apply suff_switch_cons; [repeat (first [apply suff_then; [solve [mono]|intros ?] | apply (suff_bind _ _ _ _ _ (low d1)); [solve [apply suff_map_err, suff_expr_only]|solve [apply mono_map_err, mono_expr]|intros ?|eback]]);
      first [apply (suff_same _ _ _ _ any); [solve [apply suff_funcidxs]|intros; exact I] | apply (suff_same _ _ _ _ (Forall (low d1))); [solve [apply suff_exprs]|eback]]|]).
    apply suff_refl.
  Qed.
  End Generic2.

  Definition fits (ls : list ValType) : Prop := (N.of_nat (length ls) <= @alloc_limit e1)%N.
  Definition lows (e : Expr) : Prop := low (@stack_limit e1) e.
  Definition code_need (c : Code) : Prop := lows (c_expr c) /\ fits (expand_locals (c_locals c)).
  (** what a section needs *)
  Definition need (x : section) : Prop :=
    match x with
    | STable l => Forall (fun t => lows (t_init t)) l
    | SGlobal l => Forall (fun g => lows (g_init g)) l
    | SElement l => Forall (fun e => Forall lows (elem_exprs e)) l
    | SData l => Forall (fun d => Forall lows (data_exprs d)) l
    | SCode l => Forall (fun c => lows (snd c) /\ fits (fst c)) l
    | _ => True
    end.
  Section Code.
  Context {R C : Type} `{Lawful R C}.
  Variable l : nat.
  Hypothesis Hl : (N.of_nat l <= @alloc_limit e1)%N.
  Lemma mono_throw {E A} (x : E) : Mono (throw x : M R E A). Proof. intros r. cbn. lia. Qed.
  Lemma mono_add {E} a b : Mono (add_u64 a b : M R E _). Proof. intros r. unfold add_u64. destruct (_ <? _)%N; cbn; lia. Qed.
  Lemma mono_local mx st : Mono (parse_code_local mx st : M R _ _).
  Proof.
    unfold parse_code_local. apply mono_bind; [mono|]. intros c. apply mono_bind; [apply mono_add|]. intros n. destruct (_ <? _)%N; [apply mono_throw|]. mono.
  Qed.
  Lemma suff_locals : Suff l (@decode_list_st e1 R _ _ _ _ (parse_code_local (2 ^ 32 - 1)%N) 0%N) (@decode_list_st e2 R _ _ _ _ (parse_code_local (2 ^ 32 - 1)%N) 0%N) any.
  Proof.
    eapply suff_weaken; [apply (suff_list_st e1 e2 l _ _ _ any Hl)|lia|all_any].
    - intros st. apply suff_refl.
    - intros st. apply mono_local.
    - intros st. eapply takes_parses; [apply parses_local|apply ne_local].
  Qed.
  Lemma mono_locals : Mono (@decode_list_st e2 R _ _ _ _ (parse_code_local (2 ^ 32 - 1)%N) 0%N).
  Proof.
    clear l Hl. eapply (mono_safe e2 0), safe_list_st with (Inv := loc_inv); [split; [reflexivity|lia]|]. intros ls s HI. apply safe_code_local, HI.
  Qed.
  End Code.
  Section Code2.
  Context {R C : Type} `{Lawful R C}.
  Variable l : nat.
  Hypothesis Hl : (N.of_nat l <= @alloc_limit e1)%N.
  Lemma suff_code : Suff l (@parse_code e1 R _) (@parse_code e2 R _) (fun c => lows (c_expr c)).
  Proof.
    unfold parse_code. apply suff_then; [mono|]. intros sz.
    apply (suff_same _ _ _ _ (fun x => (fun y => lows (fst (snd y))) (fst x))).
    - apply (suff_with_take l sz _ _ (fun y => lows (fst (snd y)))).
      apply (suff_bind _ _ _ _ _ any); [apply suff_map_err, suff_locals, Hl|apply mono_map_err, mono_locals| |intros; exact I].
      intros ls. apply (suff_same _ _ _ _ (fun x => lows (fst x))); [apply suff_map_err, suff_expr, Hl|]. intros [e x] r b r' [= <- <-]. auto.
    - intros [[ls [e x]] lim] r b r' HE HQ. destruct (negb _).
      + unfold bind, sub_u64 in HE. destruct (_ <=? _)%N; discriminate.
      + injection HE as <- <-. exact HQ.
  Qed.
  Lemma suff_fill codes : Forall (fun c => fits (expand_locals (c_locals c))) codes -> forall i fs b (r : R) a r',
    @fill_codes e2 R i codes fs b r = (Ok a, r') -> @fill_codes e1 R i codes fs b r = (Ok a, r').
  Proof.
    induction 1 as [|c codes Hc _ IH]; intros i fs b r a r' HE; [exact HE|]. cbn [fill_codes] in *. unfold bind, alloc in *.
    red in Hc. rewrite expand_total in Hc. destruct (_ <=? @alloc_limit e2)%N; [|discriminate]. destruct (N.leb_spec (total_locals (c_locals c)) (@alloc_limit e1)); [|lia].
    unfold ret in *. destruct (nth_error fs i); [|discriminate]. apply IH. exact HE.
  Qed.
  Lemma fill_inj fs : forall l1 l2, length l1 = length fs -> length l2 = length fs -> fill fs l1 = fill fs l2 -> l1 = l2.
  Proof.
    induction fs as [|f fs IH]; intros [|[a b] l1] [|[c d] l2] H1' H2' HF; try discriminate; [reflexivity|]. unfold fill in HF. cbn in HF. injection HF as Ha Hb HF.
    apply app_inv_head in Ha. subst. f_equal. apply IH; [cbn in *; lia|cbn in *; lia|exact HF].
  Qed.
  Definition QK (k : SectionKind) (s s' : st) : Prop := exists x, kind_of x = k /\ apply_section x s = Some s' /\ need x.
  Ltac qk := intros ? ? ? ? [= <- <-] (y & Hk & Ha & Hn); destruct y; try discriminate Hk; cbn in Ha; injection Ha as <-; exact Hn.
  Ltac sec1 := apply (suff_same _ _ _ _ any); [apply suff_map_err|intros; exact I].
  Ltac lst := apply suff_map_err, suff_list_any; [exact Hl| | |takes].
  Lemma suff_rest : Suff l (@read_to_end R _ e1) (@read_to_end R _ e2) any.
  Proof.
    intros r a r' Hr HE _. revert HE. unfold read_to_end. generalize (S (budget r)). intros n.
    assert (Hacc : length (@nil byte) + budget r <= l) by exact Hr. clear Hr. revert Hacc. generalize (@nil byte) 0. revert r. induction n as [|n IH]; intros r acc i Hacc HE; [discriminate|]. cbn [read_to_end_loop] in *.
    rewrite Hprobe in *. destruct (read r _) as [x r1] eqn:Er. destruct x as [[|b d]|k|]; try exact HE.
    - destruct (_ <=? N.succ _)%N; [|discriminate]. destruct (_ <=? @alloc_limit e2)%N; [|discriminate].
      pose proof (ok_data _ _ _ _ Er) as HD. 
      rewrite (proj2 (N.leb_le (lenN (acc ++ b :: d)) (@alloc_limit e1))) by (unfold lenN; rewrite app_length; lia).
      apply IH; [rewrite app_length; lia|exact HE].
    - destruct k; try exact HE. apply IH; [|exact HE]. pose proof (ok_intr _ _ _ Er) as HD. lia.
  Qed.
  Lemma code_back cs s (r : R) s' r' :
    (if negb (lenN cs =? lenN (funcs (st_module s)))%N then throw (DM_CodeFuncEntriesLenMismatch (lenN cs) (lenN (funcs (st_module s))))
     else '(fs, d) <- @fill_codes e2 R 0 cs (funcs (st_module s)) (st_data_idx s) ;; ret (mkSt (set_funcs fs (st_module s)) true d)) r = (Ok s', r') ->
    QK SK_Code s s' -> Forall code_need cs.
  Proof.
    intros HE (x & Hk & Ha & Hn). destruct (N.eqb_spec (lenN cs) (lenN (funcs (st_module s)))) as [Hlen|]; [|discriminate]. cbn [negb] in HE.
    unfold bind in HE. destruct (fill_codes _ _ _ _ r) as [[[fs d]| | |] r1] eqn:EF; try discriminate. injection HE as <- <-.
    unfold lenN in Hlen. assert (Hlen' : length cs = length (funcs (st_module s))) by lia.
    destruct (p_sound _ _ (fill_codes_pure (env:=e2) (R:=R) cs [] (funcs (st_module s)) (st_data_idx s) Hlen') _ _ _ EF) as (w & _ & HG).
    destruct HG as [HG _]. injection HG as -> ->. destruct x as [| | | | | | | | | | | |fs|]; try discriminate Hk. cbn in Ha, Hn.
    destruct (N.eqb_spec (lenN fs) (lenN (funcs (st_module s)))) as [Hf|]; [|discriminate]. injection Ha as Ha _. cbn [app] in Ha. rewrite <- fill_map in Ha.
    apply fill_inj in Ha; [|unfold lenN in Hf; lia|rewrite map_length; lia]. subst fs. rewrite Forall_map in Hn. exact Hn.
  Qed.
  Lemma suff_section k s : Suff l (@decode_section e1 R _ k s) (@decode_section e2 R _ k s) (QK k s).
  Proof.
    destruct k; cbn [decode_section].
    - sec1. unfold decode_section_custom. apply (suff_bind _ _ _ _ _ any); [apply suff_map_err, suff_name, Hl|mono| |intros; exact I].
      intros nm. apply (suff_same _ _ _ _ any); [apply suff_map_err, suff_rest|intros; exact I].
    - sec1. lst; [apply suff_rectype, Hl|mono].
    - sec1. lst; [apply suff_import, Hl|mono].
    - sec1. lst; [apply suff_refl|mono].
    - apply (suff_same _ _ _ _ (Forall (fun t => lows (t_init t)))); [|qk].
      do 2 apply suff_map_err. apply suff_list; [exact Hl|apply suff_table, Hl| |takes]. eapply (mono_safe e2), safe_table.
    - sec1. lst; [apply suff_refl|mono].
    - sec1. lst; [apply suff_refl|mono].
    - apply (suff_same _ _ _ _ (Forall (fun g => lows (g_init g)))); [|qk].
      do 2 apply suff_map_err. apply suff_list; [exact Hl|apply suff_global, Hl| |takes]. eapply (mono_safe e2), safe_global.
    - sec1. lst; [apply suff_export, Hl|mono].
    - apply suff_refl.
    - apply (suff_same _ _ _ _ (Forall (fun e => Forall lows (elem_exprs e)))); [|qk].
      do 2 apply suff_map_err. apply suff_list; [exact Hl|apply suff_elem, Hl| |takes]. eapply (mono_safe e2), safe_elem.
    - apply suff_refl.
    - apply (suff_bind _ _ _ _ _ (Forall code_need)).
      + intros r a r' Hr HE HQ. revert r a r' Hr HE HQ. do 2 apply suff_map_err. eapply suff_weaken; [apply (suff_list e1 e2 l _ _ (fun c => lows (c_expr c))); [exact Hl|apply suff_code| |takes]|lia|].
        * eapply (mono_safe e2), safe_code.
        * intros cs. apply Forall_impl. intros c HX. apply HX.
      + apply mono_map_err. eapply (mono_safe e2), safe_code_section.
      + intros cs r s' r' _ HE HQ. pose proof (code_back _ _ _ _ _ HE HQ) as HN. destruct (negb _); [discriminate|]. unfold bind in *.
        destruct (@fill_codes e2 R _ _ _ _ r) as [[[fs d]| | |] r1] eqn:EF; try discriminate. rewrite (suff_fill cs) with (a := (fs, d)) (r' := r1); [exact HE| |exact EF].
        eapply Forall_impl; [|exact HN]. intros c HX. apply HX.
      + intros cs r s' r'. apply code_back.
    - apply (suff_same _ _ _ _ (Forall (fun e => Forall lows (data_exprs e)))).
      + do 2 apply suff_map_err. apply suff_list; [exact Hl|apply suff_data, Hl| |takes]. eapply (mono_safe e2), safe_data.
      + intros ds r s' r' HE (y & Hk & Ha & Hn). destruct y; try discriminate Hk. cbn in Ha, Hn. destruct (data_count (st_module s)).
        * destruct (_ =? _)%N in HE; [|discriminate]. destruct (_ =? _)%N in Ha; [|discriminate]. injection HE as <- _. injection Ha as <-. exact Hn.
        * injection HE as <- _. injection Ha as <-. exact Hn.
  Qed.
  End Code2.
  Section Module_.
  Context {R C : Type} `{Lawful R C}.
  Variable l : nat.
  Hypothesis Hl : (N.of_nat l <= @alloc_limit e1)%N.
  Lemma suff_step h s (r : R) s' r' : @section_step e2 R _ h s r = (Ok s', r') ->
    exists x bs, bsteps (abs r) bs (abs r') /\ kind_of x = sh_kind h /\ sh_size h = lenN bs /\ Bcontents x bs /\ apply_one (x, sh_size h) s = Some s' /\
      (S (length (section_headers (st_module s))) + budget r <= l -> need x -> @section_step e1 R _ h s r = (Ok s', r')).
  Proof.
    destruct h as [hk hs]. destruct (fenced_section (env:=e2) (R:=R) hs hk s) as [S K]. clear K.
    unfold section_step, with_take. cbn [sh_kind sh_size]. intros Hr. unfold bind in Hr |- *.
    pose proof (validate_pure (st_module s) (mkHeader hk hs) (mkTake hs r)) as HV; cbn [sh_kind] in HV.
    destruct (order_ok (st_module s) hk) eqn:EO; [cbn [sh_kind sh_size] in *; rewrite HV in Hr |- *|destruct HV as (e & HV); rewrite HV in Hr; discriminate].
    destruct (@decode_section e2 _ _ hk s (mkTake hs r)) as [[s1|e|pn|] t] eqn:E; try discriminate.
    destruct (N.eqb_spec (t_limit t) 0) as [El|El]; cbn [negb] in Hr.
    2: { unfold sub_u64 in Hr. destruct (_ <=? _)%N; discriminate. }
    destruct (S _ _ _ E El) as (bs & Hb & Hl' & x & Hk & HC & Ha). unfold alloc in Hr. destruct (_ <=? @alloc_limit e2)%N; [|discriminate]. injection Hr as <- <-.
    exists x, bs. split; [exact Hb|]. split; [exact Hk|]. split; [cbn; lia|]. split; [exact HC|]. split.
    { unfold apply_one. cbn [fst snd]. rewrite Hk, EO, Ha. reflexivity. }
    intros HB HN. rewrite (suff_section l Hl hk s (mkTake hs r) s1 t); [|cbn; lia|exact E|exists x; auto].
    rewrite (proj2 (N.eqb_eq _ _) El). cbn [negb]. pose proof (safe_decode_section (env:=e2) hk s (mkTake hs r)) as HD. rewrite E in HD. destruct HD as (_ & _ & HD).
    unfold alloc. rewrite (proj2 (N.leb_le _ (@alloc_limit e1))); [reflexivity|].
    change (section_headers (st_module (on_module _ s1))) with (section_headers (st_module s1) ++ [mkHeader hk hs]). rewrite HD. unfold lenN. rewrite app_length. cbn [length]. lia.
  Qed.
  Lemma suff_loop n : forall s (r : R) s' r', @section_loop e2 R _ n s r = (Ok s', r') ->
    exists xs bs c1, bsteps (abs r) bs c1 /\ Bseq Bsection xs bs /\ apply_all xs s = Some s' /\
      (length (section_headers (st_module s)) + budget r <= l -> Forall (fun x => need (fst x)) xs -> @section_loop e1 R _ n s r = (Ok s', r')).
  Proof.
    induction n as [|n IH]; intros s r s' r' Hr; [discriminate|]. cbn [section_loop] in Hr |- *.
    unfold bind at 1, map_err in Hr. unfold bind at 1, map_err.
    pose proof (safe_header (env:=bigenv 0) 0 r) as HB1. destruct (decode_section_header r) as [[[h|]| | |] r2] eqn:Eh; try discriminate.
    - destruct HB1 as [_ HB1]. destruct (header_sound _ _ _ Eh) as (nb & HU & Hh). unfold bind in Hr |- *.
      destruct (@section_step e2 R _ h s r2) as [[s1|e|pn|] r3] eqn:Es; try discriminate.
      assert (HB3 : budget r3 <= budget r2). { pose proof (safe_section_step (env:=e2) (R:=R) h s r2) as HX. rewrite Es in HX. destruct HX as (_ & HX & _). exact HX. }
      assert (HH3 : length (section_headers (st_module s1)) = S (length (section_headers (st_module s)))). { pose proof (safe_section_step (env:=e2) (R:=R) h s r2) as HX. rewrite Es in HX. destruct HX as (_ & _ & HX). exact HX. }
      destruct (suff_step _ _ _ _ _ Es) as (x & b2 & Hb2 & Hk & Hsz & HC & Ha & HS).
      destruct (IH _ _ _ _ Hr) as (xs & b3 & c1 & Hb3 & Hq & Hall & HL).
      exists ((x, sh_size h) :: xs), ((id_of (sh_kind h) :: nb ++ b2) ++ b3), c1. split.
      { rewrite app_comm_cons. eapply bsteps_app; [|exact Hb3]. eapply bsteps_app; [exact Hh|exact Hb2]. }
      split. { constructor; [|exact Hq]. rewrite Hsz in *. rewrite <- Hk. constructor; assumption. }
      split. { cbn [apply_all]. rewrite Ha. exact Hall. }
      intros HB HN. inversion HN as [|? ? HN1 HN2]; subst. rewrite HS; [|lia|exact HN1]. apply HL; [lia|exact HN2].
    - injection Hr as <- <-.
      exists [], [], (abs r). split; [constructor|]. split; [constructor|]. split; [reflexivity|]. intros _ _. reflexivity.
  Qed.
  Lemma suff_module (r : R) m r' : @decode_module e2 R _ r = (Ok m, r') -> exists xs, assemble xs = Some m /\
    (budget r <= l -> Forall (fun x => need (fst x)) xs -> @decode_module e1 R _ r = (Ok m, r')).
  Proof.
    unfold decode_module. unfold bind at 1. intros Hr.
    assert (HM : Mono (map_err DM_ParsePreamble (parse_preamble : M R _ _))) by (apply mono_map_err; eapply (mono_safe (bigenv 0) 0), safe_preamble). pose proof (HM r) as HB.
    unfold bind at 1. destruct (map_err DM_ParsePreamble parse_preamble r) as [[u|e|pn|] r1] eqn:E1; try discriminate. cbn [snd] in HB.
    unfold bind in Hr |- *. unfold section_loop' in Hr |- *.
    destruct (@section_loop e2 R _ _ _ r1) as [[s|e|pn|] r2] eqn:E2; try discriminate.
    destruct (suff_loop _ _ _ _ _ E2) as (xs & bs & c1 & Hb & Hq & Hall & HL). exists xs. split.
    - pose proof (final_pure s r2) as HF. unfold assemble. rewrite Hall. destruct (final_ok s) eqn:EF; [|destruct HF as (e & HF)]; rewrite HF in Hr; [|discriminate].
      injection Hr as <- <-. reflexivity.
    - intros HL1 HN. rewrite HL; [exact Hr|cbn; cbn in HB, HL1; lia|exact HN].
  Qed.
  End Module_.
End Walk.

(** ** the converse: what a successful run had *)
Definition Ens {R E A} (p : M R E A) (Q : A -> Prop) : Prop := forall r a r', p r = (Ok a, r') -> Q a.
Section EnsComb.
  Context {R : Type}.
  Lemma ens_bind {E A B} (p : M R E A) (q : A -> M R E B) (P : A -> Prop) Q : Ens p P -> (forall a, P a -> Ens (q a) Q) -> Ens (bind p q) Q.
  Proof. intros Hp Hq r b r' HE. unfold bind in HE. destruct (p r) as [[a| | |] r1] eqn:Ep; try discriminate. eapply Hq; [eapply Hp; exact Ep|exact HE]. Qed.
  Lemma ens_then {E A B} (p : M R E A) (q : A -> M R E B) Q : (forall a, Ens (q a) Q) -> Ens (bind p q) Q.
  Proof. intros Hq. apply (ens_bind _ _ (fun _ => True)); [intros ? ? ? _; exact I|auto]. Qed.
  Lemma ens_map_err {E E' A} (f : E -> E') (p : M R E A) Q : Ens p Q -> Ens (map_err f p) Q.
  Proof. intros Hp r a r' HE. unfold map_err in HE. destruct (p r) as [[x| | |] r1] eqn:Ep; try discriminate. injection HE as <- <-. eapply Hp; exact Ep. Qed.
  Lemma ens_ret {E A} (a : A) (Q : A -> Prop) : Q a -> Ens (ret a : M R E A) Q.
  Proof. intros HQ r b r' [= <- _]. exact HQ. Qed.
  Lemma ens_throw {E A} (e : E) (Q : A -> Prop) : Ens (throw e : M R E A) Q.
  Proof. intros r b r' [=]. Qed.
  Lemma ens_panic {E A} x (Q : A -> Prop) : Ens (panic_with x : M R E A) Q.
  Proof. intros r b r' [=]. Qed.
  Lemma ens_any {E A} (p : M R E A) : Ens p any.
  Proof. intros r a r' _. exact I. Qed.
  Lemma ens_switch_cons {E A} n p (a : M R E A) l d Q : Ens a Q -> Ens (switch n l d) Q -> Ens (switch n ((p, a) :: l) d) Q.
  Proof. intros Ha Hd. cbn. destruct (pmatch p n); assumption. Qed.
  Lemma ens_switch_nil {E A} n (d : M R E A) Q : Ens d Q -> Ens (switch n [] d) Q.
  Proof. auto. Qed.
  Lemma ens_weaken {E A} (p : M R E A) (P Q : A -> Prop) : Ens p P -> (forall a, P a -> Q a) -> Ens p Q.
  Proof. intros Hp HQ r a r' HE. apply HQ. eapply Hp; exact HE. Qed.
  Lemma ens_with_take {E A} n (p : M (Take R) E A) Q : Ens p Q -> Ens (with_take n p) (fun x => Q (fst x)).
  Proof. intros Hp r [a k] r' HE. unfold with_take in HE. destruct (p (mkTake n r)) as [[]] eqn:Ep; try discriminate. injection HE as <- _ _. eapply Hp; exact Ep. Qed.
  Lemma ens_with_chain {E A} n (p : M (Chain R) E A) Q : Ens p Q -> Ens (with_chain n p) Q.
  Proof. intros Hp r a r' HE. unfold with_chain in HE. destruct (p (mkChain [n] false r)) as [x c] eqn:Ep. injection HE as -> _. eapply Hp; exact Ep. Qed.
End EnsComb.
Lemma ens_list {env : Env} {R C} `{Lawful R C} {E T} (f : M R E T) (Q : T -> Prop) : Ens f Q -> Ens (decode_list f) (Forall Q).
Proof.
  intros Hf r xs r' HE. unfold decode_list in HE. apply list_ok in HE as (n & r0 & st' & _ & _ & _ & HS). clear - Hf HS.
  induction HS as [|st0 r1 x st1 r2 xs st2 r3 Hx _ IH]; [constructor|]. constructor; [|exact IH].
  unfold bind in Hx. destruct (f r1) as [[a| | |] r4] eqn:Ef; try discriminate. injection Hx as <- _ _. eapply Hf; exact Ef.
Qed.

Section Had.
  Context {env : Env}.
  Section R.
  Context {R C : Type} `{Lawful R C}.
  Ltac skip := apply ens_then; intros ?.
  Lemma had_body (p : M R ParseError ParseResult) ae d : Ens p (low_pr d) -> Ens (parse_body p ae) (fun x => low d (fst x)).
  Proof.
    intros Hp r [is tok] r' HE. unfold parse_body in HE. cbn [fst].
    assert (HG : forall n acc r, Forall (fun i => nesting i < d) acc -> body_loop p ae n acc r = (Ok (is, tok), r') -> low d is); [|eapply HG; [constructor|exact HE]].
    clear r HE. induction n as [|n IH]; intros acc r HA HE; [discriminate|]. cbn [body_loop] in HE. unfold bind at 1 in HE. destruct (p r) as [[x| | |] r1] eqn:Ep; try discriminate.
    destruct (Hp _ _ _ Ep) as [Hd HX]. destruct x as [i| |].
    - apply grown in HE as [_ HE]. eapply IH; [|exact HE]. constructor; assumption.
    - destruct ae; [|discriminate]. injection HE as <- _ _. split; [exact Hd|]. apply Forall_rev, HA.
    - injection HE as <- _ _. split; [exact Hd|]. apply Forall_rev, HA.
  Qed.
  Lemma had_block p op d : Ens p (low_pr d) -> Ens (parse_block p op : M R _ _) (fun i => nesting i < S d).
  Proof.
    intros Hp. unfold parse_block. skip. eapply ens_bind; [apply had_body, Hp|]. intros [in1 tok] H1'. cbn [fst] in H1'.
    apply ens_switch_cons; [apply ens_ret, low_block, H1'|]. apply ens_switch_cons; [apply ens_ret, low_loop, H1'|]. apply ens_switch_cons; [|apply ens_panic].
    destruct tok; [apply ens_panic| |apply ens_ret, low_if; auto]. eapply ens_bind; [apply had_body, Hp|]. intros [in2 tok2] H2'. apply ens_ret, low_if. auto.
  Qed.
  Lemma had_try p d : Ens p (low_pr d) -> Ens (parse_try_table p : M R _ _) (fun i => nesting i < S d).
  Proof. intros Hp. unfold parse_try_table. do 2 skip. eapply ens_bind; [apply had_body, Hp|]. intros [in1 tok] H1'. apply ens_ret, low_try, H1'. Qed.
  Definition leaf (i : instr) : Prop := nesting i = 0.
  Lemma had_assoc {E} op tbl (d : M R E instr) : forallb (fun x => Nat.eqb (nesting (snd x)) 0) tbl = true -> Ens d leaf -> Ens (match assocN op tbl with Some i => ret i | None => d end) leaf.
  Proof. intros HT Hd. destruct (assocN op tbl) as [i|] eqn:Ea; [|exact Hd]. apply ens_ret. apply GInstr.assocN_In in Ea. rewrite forallb_forall in HT. apply Nat.eqb_eq, (HT _ Ea). Qed.
  Lemma had_inner {E A} op (tbl : list (N * A)) (P : A -> Prop) : Forall (fun x => P (snd x)) tbl -> Ens (inner op tbl : M R E A) P.
  Proof. intros HT. unfold inner. destruct (assocN op tbl) as [i|] eqn:Ea; [|apply ens_panic]. apply ens_ret. apply GInstr.assocN_In in Ea. rewrite Forall_forall in HT. apply (HT _ Ea). Qed.
  Ltac lf := repeat first [ apply ens_ret; reflexivity | apply ens_throw | apply ens_panic | apply ens_switch_cons | apply ens_switch_nil | apply had_assoc; [reflexivity|]
    | eapply ens_bind; [apply (had_inner _ _ (fun f => forall m, leaf (f m))); repeat (constructor; [intros; reflexivity|]); constructor|intros ? HX; apply ens_ret, HX]
    | eapply ens_bind; [apply (had_inner _ _ (fun f => forall m l, leaf (f m l))); repeat (constructor; [intros; reflexivity|]); constructor|intros ? HX; apply ens_ret, HX]
    | apply ens_then; intros ? ].
  Lemma had_fb : Ens (parse_fb : M R _ _) leaf.
  Proof. unfold parse_fb. lf. destruct a0. lf. destruct (_ =? _)%N; lf. Qed.
  Lemma had_fc : Ens (parse_fc : M R _ _) leaf.
  Proof. unfold parse_fc. lf. Qed.
  Lemma had_fd : Ens (parse_fd : M R _ _) leaf.
  Proof. unfold parse_fd. lf. Qed.
  Lemma had_op p d opcode : Ens p (low_pr d) -> Ens (parse_op p opcode : M R _ _) (low_pr (S d)).
  Proof.
    intros Hp. unfold parse_op. apply ens_switch_cons; [apply ens_ret; split; [lia|exact I]|]. apply ens_switch_cons; [apply ens_ret; split; [lia|exact I]|]. apply ens_switch_nil.
    assert (HL : forall E (q : M R E instr), Ens q leaf -> Ens q (fun i => nesting i < S d)) by (intros E q Hq; eapply ens_weaken; [exact Hq|intros i Hi; red in Hi; cbn; lia]).
    eapply (ens_bind _ _ (fun i => nesting i < S d)); [|intros i Hi; apply ens_ret; split; [lia|exact Hi]].
    repeat (apply ens_switch_cons; [first [apply had_block, Hp | apply had_try, Hp | apply HL; solve [lf | apply had_fb | apply had_fc | apply had_fd]]|]).
    apply HL. lf.
  Qed.
  Lemma had_parse d : Ens (parse d : M R _ _) (low_pr d).
  Proof. induction d as [|d IH]; [apply ens_panic|]. cbn [parse]. skip. apply had_op, IH. Qed.
  Local Notation lows := (low stack_limit).
  Lemma had_expr : Ens (decode_expr : M R _ _) (fun x => lows (fst x)).
  Proof.
    intros r [e x] r' HE. unfold decode_expr in HE. cbn [fst].
    assert (HG : forall n acc b r, Forall (fun i => nesting i < stack_limit) acc -> expr_loop n acc b r = (Ok (e, x), r') -> lows e); [|eapply HG; [constructor|exact HE]].
    clear r HE. induction n as [|n IH]; intros acc b r HA HE; [discriminate|]. cbn [expr_loop] in HE. unfold bind at 1 in HE. destruct (map_err _ _ r) as [[y| | |] r1] eqn:Ep; try discriminate.
    destruct (ens_map_err _ _ _ (had_parse stack_limit) _ _ _ Ep) as [Hd HX]. destruct y as [i| |]; [|discriminate|].
    - apply grown in HE as [_ HE]. eapply IH; [|exact HE]. constructor; assumption.
    - injection HE as <- _ _. split; [exact Hd|]. apply Forall_rev, HA.
  Qed.
  Lemma had_expr_only : Ens (decode_expr_only : M R _ _) lows.
  Proof. unfold decode_expr_only. eapply ens_bind; [apply had_expr|]. intros [e x] HX. apply ens_ret, HX. Qed.
  Hypothesis Hstack : 0 < stack_limit.
  Lemma low_leaf i : leaf i -> lows [i].
  Proof. intros Hi. split; [exact Hstack|]. constructor; [red in Hi; rewrite Hi; exact Hstack|constructor]. Qed.
  Lemma had_table : Ens (decode_table : M R _ _) (fun t => lows (t_init t)).
  Proof.
    unfold decode_table. skip. destruct (_ =? _)%N.
    - skip. destruct (negb _); [apply ens_throw|]. skip. eapply ens_bind; [apply ens_map_err, had_expr_only|]. intros e HX. apply ens_ret, HX.
    - apply ens_with_chain. skip. apply ens_ret, low_leaf. reflexivity.
  Qed.
  Lemma had_global : Ens (parse_global : M R _ _) (fun t => lows (g_init t)).
  Proof. unfold parse_global. skip. eapply ens_bind; [apply ens_map_err, had_expr_only|]. intros e HX. apply ens_ret, HX. Qed.
  Lemma had_data : Ens (parse_data : M R _ _) (fun t => Forall lows (data_exprs t)).
  Proof.
    unfold parse_data. skip. apply ens_switch_cons; [|apply ens_switch_cons; [|apply ens_switch_cons; [|apply ens_throw]]].
    - eapply ens_bind; [apply ens_map_err, had_expr_only|]. intros e HX. skip. apply ens_ret. repeat constructor. apply HX. apply HX.
    - skip. apply ens_ret. constructor.
    - skip. eapply ens_bind; [apply ens_map_err, had_expr_only|]. intros e HX. skip. apply ens_ret. repeat constructor. apply HX. apply HX.
  Qed.
  Lemma low_reffuncs y : Forall lows (funcidx_into_reffunc y).
  Proof. unfold funcidx_into_reffunc. rewrite Forall_map. apply Forall_forall. intros; apply low_leaf. reflexivity. Qed.
  Lemma had_elem : Ens (parse_elem : M R _ _) (fun t => Forall lows (elem_exprs t)).
  Proof.
    assert (HE : forall {E} (f : _ -> E), Ens (map_err f (decode_expr_only : M R _ _)) lows) by (intros; apply ens_map_err, had_expr_only).
    assert (HL : forall {E} (f : _ -> E), Ens (map_err f (decode_list (decode_expr_only : M R _ _))) (Forall lows)) by (intros; apply ens_map_err, ens_list, had_expr_only).
    unfold parse_elem. skip.
    repeat (apply ens_switch_cons; [repeat first [apply ens_ret; unfold elem_exprs; cbn [e_init e_mode]; apply Forall_app; split; [first [apply low_reffuncs|assumption]|repeat (constructor; try assumption)]
      | eapply ens_bind; [apply HE|intros ? ?] | eapply ens_bind; [apply HL|intros ? ?] | apply ens_then; intros ?]|]).
    apply ens_throw.
  Qed.
  End R.
  Section R2.
  Context {R C : Type} `{Lawful R C} (Hstack : 0 < stack_limit).
  Lemma had_code : Ens (parse_code : M R _ _) (fun c => low stack_limit (c_expr c)).
  Proof.
    unfold parse_code. apply ens_then; intros sz. eapply ens_bind; [apply (ens_with_take sz _ (fun y => low stack_limit (fst (snd y))))|].
    - apply ens_then; intros ls. eapply ens_bind; [apply ens_map_err, had_expr|]. intros [e x] HX. apply ens_ret, HX.
    - intros [[ls [e x]] lim] HX. destruct (negb _); [apply ens_then; intros; apply ens_throw|]. apply ens_ret, HX.
  Qed.
  Lemma had_fill codes : forall i fs b (r : R) a r', fill_codes i codes fs b r = (Ok a, r') -> Forall (fun c => @fits env (expand_locals (c_locals c))) codes.
  Proof.
    induction codes as [|c codes IH]; intros i fs b r a r' HE; [constructor|]. cbn [fill_codes] in HE. unfold bind, alloc in HE.
    destruct (N.leb_spec (total_locals (c_locals c)) alloc_limit); [|discriminate]. unfold ret in HE. destruct (nth_error fs i); [|discriminate].
    constructor; [red; rewrite expand_total; assumption|]. eapply IH. exact HE.
  Qed.
  Lemma had_section k s : Ens (decode_section k s : M R _ _) (@QK env k s).
  Proof.
    destruct k; cbn [decode_section]; unfold decode_table_section, decode_global_section, decode_element_section, decode_code_section, decode_data_section.
    - apply ens_then; intros x; apply ens_ret; exists (SCustom x); repeat split.
    - apply ens_then; intros x; apply ens_ret; exists (SType x); repeat split.
    - apply ens_then; intros x; apply ens_ret; exists (SImport x); repeat split.
    - apply ens_then; intros x; apply ens_ret; exists (SFunction x); repeat split.
    - eapply ens_bind; [apply ens_map_err, ens_map_err, ens_list, had_table, Hstack|]. intros x HX. apply ens_ret. exists (STable x). split; [reflexivity|]. split; [reflexivity|exact HX].
    - apply ens_then; intros x; apply ens_ret; exists (SMemory x); repeat split.
    - apply ens_then; intros x; apply ens_ret; exists (STag x); repeat split.
    - eapply ens_bind; [apply ens_map_err, ens_map_err, ens_list, had_global|]. intros x HX. apply ens_ret. exists (SGlobal x). split; [reflexivity|]. split; [reflexivity|exact HX].
    - apply ens_then; intros x; apply ens_ret; exists (SExport x); repeat split.
    - apply ens_then; intros x; apply ens_ret; exists (SStart x); repeat split.
    - eapply ens_bind; [apply ens_map_err, ens_map_err, ens_list, had_elem, Hstack|]. intros x HX. apply ens_ret. exists (SElement x). split; [reflexivity|]. split; [reflexivity|exact HX].
    - apply ens_then; intros x; apply ens_ret; exists (SDataCount x); repeat split.
    - eapply ens_bind with (P := fun cs => Forall (fun c => low stack_limit (c_expr c)) cs /\ exists bs, Blist Gcode cs bs).
      { apply ens_map_err, ens_map_err. intros r a r' HE. split; [eapply (ens_list (C:=C)); [exact had_code|exact HE]|]. destruct (p_sound (C:=C) _ _ (parses_list (C:=C) _ _ (parses_code (C:=C))) _ _ _ HE) as (w & _ & HG). eauto. }
      intros cs [HX (bs & HG)].
      destruct (N.eqb_spec (lenN cs) (lenN (funcs (st_module s)))) as [Hlen|]; cbn [negb]; [|apply ens_throw]. intros r s' r' HE. unfold bind in HE.
      destruct (fill_codes _ _ _ _ r) as [[[fs d]| | |] r1] eqn:EF; try discriminate. injection HE as <- <-.
      pose proof (had_fill _ _ _ _ _ _ _ EF) as HF.
      unfold lenN in Hlen. assert (Hlen' : length cs = length (funcs (st_module s))) by lia.
      destruct (p_sound _ _ (fill_codes_pure (R:=R) cs [] (funcs (st_module s)) (st_data_idx s) Hlen') _ _ _ EF) as (w & _ & HP).
      destruct HP as [HP _]. injection HP as -> ->. exists (SCode (map code_fn cs)). split; [reflexivity|]. split.
      + cbn [apply_section]. unfold lenN. rewrite map_length, Hlen', N.eqb_refl. rewrite fill_map, (flags _ _ HG). reflexivity.
      + cbn. rewrite Forall_map. rewrite Forall_forall in *. intros c Hc. split; [apply HX, Hc|apply HF, Hc].
    - eapply ens_bind; [apply ens_map_err, ens_map_err, ens_list, had_data|]. intros x HX. destruct (data_count (st_module s)) eqn:ED.
      + destruct (_ =? _)%N eqn:EQ; cbn [negb]; [|apply ens_throw]. apply ens_ret. exists (SData x). cbn. rewrite ED, EQ. repeat split. exact HX.
      + apply ens_ret. exists (SData x). cbn. rewrite ED. repeat split. exact HX.
  Unshelve. all: first [exact C | eassumption].
  Qed.
  End R2.
  Section Module_.
  Context {R C : Type} `{Lawful R C} (Hstack : 0 < stack_limit).
  Lemma had_step h s (r : R) s' r' : section_step h s r = (Ok s', r') -> exists x, apply_one (x, sh_size h) s = Some s' /\ @need env x.
  Proof.
    destruct h as [hk hs]. unfold section_step, with_take. cbn [sh_kind sh_size]. intros Hr. unfold bind in Hr.
    pose proof (validate_pure (st_module s) (mkHeader hk hs) (mkTake hs r)) as HV; cbn [sh_kind] in HV.
    destruct (order_ok (st_module s) hk) eqn:EO; [cbn [sh_kind sh_size] in *; rewrite HV in Hr|destruct HV as (e & HV); rewrite HV in Hr; discriminate].
    destruct (decode_section hk s (mkTake hs r)) as [[s1|e|pn|] t] eqn:E; try discriminate.
    destruct (N.eqb_spec (t_limit t) 0) as [El|El]; cbn [negb] in Hr.
    2: { unfold sub_u64 in Hr. destruct (_ <=? _)%N; discriminate. }
    unfold alloc in Hr. destruct (_ <=? alloc_limit)%N; [|discriminate]. injection Hr as <- <-. destruct (had_section Hstack hk s _ _ _ E) as (x & Hk & Ha & Hn). exists x. split; [|exact Hn].
    unfold apply_one. cbn [fst snd]. rewrite Hk, EO, Ha. reflexivity.
  Qed.
  Lemma had_loop n : forall s (r : R) s' r', section_loop n s r = (Ok s', r') -> exists xs, apply_all xs s = Some s' /\ Forall (fun x => @need env (fst x)) xs.
  Proof.
    induction n as [|n IH]; intros s r s' r' Hr; [discriminate|]. cbn [section_loop] in Hr |- *.
    unfold bind at 1, map_err in Hr. destruct (decode_section_header r) as [[[h|]| | |] r2] eqn:Eh; try discriminate.
    - unfold bind in Hr. destruct (section_step h s r2) as [[s1|e|pn|] r3] eqn:Es; try discriminate.
      apply had_step in Es as (x & Ha & Hn). apply IH in Hr as (xs & Has & Hns). exists ((x, sh_size h) :: xs). split; [cbn [apply_all]; rewrite Ha; exact Has|]. constructor; assumption.
    - injection Hr as <- <-. exists []. split; [reflexivity|constructor].
  Qed.
  Lemma had_module (r : R) m r' : decode_module r = (Ok m, r') -> exists xs, assemble xs = Some m /\ Forall (fun x => @need env (fst x)) xs.
  Proof.
    unfold decode_module. unfold bind at 1. intros Hr.
    destruct (map_err DM_ParsePreamble parse_preamble r) as [[u|e|pn|] r1] eqn:E1; try discriminate.
    unfold bind in Hr |- *. unfold section_loop' in Hr |- *.
    destruct (section_loop _ _ r1) as [[s|e|pn|] r2] eqn:E2; try discriminate.
    destruct (had_loop _ _ _ _ _ E2) as (xs & Hall & HL). exists xs. split; [|exact HL].
    pose proof (final_pure s r2) as HF. unfold assemble. rewrite Hall. destruct (final_ok s) eqn:EF; [|destruct HF as (e & HF)]; rewrite HF in Hr; [|discriminate].
    injection Hr as <- <-. reflexivity.
  Qed.
  End Module_.
End Had.

(** ** the needs of a module *)
Lemma shallow_lows (env : Env) m : 0 < stack_limit -> (shallow stack_limit m <-> Forall (@lows env) (exprs m)).
Proof.
  intros Hs. unfold shallow, lows, low. rewrite Forall_forall. split.
  - intros HS e He. split; [exact Hs|]. apply Forall_forall. intros i Hi. eapply HS; eassumption.
  - intros HS e i He Hi. destruct (HS e He) as [_ HF]. rewrite Forall_forall in HF. apply HF, Hi.
Qed.
Lemma forall_flat {A B} (P : B -> Prop) (f : A -> list B) l : Forall P (flat_map f l) <-> Forall (fun x => Forall P (f x)) l.
Proof. induction l as [|x l IH]; cbn; [split; constructor|]. rewrite Forall_app, IH. split; [intros []; constructor; assumption|inversion 1; auto]. Qed.
Lemma Forall_iff {A} (P Q : A -> Prop) l : (forall x, P x <-> Q x) -> (Forall P l <-> Forall Q l).
Proof. intros HX. split; apply Forall_impl; intros a; apply HX. Qed.
Lemma forall_and {A} (P Q : A -> Prop) l : Forall (fun x => P x /\ Q x) l <-> Forall P l /\ Forall Q l.
Proof. rewrite !Forall_forall. firstorder. Qed.
Lemma forall_nil {A} (P : A -> Prop) : Forall P [] <-> True.
Proof. split; constructor. Qed.
Lemma forall_combine {A B} (P : B -> Prop) (a : list A) : forall b, length a = length b -> (Forall (fun x => P (snd x)) (combine a b) <-> Forall P b).
Proof.
  induction a as [|x a IH]; intros [|y b] Hl; try discriminate; cbn; [split; constructor|]. injection Hl as Hl. split; inversion 1; subst; constructor; cbn in *; auto; apply IH; auto.
Qed.
Lemma needs_module (env : Env) xs m : 0 < stack_limit -> assemble xs = Some m ->
  (Forall (fun x => @need env (fst x)) xs <-> shallow stack_limit m /\ forall f, In f (funcs m) -> (N.of_nat (length (f_locals f)) <= alloc_limit)%N).
Proof.
  intros Hs HA. apply assemble_iff in HA as [HC ->]. rewrite (shallow_lows env _ Hs). destruct HC as [_ HL _ _].
  set (cs := map fst xs) in *.
  assert (HN : Forall (fun x => @need env (fst x)) xs <-> Forall (@need env) cs) by (unfold cs; rewrite Forall_map; reflexivity). rewrite HN. clear HN.
  unfold exprs. cbn [funcs tables globals elems datas module_of]. fold cs. rewrite !Forall_app, !forall_flat, !Forall_map.
  assert (HF : (forall f, In f (map (fun '(x, (ls, e)) => mkFunc x ls e) (combine (the get_function cs) (the get_code cs))) -> (N.of_nat (length (f_locals f)) <= alloc_limit)%N)
             <-> Forall (fun c => @fits env (fst c)) (the get_code cs)).
  { rewrite <- (forall_combine (fun c => @fits env (fst c)) _ _ HL). rewrite <- Forall_forall, Forall_map. apply Forall_iff. intros [x [ls e]]. reflexivity. }
  rewrite HF. clear HF.
  assert (HB : Forall (fun x => @lows env (f_body (let '(x0, (ls, e)) := x in mkFunc x0 ls e))) (combine (the get_function cs) (the get_code cs))
             <-> Forall (fun c => @lows env (snd c)) (the get_code cs)).
  { rewrite <- (forall_combine (fun c => @lows env (snd c)) _ _ HL). apply Forall_iff. intros [x [ls e]]. reflexivity. }
  rewrite HB. clear HB HL. generalize cs. clear. intros cs. unfold the. rewrite !forall_flat. induction cs as [|x cs IH]; [repeat split; constructor|].
  rewrite !Forall_cons_iff, IH. destruct x; cbn; rewrite ?forall_and, ?forall_nil; tauto.
Qed.
