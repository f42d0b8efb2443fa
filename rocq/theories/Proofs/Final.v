(** From the walks to the statements of Properties/. *)
From Verif Require Import Model.Prelude Model.Io Model.Ast Model.Errors Model.Integer Model.Helpers Model.Types Model.Instr Model.Sections Model.Module.
From Verif Require Import Proofs.Machine Proofs.Reads Proofs.Parses Proofs.Safe Proofs.SafeWalk Proofs.GModule Proofs.GAssemble Proofs.Sim.
From Verif Require Import Spec.Lang Spec.Types Spec.Instr Spec.Module Spec.Streams.
From Coq Require Import Lia ZifyBool ZifyNat ZifyN.

(** ** byte slices *)
Lemma bsteps_slice bs l c : bsteps (map AByte l : list atom) bs c <-> exists rest, l = bs ++ rest /\ c = map AByte rest.
Proof.
  split.
  - revert l; induction bs as [|b bs IH]; intros l Hb.
    + apply bsteps_nil_inv in Hb as ->. exists l. auto.
    + apply bsteps_cons_inv in Hb as (c1 & Hn & Hb). destruct l as [|x l]; [discriminate|]. cbn in Hn. injection Hn as -> <-.
      destruct (IH _ Hb) as (rest & -> & ->). exists rest. auto.
  - intros (rest & -> & ->). rewrite map_app. apply bsteps_list.
Qed.
Lemma map_AByte_inj a b : map AByte a = map AByte b -> a = b.
Proof. revert b; induction a as [|x a IH]; intros [|y b]; cbn; try discriminate; [reflexivity|]. intros [= -> Hm]. f_equal. auto. Qed.

Lemma decodes_of {E A} (p : Env -> M (list byte) E A) G m (Q : A -> Prop) :
  (forall env, Parses (p env) G) -> (forall env, Safe (@stack_limit env) (p env) m Q) -> decodes p G.
Proof.
  intros HP HS. split.
  - intros env bs a rest Hp. destruct (p_sound _ _ (HP env) _ _ _ Hp) as (pre & Hb & HG).
    apply bsteps_slice in Hb as (rest' & -> & Hr). apply map_AByte_inj in Hr as ->. exists pre. auto.
  - intros env a pre rest [Hh Hst] HG.
    destruct (p_complete _ _ (HP env) (pre ++ rest) a pre (map AByte rest) HG) as [(r' & -> & Ha)|Hg].
    + apply bsteps_slice. eauto.
    + apply map_AByte_inj in Ha as ->. reflexivity.
    + exfalso. specialize (HS env (pre ++ rest)). destruct (p env (pre ++ rest)) as [[a'|e|[]|] r']; cbn in *; try contradiction; destruct HS as [_ HS]; unfold short in *; lia.
  - intros env bs [Hh Hst] HN. specialize (HS env bs). pose proof (p_sound _ _ (HP env) bs) as Hsd.
    destruct (p env bs) as [[a|e|[]|] r']; cbn in *; try (destruct HS; contradiction); try (destruct HS as [_ HS]; unfold short in *; lia).
    + exfalso. destruct (Hsd a r' eq_refl) as (pre & Hb & HG). apply bsteps_slice in Hb as (rest' & -> & _). eapply HN; eauto.
    + eauto.
Qed.

(** the languages are unambiguous, since the decoder is a function *)
Lemma decodes_unambiguous {E A} (p : Env -> list byte -> res E A * list byte) G :
  decodes p G -> forall a1 a2 bs, G a1 bs -> G a2 bs -> a1 = a2.
Proof.
  intros [_ Hc _] a1 a2 bs H1 H2. rewrite <- (app_nil_r bs) in H1, H2.
  pose (env := Build_Env (2 + length (bs ++ [])) (2 ^ 32 + N.of_nat (length bs)) (fun _ => 0%N)).
  assert (HS : sufficient env (length ((bs ++ []) ++ []))) by (split; [split|]; unfold env; cbn [stack_limit alloc_limit]; rewrite ?app_nil_r; lia).
  pose proof (Hc env a1 _ [] HS H1) as E1. pose proof (Hc env a2 _ [] HS H2) as E2. congruence.
Qed.
(** no word is a proper prefix of another *)
Lemma decodes_prefix_free {E A} (p : Env -> list byte -> res E A * list byte) G :
  decodes p G -> forall a1 a2 b1 b2 r1 r2, b1 ++ r1 = b2 ++ r2 -> G a1 b1 -> G a2 b2 -> a1 = a2 /\ b1 = b2.
Proof.
  intros [_ Hc _] a1 a2 b1 b2 r1 r2 Hq H1 H2.
  pose (env := Build_Env (2 + length (b1 ++ r1)) (2 ^ 32 + N.of_nat (length (b1 ++ r1))) (fun _ => 0%N)).
  assert (HS : sufficient env (length (b1 ++ r1))) by (split; [split|]; unfold env; cbn [stack_limit alloc_limit]; lia).
  pose proof (Hc env a1 _ _ HS H1) as E1. rewrite Hq in HS, E1. pose proof (Hc env a2 _ _ HS H2) as E2.
  assert (r1 = r2) as -> by congruence. split; [congruence|]. eapply app_inv_tail; exact Hq.
Qed.

(** ** event readers *)
Lemma events_content evs : exists tl, events_abs evs = map AByte (fst (content evs)) ++ tl /\
  match snd (content evs) with Ends => tl = [] \/ exists tl', tl = AEof :: tl' | Fails k => k <> Interrupted /\ exists tl', tl = AErr k :: tl' end.
Proof.
  induction evs as [|[b bs| |k] evs (tl & IH & HE)]; cbn.
  - exists []. auto.
  - destruct (content evs) as [l e]. cbn [fst snd] in *. exists tl. split; [|exact HE].
    cbn. rewrite IH, map_app, app_assoc. reflexivity.
  - exists (AEof :: events_abs evs). split; [reflexivity|]. right. eauto.
  - destruct k; [exists (AErr UnexpectedEof :: events_abs evs)|exists tl; split; [exact IH|exact HE]|exists (AErr (OtherKind code) :: events_abs evs)];
      (split; [reflexivity|]; split; [discriminate|eauto]).
Qed.
(** same bytes up to and including the first stop *)
Inductive streamK : list atom -> list atom -> Prop :=
| streamK_byte b l1 l2 : streamK l1 l2 -> streamK (AByte b :: l1) (AByte b :: l2)
| streamK_stop l1 l2 : (forall b, fst (next l1) <> AByte b) -> fst (next l1) = fst (next l2) -> streamK l1 l2.
#[export] Instance streamK_bis : Bis streamK.
Proof.
  intros c1 c2 [b l1 l2 Hk|l1 l2 Hn He]; [cbn; auto|].
  destruct (next l1) as [[b1| |k1] l1'] eqn:E1, (next l2) as [[b2| |k2] l2'] eqn:E2; cbn [fst] in *; try congruence; exfalso; eapply Hn; reflexivity.
Qed.
Lemma streamK_bytes bs l1 l2 : streamK l1 l2 -> streamK (map AByte bs ++ l1) (map AByte bs ++ l2).
Proof. induction bs; cbn; [auto|]. constructor. auto. Qed.
Lemma content_streamK evs1 evs2 : content evs1 = content evs2 -> streamK (events_abs evs1) (events_abs evs2).
Proof.
  intros E. destruct (events_content evs1) as (t1 & -> & H1), (events_content evs2) as (t2 & -> & H2). rewrite E in *.
  apply streamK_bytes, streamK_stop.
  - destruct (snd (content evs2)); [destruct H1 as [->|[? ->]]|destruct H1 as [_ [? ->]]]; cbn; discriminate.
  - destruct (snd (content evs2)); [destruct H1 as [->|[? ->]], H2 as [->|[? ->]]|destruct H1 as [_ [? ->]], H2 as [_ [? ->]]]; reflexivity.
Qed.
Lemma content_slice evs bs : content evs = (bs, Ends) -> streamK (events_abs evs) (map AByte bs).
Proof.
  intros E. destruct (events_content evs) as (t1 & -> & H1). rewrite E in *. cbn in *.
  rewrite <- (app_nil_r (map AByte bs)) at 2. apply streamK_bytes, streamK_stop.
  - destruct H1 as [->|[? ->]]; cbn; discriminate.
  - destruct H1 as [->|[? ->]]; reflexivity.
Qed.

Lemma not_stuck {env : Env} {R C} `{Lawful R C} (r : R) : fst (decode_module r) <> Stuck.
Proof. pose proof (safe_decode_module r) as HS. destruct (decode_module r) as [[]]; cbn; try discriminate. destruct HS; contradiction. Qed.
Lemma decode_bis {env : Env} {R1 R2 C1 C2} `{Lawful R1 C1} `{Lawful R2 C2} (K : C1 -> C2 -> Prop) `{!Bis K} (r1 : R1) (r2 : R2) :
  K (abs r1) (abs r2) -> fst (decode_module r1) = fst (decode_module r2).
Proof.
  intros Hr. assert (Hle : env_le env env) by (split; reflexivity).
  destruct (sim_decode_module Hle R1 R2 C1 C2 _ _ _ _ _ _ K _ r1 r2 Hr) as [[He _]|[He|[He|[He _]]]]; auto.
  - exfalso. exact (not_stuck r1 He).
  - exfalso. exact (not_stuck r2 He).
  - contradiction.
Qed.
Lemma decode_content {env : Env} evs1 evs2 : content evs1 = content evs2 -> fst (decode_module evs1) = fst (decode_module evs2).
Proof. intros E. apply (decode_bis streamK). apply content_streamK. exact E. Qed.
Lemma decode_slice {env : Env} (evs : list event) (bs : list byte) : content evs = (bs, Ends) -> fst (decode_module evs) = fst (decode_module bs).
Proof. intros E. apply (decode_bis streamK). apply content_slice. exact E. Qed.

(** the plainest reader with a given content *)
Definition plain (bs : list byte) (e : ending) : list event :=
  map (fun b => EvData b []) bs ++ match e with Ends => [] | Fails k => [EvErr k] end.
Lemma content_plain bs e : e <> Fails Interrupted -> content (plain bs e) = (bs, e).
Proof.
  intros He. induction bs as [|b bs IH]; cbn.
  - destruct e as [|[]]; try reflexivity. congruence.
  - unfold plain in IH. rewrite IH. reflexivity.
Qed.
Lemma budget_plain bs e : events_budget (plain bs e) <= S (length bs).
Proof. induction bs as [|b bs IH]; cbn; [destruct e; cbn; lia|]. unfold plain in IH. lia. Qed.
Lemma content_not_interrupted evs : snd (content evs) <> Fails Interrupted.
Proof.
  induction evs as [|[b bs| |[]] evs IH]; cbn; try discriminate; auto.
  destruct (content evs). exact IH.
Qed.
(** ** no resource failures *)
Lemma decode_decided {env : Env} evs bs e : content evs = (bs, e) -> sufficient env (length bs) ->
  (exists m, fst (decode_module evs) = Ok m) \/ (exists er, fst (decode_module evs) = Err er).
Proof.
  intros Hc [Hh Hst].
  assert (He : e <> Fails Interrupted) by (pose proof (content_not_interrupted evs) as HN; rewrite Hc in HN; exact HN).
  rewrite (decode_content evs (plain bs e)) by (rewrite content_plain by assumption; assumption).
  pose proof (safe_decode_module (plain bs e)) as HS. pose proof (budget_plain bs e).
  cbn [budget event_reader] in HS.
  destruct (decode_module (plain bs e)) as [[m|er|[]|] r']; cbn in *; eauto; destruct HS as [_ HS]; unfold short in *; lia.
Qed.
Lemma decode_decided_slice {env : Env} (bs : list byte) : sufficient env (length bs) ->
  (exists m, fst (decode_module bs) = Ok m) \/ (exists er, fst (decode_module bs) = Err er).
Proof. intros HS. rewrite <- (decode_slice (plain bs Ends) bs) by (apply content_plain; discriminate). eapply decode_decided; [apply content_plain; discriminate|exact HS]. Qed.

(** ** soundness and completeness *)
Lemma bsteps_events_content evs bs c1 c2 : bsteps (events_abs evs) bs c1 -> at_end c1 c2 ->
  exists e, content evs = (bs, e) /\ (e = Ends \/ e = Fails UnexpectedEof).
Proof.
  intros Hb He. destruct (events_content evs) as (tl & Ha & HE). rewrite Ha in Hb.
  assert (HM : tl = c1 /\ fst (content evs) = bs).
  { eapply bsteps_maximal; [apply bsteps_list| |exact Hb|]; intros b c' Hn.
    - destruct (snd (content evs)) as [|k]; [destruct HE as [->|[? ->]]|destruct HE as [_ [? ->]]]; discriminate.
    - destruct He as [E|E]; rewrite Hn in E; discriminate. }
  destruct HM as [-> <-]. exists (snd (content evs)). split; [destruct (content evs); reflexivity|].
  destruct (snd (content evs)) as [|k]; [auto|]. destruct HE as [_ [tl' ->]]. destruct He as [E|E]; cbn in E; [discriminate|].
  injection E as ->. auto.
Qed.
Lemma module_sound {env : Env} (evs : list event) m : fst (decode_module evs) = Ok m ->
  exists bs e, content evs = (bs, e) /\ (e = Ends \/ e = Fails UnexpectedEof) /\ Bmodule m bs.
Proof.
  destruct (decode_module evs) as [x r'] eqn:E. cbn. intros ->.
  destruct (decode_sound _ _ _ E) as (xs & bs & c1 & Hb & He & Hq & Ha).
  destruct (bsteps_events_content _ _ _ _ Hb He) as (e & Hc & Hee).
  exists (magic ++ version1 ++ bs), e. split; [exact Hc|]. split; [exact Hee|]. apply Bmodule_iff. eauto.
Qed.
Lemma module_sound_slice {env : Env} (bs : list byte) m : fst (decode_module bs) = Ok m -> Bmodule m bs.
Proof.
  intros Hd. rewrite <- (decode_slice (plain bs Ends) bs) in Hd by (apply content_plain; discriminate).
  destruct (module_sound _ _ Hd) as (bs' & e & Hc & _ & HB). rewrite content_plain in Hc by discriminate. congruence.
Qed.
Lemma module_complete_slice {env : Env} (bs : list byte) m : sufficient env (length bs) -> Bmodule m bs -> fst (decode_module bs) = Ok m.
Proof.
  intros HS HB. apply Bmodule_iff in HB as (xs & bs' & Hbs & Hq & Ha).
  destruct (decode_complete bs m xs bs' [] [] Hq Ha) as [(r' & -> & _)|Hg].
  - rewrite <- Hbs. change ([] : list atom) with (map AByte []). apply bsteps_slice. exists []. rewrite app_nil_r. auto.
  - left. reflexivity.
  - reflexivity.
  - exfalso. destruct (decode_decided_slice bs HS) as [[m' E]|[er E]]; rewrite E in Hg; exact Hg.
Qed.
Lemma module_complete {env : Env} evs bs e m : sufficient env (length bs) -> content evs = (bs, e) -> e = Ends \/ e = Fails UnexpectedEof ->
  Bmodule m bs -> fst (decode_module evs) = Ok m.
Proof.
  intros HS Hc He HB. apply Bmodule_iff in HB as (xs & bs' & Hbs & Hq & Ha).
  destruct (events_content evs) as (tl & Hab & HE). rewrite Hc in Hab, HE. cbn [fst snd] in *.
  destruct (decode_complete evs m xs bs' tl (snd (next tl)) Hq Ha) as [(r' & -> & _)|Hg].
  - rewrite <- Hbs. change (abs evs) with (events_abs evs). rewrite Hab. apply bsteps_list.
  - destruct He as [->| ->].
    + left. destruct HE as [->|[? ->]]; reflexivity.
    + right. destruct HE as [_ [? ->]]. reflexivity.
  - reflexivity.
  - exfalso. destruct (decode_decided evs bs e Hc HS) as [[m' E]|[er E]]; rewrite E in Hg; exact Hg.
Qed.
