(** [Parses p G]: decoder [p] accepts exactly the byte strings of grammar [G],
    with the value [G] assigns, consuming exactly them - up to running out of a
    resource. *)
From Verif Require Import Model.Prelude Model.Io Proofs.Machine Proofs.Reads.
From Verif Require Import Spec.Lang.
From Coq Require Import Lia ZifyBool ZifyNat ZifyN.

(** stack or heap exhausted, or (model artefact) out of fuel *)
Definition gave_up {E A} (x : res E A) : Prop :=
  match x with Panic AllocFailure | Panic StackOverflow | Stuck => True | _ => False end.

Record Parses {R C E A} `{Lawful R C} (p : M R E A) (G : lang A) : Prop := {
  p_sound : forall r a r', p r = (Ok a, r') -> exists bs, bsteps (abs r) bs (abs r') /\ G a bs;
  p_complete : forall r a bs c', G a bs -> bsteps (abs r) bs c' ->
    (exists r', p r = (Ok a, r') /\ abs r' = c') \/ gave_up (fst (p r))
}.

(** grammar combinators mirroring the monad *)
Definition g_ret {A} (a : A) : lang A := fun x bs => x = a /\ bs = [].
Definition g_fail {A} : lang A := fun _ _ => False.
Definition g_bind {A B} (G : lang A) (K : A -> lang B) : lang B :=
  fun b bs => exists a bs1 bs2, bs = bs1 ++ bs2 /\ G a bs1 /\ K a b bs2.
(** a value and the unused part of a size allowance of [n] bytes *)
Definition g_take {A} (n : N) (G : lang A) : lang (A * N) :=
  fun x bs => G (fst x) bs /\ (lenN bs <= n)%N /\ snd x = (n - lenN bs)%N.
Definition nonempty {A} (G : lang A) : Prop := forall a, ~ G a [].

Section Comb.
  Context {R C : Type} `{HL : Lawful R C}.

  Lemma parses_ext {E A} (p : M R E A) (G G' : lang A) :
    Parses p G -> (forall a bs, G a bs <-> G' a bs) -> Parses p G'.
  Proof.
    intros [S K] HG. split.
    - intros r a r' Hr. destruct (S r a r' Hr) as (bs & ? & ?). exists bs. split; [assumption|]. apply HG; assumption.
    - intros r a bs c' Ha Hb. eapply K; eauto. apply HG; assumption.
  Qed.
  Lemma parses_ret {E A} (a : A) : Parses (ret a : M R E A) (g_ret a).
  Proof.
    split.
    - intros r a' r' [= <- <-]. exists []. split; [constructor|split; reflexivity].
    - intros r a' bs c' [-> ->] Hb. apply bsteps_nil_inv in Hb as ->. left. exists r. split; reflexivity.
  Qed.
  Lemma parses_throw {E A} (e : E) : Parses (throw e : M R E A) g_fail.
  Proof. split; [discriminate|intros r a bs c' []]. Qed.
  Lemma parses_panic {E A} pn : Parses (panic_with pn : M R E A) g_fail.
  Proof. split; [discriminate|intros r a bs c' []]. Qed.
  Lemma parses_give_up {E A} (x : res E A) (G : lang A) : gave_up x -> Parses (fun r : R => (x, r)) G.
  Proof. intros Hx. split; [intros r a r' [= -> ->]; destruct Hx|]. intros. right. exact Hx. Qed.
  Lemma parses_bind {E A B} (p : M R E A) (q : A -> M R E B) G K :
    Parses p G -> (forall a, (exists bs, G a bs) -> Parses (q a) (K a)) -> Parses (bind p q) (g_bind G K).
  Proof.
    intros [S1 C1] Hq. split.
    - intros r b r' Hr. unfold bind in Hr. destruct (p r) as [[a|e|pn|] r1] eqn:Ep; try discriminate.
      destruct (S1 _ _ _ Ep) as (bs1 & Hb1 & HG). destruct (Hq a (ex_intro _ _ HG)) as [S2 _].
      destruct (S2 _ _ _ Hr) as (bs2 & Hb2 & HK). exists (bs1 ++ bs2). split; [eapply bsteps_app; eauto|].
      exists a, bs1, bs2. auto.
    - intros r b bs c' (a & bs1 & bs2 & -> & HG & HK) Hb.
      apply bsteps_app_inv in Hb as (c1 & Hb1 & Hb2). unfold bind.
      destruct (C1 _ _ _ _ HG Hb1) as [(r1 & -> & <-)|Hg].
      + destruct (Hq a (ex_intro _ _ HG)) as [_ C2]. exact (C2 _ _ _ _ HK Hb2).
      + right. destruct (p r) as [[a'|e|pn|] r1]; cbn in Hg |- *; auto; contradiction.
  Qed.
  Lemma parses_bind_pair {E A A' B} (p : M R E (A * A')) (q : A -> A' -> M R E B) G K :
    Parses p G -> (forall x y, (exists bs, G (x, y) bs) -> Parses (q x y) (K x y)) ->
    Parses (bind p (fun z => match z with (x, y) => q x y end)) (g_bind G (fun z => K (fst z) (snd z))).
  Proof. intros Hp Hq. apply parses_bind; [assumption|]. intros [x y]. apply Hq. Qed.
  Lemma parses_map_err {E E' A} (f : E -> E') (p : M R E A) G : Parses p G -> Parses (map_err f p) G.
  Proof.
    intros [S K]. split.
    - intros r a r' Hr. unfold map_err in Hr. destruct (p r) as [[x|e|pn|] r1] eqn:Ep; try discriminate.
      injection Hr as <- <-. eapply S; eauto.
    - intros r a bs c' Ha Hb. unfold map_err. destruct (K _ _ _ _ Ha Hb) as [(r1 & -> & <-)|Hg].
      + left. eauto.
      + right. destruct (p r) as [[x|e|pn|] r1]; cbn in *; auto; contradiction.
  Qed.
  Lemma parses_if {E A} (c : bool) (p q : M R E A) G1 G2 :
    (c = true -> Parses p G1) -> (c = false -> Parses q G2) -> Parses (if c then p else q) (if c then G1 else G2).
  Proof. destruct c; auto. Qed.
  Lemma parses_option {E A B} (o : option B) (p : B -> M R E A) q G1 G2 :
    (forall x, o = Some x -> Parses (p x) (G1 x)) -> (o = None -> Parses q G2) ->
    Parses (match o with Some x => p x | None => q end) (match o with Some x => G1 x | None => G2 end).
  Proof. destruct o; auto. Qed.
  Lemma parses_fuel {E A} (p : nat -> M R E A) (f : R -> nat) G :
    (forall n, Parses (p n) G) -> Parses (fun r => p (f r) r) G.
  Proof.
    intros Hp. split.
    - intros r a r' Hr. destruct (Hp (f r)) as [S _]. eapply S; eauto.
    - intros r a bs c' Ha Hb. destruct (Hp (f r)) as [_ K]. eapply K; eauto.
  Qed.
  Lemma parses_alloc {env : Env} {E} n : Parses (alloc n : M R E unit) (g_ret tt).
  Proof.
    unfold alloc. destruct (N.leb_spec n alloc_limit); [apply parses_ret|].
    apply parses_give_up. exact I.
  Qed.
  (** room for what has been read already *)
  Lemma parses_after_alloc {env : Env} {E A} n (q : M R E A) G : Parses q G -> Parses (bind (alloc n) (fun _ => q)) G.
  Proof.
    intros Hq. unfold alloc. destruct (N.leb_spec n alloc_limit); [exact Hq|]. apply (parses_give_up (Panic AllocFailure)). exact I.
  Qed.

  Inductive arms_parse {E A} : list (pat * M R E A) -> list (pat * lang A) -> Prop :=
  | ap_nil : arms_parse [] []
  | ap_cons q p G arms garms : Parses p G -> arms_parse arms garms -> arms_parse ((q, p) :: arms) ((q, G) :: garms).
  Lemma parses_switch {E A} n (arms : list (pat * M R E A)) garms d Gd :
    arms_parse arms garms -> Parses d Gd -> Parses (switch n arms d) (switch n garms Gd).
  Proof. intros Ha Hd. induction Ha; cbn; [assumption|]. destruct (pmatch q n); assumption. Qed.

  Lemma parses_read_exact n : Parses (read_exact n : M R _ _) (fun l bs => bs = l /\ lenN l = n).
  Proof.
    split.
    - intros r l r' Hr. apply read_exact_sound in Hr as [Hl Hb]. exists l. auto.
    - intros r l bs c' [-> Hl] Hb. destruct (read_exact_complete n r l c' Hb Hl) as (r' & Hr & Ha). left. eauto.
  Qed.
  Lemma parses_read_byte : Parses (read_byte : M R _ _) Bbyte.
  Proof.
    split.
    - intros r b r' Hr. apply read_byte_spec in Hr.
      destruct (next (abs r)) as [[x| |k] c1] eqn:E; inversion Hr; subst. exists [x]. split; [|reflexivity].
      econstructor; [exact E|constructor].
    - intros r b bs c' Hbb Hb. red in Hbb; subst. left. destruct (read_byte r) as [x r'] eqn:E. apply read_byte_spec in E.
      apply bsteps_cons_inv in Hb as (c1 & Hn & Hb). apply bsteps_nil_inv in Hb as ->. rewrite Hn in E. inversion E; subst.
      eauto.
  Qed.
  Lemma parses_with_chain {E A} b (body : M (Chain R) E A) G :
    Parses body G -> nonempty G -> Parses (with_chain b body) (fun a bs => G a (b :: bs)).
  Proof.
    intros [S K] Hne. split.
    - intros r a r' Hr. unfold with_chain in Hr.
      destruct (body (mkChain [b] false r)) as [x c] eqn:Eb. injection Hr as -> <-.
      destruct (S _ _ _ Eb) as (bs & Hb & HG). 
      apply (bsteps_pend_one_inv b (abs r) bs) in Hb as [[-> _]|(bs' & -> & _ & Hb)].
      + exfalso. eapply Hne; eauto.
      + exists bs'. auto.
    - intros r a bs c' HG Hb. unfold with_chain.
      assert (Hb' : bsteps (abs (mkChain [b] false r)) (b :: bs) (([], c') : Pend C)).
      { econstructor; [reflexivity|]. apply bsteps_pend. exact Hb. }
      destruct (K _ _ _ _ HG Hb') as [(c1 & -> & Ha)|Hg].
      + left. exists (c_second c1). split; [reflexivity|]. apply (f_equal snd) in Ha. exact Ha.
      + right. destruct (body (mkChain [b] false r)); exact Hg.
  Qed.
  (** as long as the body reads by the grammar, [with_take] fences it *)
  Lemma parses_with_take {E A} n (body : M (Take R) E A) G :
    Parses body G -> Parses (with_take n body) (g_take n G).
  Proof.
    intros [S K]. split.
    - intros r [a l] r' Hr. unfold with_take in Hr.
      destruct (body (mkTake n r)) as [[x|e|pn|] t] eqn:Eb; try discriminate. injection Hr as <- <- <-.
      destruct (S _ _ _ Eb) as (bs & Hb & HG). apply bsteps_take_inv in Hb as (H1 & H2 & H3). cbn in *.
      exists bs. split; [assumption|]. split; auto.
    - intros r [a l] bs c' (HG & Hl & Hl') Hb. cbn in HG, Hl'. subst l. unfold with_take.
      pose proof (bsteps_take _ _ _ n Hl Hb) as Hb'.
      destruct (K (mkTake n r) _ _ _ HG Hb') as [(t & -> & Ha)|Hg].
      + left. exists (t_inner t). injection Ha as H1 H2. rewrite H1. auto.
      + right. destruct (body (mkTake n r)) as [[x|e|pn|] t]; cbn in *; auto; contradiction.
  Qed.
End Comb.

Lemma nonempty_cons {A} (G : lang A) : (forall a bs, G a bs -> bs <> []) -> nonempty G.
Proof. intros HG a Ha. exact (HG _ _ Ha eq_refl). Qed.

Lemma b2n_of_N b n : b2n b = n -> Byte.of_N n = Some b.
Proof. intros <-. apply Byte.of_to_N. Qed.
Lemma b2n_inj b b' : b2n b = b2n b' -> b = b'.
Proof. intros E. apply b2n_of_N in E. unfold b2n in E. rewrite Byte.of_to_N in E. congruence. Qed.
Lemma b2n_lt b : (b2n b < 256)%N.
Proof. apply Byte.to_N_bounded || (unfold b2n; destruct b; reflexivity). Qed.

(** find out which byte it is *)
Ltac byte_known H := apply b2n_of_N in H; vm_compute in H; injection H as <-.

(** syntax-directed derivation of [Parses p ?G] *)
Ltac parses_step :=
  match goal with
  | |- Parses (bind ?p (fun z => match z with (x, y) => _ end)) _ => eapply parses_bind_pair; [|intros ? ? ?]
  | |- Parses (bind ?p _) _ => eapply parses_bind; [|intros ? ?]
  | |- Parses (map_err _ _) _ => eapply parses_map_err
  | |- Parses (ret _) _ => eapply parses_ret
  | |- Parses (throw _) _ => eapply parses_throw
  | |- Parses (panic_with _) _ => eapply parses_panic
  | |- Parses (alloc _) _ => eapply parses_alloc
  | |- Parses (switch _ _ _) _ => eapply parses_switch
  | |- arms_parse [] _ => eapply ap_nil
  | |- arms_parse (_ :: _) _ => eapply ap_cons
  | |- Parses (read_exact _) _ => eapply parses_read_exact
  | |- Parses read_byte _ => eapply parses_read_byte
  | |- Parses (with_chain _ _) _ => eapply parses_with_chain
  | |- Parses (with_take _ _) _ => eapply parses_with_take
  | |- Parses (match ?o with Some _ => _ | None => _ end) _ => eapply parses_option; [intros ? ?|intros ?]
  | |- Parses (if _ then _ else _) _ => eapply parses_if; intros ?
  | |- Parses (match ?z with (x, y) => _ end) _ => destruct z
  end.
Create HintDb parses.
Ltac parses := repeat (first [solve [eauto with parses nocore] | parses_step]).
