(** Two runs of the decoder on readers that deliver the same bytes before they
    first report end of file or fail - however chunked and interrupted, and
    whatever they would deliver afterwards - in environments with different
    limits. *)
From Verif Require Import Model.Prelude Model.Io Model.Ast Model.Errors Model.Integer Model.Helpers Model.Types Model.Instr Model.Sections Model.Module.
From Verif Require Import Proofs.Machine Proofs.Reads Proofs.GInstr Proofs.GModule.
From Coq Require Import Lia ZifyBool ZifyNat ZifyN.

(** what [parse_code] reads within the declared size of an entry *)
Definition code_entry {env : Env} {R : Type} `{Reader R} : M R DecodeCodeError (list Local_ * (Expr * bool)) :=
  bind (map_err Code_DecodeLocalsVector (decode_list_st (parse_code_local (2 ^ 32 - 1)%N) 0%N)) (fun locals =>
  bind (map_err Code_DecodeFunctionBody decode_expr) (fun e => ret (locals, e))).

(** at most the resources of the other *)
Definition env_le (e1 e2 : Env) : Prop :=
  @stack_limit e1 <= @stack_limit e2 /\ (@alloc_limit e1 <= @alloc_limit e2)%N.
(** out of a resource of which the other has more *)
Definition exhausted (e1 e2 : Env) {E A} (x : res E A) : Prop :=
  ((@alloc_limit e1 < @alloc_limit e2)%N /\ x = Panic AllocFailure) \/ (@stack_limit e1 < @stack_limit e2 /\ x = Panic StackOverflow).

(** bisimulation up to the first atom that is not a byte *)
Class Bis {C1 C2} `{Machine C1} `{Machine C2} (K : C1 -> C2 -> Prop) : Prop :=
  bis : forall c1 c2, K c1 c2 ->
    match next c1, next c2 with
    | (AByte b1, c1'), (AByte b2, c2') => b1 = b2 /\ K c1' c2'
    | (AByte _, _), _ => False
    | _, (AByte _, _) => False
    | (a1, _), (a2, _) => a1 = a2
    end.
Definition takeK {C1 C2} (K : C1 -> C2 -> Prop) (t1 : Take C1) (t2 : Take C2) : Prop :=
  t_limit t1 = t_limit t2 /\ K (t_inner t1) (t_inner t2).
Definition pendK {C1 C2} (K : C1 -> C2 -> Prop) (p1 : Pend C1) (p2 : Pend C2) : Prop :=
  fst p1 = fst p2 /\ K (snd p1) (snd p2).
(** after reading a limited reader to its end *)
Definition takeK' {C1 C2} (K : C1 -> C2 -> Prop) (t1 : Take C1) (t2 : Take C2) : Prop :=
  t_limit t1 = t_limit t2 /\ (t_limit t1 = 0%N -> K (t_inner t1) (t_inner t2)).
#[export] Instance take_bis {C1 C2} `{Machine C1} `{Machine C2} (K : C1 -> C2 -> Prop) `{!Bis K} : Bis (takeK K).
Proof.
  intros [n1 c1] [n2 c2] [Hn Hk]; cbn in *; subst n2. destruct (N.eqb_spec n1 0); [reflexivity|].
  pose proof (bis c1 c2 Hk) as HB. destruct (next c1) as [[b1| |k1] c1'], (next c2) as [[b2| |k2] c2']; try tauto.
  destruct HB as [-> HK]. split; [reflexivity|]. split; [reflexivity|exact HK].
Qed.
#[export] Instance pend_bis {C1 C2} `{Machine C1} `{Machine C2} (K : C1 -> C2 -> Prop) `{!Bis K} : Bis (pendK K).
Proof.
  intros [f1 c1] [f2 c2] [Hn Hk]; cbn in *; subst f2. destruct f1 as [|b f1]; [|split; [reflexivity|split; [reflexivity|exact Hk]]].
  pose proof (bis c1 c2 Hk) as HB. destruct (next c1) as [[b1| |k1] c1'], (next c2) as [[b2| |k2] c2']; try tauto.
  destruct HB as [-> HK]. split; [reflexivity|]. split; [reflexivity|exact HK].
Qed.

(** after reading to the end, perhaps *)
Definition afterK {C1 C2} `{Machine C1} `{Machine C2} (K : C1 -> C2 -> Prop) (c1 : C1) (c2 : C2) : Prop :=
  K c1 c2 \/ exists d1 d2, K d1 d2 /\ next d1 = (AEof, c1) /\ next d2 = (AEof, c2).
Lemma afterK_take {C1 C2} `{Machine C1} `{Machine C2} (K : C1 -> C2 -> Prop) `{!Bis K} t1 t2 : afterK (takeK K) t1 t2 -> takeK' K t1 t2.
Proof.
  destruct t1 as [n1 c1], t2 as [n2 c2]. intros [[Hn Hk]|([m1 d1] & [m2 d2] & [Hm Hd] & E1 & E2)]; [split; auto|]. cbn in *. subst m2.
  destruct (N.eqb_spec m1 0) as [->|Hz].
  - injection E1 as <- <-. injection E2 as <- <-. split; [reflexivity|]. intros _. exact Hd.
  - pose proof (bis d1 d2 Hd) as HB.
    destruct (next d1) as [[?| |?] ?]; try discriminate E1. injection E1 as <- <-.
    destruct (next d2) as [[?| |?] ?]; try discriminate E2. injection E2 as <- <-.
    split; [reflexivity|]. cbn. intros Hz'. contradiction.
Qed.

(** From states related by [K], the two runs have the same result, and final
    states related by [P] if it is a success - unless the first run lacked a
    resource of which the second has more ([Stuck] is excluded separately). *)
Definition SimP (e1 e2 : Env) {R1 R2 C1 C2 E A} `{Lawful R1 C1} `{Lawful R2 C2} (K : C1 -> C2 -> Prop) (P : A -> C1 -> C2 -> Prop)
    (p1 : M R1 E A) (p2 : M R2 E A) : Prop :=
  forall r1 r2, K (abs r1) (abs r2) ->
  (fst (p1 r1) = fst (p2 r2) /\ forall a, fst (p1 r1) = Ok a -> P a (abs (snd (p1 r1))) (abs (snd (p2 r2))))
  \/ fst (p1 r1) = Stuck \/ fst (p2 r2) = Stuck \/ (~ env_le e2 e1 /\ exhausted e1 e2 (fst (p1 r1))).
Definition Sim (e1 e2 : Env) {R1 R2 C1 C2 E A} `{Lawful R1 C1} `{Lawful R2 C2} (K : C1 -> C2 -> Prop) (p1 : M R1 E A) (p2 : M R2 E A) : Prop :=
  SimP e1 e2 K (fun _ => K) p1 p2.

Section CombP.
  Context {e1 e2 : Env} (Hle : env_le e1 e2) {R1 R2 C1 C2 : Type} `{Lawful R1 C1} `{Lawful R2 C2}.
  Local Notation SimP := (SimP e1 e2 (R1 := R1) (R2 := R2) (C1 := C1) (C2 := C2)).
  Ltac out3 := first [right; left; reflexivity | right; right; left; reflexivity
    | right; right; right; split; [assumption|]; match goal with HE : exhausted _ _ _ |- _ => destruct HE as [[HX ->]|[HX ->]]; [left|right]; (split; [exact HX|reflexivity]) end].
  Lemma simp_ret {E A} (K : C1 -> C2 -> Prop) (P : A -> C1 -> C2 -> Prop) (a : A) : (forall c1 c2, K c1 c2 -> P a c1 c2) -> SimP K P (ret a : M R1 E A) (ret a : M R2 E A).
  Proof. intros HP r1 r2 Hr. left. cbn. split; [reflexivity|]. intros a' [= <-]. auto. Qed.
  Lemma simp_throw {E A} (K : C1 -> C2 -> Prop) (P : A -> C1 -> C2 -> Prop) (e : E) : SimP K P (throw e : M R1 E A) (throw e : M R2 E A).
  Proof. intros r1 r2 Hr. left. cbn. split; [reflexivity|]. discriminate. Qed.
  Lemma simp_panic {E A} (K : C1 -> C2 -> Prop) (P : A -> C1 -> C2 -> Prop) p : SimP K P (panic_with p : M R1 E A) (panic_with p : M R2 E A).
  Proof. intros r1 r2 Hr. left. cbn. split; [reflexivity|]. discriminate. Qed.
  Lemma simp_bind {E A B} (K : C1 -> C2 -> Prop) (P : A -> C1 -> C2 -> Prop) (P' : B -> C1 -> C2 -> Prop) (p1 : M R1 E A) (p2 : M R2 E A) (q1 : A -> M R1 E B) q2 :
    SimP K P p1 p2 -> (forall a, SimP (P a) P' (q1 a) (q2 a)) -> SimP K P' (bind p1 q1) (bind p2 q2).
  Proof.
    intros Hp Hq r1 r2 Hr. unfold bind. specialize (Hp r1 r2 Hr).
    destruct (p1 r1) as [x1 r1'], (p2 r2) as [x2 r2']. cbn in Hp.
    destruct Hp as [[-> Ha]|[->|[->|[Hn He]]]]; [|out3..].
    destruct x2; [apply Hq; apply Ha; reflexivity|left; cbn; split; [reflexivity|discriminate]..].
  Qed.
  Lemma simp_map_err {E E' A} (K : C1 -> C2 -> Prop) P (f : E -> E') (p1 : M R1 E A) (p2 : M R2 E A) : SimP K P p1 p2 -> SimP K P (map_err f p1) (map_err f p2).
  Proof.
    intros Hp r1 r2 Hr. unfold map_err. specialize (Hp r1 r2 Hr).
    destruct (p1 r1) as [x1 r1'], (p2 r2) as [x2 r2']. cbn in Hp.
    destruct Hp as [[-> Ha]|[->|[->|[Hn He]]]]; [|out3..].
    left. destruct x2; cbn; (split; [reflexivity|]); intros b Hb; try discriminate. apply Ha. congruence.
  Qed.
  Lemma simp_weaken {E A} (K : C1 -> C2 -> Prop) (P P' : A -> C1 -> C2 -> Prop) (p1 : M R1 E A) (p2 : M R2 E A) :
    SimP K P p1 p2 -> (forall a c1 c2, P a c1 c2 -> P' a c1 c2) -> SimP K P' p1 p2.
  Proof.
    intros Hp HP r1 r2 Hr. destruct (Hp r1 r2 Hr) as [[He Ha]|Hx]; [left|right; exact Hx].
    split; [exact He|]. intros a Hx. apply HP, Ha, Hx.
  Qed.
End CombP.

Section Comb.
  Context {e1 e2 : Env} (Hle : env_le e1 e2) {R1 R2 C1 C2 : Type} `{HL1 : Lawful R1 C1} `{HL2 : Lawful R2 C2} {K : C1 -> C2 -> Prop} `{HK : !Bis K}.
  Local Notation Sim := (Sim e1 e2 (R1 := R1) (R2 := R2) (C1 := C1) (C2 := C2) K).
  Ltac out3 := first [right; left; reflexivity | right; right; left; reflexivity
    | right; right; right; split; [assumption|]; match goal with HE : exhausted _ _ _ |- _ => destruct HE as [[HX ->]|[HX ->]]; [left|right]; (split; [exact HX|reflexivity]) end].
  Lemma sim_ret {E A} (a : A) : Sim (ret a : M R1 E A) (ret a : M R2 E A).
  Proof. apply simp_ret. auto. Qed.
  Lemma sim_throw {E A} (e : E) : Sim (throw e : M R1 E A) (throw e : M R2 E A).
  Proof. apply simp_throw. Qed.
  Lemma sim_panic {E A} p : Sim (panic_with p : M R1 E A) (panic_with p : M R2 E A).
  Proof. apply simp_panic. Qed.
  Lemma sim_bind {E A B} (p1 : M R1 E A) (p2 : M R2 E A) (q1 : A -> M R1 E B) q2 :
    Sim p1 p2 -> (forall a, Sim (q1 a) (q2 a)) -> Sim (bind p1 q1) (bind p2 q2).
  Proof. apply simp_bind. Qed.
  Lemma sim_map_err {E E' A} (f : E -> E') (p1 : M R1 E A) (p2 : M R2 E A) : Sim p1 p2 -> Sim (map_err f p1) (map_err f p2).
  Proof. apply simp_map_err. Qed.
  Lemma sim_switch_nil {E A} n (d1 : M R1 E A) (d2 : M R2 E A) : Sim d1 d2 -> Sim (switch n [] d1) (switch n [] d2).
  Proof. auto. Qed.
  Lemma sim_switch_cons {E A} n p (a1 : M R1 E A) (a2 : M R2 E A) l1 l2 d1 d2 :
    Sim a1 a2 -> Sim (switch n l1 d1) (switch n l2 d2) -> Sim (switch n ((p, a1) :: l1) d1) (switch n ((p, a2) :: l2) d2).
  Proof. intros Ha Hd. cbn. destruct (pmatch p n); assumption. Qed.
  Lemma sim_alloc {E} n : Sim (@alloc e1 R1 E n) (@alloc e2 R2 E n).
  Proof.
    intros r1 r2 Hr. unfold alloc. destruct Hle as [Hs Ha].
    destruct (N.leb_spec n (@alloc_limit e1)), (N.leb_spec n (@alloc_limit e2)); cbn; try lia.
    - left. split; [reflexivity|]. auto.
    - right; right; right. split; [unfold env_le; lia|left; split; [lia|reflexivity]].
    - left. split; [reflexivity|]. discriminate.
  Qed.
  Lemma cread_bis n : forall acc (c1 : C1) (c2 : C2), K c1 c2 ->
    fst (cread n acc c1) = fst (cread n acc c2) /\ forall a, fst (cread n acc c1) = Ok a -> K (snd (cread n acc c1)) (snd (cread n acc c2)).
  Proof using HK.
    induction n as [|n IH]; intros acc c1 c2 Hk; cbn [cread]; [split; [reflexivity|intros; exact Hk]|].
    pose proof (bis c1 c2 Hk) as HB. destruct (next c1) as [[b1| |k1] c1'], (next c2) as [[b2| |k2] c2']; try tauto; cbn in *.
    - destruct HB as [<- HK']. apply IH. exact HK'.
    - split; [reflexivity|discriminate].
    - discriminate.
    - discriminate.
    - injection HB as ->. split; [reflexivity|discriminate].
  Qed.
  Lemma sim_read_exact n : Sim (read_exact n) (read_exact n).
  Proof using HK.
    intros r1 r2 Hr. destruct (read_exact n r1) as [x1 r1'] eqn:E1, (read_exact n r2) as [x2 r2'] eqn:E2.
    apply read_exact_spec in E1. apply read_exact_spec in E2. left. cbn.
    destruct (cread_bis (N.to_nat n) [] _ _ Hr) as [Hf Hs]. rewrite <- E1, <- E2 in Hf, Hs. split; assumption.
  Qed.
  Lemma sim_read_byte : Sim read_byte read_byte.
  Proof using HK. unfold read_byte. apply sim_bind; [apply sim_read_exact|]. intros [|b l]; [apply sim_panic|apply sim_ret]. Qed.
  Lemma bsteps_bis (c1 : C1) bs d1 : bsteps c1 bs d1 -> forall c2, K c1 c2 -> exists d2, bsteps c2 bs d2 /\ K d1 d2.
  Proof using HK.
    induction 1 as [c1|c1 b c1' bs d1 Hn Hs IH]; intros c2 Hk; [exists c2; split; [constructor|exact Hk]|].
    pose proof (bis c1 c2 Hk) as HB. rewrite Hn in HB. destruct (next c2) as [[b2| |k2] c2'] eqn:E; try tauto.
    destruct HB as [<- HK']. destruct (IH _ HK') as (d2 & Hd & HKd). exists d2. split; [econstructor; eassumption|exact HKd].
  Qed.
  Lemma simp_read_to_end : SimP e1 e2 K (fun _ c1 c2 => exists d1 d2, K d1 d2 /\ next d1 = (AEof, c1) /\ next d2 = (AEof, c2))
    (@read_to_end R1 _ e1) (@read_to_end R2 _ e2).
  Proof using HK Hle.
    intros r1 r2 Hr. destruct (@read_to_end _ _ e1 r1) as [x1 r1'] eqn:E1, (@read_to_end _ _ e2 r2) as [x2 r2'] eqn:E2.
    apply read_to_end_spec in E1 as (bs1 & d1 & Hb1 & Hx1). apply read_to_end_spec in E2 as (bs2 & d2 & Hb2 & Hx2).
    destruct Hx1 as [[Hl1 Hx1]|[Hl1 ->]], Hx2 as [[Hl2 Hx2]|[Hl2 ->]]; cbn [fst snd].
    2: { exfalso. destruct (bsteps_bis _ _ _ Hb1 _ Hr) as (d2' & Hb2' & HKd). pose proof (bis d1 d2' HKd) as HB.
      assert (length bs2 <= length bs1); [|destruct Hle; unfold lenN in *; lia].
      eapply bsteps_longest; [exact Hb2'| |exact Hb2]. intros b c' Hn. rewrite Hn in HB. destruct Hx1 as [(_ & Hx)|(k & _ & _ & Hx)]; rewrite Hx in HB; exact HB. }
    2: { assert (HA : (@alloc_limit e1 < @alloc_limit e2)%N); [|right; right; right; split; [unfold env_le; lia|left; split; [exact HA|reflexivity]]]. destruct (bsteps_bis _ _ _ Hb1 _ Hr) as (d2' & Hb2' & HKd).
      assert (length bs1 <= length bs2); [|unfold lenN in *; lia].
      eapply bsteps_longest; [exact Hb2| |exact Hb2']. intros b c' Hn. destruct Hx2 as [(_ & Hx)|(k & _ & _ & Hx)]; rewrite Hn in Hx; discriminate. }
    2: { left. split; [reflexivity|discriminate]. }
    left. cbn. destruct (bsteps_bis _ _ _ Hb1 _ Hr) as (d2' & Hb2' & HKd). pose proof (bis d1 d2' HKd) as HB.
    assert (Hc : d2' = d2 /\ bs1 = bs2).
    { eapply bsteps_maximal; [exact Hb2'| |exact Hb2|]; intros b c' Hn.
      - rewrite Hn in HB. destruct Hx1 as [(_ & Hx)|(k & _ & _ & Hx)]; rewrite Hx in HB; exact HB.
      - destruct Hx2 as [(_ & Hx)|(k & _ & _ & Hx)]; rewrite Hn in Hx; discriminate. }
    destruct Hc as [-> ->].
    destruct Hx1 as [(-> & Hn1)|(k1 & _ & -> & Hn1)], Hx2 as [(-> & Hn2)|(k2 & _ & -> & Hn2)]; rewrite Hn1, Hn2 in HB; try discriminate.
    - split; [reflexivity|]. intros a _. exists d1, d2. auto.
    - injection HB as ->. split; [reflexivity|]. discriminate.
  Qed.
  Lemma simp_with_take {E A} n (b1 : M (Take R1) E A) (b2 : M (Take R2) E A) :
    SimP e1 e2 (takeK K) (fun _ => takeK' K) b1 b2 -> SimP e1 e2 K (fun x c1 c2 => snd x = 0%N -> K c1 c2) (with_take n b1) (with_take n b2).
  Proof.
    intros Hb r1 r2 Hr. unfold with_take. specialize (Hb (mkTake n r1) (mkTake n r2)).
    destruct (b1 (mkTake n r1)) as [x1 t1], (b2 (mkTake n r2)) as [x2 t2]. cbn in Hb.
    destruct Hb as [[-> Ha]|[->|[->|[Hn He]]]]; [split; [reflexivity|exact Hr]| |out3..].
    left. cbn. destruct x2 as [a| | |]; (split; [|intros b Hb; try discriminate]); try reflexivity.
    - destruct (Ha a eq_refl) as [Hl _]. cbn in Hl. rewrite Hl. reflexivity.
    - injection Hb as <-. cbn. apply (Ha a eq_refl).
  Qed.
  Lemma sim_with_take {E A} n (b1 : M (Take R1) E A) (b2 : M (Take R2) E A) :
    Verif.Proofs.Sim.Sim e1 e2 (takeK K) b1 b2 -> Sim (with_take n b1) (with_take n b2).
  Proof.
    intros Hb r1 r2 Hr. unfold with_take. specialize (Hb (mkTake n r1) (mkTake n r2)).
    destruct (b1 (mkTake n r1)) as [x1 t1], (b2 (mkTake n r2)) as [x2 t2]. cbn in Hb.
    destruct Hb as [[-> Ha]|[->|[->|[Hn He]]]]; [split; [reflexivity|exact Hr]| |out3..].
    left. cbn. destruct x2 as [a| | |]; (split; [|intros b Hb; try discriminate]); try reflexivity.
    - destruct (Ha a eq_refl) as [Hl _]. cbn in Hl. rewrite Hl. reflexivity.
    - apply (Ha a eq_refl).
  Qed.
  Lemma sim_with_chain {E A} b (b1 : M (Chain R1) E A) (b2 : M (Chain R2) E A) :
    Verif.Proofs.Sim.Sim e1 e2 (pendK K) b1 b2 -> Sim (with_chain b b1) (with_chain b b2).
  Proof.
    intros Hb r1 r2 Hr. unfold with_chain. specialize (Hb (mkChain [b] false r1) (mkChain [b] false r2)).
    destruct (b1 (mkChain [b] false r1)) as [x1 t1], (b2 (mkChain [b] false r2)) as [x2 t2]. cbn in Hb.
    destruct Hb as [[-> Ha]|[->|[->|[Hn He]]]]; [split; [reflexivity|exact Hr]| |out3..].
    left. cbn. split; [reflexivity|]. intros a Hx. apply (Ha a Hx).
  Qed.
  Lemma sim_loopN {E S} (s1 : S -> M R1 E S) (s2 : S -> M R2 E S) n s : (forall s, Sim (s1 s) (s2 s)) -> Sim (loopN s1 n s) (loopN s2 n s).
  Proof.
    intros Hs. destruct n as [|p]; cbn; [apply sim_ret|]. revert s. induction p as [p IH|p IH|]; intros s; cbn.
    - apply sim_bind; [apply Hs|intros a]. apply sim_bind; [apply IH|apply IH].
    - apply sim_bind; [apply IH|apply IH].
    - apply Hs.
  Qed.
End Comb.

Create HintDb sim.
#[export] Hint Extern 1 (Bis _) => typeclasses eauto : sim.
Ltac tc := try match goal with |- Bis _ => typeclasses eauto end.
Ltac sim_step :=
  match goal with
  | |- Sim _ _ _ (bind _ _) (bind _ _) => eapply sim_bind; [|intros ?]
  | |- Sim _ _ _ (map_err _ _) _ => eapply sim_map_err; tc
  | |- Sim _ _ _ (ret _) _ => eapply sim_ret; tc
  | |- Sim _ _ _ (throw _) _ => eapply sim_throw; tc
  | |- Sim _ _ _ (panic_with _) _ => eapply sim_panic; tc
  | |- Sim _ _ _ (alloc _) _ => eapply sim_alloc; tc; assumption
  | |- Sim _ _ _ (switch _ [] _) _ => eapply sim_switch_nil; tc
  | |- Sim _ _ _ (switch _ (_ :: _) _) _ => eapply sim_switch_cons; tc
  | |- Sim _ _ _ (with_chain _ _) _ => eapply sim_with_chain; tc
  | |- Sim _ _ _ (with_take _ _) _ => eapply sim_with_take; tc
  | |- Sim _ _ _ (read_exact _) _ => eapply sim_read_exact; tc
  | |- Sim _ _ _ read_byte _ => eapply sim_read_byte; tc
  | |- Sim _ _ _ (loopN _ _ _) _ => eapply sim_loopN; tc; intros ?
  | |- Sim _ _ _ (match ?o with Some _ => _ | None => _ end) _ => destruct o
  | |- Sim _ _ _ (if ?c then _ else _) _ => destruct c
  | |- Sim _ _ _ (match ?z with (x, y) => _ end) _ => destruct z
  | |- Sim _ _ _ (let x := _ in _) _ => cbv zeta
  end.
Ltac sim := repeat (first [solve [eauto with sim nocore] | sim_step]).
Ltac sim_def f := intros; unfold f; sim.

Section Walk.
  Context {e1 e2 : Env} (Hle : env_le e1 e2).
  Local Notation SIM f := (forall (R1 R2 C1 C2 : Type) (rd1 : Reader R1) (mc1 : Machine C1) (l1 : Lawful R1 C1) (rd2 : Reader R2) (mc2 : Machine C2) (l2 : Lawful R2 C2) (K : C1 -> C2 -> Prop) (bk : Bis K), Sim e1 e2 K (f R1 _) (f R2 _)).
  Local Notation SIME f := (forall (R1 R2 C1 C2 : Type) (rd1 : Reader R1) (mc1 : Machine C1) (l1 : Lawful R1 C1) (rd2 : Reader R2) (mc2 : Machine C2) (l2 : Lawful R2 C2) (K : C1 -> C2 -> Prop) (bk : Bis K), Sim e1 e2 K (f e1 R1 _) (f e2 R2 _)).

  Ltac arith := unfold shl_u32, shl_u64, shl_i64, add_u8, sub_u32, sub_u64, add_u64, inner; sim.
  Lemma sim_u32_loop is : forall res sh, SIM (fun R rd => @u32_loop R rd is res sh).
  Proof. induction is as [|i is IH]; intros; cbn [u32_loop]; [sim|]. arith; apply IH. Qed.
  Lemma sim_u32 : SIM (@decode_u32).
  Proof. intros. apply sim_u32_loop; tc. Qed.
  Lemma sim_u64_loop is : forall res sh, SIM (fun R rd => @u64_loop R rd is res sh).
  Proof. induction is as [|i is IH]; intros; cbn [u64_loop]; [sim|]. arith; apply IH. Qed.
  Lemma sim_u64 : SIM (@decode_u64).
  Proof. intros. apply sim_u64_loop; tc. Qed.
  Lemma sim_i32_loop is : forall res sh, SIM (fun R rd => @i32_loop R rd is res sh).
  Proof. induction is as [|i is IH]; intros; cbn [i32_loop]; [sim|]. arith; apply IH. Qed.
  Lemma sim_i32 : SIM (@decode_i32).
  Proof. intros. apply sim_i32_loop; tc. Qed.
  Lemma sim_i64_loop is : forall res sh, SIM (fun R rd => @i64_loop R rd is res sh).
  Proof. induction is as [|i is IH]; intros; cbn [i64_loop]; [sim|]. arith; apply IH. Qed.
  Lemma sim_i64 : SIM (@decode_i64).
  Proof. intros. apply sim_i64_loop; tc. Qed.
  Lemma sim_s33_loop is : forall res sh, SIM (fun R rd => @s33_loop R rd is res sh).
  Proof. induction is as [|i is IH]; intros; cbn [s33_loop]; [sim|]. arith; apply IH. Qed.
  Lemma sim_s33 : SIM (@decode_s33).
  Proof. intros. apply sim_s33_loop; tc. Qed.
  Hint Extern 1 (Sim _ _ _ decode_u32 _) => eapply sim_u32; tc : sim.
  Hint Extern 1 (Sim _ _ _ decode_u64 _) => eapply sim_u64; tc : sim.
  Hint Extern 1 (Sim _ _ _ decode_i32 _) => eapply sim_i32; tc : sim.
  Hint Extern 1 (Sim _ _ _ decode_i64 _) => eapply sim_i64; tc : sim.
  Hint Extern 1 (Sim _ _ _ decode_s33 _) => eapply sim_s33; tc : sim.
  Lemma sim_typeidx : SIM (@decode_typeidx). Proof. sim_def @decode_typeidx. Qed.
  Hint Extern 1 (Sim _ _ _ decode_typeidx _) => eapply sim_typeidx; tc : sim.
  Lemma sim_funcidx : SIM (@decode_funcidx). Proof. sim_def @decode_funcidx. Qed.
  Hint Extern 1 (Sim _ _ _ decode_funcidx _) => eapply sim_funcidx; tc : sim.
  Lemma sim_tableidx : SIM (@decode_tableidx). Proof. sim_def @decode_tableidx. Qed.
  Hint Extern 1 (Sim _ _ _ decode_tableidx _) => eapply sim_tableidx; tc : sim.
  Lemma sim_memidx : SIM (@decode_memidx). Proof. sim_def @decode_memidx. Qed.
  Hint Extern 1 (Sim _ _ _ decode_memidx _) => eapply sim_memidx; tc : sim.
  Lemma sim_globalidx : SIM (@decode_globalidx). Proof. sim_def @decode_globalidx. Qed.
  Hint Extern 1 (Sim _ _ _ decode_globalidx _) => eapply sim_globalidx; tc : sim.
  Lemma sim_elemidx : SIM (@decode_elemidx). Proof. sim_def @decode_elemidx. Qed.
  Hint Extern 1 (Sim _ _ _ decode_elemidx _) => eapply sim_elemidx; tc : sim.
  Lemma sim_dataidx : SIM (@decode_dataidx). Proof. sim_def @decode_dataidx. Qed.
  Hint Extern 1 (Sim _ _ _ decode_dataidx _) => eapply sim_dataidx; tc : sim.
  Lemma sim_localidx : SIM (@decode_localidx). Proof. sim_def @decode_localidx. Qed.
  Hint Extern 1 (Sim _ _ _ decode_localidx _) => eapply sim_localidx; tc : sim.
  Lemma sim_labelidx : SIM (@decode_labelidx). Proof. sim_def @decode_labelidx. Qed.
  Hint Extern 1 (Sim _ _ _ decode_labelidx _) => eapply sim_labelidx; tc : sim.
  Lemma sim_tagidx : SIM (@decode_tagidx). Proof. sim_def @decode_tagidx. Qed.
  Hint Extern 1 (Sim _ _ _ decode_tagidx _) => eapply sim_tagidx; tc : sim.
  Lemma sim_list_st {St E T} (R1 R2 C1 C2 : Type) (rd1 : Reader R1) (mc1 : Machine C1) (l1 : Lawful R1 C1) (rd2 : Reader R2) (mc2 : Machine C2) (l2 : Lawful R2 C2) (K : C1 -> C2 -> Prop) (bk : Bis K)
      (f1 : St -> M R1 E (T * St)) (f2 : St -> M R2 E (T * St)) st :
    (forall st, Sim e1 e2 K (f1 st) (f2 st)) -> Sim e1 e2 K (@decode_list_st e1 R1 _ St E T f1 st) (@decode_list_st e2 R2 _ St E T f2 st).
  Proof.
    intros Hf. unfold decode_list_st. sim_step; [sim|]. sim_step; [sim|]. sim_step.
    - sim_step. destruct s as [[i items] s]. unfold list_step. sim_step; [sim_step; apply Hf|]. sim.
    - sim.
  Qed.
  Lemma sim_list {E T} (R1 R2 C1 C2 : Type) (rd1 : Reader R1) (mc1 : Machine C1) (l1 : Lawful R1 C1) (rd2 : Reader R2) (mc2 : Machine C2) (l2 : Lawful R2 C2) (K : C1 -> C2 -> Prop) (bk : Bis K)
      (f1 : M R1 E T) (f2 : M R2 E T) :
    Sim e1 e2 K f1 f2 -> Sim e1 e2 K (@decode_list e1 R1 _ E T f1) (@decode_list e2 R2 _ E T f2).
  Proof. intros Hf. unfold decode_list. apply sim_list_st; [exact bk|]. intros []. sim_step; [exact Hf|sim]. Qed.
  Hint Extern 1 (Sim _ _ _ (decode_list _) _) => eapply sim_list; tc : sim.
  Lemma sim_f32 : SIM (@decode_f32). Proof. sim_def @decode_f32. Qed.
  Hint Extern 1 (Sim _ _ _ decode_f32 _) => eapply sim_f32; tc : sim.
  Lemma sim_f64 : SIM (@decode_f64). Proof. sim_def @decode_f64. Qed.
  Hint Extern 1 (Sim _ _ _ decode_f64 _) => eapply sim_f64; tc : sim.
  Lemma sim_byte_vector : SIME (@decode_byte_vector). Proof. sim_def @decode_byte_vector. Qed.
  Hint Extern 1 (Sim _ _ _ decode_byte_vector _) => eapply sim_byte_vector; tc : sim.
  Lemma sim_name : SIME (@decode_name). Proof. sim_def @decode_name. Qed.
  Hint Extern 1 (Sim _ _ _ decode_name _) => eapply sim_name; tc : sim.
  Lemma sim_unwrap {E} x : SIM (fun R (_ : Reader R) => @u32_try_from_unwrap R E x).
  Proof. intros. unfold u32_try_from_unwrap. sim. Qed.
  Hint Extern 1 (Sim _ _ _ (u32_try_from_unwrap _) _) => eapply sim_unwrap; tc : sim.
  Lemma sim_decode_absheaptype : SIM (@decode_absheaptype). Proof. sim_def @decode_absheaptype. Qed.
  Hint Extern 1 (Sim _ _ _ decode_absheaptype _) => eapply sim_decode_absheaptype; tc : sim.
  Lemma sim_decode_heaptype : SIM (@decode_heaptype). Proof. sim_def @decode_heaptype. Qed.
  Hint Extern 1 (Sim _ _ _ decode_heaptype _) => eapply sim_decode_heaptype; tc : sim.
  Lemma sim_decode_reftype : SIM (@decode_reftype). Proof. sim_def @decode_reftype. Qed.
  Hint Extern 1 (Sim _ _ _ decode_reftype _) => eapply sim_decode_reftype; tc : sim.
  Lemma sim_decode_valtype : SIM (@decode_valtype). Proof. sim_def @decode_valtype. Qed.
  Hint Extern 1 (Sim _ _ _ decode_valtype _) => eapply sim_decode_valtype; tc : sim.
  Lemma sim_decode_result_type : SIME (@decode_result_type). Proof. sim_def @decode_result_type. Qed.
  Hint Extern 1 (Sim _ _ _ decode_result_type _) => eapply sim_decode_result_type; tc : sim.
  Lemma sim_decode_globaltype : SIM (@decode_globaltype). Proof. sim_def @decode_globaltype. Qed.
  Hint Extern 1 (Sim _ _ _ decode_globaltype _) => eapply sim_decode_globaltype; tc : sim.
  Lemma sim_decode_storagetype : SIM (@decode_storagetype). Proof. sim_def @decode_storagetype. Qed.
  Hint Extern 1 (Sim _ _ _ decode_storagetype _) => eapply sim_decode_storagetype; tc : sim.
  Lemma sim_decode_fieldtype : SIM (@decode_fieldtype). Proof. sim_def @decode_fieldtype. Qed.
  Hint Extern 1 (Sim _ _ _ decode_fieldtype _) => eapply sim_decode_fieldtype; tc : sim.
  Lemma sim_decode_comptype : SIME (@decode_comptype). Proof. sim_def @decode_comptype. Qed.
  Hint Extern 1 (Sim _ _ _ decode_comptype _) => eapply sim_decode_comptype; tc : sim.
  Lemma sim_decode_subtype : SIME (@decode_subtype). Proof. sim_def @decode_subtype. Qed.
  Hint Extern 1 (Sim _ _ _ decode_subtype _) => eapply sim_decode_subtype; tc : sim.
  Lemma sim_decode_rectype : SIME (@decode_rectype). Proof. sim_def @decode_rectype. Qed.
  Hint Extern 1 (Sim _ _ _ decode_rectype _) => eapply sim_decode_rectype; tc : sim.
  Lemma sim_parse_limits : SIM (@parse_limits). Proof. sim_def @parse_limits. Qed.
  Hint Extern 1 (Sim _ _ _ parse_limits _) => eapply sim_parse_limits; tc : sim.
  Lemma sim_parse_memtype : SIM (@parse_memtype). Proof. sim_def @parse_memtype. Qed.
  Hint Extern 1 (Sim _ _ _ parse_memtype _) => eapply sim_parse_memtype; tc : sim.
  Lemma sim_decode_tabletype : SIM (@decode_tabletype). Proof. sim_def @decode_tabletype. Qed.
  Hint Extern 1 (Sim _ _ _ decode_tabletype _) => eapply sim_decode_tabletype; tc : sim.
  Lemma sim_decode_tagtype : SIM (@decode_tagtype). Proof. sim_def @decode_tagtype. Qed.
  Hint Extern 1 (Sim _ _ _ decode_tagtype _) => eapply sim_decode_tagtype; tc : sim.
  Lemma sim_decode_externtype : SIM (@decode_externtype). Proof. sim_def @decode_externtype. Qed.
  Hint Extern 1 (Sim _ _ _ decode_externtype _) => eapply sim_decode_externtype; tc : sim.
  Lemma sim_decode_memarg : SIM (@decode_memarg). Proof. intros; unfold decode_memarg, sub_u32; sim. Qed.
  Hint Extern 1 (Sim _ _ _ decode_memarg _) => eapply sim_decode_memarg; tc : sim.
  Lemma sim_decode_laneidx : SIM (@decode_laneidx). Proof. sim_def @decode_laneidx. Qed.
  Hint Extern 1 (Sim _ _ _ decode_laneidx _) => eapply sim_decode_laneidx; tc : sim.
  (** the value-type attempt looks past the first byte only after 0x63 and 0x64 *)
  Lemma valtype_one_byte {R} `{Reader R} b : b2n b <> 0x63%N -> b2n b <> 0x64%N ->
    forall r : R, snd (decode_valtype (mkChain [b] false r)) = mkChain [] false r.
  Proof. destruct b; intros N1 N2 r; try (exfalso; (apply N1; reflexivity) || (apply N2; reflexivity)); vm_compute; reflexivity. Qed.
  Lemma bt_idx_neg {R} `{Reader R} b : (b2n b = 0x63 \/ b2n b = 0x64)%N ->
    forall r : R, fst (with_chain b bt_idx r) = Err (BT_NegativeTypeIndex (Z.of_N (b2n b) - 128)%Z).
  Proof. destruct b; intros [E|E] r; try discriminate E; vm_compute; reflexivity. Qed.
  Lemma sim_bt_idx : SIM (@bt_idx).
  Proof. intros. unfold bt_idx, u32_try_from_unwrap. sim. Qed.
  Lemma sim_decode_blocktype : SIM (@decode_blocktype).
  Proof.
    intros. rewrite !blocktype_unfold. sim_step; [sim|]. rename a into b. sim_step; [sim|]. clear Hle. 
    intros r1 r2 Hr.
    assert (EW : forall R (rd : Reader R) (r : R), with_chain b (bt_body b) r = let '(x, c) := bt_body b (mkChain [b] false r) in (x, c_second c)) by reflexivity.
    rewrite !EW, !bt_body_run; clear EW.
    pose proof (sim_decode_valtype _ _ _ _ _ _ _ _ _ _ (pendK K) _ (mkChain [b] false r1) (mkChain [b] false r2) (conj eq_refl Hr)) as HV.
    destruct (decode_valtype (mkChain [b] false r1)) as [x1 c1] eqn:V1, (decode_valtype (mkChain [b] false r2)) as [x2 c2] eqn:V2.
    cbn [fst snd] in HV. destruct HV as [[-> Ha]|[->|[->|[Hn [[HX ->]|[HX ->]]]]]];
      [|right; left; reflexivity|right; right; left; reflexivity|right; right; right; split; [exact Hn|left; split; [exact HX|reflexivity]]|right; right; right; split; [exact Hn|right; split; [exact HX|reflexivity]]].
    destruct x2 as [t|e|p|]; cbn [fst snd].
    - left. split; [reflexivity|]. intros a _. apply (Ha t eq_refl).
    - destruct (N.eq_dec (b2n b) 0x63) as [E|N1]; [|destruct (N.eq_dec (b2n b) 0x64) as [E|N2]].
      3:{ pose proof (valtype_one_byte b N1 N2 r1) as S1. pose proof (valtype_one_byte b N1 N2 r2) as S2.
          rewrite V1 in S1. rewrite V2 in S2. cbn in S1, S2. subst c1 c2.
          assert (HS : Sim e1 e2 (pendK K) (with_chain b bt_idx : M (Chain R1) _ _) (with_chain b bt_idx : M (Chain R2) _ _)).
          { eapply sim_with_chain. apply sim_bt_idx. typeclasses eauto. }
          specialize (HS (mkChain [] false r1) (mkChain [] false r2) (conj eq_refl Hr)).
          destruct (with_chain b bt_idx (mkChain [] false r1)) as [x1 c1], (with_chain b bt_idx (mkChain [] false r2)) as [x2 c2].
          cbn in *. destruct HS as [[-> HA]|HS]; [left; split; [reflexivity|]; intros a Hx; apply (HA a Hx)|right; exact HS]. }
      all: assert (E' : (b2n b = 0x63 \/ b2n b = 0x64)%N) by (rewrite E; auto);
        left; pose proof (bt_idx_neg b E' c1) as B1; pose proof (bt_idx_neg b E' c2) as B2;
        destruct (with_chain b bt_idx c1) as [x1 d1], (with_chain b bt_idx c2) as [x2 d2]; cbn in B1, B2; subst x1 x2; cbn; split; [reflexivity|discriminate].
    - left; cbn. split; [reflexivity|discriminate].
    - right; left; reflexivity.
  Qed.
  Hint Extern 1 (Sim _ _ _ decode_blocktype _) => eapply sim_decode_blocktype; tc : sim.
  Lemma sim_decode_catch : SIM (@decode_catch). Proof. sim_def @decode_catch. Qed.
  Hint Extern 1 (Sim _ _ _ decode_catch _) => eapply sim_decode_catch; tc : sim.
  Lemma sim_decode_castop : SIM (@decode_castop). Proof. sim_def @decode_castop. Qed.
  Hint Extern 1 (Sim _ _ _ decode_castop _) => eapply sim_decode_castop; tc : sim.
  Lemma sim_body_loop (R1 R2 C1 C2 : Type) (rd1 : Reader R1) (mc1 : Machine C1) (l1 : Lawful R1 C1) (rd2 : Reader R2) (mc2 : Machine C2) (l2 : Lawful R2 C2) (K : C1 -> C2 -> Prop) (bk : Bis K)
      (p1 : M R1 _ _) (p2 : M R2 _ _) ae n1 n2 acc :
    Sim e1 e2 K p1 p2 -> Sim e1 e2 K (@body_loop e1 R1 p1 ae n1 acc) (@body_loop e2 R2 p2 ae n2 acc).
  Proof.
    intros Hp. revert n2 acc; induction n1 as [|n1 IH]; intros n2 acc; [intros r1 r2 _; right; left; reflexivity|].
    destruct n2 as [|n2]; [intros r1 r2 _; right; right; left; reflexivity|]. cbn [body_loop].
    sim_step; [exact Hp|]. destruct a; sim.
  Qed.
  Lemma sim_parse_body (R1 R2 C1 C2 : Type) (rd1 : Reader R1) (mc1 : Machine C1) (l1 : Lawful R1 C1) (rd2 : Reader R2) (mc2 : Machine C2) (l2 : Lawful R2 C2) (K : C1 -> C2 -> Prop) (bk : Bis K)
      (p1 : M R1 _ _) (p2 : M R2 _ _) ae :
    Sim e1 e2 K p1 p2 -> Sim e1 e2 K (@parse_body e1 R1 _ p1 ae) (@parse_body e2 R2 _ p2 ae).
  Proof. intros Hp r1 r2 Hr. unfold parse_body. apply sim_body_loop; assumption. Qed.
  Lemma sim_parse_block (R1 R2 C1 C2 : Type) (rd1 : Reader R1) (mc1 : Machine C1) (l1 : Lawful R1 C1) (rd2 : Reader R2) (mc2 : Machine C2) (l2 : Lawful R2 C2) (K : C1 -> C2 -> Prop) (bk : Bis K)
      (p1 : M R1 _ _) (p2 : M R2 _ _) op :
    Sim e1 e2 K p1 p2 -> Sim e1 e2 K (@parse_block e1 R1 _ p1 op) (@parse_block e2 R2 _ p2 op).
  Proof.
    intros Hp. unfold parse_block, ctl. sim_step; [sim|]. sim_step; [apply sim_parse_body; [exact bk|exact Hp]|]. destruct a0 as [in1 parsed].
    sim_step; [sim|]. sim_step; [sim|]. sim_step; [|sim]. destruct parsed; [sim| |sim].
    sim_step; [apply sim_parse_body; [exact bk|exact Hp]|]. sim.
  Qed.
  Lemma sim_try_table (R1 R2 C1 C2 : Type) (rd1 : Reader R1) (mc1 : Machine C1) (l1 : Lawful R1 C1) (rd2 : Reader R2) (mc2 : Machine C2) (l2 : Lawful R2 C2) (K : C1 -> C2 -> Prop) (bk : Bis K)
      (p1 : M R1 _ _) (p2 : M R2 _ _) :
    Sim e1 e2 K p1 p2 -> Sim e1 e2 K (@parse_try_table e1 _ _ p1) (@parse_try_table e2 _ _ p2).
  Proof.
    intros Hp. unfold parse_try_table, ctl. sim_step; [sim|]. sim_step; [sim|]. sim_step; [apply sim_parse_body; [exact bk|exact Hp]|]. sim.
  Qed.
  Lemma sim_parse_fb : SIM (@parse_fb). Proof. intros; unfold parse_fb, rf, agg, ctl; sim. Qed.
  Hint Extern 1 (Sim _ _ _ parse_fb _) => eapply sim_parse_fb; tc : sim.
  Lemma sim_parse_fc : SIM (@parse_fc). Proof. intros; unfold parse_fc, num, mem, tab; sim. Qed.
  Hint Extern 1 (Sim _ _ _ parse_fc _) => eapply sim_parse_fc; tc : sim.
  Lemma sim_parse_fd : SIM (@parse_fd). Proof. intros; unfold parse_fd, vec, inner; sim. Qed.
  Hint Extern 1 (Sim _ _ _ parse_fd _) => eapply sim_parse_fd; tc : sim.
  Lemma sim_parse_op (R1 R2 C1 C2 : Type) (rd1 : Reader R1) (mc1 : Machine C1) (l1 : Lawful R1 C1) (rd2 : Reader R2) (mc2 : Machine C2) (l2 : Lawful R2 C2) (K : C1 -> C2 -> Prop) (bk : Bis K)
      (p1 : M R1 _ _) (p2 : M R2 _ _) b :
    Sim e1 e2 K p1 p2 -> Sim e1 e2 K (@parse_op e1 _ _ p1 b) (@parse_op e2 _ _ p2 b).
  Proof.
    intros Hp. unfold parse_op, ctl, rf, var, tab, mem, num, inner. cbv zeta.
    sim_step; [sim|]. sim_step; [sim|]. sim_step. sim_step; [|sim].
    repeat (sim_step; [first [apply sim_parse_block; [exact bk|exact Hp]|apply sim_try_table; [exact bk|exact Hp]|solve [sim]]|]). sim.
  Qed.
  Lemma sim_parse d1 d2 (R1 R2 C1 C2 : Type) (rd1 : Reader R1) (mc1 : Machine C1) (l1 : Lawful R1 C1) (rd2 : Reader R2) (mc2 : Machine C2) (l2 : Lawful R2 C2) (K : C1 -> C2 -> Prop) (bk : Bis K) :
    d1 <= d2 -> (d1 < d2 -> @stack_limit e1 < @stack_limit e2) -> Sim e1 e2 K (@parse e1 R1 _ d1) (@parse e2 R2 _ d2).
  Proof.
    revert d2; induction d1 as [|d1 IH]; intros [|d2] Hd Hs; cbn [parse]; try lia; [sim| |].
    - intros r1 r2 _. right; right; right. assert (HX : @stack_limit e1 < @stack_limit e2) by (apply Hs; lia). split; [unfold env_le; lia|right; split; [exact HX|reflexivity]].
    - sim_step; [sim|]. apply sim_parse_op; [exact bk|]; apply IH; [lia|]. intros; apply Hs; lia.
  Qed.
  Lemma sim_expr_loop (R1 R2 C1 C2 : Type) (rd1 : Reader R1) (mc1 : Machine C1) (l1 : Lawful R1 C1) (rd2 : Reader R2) (mc2 : Machine C2) (l2 : Lawful R2 C2) (K : C1 -> C2 -> Prop) (bk : Bis K) n1 n2 body b :
    Sim e1 e2 K (@expr_loop e1 R1 _ n1 body b) (@expr_loop e2 R2 _ n2 body b).
  Proof.
    revert n2 body b; induction n1 as [|n1 IH]; intros n2 body b; [intros r1 r2 _; right; left; reflexivity|].
    destruct n2 as [|n2]; [intros r1 r2 _; right; right; left; reflexivity|]. cbn [expr_loop].
    sim_step.
    - sim_step. apply sim_parse; [exact bk|apply Hle|]. lia.
    - destruct a; sim.
  Qed.
  Lemma sim_decode_expr : SIME (@decode_expr).
  Proof. intros. intros r1 r2 Hr. unfold decode_expr. apply sim_expr_loop; assumption. Qed.
  Hint Extern 1 (Sim _ _ _ decode_expr _) => eapply sim_decode_expr; tc : sim.
  Lemma sim_decode_expr_only : SIME (@decode_expr_only). Proof. sim_def @decode_expr_only. Qed.
  Hint Extern 1 (Sim _ _ _ decode_expr_only _) => eapply sim_decode_expr_only; tc : sim.
  Lemma sim_decode_section_custom (R1 R2 C1 C2 : Type) (rd1 : Reader R1) (mc1 : Machine C1) (l1 : Lawful R1 C1) (rd2 : Reader R2) (mc2 : Machine C2) (l2 : Lawful R2 C2) (K : C1 -> C2 -> Prop) (bk : Bis K) :
    SimP e1 e2 K (fun _ => afterK K) (@decode_section_custom e1 R1 _) (@decode_section_custom e2 R2 _).
  Proof.
    unfold decode_section_custom.
    eapply simp_bind; [apply (simp_map_err K (fun _ => K)); eapply sim_name; tc|]. intros nm. cbv beta.
    eapply simp_bind; [apply simp_map_err; apply simp_read_to_end; [exact Hle|exact bk]|]. intros bs. apply simp_ret.
    intros c1 c2 Hc. right. exact Hc.
  Qed.
  Lemma sim_decode_type_section : SIME (@decode_type_section). Proof. sim_def @decode_type_section. Qed.
  Hint Extern 1 (Sim _ _ _ decode_type_section _) => eapply sim_decode_type_section; tc : sim.
  Lemma sim_parse_import : SIME (@parse_import). Proof. sim_def @parse_import. Qed.
  Hint Extern 1 (Sim _ _ _ parse_import _) => eapply sim_parse_import; tc : sim.
  Lemma sim_decode_import_section : SIME (@decode_import_section). Proof. sim_def @decode_import_section. Qed.
  Hint Extern 1 (Sim _ _ _ decode_import_section _) => eapply sim_decode_import_section; tc : sim.
  Lemma sim_decode_function_section : SIME (@decode_function_section). Proof. sim_def @decode_function_section. Qed.
  Hint Extern 1 (Sim _ _ _ decode_function_section _) => eapply sim_decode_function_section; tc : sim.
  Lemma sim_decode_table : SIME (@decode_table). Proof. sim_def @decode_table. Qed.
  Hint Extern 1 (Sim _ _ _ decode_table _) => eapply sim_decode_table; tc : sim.
  Lemma sim_decode_table_section : SIME (@decode_table_section). Proof. sim_def @decode_table_section. Qed.
  Hint Extern 1 (Sim _ _ _ decode_table_section _) => eapply sim_decode_table_section; tc : sim.
  Lemma sim_decode_memory_section : SIME (@decode_memory_section). Proof. sim_def @decode_memory_section. Qed.
  Hint Extern 1 (Sim _ _ _ decode_memory_section _) => eapply sim_decode_memory_section; tc : sim.
  Lemma sim_decode_tag_section : SIME (@decode_tag_section). Proof. sim_def @decode_tag_section. Qed.
  Hint Extern 1 (Sim _ _ _ decode_tag_section _) => eapply sim_decode_tag_section; tc : sim.
  Lemma sim_parse_global : SIME (@parse_global). Proof. sim_def @parse_global. Qed.
  Hint Extern 1 (Sim _ _ _ parse_global _) => eapply sim_parse_global; tc : sim.
  Lemma sim_decode_global_section : SIME (@decode_global_section). Proof. sim_def @decode_global_section. Qed.
  Hint Extern 1 (Sim _ _ _ decode_global_section _) => eapply sim_decode_global_section; tc : sim.
  Lemma sim_parse_export : SIME (@parse_export). Proof. intros; unfold parse_export; sim. destruct (externidx_from a0 a1); sim. Qed.
  Hint Extern 1 (Sim _ _ _ parse_export _) => eapply sim_parse_export; tc : sim.
  Lemma sim_decode_export_section : SIME (@decode_export_section). Proof. sim_def @decode_export_section. Qed.
  Hint Extern 1 (Sim _ _ _ decode_export_section _) => eapply sim_decode_export_section; tc : sim.
  Lemma sim_decode_start_section : SIM (@decode_start_section). Proof. sim_def @decode_start_section. Qed.
  Hint Extern 1 (Sim _ _ _ decode_start_section _) => eapply sim_decode_start_section; tc : sim.
  Lemma sim_parse_elemkind : SIM (@parse_elemkind). Proof. sim_def @parse_elemkind. Qed.
  Hint Extern 1 (Sim _ _ _ parse_elemkind _) => eapply sim_parse_elemkind; tc : sim.
  Lemma sim_parse_elem : SIME (@parse_elem). Proof. sim_def @parse_elem. Qed.
  Hint Extern 1 (Sim _ _ _ parse_elem _) => eapply sim_parse_elem; tc : sim.
  Lemma sim_decode_element_section : SIME (@decode_element_section). Proof. sim_def @decode_element_section. Qed.
  Hint Extern 1 (Sim _ _ _ decode_element_section _) => eapply sim_decode_element_section; tc : sim.
  Lemma sim_decode_datacount_section : SIM (@decode_datacount_section). Proof. sim_def @decode_datacount_section. Qed.
  Hint Extern 1 (Sim _ _ _ decode_datacount_section _) => eapply sim_decode_datacount_section; tc : sim.
  Lemma sim_parse_code_local mx st : SIM (fun R rd => @parse_code_local R rd mx st).
  Proof. intros. unfold parse_code_local, add_u64. sim. Qed.
  Lemma sim_code_entry : SIME (@code_entry). Proof. intros; unfold code_entry; sim; apply sim_list_st; tc; intros; apply sim_parse_code_local; tc. Qed.
  Lemma sim_parse_code : SIME (@parse_code). Proof. intros; unfold parse_code, sub_u64; sim; apply sim_list_st; tc; intros; apply sim_parse_code_local; tc. Qed.
  Hint Extern 1 (Sim _ _ _ parse_code _) => eapply sim_parse_code; tc : sim.
  Lemma sim_decode_code_section : SIME (@decode_code_section). Proof. sim_def @decode_code_section. Qed.
  Hint Extern 1 (Sim _ _ _ decode_code_section _) => eapply sim_decode_code_section; tc : sim.
  Lemma sim_parse_data : SIME (@parse_data). Proof. sim_def @parse_data. Qed.
  Hint Extern 1 (Sim _ _ _ parse_data _) => eapply sim_parse_data; tc : sim.
  Lemma sim_decode_data_section : SIME (@decode_data_section). Proof. sim_def @decode_data_section. Qed.
  Hint Extern 1 (Sim _ _ _ decode_data_section _) => eapply sim_decode_data_section; tc : sim.
  Lemma sim_fill_codes codes i fs b : SIME (fun e R (_ : Reader R) => @fill_codes e R i codes fs b).
  Proof.
    revert i fs b; induction codes as [|c codes IH]; intros; cbn [fill_codes]; sim.
  Qed.
  Lemma sim_parse_preamble : SIM (@parse_preamble). Proof. sim_def @parse_preamble. Qed.
  Hint Extern 1 (Sim _ _ _ parse_preamble _) => eapply sim_parse_preamble; tc : sim.
  (** after the end of the module nothing is known of the readers *)
  Definition hdrK {A C1 C2} (K : C1 -> C2 -> Prop) (o : option A) : C1 -> C2 -> Prop :=
    match o with Some _ => K | None => fun _ _ => True end.
  Lemma sim_read_section_id (R1 R2 C1 C2 : Type) (rd1 : Reader R1) (mc1 : Machine C1) (l1 : Lawful R1 C1) (rd2 : Reader R2) (mc2 : Machine C2) (l2 : Lawful R2 C2) (K : C1 -> C2 -> Prop) (bk : Bis K) :
    SimP e1 e2 K (hdrK K) (@read_section_id R1 _) (@read_section_id R2 _).
  Proof.
    intros r1 r2 Hr. unfold read_section_id.
    destruct (sim_read_byte (e1 := e1) (e2 := e2) r1 r2 Hr) as [[He Ha]|Hx];
      destruct (read_byte r1) as [x1 r1'], (read_byte r2) as [x2 r2']; cbn [fst snd] in *.
    - subst x2. left. destruct x1 as [b|[]|p|]; cbn; (split; [reflexivity|]); intros a [= <-]; cbn; auto. apply (Ha b eq_refl).
    - right. destruct Hx as [->|[->|[Hn [[HX ->]|[HX ->]]]]]; [left|right; left|right; right; split; [exact Hn|left; split; [exact HX|]]|right; right; split; [exact Hn|right; split; [exact HX|]]]; reflexivity.
  Qed.
  Lemma sim_decode_section_header (R1 R2 C1 C2 : Type) (rd1 : Reader R1) (mc1 : Machine C1) (l1 : Lawful R1 C1) (rd2 : Reader R2) (mc2 : Machine C2) (l2 : Lawful R2 C2) (K : C1 -> C2 -> Prop) (bk : Bis K) :
    SimP e1 e2 K (hdrK K) (@decode_section_header R1 _) (@decode_section_header R2 _).
  Proof.
    unfold decode_section_header. eapply simp_bind; [apply sim_read_section_id; tc|]. intros [id|]; cbn [hdrK]; [|apply simp_ret; cbn; auto].
    destruct (section_from_marker id); [|apply simp_throw].
    apply simp_bind with (P := fun _ => K); [apply simp_map_err; eapply sim_u32; tc|]. intros n. apply simp_ret. cbn. auto.
  Qed.
  Lemma sim_decode_section k s (R1 R2 C1 C2 : Type) (rd1 : Reader R1) (mc1 : Machine C1) (l1 : Lawful R1 C1) (rd2 : Reader R2) (mc2 : Machine C2) (l2 : Lawful R2 C2) (K : C1 -> C2 -> Prop) (bk : Bis K) :
    SimP e1 e2 K (fun _ => afterK K) (@decode_section e1 R1 _ k s) (@decode_section e2 R2 _ k s).
  Proof.
    unfold decode_section. cbv zeta. destruct k.
    1: solve [eapply simp_bind; [apply simp_map_err; apply sim_decode_section_custom; tc|]; intros c; apply simp_ret; auto].
    all: apply simp_weaken with (P := fun _ => K); [|intros ? ? ? ?; left; assumption].
    all: match goal with |- SimP _ _ ?K0 _ ?p ?q => change (Sim e1 e2 K0 p q) end; sim. apply sim_fill_codes; tc.
  Qed.
  Lemma sim_section_step h s (R1 R2 C1 C2 : Type) (rd1 : Reader R1) (mc1 : Machine C1) (l1 : Lawful R1 C1) (rd2 : Reader R2) (mc2 : Machine C2) (l2 : Lawful R2 C2) (K : C1 -> C2 -> Prop) (bk : Bis K) :
    Sim e1 e2 K (@section_step e1 R1 _ h s) (@section_step e2 R2 _ h s).
  Proof.
    unfold section_step, validate_section_kind_expected, sub_u64. cbv zeta.
    eapply simp_bind.
    - apply simp_with_take. apply simp_bind with (P := fun _ => takeK K); [|intros ?; eapply simp_weaken; [apply sim_decode_section; tc|intros ? ? ?; apply (afterK_take K)]].
      match goal with |- SimP _ _ ?K0 _ ?p ?q => change (Sim e1 e2 K0 p q) end; sim.
    - intros [s' limit]. cbn [snd]. destruct (N.eqb_spec limit 0) as [->|Hz]; cbn [negb].
      + cbn beta iota. apply simp_bind with (P := fun _ => K); [|intros []; apply simp_ret; auto].
        intros r1 r2 Hr. exact (sim_alloc Hle _ r1 r2 (Hr eq_refl)).
      + intros r1 r2 _. left. destruct (limit <=? sh_size h)%N; cbn; (split; [reflexivity|discriminate]).
  Qed.
  Lemma sim_section_loop (R1 R2 C1 C2 : Type) (rd1 : Reader R1) (mc1 : Machine C1) (l1 : Lawful R1 C1) (rd2 : Reader R2) (mc2 : Machine C2) (l2 : Lawful R2 C2) (K : C1 -> C2 -> Prop) (bk : Bis K) n1 n2 s :
    SimP e1 e2 K (fun _ _ _ => True) (@section_loop e1 R1 _ n1 s) (@section_loop e2 R2 _ n2 s).
  Proof.
    revert n2 s; induction n1 as [|n1 IH]; intros n2 s; [intros r1 r2 _; right; left; reflexivity|].
    destruct n2 as [|n2]; [intros r1 r2 _; right; right; left; reflexivity|]. cbn [section_loop].
    eapply simp_bind; [apply simp_map_err, sim_decode_section_header; tc|]. intros [h|]; cbn [hdrK]; [|apply simp_ret; auto].
    eapply simp_bind; [apply sim_section_step; tc|]. intros s'. apply IH.
  Qed.
  Theorem sim_decode_module (R1 R2 C1 C2 : Type) (rd1 : Reader R1) (mc1 : Machine C1) (l1 : Lawful R1 C1) (rd2 : Reader R2) (mc2 : Machine C2) (l2 : Lawful R2 C2) (K : C1 -> C2 -> Prop) (bk : Bis K) :
    SimP e1 e2 K (fun _ _ _ => True) (@decode_module e1 R1 _) (@decode_module e2 R2 _).
  Proof.
    unfold decode_module. eapply simp_bind; [apply simp_map_err; eapply sim_parse_preamble; tc|]. intros [].
    apply simp_bind with (P := fun _ _ _ => True).
    - intros r1 r2 Hr. exact (sim_section_loop _ _ _ _ _ _ _ _ _ _ K bk _ _ _ r1 r2 Hr).
    - intros s. unfold final_checks. cbv zeta.
      repeat match goal with |- SimP _ _ _ _ (if ?c then _ else _) _ => destruct c end; try apply simp_throw; try apply simp_ret; auto.
  Qed.
End Walk.
