(** What a reader answers determines the run: the same answers, given by an
    event stream, lead to the same result, whatever the stream would have
    answered next. *)
From Verif Require Import Model.Prelude Model.Io Model.Ast Model.Errors Model.Integer Model.Helpers Model.Types Model.Instr Model.Sections Model.Module.
From Coq Require Import Lia ZifyBool ZifyN ZifyNat.

Definition more (x : read_res) : bool :=
  match x with RdOk (_ :: _) => true | RdErr Interrupted => true | _ => false end.

(** [mk s l]: the reader that is in the position of [s] and will answer [l];
    [seen s]: the answers given so far; [le s' s]: [s'] has no more bytes in
    hand than [s]; [gone s]: the reader has broken its contract *)
(** a claim of more bytes than the buffer has, or a panic *)
Definition fault (n : N) (x : read_res) : bool :=
  match x with RdOk d => (n <? lenN d)%N | RdErr _ => false | RdPanic => true end.
Class Replay (S R : Type) `{Reader S} `{Reader R} : Type := {
  mk : S -> list event -> R;
  seen : S -> list event;
  le : S -> S -> Prop;
  gone : S -> Prop;
  le_refl : forall s, le s s;
  le_trans : forall s1 s2 s3, le s1 s2 -> le s2 s3 -> le s1 s3;
  le_budget : forall s s' l rest, le s' s -> budget (mk s' rest) <= budget (mk s (l ++ rest));
  rp_read : forall (s : S) n x s', read s n = (x, s') -> n <> 0%N ->
    (gone s' /\ fault n x = true) \/
    fault n x = false /\ exists l, (seen s' = seen s ++ l /\ le s' s) /\ forall rest, read (mk s (l ++ rest)) n = (x, mk s' rest) /\
      (more x = true -> budget (mk s' rest) < budget (mk s (l ++ rest)))
}.
#[export] Hint Mode Replay ! - - - : typeclass_instances.

Lemma lenN_takeN_le {A} n (l : list A) : (lenN (takeN n l) <= n)%N.
Proof.
  revert n. induction l as [|a l IH]; intros n; cbn [takeN]; [unfold lenN; cbn; lia|].
  destruct (N.eqb_spec n 0) as [->|Hn]; [unfold lenN; cbn; lia|]. specialize (IH (N.pred n)). unfold lenN in *. cbn [length]. lia.
Qed.
Lemma takeN_dropN_length {A} n (l : list A) : length (takeN n l) + length (dropN n l) = length l.
Proof.
  revert n. induction l as [|a l IH]; intros n; cbn [takeN dropN]; [reflexivity|]. destruct (n =? 0)%N; cbn [length]; [reflexivity|]. specialize (IH (N.pred n)). lia.
Qed.

Lemma events_budget_le l rest : events_budget rest <= events_budget (l ++ rest).
Proof. induction l as [|[b d| |k] l IH]; cbn [app events_budget]; lia. Qed.

#[export] Instance take_replay {S R} `{Replay S R} : Replay (Take S) (Take R).
Proof.
  refine {| mk t l := mkTake (t_limit t) (mk (t_inner t) l); seen t := seen (t_inner t); le t' t := le (t_inner t') (t_inner t); gone t := gone (t_inner t) |}.
  - intros t. apply le_refl.
  - intros t1 t2 t3. apply le_trans.
  - intros t t' l rest. apply le_budget.
  - intros t n x t' ER Hn. cbn in ER. destruct (N.eqb_spec (t_limit t) 0) as [E0|E0].
    + injection ER as <- <-. right. split; [destruct n; [contradiction|reflexivity]|]. exists []. split; [split; [symmetry; apply app_nil_r|apply le_refl]|]. intros rest. cbn. rewrite E0. cbn. split; [reflexivity|discriminate].
    + destruct (read (t_inner t) (N.min n (t_limit t))) as [y s'] eqn:E.
      destruct (rp_read _ _ _ _ E) as [[Hg Hf]|(Hf & l & Hl & Hr)]; [lia| |].
      { left. destruct y as [d|k|]; cbn [fault] in Hf; [|discriminate Hf|injection ER as <- <-; auto].
        destruct (N.leb_spec (lenN d) (t_limit t)); injection ER as <- <-; cbn [fault gone t_inner]; split; auto. lia. }
      assert (HE : fault n x = false /\ x = y /\ t' = mkTake (match y with RdOk d => t_limit t - lenN d | _ => t_limit t end)%N s').
      { destruct y as [d|k|]; cbn [fault] in Hf; [|injection ER as <- <-; auto|discriminate Hf].
        destruct (N.leb_spec (lenN d) (t_limit t)); [|lia]. injection ER as <- <-. cbn [fault]. split; [lia|auto]. }
      destruct HE as (HF & -> & ->). clear ER. right. split; [exact HF|]. exists l. split; [exact Hl|]. intros rest. destruct (Hr rest) as (K1 & K2). cbn.
      rewrite (proj2 (N.eqb_neq _ _) E0). rewrite K1. split; [|auto]. destruct y as [d|k|]; try reflexivity. cbn [fault] in Hf. destruct (N.leb_spec (lenN d) (t_limit t)); [reflexivity|lia].
Defined.
Definition held {S} (c : Chain S) : nat := if c_done c then 0 else length (c_first c).
#[export] Instance chain_replay {S R} `{Replay S R} : Replay (Chain S) (Chain R).
Proof.
  refine {| mk c l := mkChain (c_first c) (c_done c) (mk (c_second c) l); seen c := seen (c_second c); le c' c := held c' <= held c /\ le (c_second c') (c_second c); gone c := gone (c_second c) |}.
  - intros c. split; [lia|apply le_refl].
  - intros c1 c2 c3 [K1 K2] [K3 K4]. split; [lia|eapply le_trans; eassumption].
  - intros c c' l rest [K1 K2]. cbn. apply (le_budget _ _ l rest) in K2. unfold held in K1. lia.
  - intros c n x c' ER Hn. cbn in ER. destruct (c_done c) eqn:Ed.
    + destruct (read (c_second c) n) as [y s'] eqn:E. inversion ER; subst; clear ER.
      destruct (rp_read _ _ _ _ E Hn) as [Hg|(Hf & l & (Hl & Hle) & Hr)]; [left; exact Hg|]. right. split; [exact Hf|].
      exists l. split; [split; [exact Hl|split; [unfold held; cbn; lia|exact Hle]]|]. intros rest. destruct (Hr rest) as (K1 & K3). cbn.
      rewrite ?Ed, K1. cbn. auto.
    + pose proof (takeN_dropN_length n (c_first c)) as HL. pose proof (lenN_takeN_le n (c_first c)) as HL'.
      destruct (takeN n (c_first c)) as [|b bs] eqn:Et.
      * rewrite (proj2 (N.eqb_neq _ _) Hn) in ER.
        destruct (read (c_second c) n) as [y s'] eqn:E. inversion ER; subst; clear ER.
        destruct (rp_read _ _ _ _ E Hn) as [Hg|(Hf & l & (Hl & Hle) & Hr)]; [left; exact Hg|]. right. split; [exact Hf|].
        exists l. split; [split; [exact Hl|split; [unfold held; cbn; lia|exact Hle]]|]. intros rest. destruct (Hr rest) as (K1 & K3). cbn.
        rewrite ?Ed, Et, (proj2 (N.eqb_neq _ _) Hn), K1. split; [reflexivity|]. cbn. intros Hm. specialize (K3 Hm). lia.
      * injection ER as <- <-. right. split; [cbn [fault]; apply N.ltb_ge; exact HL'|]. exists []. cbn [length] in HL. split; [split; [symmetry; apply app_nil_r|split; [unfold held; cbn; rewrite ?Ed; lia|apply le_refl]]|]. intros rest. cbn. rewrite ?Ed, Et. split; [reflexivity|]. intros _. lia.
Defined.

(** the replay of a run, strictly shorter if the value returned satisfies [w];
    a reader that breaks its contract makes the run panic *)
Definition Rpw {S R E A} `{Replay S R} (w : A -> Prop) (p : M R E A) (q : M S E A) : Prop :=
  forall s x s', q s = (x, s') -> x <> Stuck ->
  (x = Panic ReaderFault /\ gone s') \/
  exists l, (seen s' = seen s ++ l /\ le s' s) /\ forall rest, p (mk s (l ++ rest)) = (x, mk s' rest) /\
    (forall a, x = Ok a -> w a -> budget (mk s' rest) < budget (mk s (l ++ rest))).
Definition Rp {S R E A} `{Replay S R} (p : M R E A) (q : M S E A) : Prop := Rpw (fun _ => False) p q.

Section Comb.
  Context {env : Env} {S R : Type} `{Replay S R}.
  Lemma seen_app (s s1 s' : S) l1 l2 : seen s1 = seen s ++ l1 /\ le s1 s -> seen s' = seen s1 ++ l2 /\ le s' s1 -> seen s' = seen s ++ l1 ++ l2 /\ le s' s.
  Proof. intros [K1 K2] [K3 K4]. split; [rewrite K3, K1, app_assoc; reflexivity|eapply le_trans; eassumption]. Qed.
  Lemma rp_now {E A} (p : M R E A) q x : (forall r, p r = (x, r)) -> (forall s, q s = (x, s)) -> Rp p q.
  Proof.
    intros Hp Hq s y s' Es _. rewrite Hq in Es. injection Es as <- <-. right; exists []. split; [split; [symmetry; apply app_nil_r|apply le_refl]|]. intros rest. rewrite Hp. cbn [app].
    split; [reflexivity|]. intros a _ [].
  Qed.
  Lemma rp_ret {E A} (a : A) : Rp (ret a : M R E A) (ret a).
  Proof. eapply rp_now; intros; reflexivity. Qed.
  Lemma rp_throw {E A} (e : E) : Rp (throw e : M R E A) (throw e).
  Proof. eapply rp_now; intros; reflexivity. Qed.
  Lemma rp_panic {E A} p : Rp (panic_with p : M R E A) (panic_with p).
  Proof. eapply rp_now; intros; reflexivity. Qed.
  Lemma rp_stuck {E A} : Rp (stuck : M R E A) stuck.
  Proof. eapply rp_now; intros; reflexivity. Qed.
  Lemma rp_weaken {E A} w (p : M R E A) p' : Rpw w p p' -> Rp p p'.
  Proof.
    intros Hp s x s' Es Hx. destruct (Hp s x s' Es Hx) as [Hg|(l & Hl & Hr)]; [left; exact Hg|]. right; exists l. split; [exact Hl|]. intros rest. destruct (Hr rest) as (K1 & _). split; [exact K1|intros a _ []].
  Qed.
  Lemma rpw_bind {E A B} (w : A -> Prop) (v : B -> Prop) (p : M R E A) p' (q : A -> M R E B) q' : Rpw w p p' -> (forall a, Rpw (fun b => v b /\ ~ w a) (q a) (q' a)) -> Rpw v (bind p q) (bind p' q').
  Proof.
    intros Hp Hq s x s' Es Hx. unfold bind in Es |- *.
    destruct (p' s) as [y s1] eqn:E1.
    assert (Hy : y <> Stuck) by (intros ->; injection Es as <- _; exact (Hx eq_refl)).
    destruct (Hp s y s1 E1 Hy) as [[-> Hg]|(l1 & Hl1 & Hr1)]; [left; injection Es as <- <-; split; [reflexivity|exact Hg]|].
    destruct y as [a|e|pn|]; try (injection Es as <- <-; right; exists l1; split; [exact Hl1|]; intros rest; destruct (Hr1 rest) as (-> & _); split; [reflexivity|discriminate]).
    destruct (Hq a s1 x s' Es Hx) as [Hg|(l2 & Hl2 & Hr2)]; [left; exact Hg|]. right; exists (l1 ++ l2). split; [exact (seen_app _ _ _ _ _ Hl1 Hl2)|].
    intros rest. rewrite <- app_assoc. destruct (Hr1 (l2 ++ rest)) as (-> & K3). destruct (Hr2 rest) as (-> & K6). split; [reflexivity|].
    pose proof (le_budget s s1 l1 (l2 ++ rest) (proj2 Hl1)) as K2. pose proof (le_budget s1 s' l2 rest (proj2 Hl2)) as K5.
    intros b Hb Hv. specialize (K6 b Hb). destruct (Nat.lt_ge_cases (budget (mk s' rest)) (budget (mk s1 (l2 ++ rest)))) as [Hlt|Hge]; [lia|].
    assert (Hnw : ~ ~ w a) by (intros Hn; specialize (K6 (conj Hv Hn)); lia).
    destruct (Nat.lt_ge_cases (budget (mk s1 (l2 ++ rest))) (budget (mk s (l1 ++ l2 ++ rest)))) as [Hlt'|Hge']; [lia|].
    exfalso. apply Hnw. intros Hwa. specialize (K3 a eq_refl Hwa). lia.
  Qed.
  Lemma rp_any {E A} w (p : M R E A) p' : Rp p p' -> (forall a, ~ w a) -> Rpw w p p'.
  Proof.
    intros Hp Hw s x s' Es Hx. destruct (Hp s x s' Es Hx) as [Hg|(l & Hl & Hr)]; [left; exact Hg|]. right; exists l. split; [exact Hl|]. intros rest. destruct (Hr rest) as (K1 & _). split; [exact K1|intros a _ Ha; destruct (Hw a Ha)].
  Qed.
  Lemma rp_bind {E A B} (p : M R E A) p' (q : A -> M R E B) q' : Rp p p' -> (forall a, Rp (q a) (q' a)) -> Rp (bind p q) (bind p' q').
  Proof. intros Hp Hq. eapply rpw_bind; [exact Hp|]. intros a. apply rp_any; [apply Hq|]. intros b [[] _]. Qed.
  (** strict already in the first part *)
  Lemma rpw_bind1 {E A B} (p : M R E A) p' (q : A -> M R E B) q' : Rpw (fun _ => True) p p' -> (forall a, Rp (q a) (q' a)) -> Rpw (fun _ => True) (bind p q) (bind p' q').
  Proof. intros Hp Hq. eapply rpw_bind; [exact Hp|]. intros a. apply rp_any; [apply Hq|]. intros b [_ Hn]. exact (Hn I). Qed.
  Lemma rpw_map_err {E E' A} w (f : E -> E') (p : M R E A) p' : Rpw w p p' -> Rpw w (map_err f p) (map_err f p').
  Proof.
    intros Hp s x s' Es Hx. unfold map_err in Es |- *. destruct (p' s) as [y s1] eqn:E1.
    assert (Hy : y <> Stuck) by (intros ->; injection Es as <- _; exact (Hx eq_refl)).
    destruct (Hp s y s1 E1 Hy) as [[-> Hg]|(l1 & Hl1 & Hr1)]; [left; injection Es as <- <-; split; [reflexivity|exact Hg]|]. assert (s' = s1) as -> by (destruct y; inversion Es; reflexivity).
    right; exists l1. split; [exact Hl1|]. intros rest. destruct (Hr1 rest) as (-> & K3). split; [destruct y; inversion Es; reflexivity|].
    intros a Ha. apply K3. destruct y; inversion Es; congruence.
  Qed.
  Lemma rp_map_err {E E' A} (f : E -> E') (p : M R E A) p' : Rp p p' -> Rp (map_err f p) (map_err f p').
  Proof. apply rpw_map_err. Qed.
  Lemma rp_try_ok {E E' A} (p : M R E A) p' : Rp p p' -> Rp (try_ok p : M R E' _) (try_ok p').
  Proof.
    intros Hp s x s' Es Hx. unfold try_ok in Es |- *. destruct (p' s) as [y s1] eqn:E1.
    assert (Hy : y <> Stuck) by (intros ->; injection Es as <- _; exact (Hx eq_refl)).
    destruct (Hp s y s1 E1 Hy) as [[-> Hg]|(l1 & Hl1 & Hr1)]; [left; injection Es as <- <-; split; [reflexivity|exact Hg]|]. assert (s' = s1) as -> by (destruct y; inversion Es; reflexivity).
    right; exists l1. split; [exact Hl1|]. intros rest. destruct (Hr1 rest) as (-> & _). split; [destruct y; inversion Es; reflexivity|intros a _ []].
  Qed.
  Lemma rp_switch_nil {E A} n (d d' : _) : Rp (d : M R E A) d' -> Rp (switch n [] d) (switch n [] d').
  Proof. exact (fun H => H). Qed.
  Lemma rp_switch_cons {E A} n p (a : M R E A) a' arms arms' d d' : Rp a a' -> Rp (switch n arms d) (switch n arms' d') -> Rp (switch n ((p, a) :: arms) d) (switch n ((p, a') :: arms') d').
  Proof. intros Ha Hd. cbn. destruct (pmatch p n); assumption. Qed.
  Lemma rp_alloc {E} n : Rp (alloc n : M R E unit) (alloc n).
  Proof. unfold alloc. destruct (n <=? alloc_limit)%N; [apply rp_ret|apply rp_panic]. Qed.

  (** loops: enough fuel is left in the replay *)
  Definition Fueled {E A} (w : A -> Prop) (p : nat -> M R E A) (q : nat -> M S E A) : Prop :=
    forall fuel s x s', q fuel s = (x, s') -> x <> Stuck ->
    (x = Panic ReaderFault /\ gone s') \/
    exists l, (seen s' = seen s ++ l /\ le s' s) /\ forall rest,
      (forall fuel', budget (mk s (l ++ rest)) < fuel' -> p fuel' (mk s (l ++ rest)) = (x, mk s' rest)) /\
      (forall a, x = Ok a -> w a -> budget (mk s' rest) < budget (mk s (l ++ rest))).
  Lemma rpw_fuel {E A} w (p : nat -> M R E A) p' : Fueled w p p' -> Rpw w (fun r => p (Datatypes.S (budget r)) r) (fun r => p' (Datatypes.S (budget r)) r).
  Proof.
    intros HF s x s' Es Hx. destruct (HF _ _ _ _ Es Hx) as [Hg|(l & Hl & Hr)]; [left; exact Hg|]. right; exists l. split; [exact Hl|]. intros rest. destruct (Hr rest) as (K1 & K2).
    split; [apply K1; lia|exact K2].
  Qed.
  Lemma rp_fuel {E A} (p : nat -> M R E A) p' : Fueled (fun _ => False) p p' -> Rp (fun r => p (Datatypes.S (budget r)) r) (fun r => p' (Datatypes.S (budget r)) r).
  Proof. apply rpw_fuel. Qed.
  (** a loop that does [p] and then continues, each round strictly shorter *)
  Lemma fueled_loop {E A B T} (w : A -> Prop) (p : M R E A) p' (k : A -> T -> T + M R E B) (k' : A -> T -> T + M S E B) (f : T -> nat -> M R E B) f' :
    Rpw w p p' ->
    (forall a t, match k' a t with inl t' => k a t = inl t' /\ w a | inr q' => exists q, k a t = inr q /\ Rp q q' end) ->
    (forall t n r, f t (Datatypes.S n) r = bind p (fun a => match k a t with inl t' => f t' n | inr q => q end) r) ->
    (forall t n (s : S), f' t (Datatypes.S n) s = bind p' (fun a => match k' a t with inl t' => f' t' n | inr q => q end) s) ->
    (forall t s, fst (f' t 0 s) = Stuck) ->
    forall t, Fueled (fun _ => False) (f t) (f' t).
  Proof.
    intros Hp Hk Hf Hf' Hf0 t fuel. revert t. induction fuel as [|fuel IH]; intros t s x s' Es Hx.
    { specialize (Hf0 t s). rewrite Es in Hf0. contradiction. }
    rewrite Hf' in Es. unfold bind in Es. destruct (p' s) as [y s1] eqn:E1.
    assert (Hy : y <> Stuck) by (intros ->; injection Es as <- _; exact (Hx eq_refl)).
    destruct (Hp s y s1 E1 Hy) as [[-> Hg]|(l1 & Hl1 & Hr1)]; [left; injection Es as <- <-; split; [reflexivity|exact Hg]|].
    destruct y as [a|e|pn|]; [|(injection Es as <- <-; right; exists l1; split; [exact Hl1|]; intros rest; destruct (Hr1 rest) as (HE & _);
      split; [|discriminate]; intros [|fuel'] Hlt; [lia|]; rewrite Hf; unfold bind; rewrite HE; reflexivity)..].
    specialize (Hk a t). destruct (k' a t) as [t'|q'].
    - destruct Hk as [Hk Hw]. destruct (IH t' s1 x s' Es Hx) as [Hg|(l2 & Hl2 & Hr2)]; [left; exact Hg|]. right; exists (l1 ++ l2). split; [exact (seen_app _ _ _ _ _ Hl1 Hl2)|].
      intros rest. rewrite <- app_assoc. destruct (Hr1 (l2 ++ rest)) as (HE & K3). specialize (K3 a eq_refl Hw). destruct (Hr2 rest) as (K4 & _).
      split; [|intros b _ []]. intros [|fuel'] Hlt; [lia|]. rewrite Hf. unfold bind. rewrite HE, Hk. apply K4. lia.
    - destruct Hk as (q & Hk & Hq). destruct (Hq s1 x s' Es Hx) as [Hg|(l2 & Hl2 & Hr2)]; [left; exact Hg|]. right; exists (l1 ++ l2). split; [exact (seen_app _ _ _ _ _ Hl1 Hl2)|].
      intros rest. rewrite <- app_assoc. destruct (Hr1 (l2 ++ rest)) as (HE & _). destruct (Hr2 rest) as (K4 & _).
      split; [|intros b _ []]. intros [|fuel'] Hlt; [lia|]. rewrite Hf. unfold bind. rewrite HE, Hk. exact K4.
  Qed.

  Lemma rp_read_exact_loop need : forall acc, Fueled (fun _ => need <> 0%N) (fun n => read_exact_loop n need acc : M R _ _) (fun n => read_exact_loop n need acc).
  Proof.
    intros acc fuel. revert need acc. induction fuel as [|fuel IH]; intros need acc s x s' Es Hx; cbn [read_exact_loop] in Es.
    all: destruct (N.eqb_spec need 0) as [->|Hn];
      [injection Es as <- <-; right; exists []; split; [split; [symmetry; apply app_nil_r|apply le_refl]|]; intros rest; cbn [app]; split; [intros [|fuel'] _; reflexivity|intros a _ Hw; contradiction]|].
    { injection Es as <- _. contradiction. }
    destruct (read s need) as [y s1] eqn:E1. destruct (rp_read _ _ _ _ E1 Hn) as [[Hg Hf]|(Hf & l1 & Hl1 & Hr1)].
    { left. destruct y as [[|b d]|k|]; cbn [fault] in Hf; [destruct need; discriminate Hf| |discriminate Hf|injection Es as <- <-; auto].
      destruct (N.leb_spec (lenN (b :: d)) need); [lia|]. injection Es as <- <-. auto. }
    assert (Hstep : (x = match y with RdErr k => Err k | _ => Err UnexpectedEof end /\ s' = s1 /\ more y = false) \/
      (exists need' acc', more y = true /\ read_exact_loop fuel need' acc' s1 = (x, s') /\ (forall fuel' (r r1 : R), read r need = (y, r1) -> read_exact_loop (Datatypes.S fuel') need acc r = read_exact_loop fuel' need' acc' r1))).
    { destruct y as [[|b d]|k|]; [| | |discriminate Hf].
      - injection Es as <- <-. left. auto.
      - right. assert (Hs : (lenN (b :: d) <= need)%N) by (cbn [fault] in Hf; lia). exists (need - lenN (b :: d))%N, (acc ++ b :: d). rewrite (proj2 (N.leb_le _ _) Hs) in Es. split; [reflexivity|]. split; [exact Es|].
        intros fuel' r r1 Er. cbn [read_exact_loop]. rewrite (proj2 (N.eqb_neq _ _) Hn), Er, (proj2 (N.leb_le _ _) Hs). reflexivity.
      - destruct k as [| |c]; [left; injection Es as <- <-; auto| |left; injection Es as <- <-; auto].
        right. exists need, acc. split; [reflexivity|]. split; [exact Es|]. intros fuel' r r1 Er. cbn [read_exact_loop]. rewrite (proj2 (N.eqb_neq _ _) Hn), Er. reflexivity. }
    destruct Hstep as [(-> & -> & Hm)|(need' & acc' & Hm & Es' & Hstep)].
    - right; exists l1. split; [exact Hl1|]. intros rest. destruct (Hr1 rest) as (HE & _). split; [|destruct y; discriminate].
      intros [|fuel'] Hlt; [lia|]. cbn [read_exact_loop]. rewrite (proj2 (N.eqb_neq _ _) Hn), HE. destruct y as [[|b d]|[]|]; try discriminate Hm; try discriminate Hf; reflexivity.
    - destruct (IH need' acc' s1 x s' Es' Hx) as [Hg|(l2 & Hl2 & Hr2)]; [left; exact Hg|]. right; exists (l1 ++ l2). split; [exact (seen_app _ _ _ _ _ Hl1 Hl2)|].
      intros rest. rewrite <- app_assoc. destruct (Hr1 (l2 ++ rest)) as (HE & K3). specialize (K3 Hm). destruct (Hr2 rest) as (K4 & _).
      split; [|intros; pose proof (le_budget s1 s' l2 rest (proj2 Hl2)); lia]. intros [|fuel'] Hlt; [lia|]. rewrite (Hstep _ _ _ HE). apply K4. lia.
  Qed.
  Lemma rpw_read_exact n : Rpw (fun _ => n <> 0%N) (read_exact n : M R _ _) (read_exact n).
  Proof. unfold read_exact. apply (rpw_fuel _ (fun k => read_exact_loop k n []) (fun k => read_exact_loop k n [])). apply rp_read_exact_loop. Qed.
  Lemma rp_read_exact n : Rp (read_exact n : M R _ _) (read_exact n).
  Proof. eapply rp_weaken. apply rpw_read_exact. Qed.
  Lemma rpw_read_byte : Rpw (fun _ => True) (read_byte : M R _ _) read_byte.
  Proof.
    unfold read_byte. eapply rpw_bind; [apply rpw_read_exact|]. intros [|b l]; apply rp_any; try apply rp_panic; try apply rp_ret; intros a [_ Hn]; apply Hn; discriminate.
  Qed.
  Lemma rp_read_byte : Rp (read_byte : M R _ _) read_byte.
  Proof. eapply rp_weaken. apply rpw_read_byte. Qed.
  Lemma rp_read_to_end : Rp (read_to_end : M R _ _) read_to_end.
  Proof.
    unfold read_to_end. apply (rp_fuel (fun k => read_to_end_loop k 0 []) (fun k => read_to_end_loop k 0 [])).
    intros fuel. generalize 0 as i, (@nil byte) as acc. induction fuel as [|fuel IH]; intros i acc s x s' Es Hx; cbn [read_to_end_loop] in Es.
    { injection Es as <- _. contradiction. }
    destruct (read s (N.succ (probe i))) as [y s1] eqn:E1. destruct (rp_read _ _ _ _ E1) as [[Hg Hf]|(Hf & l1 & Hl1 & Hr1)]; [lia| |].
    { left. destruct y as [[|b d]|k|]; cbn [fault] in Hf; [unfold lenN in Hf; cbn in Hf; lia| |discriminate Hf|injection Es as <- <-; auto].
      destruct (N.leb_spec (lenN (b :: d)) (N.succ (probe i))); [lia|]. injection Es as <- <-. auto. }
    assert (Hstep : (s' = s1 /\ forall fuel' (r r1 : R), read r (N.succ (probe i)) = (y, r1) -> read_to_end_loop (Datatypes.S fuel') i acc r = (x, r1)) \/
      (exists acc', more y = true /\ read_to_end_loop fuel (Datatypes.S i) acc' s1 = (x, s') /\ (forall fuel' (r r1 : R), read r (N.succ (probe i)) = (y, r1) -> read_to_end_loop (Datatypes.S fuel') i acc r = read_to_end_loop fuel' (Datatypes.S i) acc' r1))).
    { destruct y as [[|b d]|k|]; [| | |discriminate Hf].
      - injection Es as <- <-. left. split; [reflexivity|]. intros fuel' r r1 Er. cbn [read_to_end_loop]. rewrite Er. reflexivity.
      - assert (Hs : (lenN (b :: d) <= N.succ (probe i))%N) by (cbn [fault] in Hf; lia). rewrite (proj2 (N.leb_le _ _) Hs) in Es.
        destruct (lenN (acc ++ b :: d) <=? alloc_limit)%N eqn:Ea; [right|left].
        + exists (acc ++ b :: d). split; [reflexivity|]. split; [exact Es|]. intros fuel' r r1 Er. cbn [read_to_end_loop]. rewrite Er, (proj2 (N.leb_le _ _) Hs), Ea. reflexivity.
        + injection Es as <- <-. split; [reflexivity|]. intros fuel' r r1 Er. cbn [read_to_end_loop]. rewrite Er, (proj2 (N.leb_le _ _) Hs), Ea. reflexivity.
      - destruct k as [| |c]; [left; injection Es as <- <-; split; [reflexivity|]; intros fuel' r r1 Er; cbn [read_to_end_loop]; rewrite Er; reflexivity| |left; injection Es as <- <-; split; [reflexivity|]; intros fuel' r r1 Er; cbn [read_to_end_loop]; rewrite Er; reflexivity].
        right. exists acc. split; [reflexivity|]. split; [exact Es|]. intros fuel' r r1 Er. cbn [read_to_end_loop]. rewrite Er. reflexivity. }
    destruct Hstep as [(-> & Hstep)|(acc' & Hm & Es' & Hstep)].
    - right; exists l1. split; [exact Hl1|]. intros rest. destruct (Hr1 rest) as (HE & _). split; [|intros a _ []].
      intros [|fuel'] Hlt; [lia|]. exact (Hstep _ _ _ HE).
    - destruct (IH (Datatypes.S i) acc' s1 x s' Es' Hx) as [Hg|(l2 & Hl2 & Hr2)]; [left; exact Hg|]. right; exists (l1 ++ l2). split; [exact (seen_app _ _ _ _ _ Hl1 Hl2)|].
      intros rest. rewrite <- app_assoc. destruct (Hr1 (l2 ++ rest)) as (HE & K3). specialize (K3 Hm). destruct (Hr2 rest) as (K4 & _).
      split; [|intros a _ []]. intros [|fuel'] Hlt; [lia|]. rewrite (Hstep _ _ _ HE). apply K4. lia.
  Qed.
  Lemma rp_with_chain {E A} b (p : M (Chain R) E A) p' : Rp p p' -> Rp (with_chain b p) (with_chain b p').
  Proof.
    intros Hp s x s' Es Hx. unfold with_chain in Es |- *. destruct (p' (mkChain [b] false s)) as [y c] eqn:E1. injection Es as -> <-.
    destruct (Hp _ _ _ E1 Hx) as [Hg|(l & (Hl & _ & Hle) & Hr)]; [left; exact Hg|]. right; exists l. split; [split; [exact Hl|exact Hle]|]. intros rest. destruct (Hr rest) as (K1 & _). cbn [mk chain_replay c_first c_done c_second] in K1.
    rewrite K1. cbn [c_second]. split; [reflexivity|intros a _ []].
  Qed.
  Lemma rp_with_take {E A} n (p : M (Take R) E A) p' : Rp p p' -> Rp (with_take n p) (with_take n p').
  Proof.
    intros Hp s x s' Es Hx. unfold with_take in Es |- *. destruct (p' (mkTake n s)) as [y t] eqn:E1. injection Es as Hy <-.
    assert (Hy' : y <> Stuck) by (intros ->; symmetry in Hy; contradiction).
    destruct (Hp _ _ _ E1 Hy') as [[-> Hg]|(l & (Hl & Hle) & Hr)]; [left; split; [symmetry; exact Hy|exact Hg]|]. right; exists l. split; [split; [exact Hl|exact Hle]|]. intros rest. destruct (Hr rest) as (K1 & _). cbn [mk take_replay t_limit t_inner] in K1.
    rewrite K1. cbn [t_limit t_inner]. rewrite Hy. split; [reflexivity|intros a _ []].
  Qed.
  Lemma rp_loopN {E T} (f f' : _) n : (forall t, Rp (f t : M R E T) (f' t)) -> forall t, Rp (loopN f n t) (loopN f' n t).
  Proof.
    intros Hst. destruct n as [|p]; cbn; [intros; apply rp_ret|].
    induction p as [p IH|p IH|]; cbn; intros s.
    - apply rp_bind; [apply Hst|]. intros s1. apply rp_bind; apply IH.
    - apply rp_bind; apply IH.
    - apply Hst.
  Qed.
End Comb.

Create HintDb rp.
#[export] Hint Resolve rp_ret rp_throw rp_panic rp_stuck rp_alloc rp_read_exact rp_read_byte rp_read_to_end : rp.
Ltac rp_step :=
  match goal with
  | |- Rp (bind _ _) _ => eapply rp_bind; [|intros ?]
  | |- Rp (map_err _ _) _ => eapply rp_map_err
  | |- Rp (try_ok _) _ => eapply rp_try_ok
  | |- Rp (switch _ [] _) _ => apply rp_switch_nil
  | |- Rp (switch _ (_ :: _) _) _ => apply rp_switch_cons
  | |- Rp (with_chain _ _) _ => apply rp_with_chain
  | |- Rp (with_take _ _) _ => apply rp_with_take
  | |- Rp (match ?o with Some _ => _ | None => _ end) _ => destruct o
  | |- Rp (if ?c then _ else _) _ => destruct c
  | |- Rp (match ?z with (x, y) => _ end) _ => destruct z
  | |- Rp (let x := _ in _) _ => cbv zeta
  | |- Rp (loopN _ _ _) _ => apply rp_loopN; intros ?
  end.
Ltac replay := repeat (first [solve [eauto 2 with rp nocore] | rp_step]).
Ltac rp_def f := intros; unfold f; replay.

Section Leaves.
  Context {env : Env} {S R : Type} `{Replay S R}.
  Lemma rp_shl_u32 {E} x n : Rp (shl_u32 x n : M R E _) (shl_u32 x n). Proof. rp_def @shl_u32. Qed.
  Lemma rp_shl_u64 {E} x n : Rp (shl_u64 x n : M R E _) (shl_u64 x n). Proof. rp_def @shl_u64. Qed.
  Lemma rp_shl_i64 {E} x n : Rp (shl_i64 x n : M R E _) (shl_i64 x n). Proof. rp_def @shl_i64. Qed.
  Lemma rp_add_u8 {E} x n : Rp (add_u8 x n : M R E _) (add_u8 x n). Proof. rp_def @add_u8. Qed.
  Lemma rp_add_u64 {E} x n : Rp (add_u64 x n : M R E _) (add_u64 x n). Proof. rp_def @add_u64. Qed.
  Lemma rp_sub_u32 {E} x n : Rp (sub_u32 x n : M R E _) (sub_u32 x n). Proof. rp_def @sub_u32. Qed.
  Lemma rp_sub_u64 {E} x n : Rp (sub_u64 x n : M R E _) (sub_u64 x n). Proof. rp_def @sub_u64. Qed.
  Hint Resolve rp_shl_u32 rp_shl_u64 rp_shl_i64 rp_add_u8 : rp.
  Lemma rp_u32 : Rp (decode_u32 : M R _ _) decode_u32.
  Proof. assert (HH : forall is x y, Rp (u32_loop is x y : M R _ _) (u32_loop is x y)) by (induction is as [|i is IH]; intros; cbn [u32_loop]; replay). apply HH. Qed.
  Lemma rp_u64 : Rp (decode_u64 : M R _ _) decode_u64.
  Proof. assert (HH : forall is x y, Rp (u64_loop is x y : M R _ _) (u64_loop is x y)) by (induction is as [|i is IH]; intros; cbn [u64_loop]; replay). apply HH. Qed.
  Lemma rp_i32 : Rp (decode_i32 : M R _ _) decode_i32.
  Proof. assert (HH : forall is x y, Rp (i32_loop is x y : M R _ _) (i32_loop is x y)) by (induction is as [|i is IH]; intros; cbn [i32_loop]; replay). apply HH. Qed.
  Lemma rp_i64 : Rp (decode_i64 : M R _ _) decode_i64.
  Proof. assert (HH : forall is x y, Rp (i64_loop is x y : M R _ _) (i64_loop is x y)) by (induction is as [|i is IH]; intros; cbn [i64_loop]; replay). apply HH. Qed.
  Lemma rp_s33 : Rp (decode_s33 : M R _ _) decode_s33.
  Proof. assert (HH : forall is x y, Rp (s33_loop is x y : M R _ _) (s33_loop is x y)) by (induction is as [|i is IH]; intros; cbn [s33_loop]; replay). apply HH. Qed.
End Leaves.
#[export] Hint Resolve rp_shl_u32 rp_shl_u64 rp_shl_i64 rp_add_u8 rp_add_u64 rp_sub_u32 rp_sub_u64 rp_u32 rp_u64 rp_i32 rp_i64 rp_s33 : rp.

Section Helpers.
  Context {env : Env} {S R : Type} `{Replay S R}.
  Lemma rp_f32 : Rp (decode_f32 : M R _ _) decode_f32. Proof. rp_def @decode_f32. Qed.
  Lemma rp_f64 : Rp (decode_f64 : M R _ _) decode_f64. Proof. rp_def @decode_f64. Qed.
  Lemma rp_list_st {St E T} (f : St -> M R E (T * St)) f' st : (forall s, Rp (f s) (f' s)) -> Rp (decode_list_st f st) (decode_list_st f' st).
  Proof. intros Hf. unfold decode_list_st, list_step. replay. Qed.
  Lemma rp_list {E T} (f : M R E T) f' : Rp f f' -> Rp (decode_list f) (decode_list f').
  Proof. intros Hf. unfold decode_list. apply rp_list_st. intros _. replay. Qed.
  Lemma rp_byte_vector : Rp (decode_byte_vector : M R _ _) decode_byte_vector. Proof. rp_def @decode_byte_vector. Qed.
  Hint Resolve rp_byte_vector : rp.
  Lemma rp_name : Rp (decode_name : M R _ _) decode_name. Proof. rp_def @decode_name. Qed.
  Lemma rp_unwrap {E} x : Rp (u32_try_from_unwrap x : M R E _) (u32_try_from_unwrap x). Proof. rp_def @u32_try_from_unwrap. Qed.
End Helpers.
#[export] Hint Resolve rp_f32 rp_f64 rp_byte_vector rp_name rp_unwrap : rp.
#[export] Hint Extern 1 (Rp (decode_list _) _) => eapply rp_list : rp.

Section Types.
  Context {env : Env}.
  Lemma rp_decode_typeidx {S R} `{Replay S R} : Rp (decode_typeidx : M R _ _) (decode_typeidx ). Proof. rp_def @decode_typeidx. Qed.
  Hint Resolve rp_decode_typeidx : rp.
  Lemma rp_decode_funcidx {S R} `{Replay S R} : Rp (decode_funcidx : M R _ _) (decode_funcidx ). Proof. rp_def @decode_funcidx. Qed.
  Hint Resolve rp_decode_funcidx : rp.
  Lemma rp_decode_tableidx {S R} `{Replay S R} : Rp (decode_tableidx : M R _ _) (decode_tableidx ). Proof. rp_def @decode_tableidx. Qed.
  Hint Resolve rp_decode_tableidx : rp.
  Lemma rp_decode_memidx {S R} `{Replay S R} : Rp (decode_memidx : M R _ _) (decode_memidx ). Proof. rp_def @decode_memidx. Qed.
  Hint Resolve rp_decode_memidx : rp.
  Lemma rp_decode_globalidx {S R} `{Replay S R} : Rp (decode_globalidx : M R _ _) (decode_globalidx ). Proof. rp_def @decode_globalidx. Qed.
  Hint Resolve rp_decode_globalidx : rp.
  Lemma rp_decode_elemidx {S R} `{Replay S R} : Rp (decode_elemidx : M R _ _) (decode_elemidx ). Proof. rp_def @decode_elemidx. Qed.
  Hint Resolve rp_decode_elemidx : rp.
  Lemma rp_decode_dataidx {S R} `{Replay S R} : Rp (decode_dataidx : M R _ _) (decode_dataidx ). Proof. rp_def @decode_dataidx. Qed.
  Hint Resolve rp_decode_dataidx : rp.
  Lemma rp_decode_localidx {S R} `{Replay S R} : Rp (decode_localidx : M R _ _) (decode_localidx ). Proof. rp_def @decode_localidx. Qed.
  Hint Resolve rp_decode_localidx : rp.
  Lemma rp_decode_labelidx {S R} `{Replay S R} : Rp (decode_labelidx : M R _ _) (decode_labelidx ). Proof. rp_def @decode_labelidx. Qed.
  Hint Resolve rp_decode_labelidx : rp.
  Lemma rp_decode_tagidx {S R} `{Replay S R} : Rp (decode_tagidx : M R _ _) (decode_tagidx ). Proof. rp_def @decode_tagidx. Qed.
  Hint Resolve rp_decode_tagidx : rp.
  Lemma rp_decode_absheaptype {S R} `{Replay S R} : Rp (decode_absheaptype : M R _ _) (decode_absheaptype ). Proof. rp_def @decode_absheaptype. Qed.
  Hint Resolve rp_decode_absheaptype : rp.
  Lemma rp_decode_heaptype {S R} `{Replay S R} : Rp (decode_heaptype : M R _ _) (decode_heaptype ). Proof. rp_def @decode_heaptype. Qed.
  Hint Resolve rp_decode_heaptype : rp.
  Lemma rp_decode_reftype {S R} `{Replay S R} : Rp (decode_reftype : M R _ _) (decode_reftype ). Proof. rp_def @decode_reftype. Qed.
  Hint Resolve rp_decode_reftype : rp.
  Lemma rp_decode_valtype {S R} `{Replay S R} : Rp (decode_valtype : M R _ _) (decode_valtype ). Proof. rp_def @decode_valtype. Qed.
  Hint Resolve rp_decode_valtype : rp.
  Lemma rp_decode_result_type {S R} `{Replay S R} : Rp (decode_result_type : M R _ _) (decode_result_type ). Proof. rp_def @decode_result_type. Qed.
  Hint Resolve rp_decode_result_type : rp.
  Lemma rp_decode_globaltype {S R} `{Replay S R} : Rp (decode_globaltype : M R _ _) (decode_globaltype ). Proof. rp_def @decode_globaltype. Qed.
  Hint Resolve rp_decode_globaltype : rp.
  Lemma rp_decode_storagetype {S R} `{Replay S R} : Rp (decode_storagetype : M R _ _) (decode_storagetype ). Proof. rp_def @decode_storagetype. Qed.
  Hint Resolve rp_decode_storagetype : rp.
  Lemma rp_decode_fieldtype {S R} `{Replay S R} : Rp (decode_fieldtype : M R _ _) (decode_fieldtype ). Proof. rp_def @decode_fieldtype. Qed.
  Hint Resolve rp_decode_fieldtype : rp.
  Lemma rp_decode_comptype {S R} `{Replay S R} : Rp (decode_comptype : M R _ _) (decode_comptype ). Proof. rp_def @decode_comptype. Qed.
  Hint Resolve rp_decode_comptype : rp.
  Lemma rp_decode_subtype {S R} `{Replay S R} : Rp (decode_subtype : M R _ _) (decode_subtype ). Proof. rp_def @decode_subtype. Qed.
  Hint Resolve rp_decode_subtype : rp.
  Lemma rp_decode_rectype {S R} `{Replay S R} : Rp (decode_rectype : M R _ _) (decode_rectype ). Proof. rp_def @decode_rectype. Qed.
  Hint Resolve rp_decode_rectype : rp.
  Lemma rp_parse_limits {S R} `{Replay S R} : Rp (parse_limits : M R _ _) (parse_limits ). Proof. rp_def @parse_limits. Qed.
  Hint Resolve rp_parse_limits : rp.
  Lemma rp_parse_memtype {S R} `{Replay S R} : Rp (parse_memtype : M R _ _) (parse_memtype ). Proof. rp_def @parse_memtype. Qed.
  Hint Resolve rp_parse_memtype : rp.
  Lemma rp_decode_tabletype {S R} `{Replay S R} : Rp (decode_tabletype : M R _ _) (decode_tabletype ). Proof. rp_def @decode_tabletype. Qed.
  Hint Resolve rp_decode_tabletype : rp.
  Lemma rp_decode_tagtype {S R} `{Replay S R} : Rp (decode_tagtype : M R _ _) (decode_tagtype ). Proof. rp_def @decode_tagtype. Qed.
  Hint Resolve rp_decode_tagtype : rp.
  Lemma rp_decode_externtype {S R} `{Replay S R} : Rp (decode_externtype : M R _ _) (decode_externtype ). Proof. rp_def @decode_externtype. Qed.
  Hint Resolve rp_decode_externtype : rp.
End Types.
#[export] Hint Resolve rp_decode_typeidx rp_decode_funcidx rp_decode_tableidx rp_decode_memidx rp_decode_globalidx rp_decode_elemidx rp_decode_dataidx rp_decode_localidx rp_decode_labelidx rp_decode_tagidx rp_decode_absheaptype rp_decode_heaptype rp_decode_reftype rp_decode_valtype rp_decode_result_type rp_decode_globaltype rp_decode_storagetype rp_decode_fieldtype rp_decode_comptype rp_decode_subtype rp_decode_rectype rp_parse_limits rp_parse_memtype rp_decode_tabletype rp_decode_tagtype rp_decode_externtype : rp.

Section Instr.
  Context {env : Env}.
  Lemma rp_decode_memarg {S R} `{Replay S R} : Rp (decode_memarg : M R _ _) (decode_memarg ). Proof. rp_def @decode_memarg. Qed.
  Hint Resolve rp_decode_memarg : rp.
  Lemma rp_decode_laneidx {S R} `{Replay S R} : Rp (decode_laneidx : M R _ _) (decode_laneidx ). Proof. rp_def @decode_laneidx. Qed.
  Hint Resolve rp_decode_laneidx : rp.
  Lemma rp_decode_blocktype {S R} `{Replay S R} : Rp (decode_blocktype : M R _ _) (decode_blocktype ). Proof. rp_def @decode_blocktype. Qed.
  Hint Resolve rp_decode_blocktype : rp.
  Lemma rp_decode_catch {S R} `{Replay S R} : Rp (decode_catch : M R _ _) (decode_catch ). Proof. rp_def @decode_catch. Qed.
  Hint Resolve rp_decode_catch : rp.
  Lemma rp_decode_castop {S R} `{Replay S R} : Rp (decode_castop : M R _ _) (decode_castop ). Proof. rp_def @decode_castop. Qed.
  Hint Resolve rp_decode_castop : rp.
  Lemma rp_parse_body {S R} `{Replay S R} p p' ae : Rpw (fun _ => True) p p' -> Rp (parse_body p ae : M R _ _) (parse_body p' ae).
  Proof.
    intros Hp. unfold parse_body. apply (rp_fuel (fun n => body_loop p ae n []) (fun n => body_loop p' ae n [])).
    pose (kk := fun (Q : Type) (pr : ParseResult) (t : list instr) => match pr with PR_Instr i => if (lenN (i :: t) <=? alloc_limit)%N then inl (i :: t) else inr (panic_with AllocFailure) | PR_End => inr (ret (rev t, PR_End) : M Q ParseError (list instr * ParseResult)) | PR_Else => inr (if ae then ret (rev t, PR_Else) else throw (PE_Control Ctl_UnexpectedElse)) end).
    apply (fueled_loop (fun _ => True) p p' (kk R) (kk S) (fun t n => body_loop p ae n t) (fun t n => body_loop p' ae n t)); [exact Hp| | | |].
    - intros [i| |] t; cbn [kk]; [destruct (lenN (i :: t) <=? alloc_limit)%N; [auto|eexists; split; [reflexivity|apply rp_panic]]|eexists; split; [reflexivity|destruct ae; replay]|eexists; split; [reflexivity|replay]].
    - intros t n r. cbn [body_loop]. unfold bind, alloc, kk. destruct (p r) as [[[i| |]|e|pn|] r1]; try destruct (lenN (i :: t) <=? alloc_limit)%N; reflexivity.
    - intros t n r. cbn [body_loop]. unfold bind, alloc, kk. destruct (p' r) as [[[i| |]|e|pn|] r1]; try destruct (lenN (i :: t) <=? alloc_limit)%N; reflexivity.
    - reflexivity.
  Qed.
  Hint Resolve rp_parse_body : rp.
  Lemma rp_parse_block {S R} `{Replay S R} p p' op : Rpw (fun _ => True) p p' -> Rp (parse_block p op : M R _ _) (parse_block p' op).
  Proof.
    intros Hp. unfold parse_block, ctl. rp_step; [replay|]. rp_step; [replay|]. destruct a0 as [in1 [i| |]]; replay.
  Qed.
  Lemma rp_parse_try_table {S R} `{Replay S R} p p' : Rpw (fun _ => True) p p' -> Rp (parse_try_table p : M R _ _) (parse_try_table p').
  Proof. intros Hp. unfold parse_try_table, ctl. replay. Qed.
  Lemma rp_inner {S R} `{Replay S R} {E A} op (tbl : list (N * A)) : Rp (inner op tbl : M R E A) (inner op tbl). Proof. rp_def @inner. Qed.
  Hint Resolve rp_inner rp_parse_block rp_parse_try_table : rp.
  Lemma rp_parse_fb {S R} `{Replay S R} : Rp (parse_fb : M R _ _) parse_fb. Proof. unfold parse_fb, rf, agg, ctl. replay. Qed.
  Lemma rp_parse_fc {S R} `{Replay S R} : Rp (parse_fc : M R _ _) parse_fc. Proof. unfold parse_fc, num, mem, tab. replay. Qed.
  Lemma rp_parse_fd {S R} `{Replay S R} : Rp (parse_fd : M R _ _) parse_fd. Proof. unfold parse_fd, vec. replay. Qed.
  Hint Resolve rp_parse_fb rp_parse_fc rp_parse_fd : rp.
  Lemma rp_parse_op {S R} `{Replay S R} p p' opcode : Rpw (fun _ => True) p p' -> Rp (parse_op p opcode : M R _ _) (parse_op p' opcode).
  Proof. intros Hp. unfold parse_op, ctl, rf, var, tab, mem, num. cbv zeta. replay. Qed.
  Hint Resolve rp_parse_op : rp.
  Lemma rpw_parse {S R} `{Replay S R} d : Rpw (fun _ => True) (parse d : M R _ _) (parse d).
  Proof.
    induction d as [|d IH]; cbn [parse].
    - intros s x s' Es _. injection Es as <- <-. right; exists []. split; [split; [symmetry; apply app_nil_r|apply le_refl]|]. intros rest. split; [reflexivity|discriminate].
    - apply rpw_bind1; [apply rpw_map_err, rpw_read_byte|]. intros b. apply rp_parse_op. exact IH.
  Qed.
  Lemma rp_parse {S R} `{Replay S R} d : Rp (parse d : M R _ _) (parse d).
  Proof. eapply rp_weaken. apply rpw_parse. Qed.
  Hint Resolve rp_parse : rp.
  Lemma rp_expr {S R} `{Replay S R} : Rp (decode_expr : M R _ _) decode_expr.
  Proof.
    unfold decode_expr. apply (rp_fuel (fun n => expr_loop n [] false) (fun n => expr_loop n [] false)).
    pose (kk := fun (Q : Type) (pr : ParseResult) (t : list instr * bool) => match pr with PR_Instr i => if (lenN (i :: fst t) <=? alloc_limit)%N then inl (i :: fst t, if instruction_contains_data_index i then true else snd t) else inr (panic_with AllocFailure) | PR_End => inr (ret (rev (fst t), snd t) : M Q ParseExpressionError (Expr * bool)) | PR_Else => inr (throw Expr_UnexpectedElse) end).
    apply (fueled_loop (fun _ => True) (map_err Expr_ParseInstruction (parse stack_limit)) (map_err Expr_ParseInstruction (parse stack_limit)) (kk R) (kk S) (fun t n => expr_loop n (fst t) (snd t)) (fun t n => expr_loop n (fst t) (snd t)) ) with (t := ([], false)); [apply rpw_map_err, rpw_parse| | | |].
    - intros [i| |] t; cbn [kk]; [destruct (lenN (i :: fst t) <=? alloc_limit)%N; [auto|eexists; split; [reflexivity|apply rp_panic]]|eexists; split; [reflexivity|replay]..].
    - intros t n r. cbn [expr_loop]. unfold bind, alloc, kk. destruct (map_err Expr_ParseInstruction (parse stack_limit) r) as [[[i| |]|e|pn|] r1]; try destruct (lenN (i :: fst t) <=? alloc_limit)%N; reflexivity.
    - intros t n r. cbn [expr_loop]. unfold bind, alloc, kk. destruct (map_err Expr_ParseInstruction (parse stack_limit) r) as [[[i| |]|e|pn|] r1]; try destruct (lenN (i :: fst t) <=? alloc_limit)%N; reflexivity.
    - reflexivity.
  Qed.
  Hint Resolve rp_expr : rp.
  Lemma rp_expr_only {S R} `{Replay S R} : Rp (decode_expr_only : M R _ _) decode_expr_only.
  Proof. rp_def @decode_expr_only. Qed.
End Instr.
#[export] Hint Resolve rp_expr rp_expr_only : rp.

Section Sections.
  Context {env : Env}.
  Lemma rp_decode_section_custom {S R} `{Replay S R} : Rp (decode_section_custom : M R _ _) (decode_section_custom ). Proof. rp_def @decode_section_custom. Qed.
  Hint Resolve rp_decode_section_custom : rp.
  Lemma rp_decode_type_section {S R} `{Replay S R} : Rp (decode_type_section : M R _ _) (decode_type_section ). Proof. rp_def @decode_type_section. Qed.
  Hint Resolve rp_decode_type_section : rp.
  Lemma rp_parse_import {S R} `{Replay S R} : Rp (parse_import : M R _ _) (parse_import ). Proof. rp_def @parse_import. Qed.
  Hint Resolve rp_parse_import : rp.
  Lemma rp_decode_import_section {S R} `{Replay S R} : Rp (decode_import_section : M R _ _) (decode_import_section ). Proof. rp_def @decode_import_section. Qed.
  Hint Resolve rp_decode_import_section : rp.
  Lemma rp_decode_function_section {S R} `{Replay S R} : Rp (decode_function_section : M R _ _) (decode_function_section ). Proof. rp_def @decode_function_section. Qed.
  Hint Resolve rp_decode_function_section : rp.
  Lemma rp_decode_table {S R} `{Replay S R} : Rp (decode_table : M R _ _) (decode_table ). Proof. rp_def @decode_table. Qed.
  Hint Resolve rp_decode_table : rp.
  Lemma rp_decode_table_section {S R} `{Replay S R} : Rp (decode_table_section : M R _ _) (decode_table_section ). Proof. rp_def @decode_table_section. Qed.
  Hint Resolve rp_decode_table_section : rp.
  Lemma rp_decode_memory_section {S R} `{Replay S R} : Rp (decode_memory_section : M R _ _) (decode_memory_section ). Proof. rp_def @decode_memory_section. Qed.
  Hint Resolve rp_decode_memory_section : rp.
  Lemma rp_decode_tag_section {S R} `{Replay S R} : Rp (decode_tag_section : M R _ _) (decode_tag_section ). Proof. rp_def @decode_tag_section. Qed.
  Hint Resolve rp_decode_tag_section : rp.
  Lemma rp_parse_global {S R} `{Replay S R} : Rp (parse_global : M R _ _) (parse_global ). Proof. rp_def @parse_global. Qed.
  Hint Resolve rp_parse_global : rp.
  Lemma rp_decode_global_section {S R} `{Replay S R} : Rp (decode_global_section : M R _ _) (decode_global_section ). Proof. rp_def @decode_global_section. Qed.
  Hint Resolve rp_decode_global_section : rp.
  Lemma rp_decode_start_section {S R} `{Replay S R} : Rp (decode_start_section : M R _ _) (decode_start_section ). Proof. rp_def @decode_start_section. Qed.
  Hint Resolve rp_decode_start_section : rp.
  Lemma rp_parse_elemkind {S R} `{Replay S R} : Rp (parse_elemkind : M R _ _) (parse_elemkind ). Proof. rp_def @parse_elemkind. Qed.
  Hint Resolve rp_parse_elemkind : rp.
  Lemma rp_parse_elem {S R} `{Replay S R} : Rp (parse_elem : M R _ _) (parse_elem ). Proof. rp_def @parse_elem. Qed.
  Hint Resolve rp_parse_elem : rp.
  Lemma rp_decode_element_section {S R} `{Replay S R} : Rp (decode_element_section : M R _ _) (decode_element_section ). Proof. rp_def @decode_element_section. Qed.
  Hint Resolve rp_decode_element_section : rp.
  Lemma rp_decode_datacount_section {S R} `{Replay S R} : Rp (decode_datacount_section : M R _ _) (decode_datacount_section ). Proof. rp_def @decode_datacount_section. Qed.
  Hint Resolve rp_decode_datacount_section : rp.
  Lemma rp_parse_data {S R} `{Replay S R} : Rp (parse_data : M R _ _) (parse_data ). Proof. rp_def @parse_data. Qed.
  Hint Resolve rp_parse_data : rp.
  Lemma rp_decode_data_section {S R} `{Replay S R} : Rp (decode_data_section : M R _ _) (decode_data_section ). Proof. rp_def @decode_data_section. Qed.
  Hint Resolve rp_decode_data_section : rp.
  Lemma rp_export {S R} `{Replay S R} : Rp (parse_export : M R _ _) parse_export.
  Proof. unfold parse_export. do 3 (rp_step; [replay|]). destruct (externidx_from a0 a1); replay. Qed.
  Hint Resolve rp_export : rp.
  Lemma rp_export_section {S R} `{Replay S R} : Rp (decode_export_section : M R _ _) decode_export_section. Proof. rp_def @decode_export_section. Qed.
  Lemma rp_code_local {S R} `{Replay S R} m n : Rp (parse_code_local m n : M R _ _) (parse_code_local m n). Proof. rp_def @parse_code_local. Qed.
  Hint Resolve rp_export_section rp_code_local : rp.
  Lemma rp_code {S R} `{Replay S R} : Rp (parse_code : M R _ _) parse_code.
  Proof.
    unfold parse_code. rp_step; [replay|]. rp_step.
    - rp_step. rp_step; [rp_step; apply rp_list_st; intros; replay|]. replay.
    - destruct a0 as [[l [e b]] n]. replay.
  Qed.
  Hint Resolve rp_code : rp.
  Lemma rp_code_section {S R} `{Replay S R} : Rp (decode_code_section : M R _ _) decode_code_section. Proof. rp_def @decode_code_section. Qed.
  Hint Resolve rp_code_section : rp.
  Lemma rp_fill_codes {S R} `{Replay S R} codes : forall i fs b, Rp (fill_codes i codes fs b : M R _ _) (fill_codes i codes fs b).
  Proof. induction codes as [|c codes IH]; intros; cbn [fill_codes]; replay. Qed.
  Hint Resolve rp_fill_codes : rp.
  Lemma rp_decode_section {S R} `{Replay S R} kind s : Rp (decode_section kind s : M R _ _) (decode_section kind s).
  Proof. unfold decode_section. cbv zeta. destruct kind; replay. Qed.
  Hint Resolve rp_decode_section : rp.
  Lemma rp_validate {S R} `{Replay S R} m h : Rp (validate_section_kind_expected m h : M R _ _) (validate_section_kind_expected m h).
  Proof. rp_def @validate_section_kind_expected. Qed.
  Hint Resolve rp_validate : rp.
  Lemma rp_preamble {S R} `{Replay S R} : Rp (parse_preamble : M R _ _) parse_preamble. Proof. rp_def @parse_preamble. Qed.
  Lemma rp_section_step {S R} `{Replay S R} h s : Rp (section_step h s : M R _ _) (section_step h s).
  Proof. rp_def @section_step. Qed.
  Lemma rpw_read_section_id {S R} `{Replay S R} : Rpw (fun o => o <> None) (read_section_id : M R _ _) read_section_id.
  Proof.
    intros s x s' Es Hx. unfold read_section_id in Es |- *. destruct (read_byte s) as [y s1] eqn:E1.
    assert (Hy : y <> Stuck) by (intros ->; injection Es as <- _; exact (Hx eq_refl)).
    destruct (rpw_read_byte s y s1 E1 Hy) as [[-> Hg]|(l & Hl & Hr)]; [left; injection Es as <- <-; split; [reflexivity|exact Hg]|]. assert (s' = s1) as -> by (destruct y as [|[]| |]; inversion Es; reflexivity).
    right; exists l. split; [exact Hl|]. intros rest. destruct (Hr rest) as (-> & K2). split; [destruct y as [b|[]|p|]; inversion Es; reflexivity|].
    intros a Ha Hs. destruct y as [b|[]|p|]; try (inversion Es; congruence). exact (K2 b eq_refl I).
  Qed.
  Lemma rp_read_section_id {S R} `{Replay S R} : Rp (read_section_id : M R _ _) read_section_id.
  Proof. eapply rp_weaken. apply rpw_read_section_id. Qed.
  Hint Resolve rp_preamble rp_section_step rp_read_section_id : rp.
  Lemma rpw_header {S R} `{Replay S R} : Rpw (fun o => o <> None) (decode_section_header : M R _ _) decode_section_header.
  Proof.
    unfold decode_section_header. eapply rpw_bind; [apply rpw_read_section_id|]. intros [id|]; cbn beta iota.
    - apply rp_any; [replay|]. intros a [_ Hn]. apply Hn. discriminate.
    - intros s x s' Es Hx. injection Es as <- <-. right; exists []. split; [split; [symmetry; apply app_nil_r|apply le_refl]|]. intros rest. split; [reflexivity|]. intros a [= <-] [Ha _]. contradiction.
  Qed.
  Lemma rp_header {S R} `{Replay S R} : Rp (decode_section_header : M R _ _) decode_section_header.
  Proof. eapply rp_weaken. apply rpw_header. Qed.
  Hint Resolve rp_header : rp.
  Lemma rp_section_loop {S R} `{Replay S R} s : Rp (section_loop' s : M R _ _) (section_loop' s).
  Proof.
    unfold section_loop'. apply (rp_fuel (fun n => section_loop n s) (fun n => section_loop n s)).
    intros fuel. revert s. induction fuel as [|fuel IH]; intros t s x s' Es Hx; cbn [section_loop] in Es.
    { injection Es as <- _. contradiction. }
    unfold bind in Es. destruct (map_err DM_DecodeSectionHeader decode_section_header s) as [y s1] eqn:E1.
    assert (Hy : y <> Stuck) by (intros ->; injection Es as <- _; exact (Hx eq_refl)).
    destruct (rpw_map_err _ DM_DecodeSectionHeader _ _ rpw_header s y s1 E1 Hy) as [[-> Hg]|(l1 & Hl1 & Hr1)]; [left; injection Es as <- <-; split; [reflexivity|exact Hg]|].
    destruct y as [[h|]|e|pn|]; [|(injection Es as <- <-; right; exists l1; split; [exact Hl1|]; intros rest; destruct (Hr1 rest) as (HE & _);
      split; [|intros a _ []]; intros [|fuel'] Hlt; [lia|]; cbn [section_loop]; unfold bind; rewrite HE; reflexivity)..].
    destruct (section_step h t s1) as [z s2] eqn:E2.
    assert (Hz : z <> Stuck) by (intros ->; injection Es as <- _; exact (Hx eq_refl)).
    destruct (rp_section_step h t s1 z s2 E2 Hz) as [[-> Hg]|(l2 & Hl2 & Hr2)]; [left; injection Es as <- <-; split; [reflexivity|exact Hg]|].
    destruct z as [t'|e|pn|]; [|(injection Es as <- <-; right; exists (l1 ++ l2); split; [exact (seen_app _ _ _ _ _ Hl1 Hl2)|]; intros rest; rewrite <- app_assoc; destruct (Hr1 (l2 ++ rest)) as (HE & _); destruct (Hr2 rest) as (HE2 & _);
      split; [|intros a _ []]; intros [|fuel'] Hlt; [lia|]; cbn [section_loop]; unfold bind; rewrite HE, HE2; reflexivity)..].
    destruct (IH t' s2 x s' Es Hx) as [Hg|(l3 & Hl3 & Hr3)]; [left; exact Hg|]. right; exists (l1 ++ l2 ++ l3). split; [exact (seen_app _ _ _ _ _ Hl1 (seen_app _ _ _ _ _ Hl2 Hl3))|].
    intros rest. rewrite <- !app_assoc. destruct (Hr1 (l2 ++ l3 ++ rest)) as (HE & HS). destruct (Hr2 (l3 ++ rest)) as (HE2 & _). destruct (Hr3 rest) as (HE3 & _).
    split; [|intros a _ []]. intros [|fuel'] Hlt; [lia|]. cbn [section_loop]. unfold bind. rewrite HE, HE2. apply HE3.
    assert (Hh : Some h <> None) by discriminate. specialize (HS (Some h) eq_refl Hh). pose proof (le_budget s1 s2 l2 (l3 ++ rest) (proj2 Hl2)). lia.
  Qed.
  Hint Resolve rp_section_loop : rp.
  Theorem rp_decode_module {S R} `{Replay S R} : Rp (decode_module : M R _ _) decode_module.
  Proof. unfold decode_module, final_checks. replay. Qed.
End Sections.
