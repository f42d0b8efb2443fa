(** No panics other than resource exhaustion, termination, and value ranges. *)
From Verif Require Import Model.Prelude Model.Io Model.Ast Model.Errors Model.Integer Model.Helpers Model.Types Model.Instr Model.Sections Model.Module Proofs.Machine.
From Coq Require Import Lia ZifyBool ZifyNat ZifyN.

(** the heap cannot hold 2^32-1 elements, or (when all of the stack is left) not [n] *)
Definition short {env : Env} (d n : nat) : Prop := (alloc_limit < 2 ^ 32 - 1)%N \/ (alloc_limit + N.of_nat d < N.of_nat (n + stack_limit))%N.
Lemma short_le {env : Env} d n n' : n <= n' -> short d n -> short d n'.
Proof. unfold short. lia. Qed.
Lemma short_S {env : Env} d n : short (S d) (S n) <-> short d n.
Proof. unfold short. lia. Qed.
Lemma short_in {env : Env} d n m : d <= stack_limit -> m <= n -> (alloc_limit < N.of_nat m)%N -> short d n.
Proof. unfold short. lia. Qed.
(** [Safe d p m Q]: [p] is not stuck, panics only for lack of heap (and then
    the heap cannot hold 2^32-1 elements, or one per byte left) or of stack (and then the [d] frames
    available do not exceed the bytes left), and on success consumed at least
    [m] units of the reader's budget and returns a value in [Q]. *)
Definition Safe {env : Env} {R E A} `{Reader R} (d : nat) (p : M R E A) (m : nat) (Q : A -> Prop) : Prop :=
  forall r, let '(x, r') := p r in
    reach r r' /\
    match x with
    | Ok a => budget r' + m <= budget r /\ Q a
    | Err _ => True
    | Panic AllocFailure => short d (budget r)
    | Panic StackOverflow => d <= budget r
    | Panic _ => False
    | Stuck => False
    end.

Definition any {A} (_ : A) : Prop := True.
Definition u32r (n : N) : Prop := (n < 2 ^ 32)%N.
Definition u64r (n : N) : Prop := (n < 2 ^ 64)%N.
Definition s33r (x : Z) : Prop := (- 2 ^ 32 <= x < 2 ^ 32)%Z.

Section Comb.
  Context {env : Env} {R : Type} `{ReaderOk R}.
  Implicit Types r : R.
  Variable d : nat.

  Lemma safe_weaken {E A} (p : M R E A) m m' (Q Q' : A -> Prop) :
    Safe d p m Q -> m' <= m -> (forall a, Q a -> Q' a) -> Safe d p m' Q'.
  Proof.
    intros Hp Hm HQ r. specialize (Hp r). destruct (p r) as [x r']. destruct Hp as [? Hx]. split; [assumption|].
    destruct x; auto. destruct Hx; split; auto; lia.
  Qed.
  Lemma safe_ret {E A} (a : A) (Q : A -> Prop) : Q a -> Safe d (ret a : M R E A) 0 Q.
  Proof. intros HQ r; cbn. split; [apply reach_refl|]. split; [lia|assumption]. Qed.
  Lemma safe_throw {E A} (e : E) m (Q : A -> Prop) : Safe d (throw e : M R E A) m Q.
  Proof. intros r; cbn. split; [apply reach_refl|exact I]. Qed.
  Lemma safe_bind {E A B} m1 m2 (p : M R E A) (q : A -> M R E B) m Q1 Q2 :
    Safe d p m1 Q1 -> (forall a, Q1 a -> Safe d (q a) m2 Q2) -> m <= m1 + m2 -> Safe d (bind p q) m Q2.
  Proof.
    intros Hp Hq Hm r. unfold bind. specialize (Hp r). destruct (p r) as [x r1]. destruct Hp as [Hr Hx].
    destruct x as [a|e|pn|]; auto.
    destruct Hx as [Hb HQ]. specialize (Hq a HQ r1). destruct (q a r1) as [y r2]. destruct Hq as [Hr2 Hy].
    split; [eapply reach_trans; eauto|].
    destruct y as [b|e|pn|]; auto.
    - destruct Hy; split; [lia|assumption].
    - destruct pn; auto; [eapply short_le; [|exact Hy]; lia|lia].
  Qed.
  Lemma safe_map_err {E E' A} (f : E -> E') (p : M R E A) m Q : Safe d p m Q -> Safe d (map_err f p) m Q.
  Proof. intros Hp r. unfold map_err. specialize (Hp r). destruct (p r) as [[a|e|pn|] r1]; auto. Qed.
  Lemma safe_try_ok {E E' A} (p : M R E A) Q : Safe d p 0 Q -> Safe d (try_ok p : M R E' _) 0 (fun o => match o with Some a => Q a | None => True end).
  Proof.
    intros Hp r. unfold try_ok. specialize (Hp r). destruct (p r) as [[a|e|pn|] r1]; auto.
    destruct Hp as [Hr _]. split; [assumption|]. split; [|exact I]. apply reach_budget in Hr; lia.
  Qed.
  Lemma safe_switch {E A} n (arms : list (pat * M R E A)) dflt m Q :
    (forall p a, In (p, a) arms -> pmatch p n = true -> Safe d a m Q) ->
    (forallb (fun '(p, _) => negb (pmatch p n)) arms = true -> Safe d dflt m Q) ->
    Safe d (switch n arms dflt) m Q.
  Proof.
    induction arms as [|[p a] arms IH]; cbn; intros Ha Hd; [auto|].
    destruct (pmatch p n) eqn:Ep; [eauto|]. apply IH; [eauto|]. cbn in Hd. auto.
  Qed.
  Lemma safe_alloc {E} n : (n <= 2 ^ 32 - 1)%N -> Safe d (alloc n : M R E unit) 0 any.
  Proof.
    intros Hn r. unfold alloc. destruct (N.leb_spec n alloc_limit); cbn; (split; [apply reach_refl|]).
    - split; [lia|exact I].
    - left. lia.
  Qed.

  Lemma read_exact_loop_safe fuel need acc r : budget r < fuel ->
    let '(x, r') := read_exact_loop fuel need acc r in
    reach r r' /\ match x with
      | Ok l => budget r' + N.to_nat need <= budget r /\ length l = length acc + N.to_nat need
      | Err _ => True | _ => False end.
  Proof.
    revert need acc r; induction fuel as [|fuel IH]; intros need acc r Hf; [lia|]. cbn [read_exact_loop].
    destruct (N.eqb_spec need 0) as [->|Hn]; [split; [apply reach_refl|split; lia]|].
    destruct (read r need) as [[[|b l]|k|] r1] eqn:ER; [| | |destruct (ok_calm _ _ _ ER)].
    - split; [eapply reach_read; eauto|exact I].
    - pose proof (ok_data _ _ _ _ ER) as [Hl Hb]. cbn [length] in Hb. unfold lenN in *.
      destruct (N.leb_spec (N.of_nat (length (b :: l))) need); [|lia].
      specialize (IH (need - N.of_nat (length (b :: l)))%N (acc ++ b :: l) r1 ltac:(lia)).
      destruct (read_exact_loop fuel _ _ r1) as [x r'].
      destruct IH as [IH1 IH2]. split; [eapply reach_trans; [eapply reach_read|]; eauto|].
      destruct x; auto. rewrite app_length in IH2. cbn [length] in *. lia.
    - destruct k; try (split; [eapply reach_read; eauto|exact I]).
      pose proof (ok_intr _ _ _ ER). specialize (IH need acc r1 ltac:(lia)).
      destruct (read_exact_loop fuel _ _ r1) as [x r'].
      destruct IH as [IH1 IH2]. split; [eapply reach_trans; [eapply reach_read|]; eauto|].
      destruct x; auto. lia.
  Qed.
  Lemma safe_read_exact n : Safe d (read_exact n : M R _ _) (N.to_nat n) (fun l => length l = N.to_nat n).
  Proof.
    intros r. unfold read_exact. pose proof (read_exact_loop_safe (S (budget r)) n [] r ltac:(lia)) as HS.
    destruct (read_exact_loop _ n [] r) as [x r']. destruct HS as [? ?]. split; [assumption|]. destruct x; tauto.
  Qed.
  Lemma safe_read_byte : Safe d (read_byte : M R _ _) 1 any.
  Proof.
    unfold read_byte. eapply (safe_bind 1 0); [apply safe_read_exact| |lia].
    intros [|b l]; cbn; [lia|]. intros _. apply safe_ret. exact I.
  Qed.
  Lemma read_to_end_loop_safe fuel i acc r : budget r < fuel ->
    let '(x, r') := read_to_end_loop fuel i acc r in
    reach r r' /\ match x with Ok _ | Err _ => True | Panic AllocFailure => (alloc_limit < lenN acc + N.of_nat (budget r))%N | _ => False end.
  Proof.
    revert i acc r; induction fuel as [|fuel IH]; intros i acc r Hf; [lia|]. cbn [read_to_end_loop].
    destruct (read r _) as [[[|b l]|k|] r1] eqn:ER; [| | |destruct (ok_calm _ _ _ ER)].
    - split; [eapply reach_read; eauto|exact I].
    - pose proof (ok_data _ _ _ _ ER) as [Hl Hb]. cbn [length] in Hb. destruct (N.leb_spec (lenN (b :: l)) (N.succ (probe i))); [|lia].
      destruct (N.leb_spec (lenN (acc ++ b :: l)) alloc_limit) as [Ha|Ha].
      2: { split; [eapply reach_read; eauto|]. unfold lenN in *. rewrite app_length in Ha. cbn [length] in Ha. lia. }
      specialize (IH (S i) (acc ++ b :: l) r1 ltac:(lia)).
      destruct (read_to_end_loop fuel _ _ r1) as [x r'].
      destruct IH as [IH1 IH2]. split; [eapply reach_trans; [eapply reach_read|]; eauto|]. destruct x as [| |[]|]; auto. unfold lenN in *. rewrite app_length in IH2. cbn [length] in IH2. lia.
    - destruct k; try (split; [eapply reach_read; eauto|exact I]).
      pose proof (ok_intr _ _ _ ER). specialize (IH (S i) acc r1 ltac:(lia)).
      destruct (read_to_end_loop fuel _ _ r1) as [x r'].
      destruct IH as [IH1 IH2]. split; [eapply reach_trans; [eapply reach_read|]; eauto|]. destruct x as [| |[]|]; auto. lia.
  Qed.
  Lemma safe_read_to_end : d <= stack_limit -> Safe d (read_to_end : M R _ _) 0 any.
  Proof.
    intros Hd r. unfold read_to_end. pose proof (read_to_end_loop_safe (S (budget r)) 0 [] r ltac:(lia)) as HS.
    destruct (read_to_end_loop _ 0 [] r) as [x r']. destruct HS as [Hr ?]. split; [assumption|]. destruct x as [| |[]|]; try tauto.
    - split; [|exact I]. apply reach_budget in Hr; lia.
    - eapply short_in; [exact Hd|apply le_n|]. unfold lenN in *. cbn [length] in *. lia.
  Qed.

  Lemma safe_with_take {E A} n (body : M (Take R) E A) m Q :
    Safe d body m Q -> Safe d (with_take n body) m (fun '(a, l) => Q a /\ (l <= n)%N).
  Proof.
    intros Hb r. unfold with_take. specialize (Hb (mkTake n r)). destruct (body (mkTake n r)) as [x t].
    destruct Hb as [Hr Hx]. pose proof (reach_take _ _ Hr) as Hr'. pose proof (reach_take_limit _ _ Hr) as Hl. cbn in *.
    split; [assumption|]. destruct x; auto. destruct Hx; split; [assumption|]. auto.
  Qed.
  Lemma safe_with_chain {E A} b (body : M (Chain R) E A) m Q :
    Safe (S d) body (S m) Q -> Safe d (with_chain b body) m Q.
  Proof.
    intros Hb r. unfold with_chain. specialize (Hb (mkChain [b] false r)). destruct (body (mkChain [b] false r)) as [x c].
    destruct Hb as [Hr Hx]. pose proof (reach_chain _ _ Hr) as Hr'. cbn in *.
    split; [assumption|]. destruct x as [a|e|pn|]; auto.
    - destruct Hx; split; [lia|assumption].
    - destruct pn; auto; [apply short_S; exact Hx|lia].
  Qed.

  (** [loopN] as iteration over a unary count *)
  Lemma safe_loopN {E S} (step : S -> M R E S) (Inv : S -> Prop) n s :
    (forall s, Inv s -> Safe d (step s) 0 Inv) -> Inv s -> Safe d (loopN step n s) 0 Inv.
  Proof.
    intros Hst. destruct n as [|p]; cbn; [intros; apply safe_ret; assumption|].
    revert s; induction p as [p IH|p IH|]; cbn; intros s Hs.
    - eapply (safe_bind 0 0); [apply Hst, Hs| |lia]. intros s1 H1. eapply (safe_bind 0 0); [apply IH, H1|intros; apply IH; assumption|lia].
    - eapply (safe_bind 0 0); [apply IH, Hs|intros; apply IH; assumption|lia].
    - apply Hst, Hs.
  Qed.
End Comb.

(** leaf arithmetic *)
Section Arith.
  Context {env : Env} {R : Type} `{ReaderOk R}.
  Implicit Types r : R.
  Variable d : nat.
  Lemma safe_add_u8 {E} a b : (a + b < 256)%N -> Safe d (add_u8 a b : M R E _) 0 (eq (a + b)%N).
  Proof. intros Hn. unfold add_u8. rewrite (proj2 (N.ltb_lt _ _) Hn). apply safe_ret. reflexivity. Qed.
  Lemma safe_add_u64 {E} a b : (a + b < 2 ^ 64)%N -> Safe d (add_u64 a b : M R E _) 0 (eq (a + b)%N).
  Proof. intros Hn. unfold add_u64. rewrite (proj2 (N.ltb_lt _ _) Hn). apply safe_ret. reflexivity. Qed.
  Lemma safe_sub_u32 {E} a b : (b <= a)%N -> Safe d (sub_u32 a b : M R E _) 0 (eq (a - b)%N).
  Proof. intros Hn. unfold sub_u32. rewrite (proj2 (N.leb_le _ _) Hn). apply safe_ret. reflexivity. Qed.
  Lemma safe_sub_u64 {E} a b : (b <= a)%N -> Safe d (sub_u64 a b : M R E _) 0 (eq (a - b)%N).
  Proof. intros Hn. unfold sub_u64. rewrite (proj2 (N.leb_le _ _) Hn). apply safe_ret. reflexivity. Qed.
  Lemma safe_shl_u32 {E} x s : (s < 32)%N -> Safe d (shl_u32 x s : M R E _) 0 (eq (N.shiftl x s mod 2 ^ 32)%N).
  Proof. intros Hn. unfold shl_u32. rewrite (proj2 (N.ltb_lt _ _) Hn). apply safe_ret. reflexivity. Qed.
  Lemma safe_shl_u64 {E} x s : (s < 64)%N -> Safe d (shl_u64 x s : M R E _) 0 (eq (N.shiftl x s mod 2 ^ 64)%N).
  Proof. intros Hn. unfold shl_u64. rewrite (proj2 (N.ltb_lt _ _) Hn). apply safe_ret. reflexivity. Qed.
  Lemma safe_shl_i64 {E} x s : (s < 64)%N -> Safe d (shl_i64 x s : M R E _) 0 (eq (wrap_i64 (Z.shiftl x (Z.of_N s)))).
  Proof. intros Hn. unfold shl_i64. rewrite (proj2 (N.ltb_lt _ _) Hn). apply safe_ret. reflexivity. Qed.
End Arith.
