(** Which calls of [read] the decoders make. *)
From Verif Require Import Model.Prelude Model.Io Model.Ast Model.Errors Model.Integer Model.Helpers Model.Types Model.Instr Model.Sections Model.Module.
From Verif Require Import Proofs.Machine.
From Coq Require Import Lia ZifyBool ZifyNat ZifyN.

(** A reader in use: [live] as long as no call has stopped, [dead] after the
    first end of file or failure, [broken] after a panic or a false claim. *)
Class Watched (R : Type) `{Reader R} : Type := {
  live : R -> Prop;
  dead : R -> Prop;
  broken : R -> Prop;
  w_data : forall r n b d r', live r -> (n <> 0)%N -> read r n = (RdOk (b :: d), r') -> (lenN (b :: d) <= n)%N -> live r';
  w_over : forall r n d r', live r -> (n <> 0)%N -> read r n = (RdOk d, r') -> (n < lenN d)%N -> broken r';
  w_intr : forall r n r', live r -> (n <> 0)%N -> read r n = (RdErr Interrupted, r') -> live r';
  w_eof : forall r n r', live r -> (n <> 0)%N -> read r n = (RdOk [], r') -> dead r';
  w_err : forall r n k r', live r -> (n <> 0)%N -> k <> Interrupted -> read r n = (RdErr k, r') -> dead r';
  w_panic : forall r n r', live r -> (n <> 0)%N -> read r n = (RdPanic, r') -> broken r'
}.
#[export] Hint Mode Watched ! - : typeclass_instances.

#[export] Instance take_watched {R} `{Watched R} : Watched (Take R).
Proof.
  refine {| live t := live (t_inner t);
            dead t := (t_limit t = 0%N /\ live (t_inner t)) \/ (t_limit t <> 0%N /\ dead (t_inner t));
            broken t := broken (t_inner t) |}.
  all: intros t n; cbn [read take_reader]; destruct (N.eqb_spec (t_limit t) 0) as [E0|E0].
  - discriminate.
  - intros b d t' Hl Hn E Hd. destruct (read (t_inner t) _) as [[x|k|] r'] eqn:ER; try discriminate E. destruct (N.leb_spec (lenN x) (t_limit t)); [|discriminate E].
    injection E as -> <-. cbn. eapply w_data; [exact Hl| |exact ER|]; lia.
  - intros d t' Hl Hn E Hd. injection E as <- _. unfold lenN in Hd. cbn in Hd. lia.
  - intros d t' Hl Hn E Hd. destruct (read (t_inner t) _) as [[x|k|] r'] eqn:ER; try discriminate E. destruct (N.leb_spec (lenN x) (t_limit t)); [|discriminate E].
    injection E as -> <-. cbn. eapply w_over; [exact Hl| |exact ER|]; lia.
  - discriminate.
  - intros t' Hl Hn E. destruct (read (t_inner t) _) as [[x|k|] r'] eqn:ER; try discriminate E; [destruct (N.leb_spec (lenN x) (t_limit t)); discriminate E|].
    injection E as -> <-. cbn. eapply w_intr; [exact Hl| |exact ER]. lia.
  - intros t' Hl Hn E. injection E as <-. auto.
  - intros t' Hl Hn E. destruct (read (t_inner t) _) as [[x|k|] r'] eqn:ER; try discriminate E. destruct (N.leb_spec (lenN x) (t_limit t)); [|discriminate E].
    injection E as -> <-. right. cbn. split; [unfold lenN; cbn; lia|]. eapply w_eof; [exact Hl| |exact ER]. lia.
  - discriminate.
  - intros k t' Hl Hn Hk E. destruct (read (t_inner t) _) as [[x|k'|] r'] eqn:ER; try discriminate E; [destruct (N.leb_spec (lenN x) (t_limit t)); discriminate E|].
    injection E as -> <-. right. cbn. split; [exact E0|]. eapply w_err; [exact Hl| |exact Hk|exact ER]. lia.
  - discriminate.
  - intros t' Hl Hn E. destruct (read (t_inner t) _) as [[x|k'|] r'] eqn:ER; try discriminate E.
    + destruct (N.leb_spec (lenN x) (t_limit t)); [discriminate E|]. injection E as <-. cbn. eapply w_over; [exact Hl| |exact ER|]; lia.
    + injection E as <-. cbn. eapply w_panic; [exact Hl| |exact ER]. lia.
Defined.

#[export] Instance chain_watched {R} `{Watched R} : Watched (Chain R).
Proof.
  refine {| live c := live (c_second c); dead c := dead (c_second c); broken c := broken (c_second c) |}.
  - intros c n b d c' Hl Hn E Hd. cbn in E. rewrite (proj2 (N.eqb_neq _ _) Hn) in E.
    destruct (c_done c); [|destruct (takeN n (c_first c)) as [|b0 d0]]; try (inversion E; subst; clear E; exact Hl).
    all: destruct (read (c_second c) n) as [x r'] eqn:ER; inversion E; subst; clear E; exact (w_data _ _ _ _ _ Hl Hn ER Hd).
  - intros c n d c' Hl Hn E Hd. cbn in E. rewrite (proj2 (N.eqb_neq _ _) Hn) in E. pose proof (lenN_takeN n (c_first c)) as HT.
    destruct (c_done c); [|destruct (takeN n (c_first c)) as [|b0 d0]].
    1, 2: destruct (read (c_second c) n) as [x r'] eqn:ER; inversion E; subst; clear E; exact (w_over _ _ _ _ Hl Hn ER Hd).
    injection E as <- _. lia.
  - intros c n c' Hl Hn E. cbn in E. rewrite (proj2 (N.eqb_neq _ _) Hn) in E.
    destruct (c_done c); [|destruct (takeN n (c_first c)) as [|b0 d0]]; try discriminate E.
    all: destruct (read (c_second c) n) as [x r'] eqn:ER; inversion E; subst; clear E; exact (w_intr _ _ _ Hl Hn ER).
  - intros c n c' Hl Hn E. cbn in E. rewrite (proj2 (N.eqb_neq _ _) Hn) in E.
    destruct (c_done c); [|destruct (takeN n (c_first c)) as [|b0 d0]]; try discriminate E.
    all: destruct (read (c_second c) n) as [x r'] eqn:ER; inversion E; subst; clear E; exact (w_eof _ _ _ Hl Hn ER).
  - intros c n k c' Hl Hn Hk E. cbn in E. rewrite (proj2 (N.eqb_neq _ _) Hn) in E.
    destruct (c_done c); [|destruct (takeN n (c_first c)) as [|b0 d0]]; try discriminate E.
    all: destruct (read (c_second c) n) as [x r'] eqn:ER; inversion E; subst; clear E; exact (w_err _ _ _ _ Hl Hn Hk ER).
  - intros c n c' Hl Hn E. cbn in E. rewrite (proj2 (N.eqb_neq _ _) Hn) in E.
    destruct (c_done c); [|destruct (takeN n (c_first c)) as [|b0 d0]]; try discriminate E.
    all: destruct (read (c_second c) n) as [x r'] eqn:ER; inversion E; subst; clear E; exact (w_panic _ _ _ Hl Hn ER).
Defined.

(** [p] leaves the reader live when it succeeds, never calls [read] again
    once it is dead or broken, and panics if it is broken *)
Definition Tame {R E A} `{Watched R} (p : M R E A) : Prop :=
  forall r, live r -> let '(x, r') := p r in
    match x with Ok _ => live r' | Panic p => live r' \/ dead r' \/ (broken r' /\ p = ReaderFault) | _ => live r' \/ dead r' end.
(** the same, but it may also succeed on a dead reader *)
Definition Semi {R E A} `{Watched R} (p : M R E A) : Prop :=
  forall r, live r -> let '(x, r') := p r in
    match x with Panic p => live r' \/ dead r' \/ (broken r' /\ p = ReaderFault) | _ => live r' \/ dead r' end.

Section Comb.
  Context {env : Env} {R : Type} `{Watched R}.
  Implicit Types r : R.
  Lemma tame_ret {E A} (a : A) : Tame (ret a : M R E A).
  Proof. intros r Hr; exact Hr. Qed.
  Lemma tame_throw {E A} (e : E) : Tame (throw e : M R E A).
  Proof. intros r Hr; left; exact Hr. Qed.
  Lemma tame_panic {E A} p : Tame (panic_with p : M R E A).
  Proof. intros r Hr; left; exact Hr. Qed.
  Lemma tame_stuck {E A} : Tame (stuck : M R E A).
  Proof. intros r Hr; left; exact Hr. Qed.
  Lemma tame_bind {E A B} (p : M R E A) (q : A -> M R E B) : Tame p -> (forall a, Tame (q a)) -> Tame (bind p q).
  Proof.
    intros Hp Hq r Hr. unfold bind. specialize (Hp r Hr). destruct (p r) as [[a|e|pn|] r1]; try exact Hp. exact (Hq a r1 Hp).
  Qed.
  Lemma tame_map_err {E E' A} (f : E -> E') (p : M R E A) : Tame p -> Tame (map_err f p).
  Proof. intros Hp r Hr. unfold map_err. specialize (Hp r Hr). destruct (p r) as [[a|e|pn|] r1]; exact Hp. Qed.
  Lemma tame_switch_nil {E A} n (d : M R E A) : Tame d -> Tame (switch n [] d).
  Proof. exact (fun H => H). Qed.
  Lemma tame_switch_cons {E A} n p (a : M R E A) arms d : Tame a -> Tame (switch n arms d) -> Tame (switch n ((p, a) :: arms) d).
  Proof. intros Ha Hd. cbn. destruct (pmatch p n); assumption. Qed.
  Lemma tame_alloc {E} n : Tame (alloc n : M R E unit).
  Proof. unfold alloc. destruct (n <=? alloc_limit)%N; [apply tame_ret|apply tame_panic]. Qed.
  Lemma tame_read_exact_loop fuel : forall need acc, Tame (read_exact_loop fuel need acc : M R _ _).
  Proof.
    induction fuel as [|fuel IH]; intros need acc r Hr; cbn [read_exact_loop]; destruct (N.eqb_spec need 0) as [|Hn]; auto.
    destruct (read r need) as [[[|b d]|k|] r1] eqn:ER.
    - right. exact (w_eof _ _ _ Hr Hn ER).
    - destruct (N.leb_spec (lenN (b :: d)) need) as [Hd|Hd]; [apply IH; exact (w_data _ _ _ _ _ Hr Hn ER Hd)|right; right; split; [exact (w_over _ _ _ _ Hr Hn ER Hd)|reflexivity]].
    - destruct k; [right; eapply w_err; [exact Hr|exact Hn| |exact ER]; discriminate|exact (IH need acc r1 (w_intr _ _ _ Hr Hn ER))|right; eapply w_err; [exact Hr|exact Hn| |exact ER]; discriminate].
    - right; right; split; [exact (w_panic _ _ _ Hr Hn ER)|reflexivity].
  Qed.
  Lemma tame_read_exact n : Tame (read_exact n : M R _ _).
  Proof. intros r. exact (tame_read_exact_loop _ _ _ r). Qed.
  Lemma tame_read_byte : Tame (read_byte : M R _ _).
  Proof. apply tame_bind; [apply tame_read_exact|]. intros [|b l]; [apply tame_panic|apply tame_ret]. Qed.
  Lemma semi_read_to_end : Semi (read_to_end : M R _ _).
  Proof.
    intros r Hr. unfold read_to_end. generalize (S (budget r)) as fuel, 0 as i, (@nil byte) as acc. intros fuel. revert r Hr.
    induction fuel as [|fuel IH]; intros r Hr i acc; cbn [read_to_end_loop]; [left; exact Hr|].
    assert (Hn : (N.succ (probe i) <> 0)%N) by lia.
    destruct (read r (N.succ (probe i))) as [[[|b d]|k|] r1] eqn:ER.
    - right. exact (w_eof _ _ _ Hr Hn ER).
    - destruct (N.leb_spec (lenN (b :: d)) (N.succ (probe i))) as [Hd|Hd]; [pose proof (w_data _ _ _ _ _ Hr Hn ER Hd) as Hl; destruct (lenN (acc ++ b :: d) <=? alloc_limit)%N; [apply IH; exact Hl|left; exact Hl]|right; right; split; [exact (w_over _ _ _ _ Hr Hn ER Hd)|reflexivity]].
    - destruct k; [right; eapply w_err; [exact Hr|exact Hn| |exact ER]; discriminate|exact (IH r1 (w_intr _ _ _ Hr Hn ER) (S i) acc)|right; eapply w_err; [exact Hr|exact Hn| |exact ER]; discriminate].
    - right; right; split; [exact (w_panic _ _ _ Hr Hn ER)|reflexivity].
  Qed.
  Lemma semi_of_tame {E A} (p : M R E A) : Tame p -> Semi p.
  Proof. intros Hp r Hr. specialize (Hp r Hr). destruct (p r) as [[a|e|pn|] r1]; cbn; auto. Qed.
  Lemma semi_bind {E A B} (p : M R E A) (q : A -> M R E B) : Tame p -> (forall a, Semi (q a)) -> Semi (bind p q).
  Proof. intros Hp Hq r Hr. unfold bind. specialize (Hp r Hr). destruct (p r) as [[a|e|pn|] r1]; cbn; auto. exact (Hq a r1 Hp). Qed.
  Lemma semi_map_err {E E' A} (f : E -> E') (p : M R E A) : Semi p -> Semi (map_err f p).
  Proof. intros Hp r Hr. unfold map_err. specialize (Hp r Hr). destruct (p r) as [[a|e|pn|] r1]; exact Hp. Qed.
  (** nothing is read after success *)
  Lemma semi_then {E A B} (p : M R E A) (f : A -> B) : Semi p -> Semi (bind p (fun a => ret (f a))).
  Proof. intros Hp r Hr. unfold bind. specialize (Hp r Hr). destruct (p r) as [[a|e|pn|] r1]; exact Hp. Qed.
  Lemma tame_with_chain {E A} b (body : M (Chain R) E A) : Tame body -> Tame (with_chain b body).
  Proof. intros Hb r Hr. unfold with_chain. specialize (Hb (mkChain [b] false r) Hr). destruct (body (mkChain [b] false r)) as [x c]. exact Hb. Qed.
  Lemma tame_with_take {E A} n (body : M (Take R) E A) : Tame body -> Tame (with_take n body).
  Proof.
    intros Hb r Hr. unfold with_take. specialize (Hb (mkTake n r) Hr). destruct (body (mkTake n r)) as [x t]. cbn in Hb.
    destruct x; try exact Hb; tauto.
  Qed.
  (** a stop short of the limit leaves a limit that is not 0 *)
  Lemma semi_with_take {E A B} n (body : M (Take R) E A) (q : A -> N -> M R E B) : Semi body ->
    (forall a l, l <> 0%N -> exists e, forall r, q a l r = (Err e, r) \/ exists p, q a l r = (Panic p, r)) -> (forall a, Tame (q a 0%N)) ->
    Tame (bind (with_take n body) (fun z => let '(a, l) := z in q a l)).
  Proof.
    intros Hb Hq Hq0 r Hr. unfold bind, with_take. specialize (Hb (mkTake n r) Hr). destruct (body (mkTake n r)) as [x t]. cbn in Hb.
    destruct x as [a|e|pn|]; [|tauto..].
    assert (Hd : live (t_inner t) \/ (t_limit t <> 0%N /\ dead (t_inner t))) by tauto. destruct (N.eq_dec (t_limit t) 0) as [E0|E0].
    - rewrite E0. apply Hq0. destruct Hd as [Hd|[Hd _]]; [exact Hd|contradiction].
    - destruct (Hq a _ E0) as [e He]. destruct (He (t_inner t)) as [->|[p ->]]; tauto.
  Qed.
  Lemma tame_loopN {E S} (step : S -> M R E S) n : (forall s, Tame (step s)) -> forall s, Tame (loopN step n s).
  Proof.
    intros Hst. destruct n as [|p]; cbn; [intros; apply tame_ret|].
    induction p as [p IH|p IH|]; cbn; intros s.
    - apply tame_bind; [apply Hst|]. intros s1. apply tame_bind; apply IH.
    - apply tame_bind; apply IH.
    - apply Hst.
  Qed.
  Lemma tame_fuel {E A} (p : nat -> M R E A) : (forall n, Tame (p n)) -> Tame (fun r => p (S (budget r)) r).
  Proof. intros HS r. exact (HS _ r). Qed.
End Comb.

Create HintDb tame.
#[export] Hint Resolve tame_ret tame_throw tame_panic tame_stuck tame_alloc tame_read_exact tame_read_byte : tame.
Ltac tame_step :=
  match goal with
  | |- Tame (bind _ _) => eapply tame_bind; [|intros ?]
  | |- Tame (map_err _ _) => eapply tame_map_err
  | |- Tame (switch _ [] ?d) => apply tame_switch_nil
  | |- Tame (switch _ (_ :: _) _) => apply tame_switch_cons
  | |- Tame (with_chain _ _) => apply tame_with_chain
  | |- Tame (with_take _ _) => apply tame_with_take
  | |- Tame (match ?o with Some _ => _ | None => _ end) => destruct o
  | |- Tame (if ?c then _ else _) => destruct c
  | |- Tame (match ?z with (x, y) => _ end) => destruct z
  | |- Tame (let x := _ in _) => cbv zeta
  | |- Tame (loopN _ _ _) => apply tame_loopN; intros ?
  end.
Ltac tame := repeat (first [solve [eauto 2 with tame nocore] | tame_step]).
Ltac tame_def f := intros; unfold f; tame.

Section Leaves.
  Context {env : Env} {R : Type} `{Watched R}.
  Lemma tame_shl_u32 {E} x s : Tame (shl_u32 x s : M R E _). Proof. tame_def @shl_u32. Qed.
  Lemma tame_shl_u64 {E} x s : Tame (shl_u64 x s : M R E _). Proof. tame_def @shl_u64. Qed.
  Lemma tame_shl_i64 {E} x s : Tame (shl_i64 x s : M R E _). Proof. tame_def @shl_i64. Qed.
  Lemma tame_add_u8 {E} x s : Tame (add_u8 x s : M R E _). Proof. tame_def @add_u8. Qed.
  Lemma tame_add_u64 {E} x s : Tame (add_u64 x s : M R E _). Proof. tame_def @add_u64. Qed.
  Lemma tame_sub_u32 {E} x s : Tame (sub_u32 x s : M R E _). Proof. tame_def @sub_u32. Qed.
  Lemma tame_sub_u64 {E} x s : Tame (sub_u64 x s : M R E _). Proof. tame_def @sub_u64. Qed.
  Hint Resolve tame_shl_u32 tame_shl_u64 tame_shl_i64 tame_add_u8 : tame.
  Lemma tame_u32 : Tame (decode_u32 : M R _ _).
  Proof. assert (HH : forall is x y, Tame (u32_loop is x y : M R _ _)) by (induction is as [|i is IH]; intros; cbn [u32_loop]; tame). apply HH. Qed.
  Lemma tame_u64 : Tame (decode_u64 : M R _ _).
  Proof. assert (HH : forall is x y, Tame (u64_loop is x y : M R _ _)) by (induction is as [|i is IH]; intros; cbn [u64_loop]; tame). apply HH. Qed.
  Lemma tame_i32 : Tame (decode_i32 : M R _ _).
  Proof. assert (HH : forall is x y, Tame (i32_loop is x y : M R _ _)) by (induction is as [|i is IH]; intros; cbn [i32_loop]; tame). apply HH. Qed.
  Lemma tame_i64 : Tame (decode_i64 : M R _ _).
  Proof. assert (HH : forall is x y, Tame (i64_loop is x y : M R _ _)) by (induction is as [|i is IH]; intros; cbn [i64_loop]; tame). apply HH. Qed.
  Lemma tame_s33 : Tame (decode_s33 : M R _ _).
  Proof. assert (HH : forall is x y, Tame (s33_loop is x y : M R _ _)) by (induction is as [|i is IH]; intros; cbn [s33_loop]; tame). apply HH. Qed.
End Leaves.
#[export] Hint Resolve tame_shl_u32 tame_shl_u64 tame_shl_i64 tame_add_u8 tame_add_u64 tame_sub_u32 tame_sub_u64
  tame_u32 tame_u64 tame_i32 tame_i64 tame_s33 : tame.

Section Helpers.
  Context {env : Env} {R : Type} `{Watched R}.
  Lemma tame_f32 : Tame (decode_f32 : M R _ _). Proof. tame_def @decode_f32. Qed.
  Lemma tame_f64 : Tame (decode_f64 : M R _ _). Proof. tame_def @decode_f64. Qed.
  Lemma tame_list_st {St E T} (f : St -> M R E (T * St)) st : (forall s, Tame (f s)) -> Tame (decode_list_st f st).
  Proof. intros Hf. unfold decode_list_st, list_step. tame. Qed.
  Lemma tame_list {E T} (f : M R E T) : Tame f -> Tame (decode_list f).
  Proof. intros Hf. unfold decode_list. apply tame_list_st. intros _. tame. Qed.
  Lemma tame_byte_vector : Tame (decode_byte_vector : M R _ _). Proof. tame_def @decode_byte_vector. Qed.
  Hint Resolve tame_byte_vector : tame.
  Lemma tame_name : Tame (decode_name : M R _ _). Proof. tame_def @decode_name. Qed.
  Lemma tame_unwrap {E} x : Tame (u32_try_from_unwrap x : M R E _). Proof. tame_def @u32_try_from_unwrap. Qed.
End Helpers.
#[export] Hint Resolve tame_f32 tame_f64 tame_byte_vector tame_name tame_unwrap : tame.
#[export] Hint Extern 1 (Tame (decode_list _)) => eapply tame_list : tame.

Section Types.
  Context {env : Env}.
  Lemma tame_decode_typeidx {R} `{Watched R} : Tame (decode_typeidx : M R _ _). Proof. tame_def @decode_typeidx. Qed.
  Hint Resolve tame_decode_typeidx : tame.
  Lemma tame_decode_funcidx {R} `{Watched R} : Tame (decode_funcidx : M R _ _). Proof. tame_def @decode_funcidx. Qed.
  Hint Resolve tame_decode_funcidx : tame.
  Lemma tame_decode_tableidx {R} `{Watched R} : Tame (decode_tableidx : M R _ _). Proof. tame_def @decode_tableidx. Qed.
  Hint Resolve tame_decode_tableidx : tame.
  Lemma tame_decode_memidx {R} `{Watched R} : Tame (decode_memidx : M R _ _). Proof. tame_def @decode_memidx. Qed.
  Hint Resolve tame_decode_memidx : tame.
  Lemma tame_decode_globalidx {R} `{Watched R} : Tame (decode_globalidx : M R _ _). Proof. tame_def @decode_globalidx. Qed.
  Hint Resolve tame_decode_globalidx : tame.
  Lemma tame_decode_elemidx {R} `{Watched R} : Tame (decode_elemidx : M R _ _). Proof. tame_def @decode_elemidx. Qed.
  Hint Resolve tame_decode_elemidx : tame.
  Lemma tame_decode_dataidx {R} `{Watched R} : Tame (decode_dataidx : M R _ _). Proof. tame_def @decode_dataidx. Qed.
  Hint Resolve tame_decode_dataidx : tame.
  Lemma tame_decode_localidx {R} `{Watched R} : Tame (decode_localidx : M R _ _). Proof. tame_def @decode_localidx. Qed.
  Hint Resolve tame_decode_localidx : tame.
  Lemma tame_decode_labelidx {R} `{Watched R} : Tame (decode_labelidx : M R _ _). Proof. tame_def @decode_labelidx. Qed.
  Hint Resolve tame_decode_labelidx : tame.
  Lemma tame_decode_tagidx {R} `{Watched R} : Tame (decode_tagidx : M R _ _). Proof. tame_def @decode_tagidx. Qed.
  Hint Resolve tame_decode_tagidx : tame.
  Lemma tame_decode_absheaptype {R} `{Watched R} : Tame (decode_absheaptype : M R _ _). Proof. tame_def @decode_absheaptype. Qed.
  Hint Resolve tame_decode_absheaptype : tame.
  Lemma tame_decode_heaptype {R} `{Watched R} : Tame (decode_heaptype : M R _ _). Proof. tame_def @decode_heaptype. Qed.
  Hint Resolve tame_decode_heaptype : tame.
  Lemma tame_decode_reftype {R} `{Watched R} : Tame (decode_reftype : M R _ _). Proof. tame_def @decode_reftype. Qed.
  Hint Resolve tame_decode_reftype : tame.
  Lemma tame_decode_valtype {R} `{Watched R} : Tame (decode_valtype : M R _ _). Proof. tame_def @decode_valtype. Qed.
  Hint Resolve tame_decode_valtype : tame.
  Lemma tame_decode_result_type {R} `{Watched R} : Tame (decode_result_type : M R _ _). Proof. tame_def @decode_result_type. Qed.
  Hint Resolve tame_decode_result_type : tame.
  Lemma tame_decode_globaltype {R} `{Watched R} : Tame (decode_globaltype : M R _ _). Proof. tame_def @decode_globaltype. Qed.
  Hint Resolve tame_decode_globaltype : tame.
  Lemma tame_decode_storagetype {R} `{Watched R} : Tame (decode_storagetype : M R _ _). Proof. tame_def @decode_storagetype. Qed.
  Hint Resolve tame_decode_storagetype : tame.
  Lemma tame_decode_fieldtype {R} `{Watched R} : Tame (decode_fieldtype : M R _ _). Proof. tame_def @decode_fieldtype. Qed.
  Hint Resolve tame_decode_fieldtype : tame.
  Lemma tame_decode_comptype {R} `{Watched R} : Tame (decode_comptype : M R _ _). Proof. tame_def @decode_comptype. Qed.
  Hint Resolve tame_decode_comptype : tame.
  Lemma tame_decode_subtype {R} `{Watched R} : Tame (decode_subtype : M R _ _). Proof. tame_def @decode_subtype. Qed.
  Hint Resolve tame_decode_subtype : tame.
  Lemma tame_decode_rectype {R} `{Watched R} : Tame (decode_rectype : M R _ _). Proof. tame_def @decode_rectype. Qed.
  Hint Resolve tame_decode_rectype : tame.
  Lemma tame_parse_limits {R} `{Watched R} : Tame (parse_limits : M R _ _). Proof. tame_def @parse_limits. Qed.
  Hint Resolve tame_parse_limits : tame.
  Lemma tame_parse_memtype {R} `{Watched R} : Tame (parse_memtype : M R _ _). Proof. tame_def @parse_memtype. Qed.
  Hint Resolve tame_parse_memtype : tame.
  Lemma tame_decode_tabletype {R} `{Watched R} : Tame (decode_tabletype : M R _ _). Proof. tame_def @decode_tabletype. Qed.
  Hint Resolve tame_decode_tabletype : tame.
  Lemma tame_decode_tagtype {R} `{Watched R} : Tame (decode_tagtype : M R _ _). Proof. tame_def @decode_tagtype. Qed.
  Hint Resolve tame_decode_tagtype : tame.
  Lemma tame_decode_externtype {R} `{Watched R} : Tame (decode_externtype : M R _ _). Proof. tame_def @decode_externtype. Qed.
  Hint Resolve tame_decode_externtype : tame.
End Types.
#[export] Hint Resolve tame_decode_typeidx tame_decode_funcidx tame_decode_tableidx tame_decode_memidx tame_decode_globalidx tame_decode_elemidx tame_decode_dataidx tame_decode_localidx tame_decode_labelidx tame_decode_tagidx tame_decode_heaptype tame_decode_reftype tame_decode_valtype tame_decode_globaltype tame_decode_rectype tame_parse_memtype tame_decode_tabletype tame_decode_tagtype tame_decode_externtype : tame.

Section Instr.
  Context {env : Env}.
  Lemma tame_decode_memarg {R} `{Watched R} : Tame (decode_memarg : M R _ _). Proof. tame_def @decode_memarg. Qed.
  Hint Resolve tame_decode_memarg : tame.
  Lemma tame_decode_laneidx {R} `{Watched R} : Tame (decode_laneidx : M R _ _). Proof. tame_def @decode_laneidx. Qed.
  Hint Resolve tame_decode_laneidx : tame.

  (** a byte put back is read from the chain *)
  Lemma read_byte_chain {R} `{Reader R} b (r : R) : read_byte (mkChain [b] false r) = (Ok b, mkChain [] false r).
  Proof. reflexivity. Qed.
  Lemma valtype_chain {R} `{Reader R} b (r : R) : b <> x63 -> b <> x64 ->
    exists x, decode_valtype (mkChain [b] false r) = (x, mkChain [] false r).
  Proof.
    intros H1 H2. unfold decode_valtype, bind, map_err. rewrite read_byte_chain.
    destruct b; try contradiction; eexists; reflexivity.
  Qed.
  Lemma s33_chain {R} `{Reader R} b (r : R) : b = x63 \/ b = x64 ->
    exists x, (x < 0)%Z /\ decode_s33 (mkChain [b] false r) = (Ok x, mkChain [] false r).
  Proof. intros [-> | ->]; eexists; (split; [|reflexivity]); reflexivity. Qed.
  Lemma tame_decode_blocktype {R} `{Watched R} : Tame (decode_blocktype : M R _ _).
  Proof.
    unfold decode_blocktype. tame_step; [tame|]. rename a into b. tame_step; [tame|]. intros r Hr. unfold with_chain at 1. unfold bind at 1. unfold try_ok.
    destruct (Byte.byte_eq_dec b x63) as [Hb|H1]; [|destruct (Byte.byte_eq_dec b x64) as [Hb|H2]].
    1, 2: pose proof (tame_decode_valtype (mkChain [b] false r) Hr) as Hv;
      destruct (decode_valtype (mkChain [b] false r)) as [[t|e|pn|] c]; try exact Hv;
      destruct (s33_chain b c) as (x & Hx & Hs); [tauto|];
      unfold with_chain, bind, map_err; rewrite Hs; rewrite (proj2 (Z.ltb_lt _ _) Hx); exact Hv.
    destruct (valtype_chain b r H1 H2) as [[t|e|pn|] Hv]; rewrite Hv; try (left; exact Hr); [exact Hr|].
    match goal with |- let '(x, r') := (let '(y, c) := ?p ?c0 in _) in _ => assert (HT : Tame p) by tame; specialize (HT c0 Hr); destruct (p c0) as [x c] end.
    exact HT.
  Qed.
  Hint Resolve tame_decode_blocktype : tame.
  Lemma tame_decode_catch {R} `{Watched R} : Tame (decode_catch : M R _ _). Proof. tame_def @decode_catch. Qed.
  Hint Resolve tame_decode_catch : tame.
  Lemma tame_decode_castop {R} `{Watched R} : Tame (decode_castop : M R _ _). Proof. tame_def @decode_castop. Qed.
  Hint Resolve tame_decode_castop : tame.
  Lemma tame_parse_body {R} `{Watched R} p ae : Tame p -> Tame (parse_body p ae : M R _ _).
  Proof.
    intros Hp. unfold parse_body. apply (tame_fuel (fun n => body_loop p ae n [])). intros n. generalize (@nil instr) as acc.
    induction n as [|n IH]; intros acc; cbn [body_loop]; [tame|]. apply tame_bind; [exact Hp|]. intros [i| |]; tame.
  Qed.
  Hint Resolve tame_parse_body : tame.
  Lemma tame_parse_block {R} `{Watched R} p op : Tame p -> Tame (parse_block p op : M R _ _).
  Proof.
    intros Hp. unfold parse_block, ctl. tame_step; [tame|]. tame_step; [tame|]. destruct a0 as [in1 [i| |]]; tame.
  Qed.
  Lemma tame_parse_try_table {R} `{Watched R} p : Tame p -> Tame (parse_try_table p : M R _ _).
  Proof. intros Hp. unfold parse_try_table, ctl. tame. Qed.
  Lemma tame_inner {R} `{Watched R} {E A} op (tbl : list (N * A)) : Tame (inner op tbl : M R E A). Proof. tame_def @inner. Qed.
  Hint Resolve tame_inner tame_parse_block tame_parse_try_table : tame.
  Lemma tame_parse_fb {R} `{Watched R} : Tame (parse_fb : M R _ _). Proof. unfold parse_fb, rf, agg, ctl. tame. Qed.
  Lemma tame_parse_fc {R} `{Watched R} : Tame (parse_fc : M R _ _). Proof. unfold parse_fc, num, mem, tab. tame. Qed.
  Lemma tame_parse_fd {R} `{Watched R} : Tame (parse_fd : M R _ _). Proof. unfold parse_fd, vec. tame. Qed.
  Hint Resolve tame_parse_fb tame_parse_fc tame_parse_fd : tame.
  Lemma tame_parse_op {R} `{Watched R} p opcode : Tame p -> Tame (parse_op p opcode : M R _ _).
  Proof. intros Hp. unfold parse_op, ctl, rf, var, tab, mem, num. cbv zeta. tame. Qed.
  Hint Resolve tame_parse_op : tame.
  Lemma tame_parse {R} `{Watched R} d : Tame (parse d : M R _ _).
  Proof. induction d as [|d IH]; cbn [parse]; tame. Qed.
  Hint Resolve tame_parse : tame.
  Lemma tame_expr {R} `{Watched R} : Tame (decode_expr : M R _ _).
  Proof.
    unfold decode_expr. apply (tame_fuel (fun n => expr_loop n [] false)). intros n. generalize (@nil instr) as acc, false as b.
    induction n as [|n IH]; intros acc b; cbn [expr_loop]; [tame|]. tame_step; [tame|]. destruct a as [i| |]; tame.
  Qed.
  Hint Resolve tame_expr : tame.
  Lemma tame_expr_only {R} `{Watched R} : Tame (decode_expr_only : M R _ _).
  Proof. tame_def @decode_expr_only. Qed.
End Instr.
#[export] Hint Resolve tame_expr tame_expr_only : tame.

Section Sections.
  Context {env : Env}.
  Lemma tame_decode_type_section {R} `{Watched R} : Tame (decode_type_section : M R _ _). Proof. tame_def @decode_type_section. Qed.
  Hint Resolve tame_decode_type_section : tame.
  Lemma tame_parse_import {R} `{Watched R} : Tame (parse_import : M R _ _). Proof. tame_def @parse_import. Qed.
  Hint Resolve tame_parse_import : tame.
  Lemma tame_decode_import_section {R} `{Watched R} : Tame (decode_import_section : M R _ _). Proof. tame_def @decode_import_section. Qed.
  Hint Resolve tame_decode_import_section : tame.
  Lemma tame_decode_function_section {R} `{Watched R} : Tame (decode_function_section : M R _ _). Proof. tame_def @decode_function_section. Qed.
  Hint Resolve tame_decode_function_section : tame.
  Lemma tame_decode_table {R} `{Watched R} : Tame (decode_table : M R _ _). Proof. tame_def @decode_table. Qed.
  Hint Resolve tame_decode_table : tame.
  Lemma tame_decode_table_section {R} `{Watched R} : Tame (decode_table_section : M R _ _). Proof. tame_def @decode_table_section. Qed.
  Hint Resolve tame_decode_table_section : tame.
  Lemma tame_decode_memory_section {R} `{Watched R} : Tame (decode_memory_section : M R _ _). Proof. tame_def @decode_memory_section. Qed.
  Hint Resolve tame_decode_memory_section : tame.
  Lemma tame_decode_tag_section {R} `{Watched R} : Tame (decode_tag_section : M R _ _). Proof. tame_def @decode_tag_section. Qed.
  Hint Resolve tame_decode_tag_section : tame.
  Lemma tame_parse_global {R} `{Watched R} : Tame (parse_global : M R _ _). Proof. tame_def @parse_global. Qed.
  Hint Resolve tame_parse_global : tame.
  Lemma tame_decode_global_section {R} `{Watched R} : Tame (decode_global_section : M R _ _). Proof. tame_def @decode_global_section. Qed.
  Hint Resolve tame_decode_global_section : tame.
  Lemma tame_decode_start_section {R} `{Watched R} : Tame (decode_start_section : M R _ _). Proof. tame_def @decode_start_section. Qed.
  Hint Resolve tame_decode_start_section : tame.
  Lemma tame_parse_elemkind {R} `{Watched R} : Tame (parse_elemkind : M R _ _). Proof. tame_def @parse_elemkind. Qed.
  Hint Resolve tame_parse_elemkind : tame.
  Lemma tame_parse_elem {R} `{Watched R} : Tame (parse_elem : M R _ _). Proof. tame_def @parse_elem. Qed.
  Hint Resolve tame_parse_elem : tame.
  Lemma tame_decode_element_section {R} `{Watched R} : Tame (decode_element_section : M R _ _). Proof. tame_def @decode_element_section. Qed.
  Hint Resolve tame_decode_element_section : tame.
  Lemma tame_decode_datacount_section {R} `{Watched R} : Tame (decode_datacount_section : M R _ _). Proof. tame_def @decode_datacount_section. Qed.
  Hint Resolve tame_decode_datacount_section : tame.
  Lemma tame_parse_data {R} `{Watched R} : Tame (parse_data : M R _ _). Proof. tame_def @parse_data. Qed.
  Hint Resolve tame_parse_data : tame.
  Lemma tame_decode_data_section {R} `{Watched R} : Tame (decode_data_section : M R _ _). Proof. tame_def @decode_data_section. Qed.
  Hint Resolve tame_decode_data_section : tame.
  Lemma tame_export {R} `{Watched R} : Tame (parse_export : M R _ _).
  Proof. unfold parse_export. do 3 (tame_step; [tame|]). destruct (externidx_from a0 a1); tame. Qed.
  Hint Resolve tame_export : tame.
  Lemma tame_export_section {R} `{Watched R} : Tame (decode_export_section : M R _ _). Proof. tame_def @decode_export_section. Qed.
  Lemma tame_code_local {R} `{Watched R} m n : Tame (parse_code_local m n : M R _ _). Proof. tame_def @parse_code_local. Qed.
  Hint Resolve tame_export_section tame_code_local : tame.
  Lemma tame_code {R} `{Watched R} : Tame (parse_code : M R _ _).
  Proof.
    unfold parse_code. tame_step; [tame|]. tame_step.
    - tame_step. tame_step; [tame_step; apply tame_list_st; intros; tame|]. tame.
    - destruct a0 as [[l [e b]] n]. tame.
  Qed.
  Hint Resolve tame_code : tame.
  Lemma tame_code_section {R} `{Watched R} : Tame (decode_code_section : M R _ _). Proof. tame_def @decode_code_section. Qed.
  Hint Resolve tame_code_section : tame.
  Lemma semi_custom {R} `{Watched R} : Semi (decode_section_custom : M R _ _).
  Proof. unfold decode_section_custom. apply semi_bind; [tame|]. intros n. apply semi_then. apply semi_map_err, semi_read_to_end. Qed.
  Lemma tame_fill_codes {R} `{Watched R} codes : forall i fs b, Tame (fill_codes i codes fs b : M R _ _).
  Proof. induction codes as [|c codes IH]; intros; cbn [fill_codes]; tame. Qed.
  Hint Resolve tame_fill_codes : tame.
  Lemma semi_decode_section {R} `{Watched R} kind s : Semi (decode_section kind s : M R _ _).
  Proof.
    unfold decode_section. cbv zeta. destruct kind; [apply semi_then, semi_map_err, semi_custom|apply semi_of_tame; tame..].
  Qed.
  Lemma tame_validate {R} `{Watched R} m h : Tame (validate_section_kind_expected m h : M R _ _).
  Proof. tame_def @validate_section_kind_expected. Qed.
  Lemma tame_preamble {R} `{Watched R} : Tame (parse_preamble : M R _ _). Proof. tame_def @parse_preamble. Qed.
  Lemma tame_section_step {R} `{Watched R} h s : Tame (section_step h s : M R _ _).
  Proof.
    unfold section_step. apply semi_with_take.
    - apply semi_bind; [apply tame_validate|]. intros. apply semi_decode_section.
    - intros a l Hl. rewrite (proj2 (N.eqb_neq _ _) Hl). exists (DM_SectionSizeMismatch (sh_kind h) (sh_size h) (sh_size h - l)%N). cbn [negb].
      intros r. unfold bind, sub_u64. destruct (l <=? sh_size h)%N; [left|right; eexists]; reflexivity.
    - intros a. cbn [N.eqb negb]. tame.
  Qed.
  (** the end of the module is the first stop *)
  Lemma header_calls {R} `{Watched R} (r : R) : live r -> match decode_section_header r with
    | (Ok (Some _), r') => live r' | (Ok None, r') => dead r'
    | (Panic p, r') => live r' \/ dead r' \/ (broken r' /\ p = ReaderFault) | (_, r') => live r' \/ dead r' end.
  Proof.
    intros Hr. unfold decode_section_header, bind, read_section_id. unfold read_byte, bind.
    destruct (read_exact 1 r) as [x r1] eqn:E1.
    assert (HT := tame_read_exact 1 r Hr). rewrite E1 in HT.
    assert (HE : forall k, x = Err k -> dead r1).
    { assert (H10 : (1 <> 0)%N) by discriminate. intros k ->. unfold read_exact in E1. revert E1. generalize (S (budget r)) as n, (@nil byte) as acc. intros n. revert r Hr.
      induction n as [|n IH]; intros r Hr acc E1; cbn [read_exact_loop] in E1; change (1 =? 0)%N with false in E1; cbv iota in E1; [discriminate E1|].
      destruct (read r 1) as [[[|b d]|k'|] r2] eqn:ER; [| | |discriminate E1].
      - injection E1 as <- <-. exact (w_eof _ _ _ Hr H10 ER).
      - destruct (N.leb_spec (lenN (b :: d)) 1) as [Hl|]; [|discriminate E1]. unfold lenN in *. cbn [length] in *.
        replace (1 - N.of_nat (S (length d)))%N with 0%N in E1 by lia. destruct n; cbn in E1; discriminate E1.
      - destruct k'; [injection E1 as <- <-; refine (w_err _ _ _ _ Hr H10 _ ER); discriminate
          |exact (IH r2 (w_intr _ _ _ Hr H10 ER) acc E1)|injection E1 as <- <-; refine (w_err _ _ _ _ Hr H10 _ ER); discriminate]. }
    destruct x as [[|b l]|k|p|]; cbn -[section_from_marker decode_u32].
    - left; exact HT.
    - destruct (section_from_marker b) as [kind|]; cbn -[decode_u32]; [|left; exact HT].
      pose proof (tame_map_err Hdr_DecodeSectionSize _ tame_u32 r1 HT) as Hu. destruct (map_err Hdr_DecodeSectionSize decode_u32 r1) as [[n|e|pn|] r2]; exact Hu.
    - specialize (HE k eq_refl). destruct k; cbn; auto.
    - exact HT.
    - exact HT.
  Qed.
  Definition Ended {R E A} `{Watched R} (p : M R E A) : Prop :=
    forall r, live r -> let '(x, r') := p r in match x with Ok _ => dead r' | Panic p => live r' \/ dead r' \/ (broken r' /\ p = ReaderFault) | _ => live r' \/ dead r' end.
  Lemma ended_section_loop {R} `{Watched R} s : Ended (section_loop' s : M R _ _).
  Proof.
    intros r. unfold section_loop'. generalize (S (budget r)) as n. intros n. revert r s.
    induction n as [|n IH]; intros r s Hr; cbn [section_loop]; [left; exact Hr|]. unfold bind at 1, map_err.
    pose proof (header_calls r Hr) as Hh. destruct (decode_section_header r) as [[[h|]|e|pn|] r1]; try exact Hh.
    unfold bind. pose proof (tame_section_step h s r1 Hh) as Hs. destruct (section_step h s r1) as [[s'|e|pn|] r2]; try exact Hs. exact (IH r2 s' Hs).
  Qed.
  Theorem ended_decode_module {R} `{Watched R} : Ended (decode_module : M R _ _).
  Proof.
    intros r Hr. unfold decode_module. unfold bind at 1. pose proof (tame_map_err DM_ParsePreamble _ tame_preamble r Hr) as Hp.
    destruct (map_err DM_ParsePreamble parse_preamble r) as [[u|e|pn|] r1]; try exact Hp.
    unfold bind. pose proof (ended_section_loop (mkSt default_module false false) r1 Hp) as Hl.
    destruct (section_loop' _ r1) as [[s|e|pn|] r2]; try exact Hl.
    unfold final_checks. cbv zeta. repeat (match goal with |- context [if ?c then _ else _] => destruct c end; [right; exact Hl|]). exact Hl.
  Qed.
End Sections.
