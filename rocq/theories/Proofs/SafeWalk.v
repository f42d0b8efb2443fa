(** [Safe] for every function of the decoder. *)
From Verif Require Import Model.Prelude Model.Io Model.Ast Model.Errors Model.Integer Model.Helpers Model.Types Model.Instr Model.Sections Model.Module.
From Verif Require Import Proofs.Machine Proofs.Reads Proofs.Safe Proofs.Parses Proofs.Leb Proofs.Logs Spec.Lang Spec.Calls.
From Coq Require Import Lia ZifyBool ZifyNat ZifyN.

Section Extra.
  Context {env : Env} {R : Type} `{ReaderOk R}.
  Lemma safe_any {E A} d (p : M R E A) m Q : Safe d p m Q -> Safe d p 0 any.
  Proof. intros Hp. eapply safe_weaken; [exact Hp|lia|intros; exact I]. Qed.
  Lemma safe_also {E A} d (p : M R E A) m (Q Q' : A -> Prop) : Safe d p m Q -> (forall r a r', p r = (Ok a, r') -> Q' a) -> Safe d p m Q'.
  Proof.
    intros Hs HQ r. specialize (Hs r). destruct (p r) as [[a|e|pn|] r'] eqn:E1; auto.
    destruct Hs as (? & ? & ?). repeat split; eauto.
  Qed.
  Lemma ok_well_behaved : well_behaved R.
  Proof.
    intros r n x r' ER. unfold honest. cbn [answer asked]. destruct x as [d|k|]; [apply (ok_data _ _ _ _ ER)|exact I|exact (ok_calm _ _ _ ER)].
  Qed.
  Lemma safe_with_chain0 {E A} d b (body : M (Chain R) E A) Q :
    Safe (S d) body 0 Q -> Safe d (with_chain b body) 0 Q.
  Proof.
    intros Hb r. unfold with_chain. specialize (Hb (mkChain [b] false r)). destruct (body (mkChain [b] false r)) as [x c].
    destruct Hb as [Hr Hx]. pose proof (reach_chain _ _ Hr) as Hr'. pose proof (reach_budget _ _ Hr') as Hb'. cbn in *.
    split; [assumption|]. destruct x as [a|e|pn|]; auto.
    - destruct Hx; split; [lia|assumption].
    - destruct pn; auto; [apply short_S; exact Hx|lia].
  Qed.
  Lemma safe_switch_cons {E A} d n p (a : M R E A) arms dflt m Q :
    (pmatch p n = true -> Safe d a m Q) -> (pmatch p n = false -> Safe d (switch n arms dflt) m Q) ->
    Safe d (switch n ((p, a) :: arms) dflt) m Q.
  Proof. intros Hy Hn. cbn. destruct (pmatch p n); auto. Qed.
  Lemma safe_fuel {E A} d (p : nat -> M R E A) m Q :
    (forall r n, budget r < n -> let '(x, r') := p n r in
      reach r r' /\
      match x with
      | Ok a => budget r' + m <= budget r /\ Q a
      | Err _ => True
      | Panic AllocFailure => short d (budget r)
      | Panic StackOverflow => d <= budget r
      | Panic _ => False
      | Stuck => False
      end) -> Safe d (fun r => p (S (budget r)) r) m Q.
  Proof. intros HS r. apply HS. lia. Qed.
End Extra.

Create HintDb safe.
Ltac safe_bind1 :=
  first [ eapply (safe_bind _ 0 0); [ solve [eauto with safe nocore] | intros ? ? | lia ]
        | eapply (safe_bind _ 0 0) with (Q1 := any); [ | intros ? ? | lia ] ].
Ltac safe_step :=
  match goal with
  | |- Safe _ (bind _ _) 0 _ => safe_bind1
  | |- Safe _ (map_err _ _) _ _ => eapply safe_map_err
  | |- Safe _ (ret _) _ _ => eapply safe_ret; try exact I
  | |- Safe _ (throw _) _ _ => eapply safe_throw
  | |- Safe _ (switch _ [] ?d) _ _ => change (switch _ [] d) with d
  | |- Safe _ (switch _ (_ :: _) _) _ _ => eapply safe_switch_cons; [intros ?|intros _]
  | |- Safe _ (with_chain _ _) 0 _ => eapply safe_with_chain0
  | |- Safe _ (match ?o with Some _ => _ | None => _ end) _ _ => destruct o eqn:?
  | |- Safe _ (if ?c then _ else _) _ _ => destruct c eqn:?
  | |- Safe _ (match ?z with (x, y) => _ end) _ _ => destruct z
  | |- Safe _ (let x := _ in _) _ _ => cbv zeta
  end.
Ltac safe := repeat (first [solve [eauto with safe nocore] | safe_step]).

Section Leaves.
  Context {env : Env} {R : Type} `{ReaderOk R}.
  Lemma safe_read_byte0 d : Safe d (read_byte : M R _ _) 0 any.
  Proof. eapply safe_any, safe_read_byte. Qed.
  Lemma safe_read_exact0 d n : Safe d (read_exact n : M R _ _) 0 any.
  Proof. eapply safe_any, safe_read_exact. Qed.
  Lemma safe_map_err_rb {E} d (f : io_error -> E) : Safe d (map_err f (read_byte : M R _ _)) 0 any.
  Proof. apply safe_map_err, safe_read_byte0. Qed.

  Local Hint Extern 1 (Safe _ (map_err _ read_byte) _ _) => eapply safe_map_err_rb : safe.
  Ltac arith :=
    match goal with
    | |- Safe _ (bind (shl_u32 _ _) _) _ _ => eapply (safe_bind _ 0 0); [apply safe_shl_u32; lia|intros ? ?|lia]
    | |- Safe _ (bind (shl_u64 _ _) _) _ _ => eapply (safe_bind _ 0 0); [apply safe_shl_u64; lia|intros ? ?|lia]
    | |- Safe _ (bind (shl_i64 _ _) _) _ _ => eapply (safe_bind _ 0 0); [apply safe_shl_i64; lia|intros ? ?|lia]
    | |- Safe _ (bind (add_u8 _ _) _) _ _ => eapply (safe_bind _ 0 0); [apply safe_add_u8; lia|intros ? <-|lia]
    end.
  Lemma safe_u32_loop d is result shift : (shift + 7 * lenN is <= 38)%N -> Safe d (u32_loop is result shift : M R _ _) 0 any.
  Proof.
    revert result shift; induction is as [|i is IH]; intros result shift Hl; cbn [u32_loop]; [safe|].
    unfold lenN in *; cbn [length] in *. safe_bind1. arith. safe_step.
    - safe.
    - arith. apply IH. lia.
  Qed.
  Lemma safe_u64_loop d is result shift : (shift + 7 * lenN is <= 70)%N -> Safe d (u64_loop is result shift : M R _ _) 0 any.
  Proof.
    revert result shift; induction is as [|i is IH]; intros result shift Hl; cbn [u64_loop]; [safe|].
    unfold lenN in *; cbn [length] in *. safe_bind1. arith. safe_step.
    - safe.
    - arith. apply IH. lia.
  Qed.
  Lemma safe_i32_loop d is result shift : (shift + 7 * lenN is <= 38)%N -> Safe d (i32_loop is result shift : M R _ _) 0 any.
  Proof.
    revert result shift; induction is as [|i is IH]; intros result shift Hl; cbn [i32_loop]; [safe|].
    unfold lenN in *; cbn [length] in *. safe_bind1. arith. arith. safe_step.
    - eapply (safe_bind _ 0 0) with (Q1 := any); [ | intros ? ? | lia ].
      + safe_step; [arith|]; safe.
      + repeat safe_step. discriminate.
    - apply IH. lia.
  Qed.
  Lemma safe_i64_loop d is result shift : (shift + 7 * lenN is <= 70)%N -> Safe d (i64_loop is result shift : M R _ _) 0 any.
  Proof.
    revert result shift; induction is as [|i is IH]; intros result shift Hl; cbn [i64_loop]; [safe|].
    unfold lenN in *; cbn [length] in *. safe_bind1. arith. arith. safe_step.
    - cbv zeta. safe_step; [repeat safe_step|]. safe_step; [arith|]; safe.
    - apply IH. lia.
  Qed.
  Lemma safe_s33_loop d is result shift : (shift + 7 * lenN is <= 35)%N -> Safe d (s33_loop is result shift : M R _ _) 0 any.
  Proof.
    revert result shift; induction is as [|i is IH]; intros result shift Hl; cbn [s33_loop]; [safe|].
    unfold lenN in *; cbn [length] in *. safe_bind1. arith. arith. safe_step.
    - cbv zeta. safe_step; [safe|]. safe_step; [safe|]. safe_step; [arith|]; safe.
    - apply IH. lia.
  Qed.
  Lemma safe_u32 d : Safe d (decode_u32 : M R _ _) 0 u32r.
  Proof.
    eapply safe_also; [apply safe_u32_loop; reflexivity || (unfold lenN; cbn; lia)|].
    intros r a r' Hd. destruct (replay_u32 ok_well_behaved r a r' Hd) as (evs & He).
    destruct (p_sound _ _ (parses_u32 (R := list event)) _ _ _ He) as (bs & _ & Hb). apply Bu_range in Hb. exact Hb.
  Qed.
  Lemma safe_u64 d : Safe d (decode_u64 : M R _ _) 0 any.
  Proof. apply safe_u64_loop. unfold lenN; cbn; lia. Qed.
  Lemma safe_i32 d : Safe d (decode_i32 : M R _ _) 0 any.
  Proof. apply safe_i32_loop. unfold lenN; cbn; lia. Qed.
  Lemma safe_i64 d : Safe d (decode_i64 : M R _ _) 0 any.
  Proof. apply safe_i64_loop. unfold lenN; cbn; lia. Qed.
  Lemma safe_s33 d : Safe d (decode_s33 : M R _ _) 0 s33r.
  Proof.
    eapply safe_also; [apply safe_s33_loop; unfold lenN; cbn; lia|].
    intros r a r' Hd. destruct (replay_s33 ok_well_behaved r a r' Hd) as (evs & He).
    destruct (p_sound _ _ (parses_s33 (R := list event)) _ _ _ He) as (bs & _ & Hb). apply Bs_range in Hb; [|lia]. exact Hb.
  Qed.
  Lemma safe_u32_0 d : Safe d (decode_u32 : M R _ _) 0 any.
  Proof. eapply safe_any, safe_u32. Qed.
End Leaves.
#[export] Hint Extern 1 (Safe _ read_byte _ _) => eapply safe_read_byte0 : safe.
#[export] Hint Extern 1 (Safe _ (read_exact _) _ _) => eapply safe_read_exact0 : safe.
#[export] Hint Extern 1 (Safe _ (map_err _ read_byte) _ _) => eapply safe_map_err_rb : safe.
#[export] Hint Extern 1 (Safe _ decode_u64 _ _) => eapply safe_u64 : safe.
#[export] Hint Extern 1 (Safe _ decode_i32 _ _) => eapply safe_i32 : safe.
#[export] Hint Extern 1 (Safe _ decode_i64 _ _) => eapply safe_i64 : safe.
#[export] Hint Extern 1 (Safe _ decode_u32 _ _) => eapply safe_u32_0 : safe.

Section Helpers.
  Context {env : Env} {R : Type} `{ReaderOk R}.
  Lemma safe_map_err_u32 {E} d (f : DecodeU32Error -> E) : Safe d (map_err f (decode_u32 : M R _ _)) 0 u32r.
  Proof. apply safe_map_err, safe_u32. Qed.
  Lemma safe_map_err_s33 {E} d (f : DecodeS33Error -> E) : Safe d (map_err f (decode_s33 : M R _ _)) 0 s33r.
  Proof. apply safe_map_err, safe_s33. Qed.
  Lemma safe_f32 d : Safe d (decode_f32 : M R _ _) 0 any.
  Proof. unfold decode_f32. safe. Qed.
  Lemma safe_f64 d : Safe d (decode_f64 : M R _ _) 0 any.
  Proof. unfold decode_f64. safe. Qed.
  (** vectors: [Inv] on the state carried by the element decoder, with what is
      known about the list so far *)
  Lemma safe_list_st {St E T} d (f : St -> M R E (T * St)) st (Inv : list T -> St -> Prop) :
    Inv [] st ->
    (forall l s, Inv l s -> Safe d (f s) 0 (fun '(t, s') => Inv (l ++ [t]) s')) ->
    Safe d (decode_list_st f st) 0 (fun l => exists s, Inv l s).
  Proof.
    intros H0' Hf. unfold decode_list_st.
    eapply (safe_bind _ 0 0); [apply safe_map_err_u32|intros n Hn|lia].
    eapply (safe_bind _ 0 0); [apply safe_alloc; unfold u32r in Hn; lia|intros _ _|lia].
    eapply (safe_bind _ 0 0) with (Q1 := fun '(_, items, s) => Inv (rev items) s).
    - apply safe_loopN with (Inv := fun '(_, items, s) => Inv (rev items) s); [|exact H0'].
      intros [[i items] s] HI. unfold list_step.
      eapply (safe_bind _ 0 0); [apply safe_map_err, Hf, HI| |lia].
      intros [t s'] HI'. apply safe_ret. exact HI'.
    - intros [[i items] s] HI. apply safe_ret. eauto.
    - lia.
  Qed.
  Lemma safe_list {E T} d (f : M R E T) : Safe d f 0 any -> Safe d (decode_list f) 0 any.
  Proof.
    intros Hf. unfold decode_list. eapply safe_any.
    apply safe_list_st with (Inv := fun _ _ => True); [exact I|].
    intros l s _. eapply (safe_bind _ 0 0); [exact Hf|intros ? ?; apply safe_ret; exact I|lia].
  Qed.
  Lemma safe_byte_vector d : Safe d (decode_byte_vector : M R _ _) 0 any.
  Proof.
    unfold decode_byte_vector. eapply (safe_bind _ 0 0); [apply safe_map_err_u32|intros n Hn|lia].
    eapply (safe_bind _ 0 0); [apply safe_alloc; unfold u32r in Hn; lia|intros _ _|lia]. safe.
  Qed.
  Local Hint Extern 1 (Safe _ decode_byte_vector _ _) => eapply safe_byte_vector : safe.
  Lemma safe_name d : Safe d (decode_name : M R _ _) 0 any.
  Proof. unfold decode_name. safe. Qed.
  Lemma safe_unwrap {E} d x : (0 <= x < 2 ^ 32)%Z -> Safe d (u32_try_from_unwrap x : M R E _) 0 any.
  Proof.
    intros Hx. unfold u32_try_from_unwrap. replace ((0 <=? x) && (x <? 2 ^ 32))%Z with true by lia. safe.
  Qed.
End Helpers.
#[export] Hint Extern 1 (Safe _ decode_f32 _ _) => eapply safe_f32 : safe.
#[export] Hint Extern 1 (Safe _ decode_f64 _ _) => eapply safe_f64 : safe.
#[export] Hint Extern 1 (Safe _ (decode_list _) _ _) => eapply safe_list : safe.
#[export] Hint Extern 1 (Safe _ decode_byte_vector _ _) => eapply safe_byte_vector : safe.
#[export] Hint Extern 1 (Safe _ decode_name _ _) => eapply safe_name : safe.
#[export] Hint Extern 1 (Safe _ (u32_try_from_unwrap _) _ _) => apply safe_unwrap; unfold s33r in *; lia : safe.
#[export] Hint Extern 1 (Safe _ (map_err _ decode_s33) _ _) => eapply safe_map_err_s33 : safe.
#[export] Hint Extern 1 (Safe _ (map_err _ decode_u32) _ _) => eapply safe_map_err_u32 : safe.

(** one rule per type decoder; all readers *)
Ltac safe_def f := intros; unfold f; safe.
Section Types.
  Context {env : Env}.
  Lemma safe_typeidx {R} `{ReaderOk R} d : Safe d (decode_typeidx : M R _ _) 0 any. Proof. safe_def @decode_typeidx. Qed.
  Lemma safe_funcidx {R} `{ReaderOk R} d : Safe d (decode_funcidx : M R _ _) 0 any. Proof. safe_def @decode_funcidx. Qed.
  Lemma safe_tableidx {R} `{ReaderOk R} d : Safe d (decode_tableidx : M R _ _) 0 any. Proof. safe_def @decode_tableidx. Qed.
  Lemma safe_memidx {R} `{ReaderOk R} d : Safe d (decode_memidx : M R _ _) 0 any. Proof. safe_def @decode_memidx. Qed.
  Lemma safe_globalidx {R} `{ReaderOk R} d : Safe d (decode_globalidx : M R _ _) 0 any. Proof. safe_def @decode_globalidx. Qed.
  Lemma safe_elemidx {R} `{ReaderOk R} d : Safe d (decode_elemidx : M R _ _) 0 any. Proof. safe_def @decode_elemidx. Qed.
  Lemma safe_dataidx {R} `{ReaderOk R} d : Safe d (decode_dataidx : M R _ _) 0 any. Proof. safe_def @decode_dataidx. Qed.
  Lemma safe_localidx {R} `{ReaderOk R} d : Safe d (decode_localidx : M R _ _) 0 any. Proof. safe_def @decode_localidx. Qed.
  Lemma safe_labelidx {R} `{ReaderOk R} d : Safe d (decode_labelidx : M R _ _) 0 any. Proof. safe_def @decode_labelidx. Qed.
  Lemma safe_tagidx {R} `{ReaderOk R} d : Safe d (decode_tagidx : M R _ _) 0 any. Proof. safe_def @decode_tagidx. Qed.
  Hint Extern 1 (Safe _ decode_typeidx _ _) => eapply safe_typeidx : safe.
  Lemma safe_absheaptype {R} `{ReaderOk R} d : Safe d (decode_absheaptype : M R _ _) 0 any. Proof. safe_def @decode_absheaptype. Qed.
  Hint Extern 1 (Safe _ decode_absheaptype _ _) => eapply safe_absheaptype : safe.
  Lemma safe_heaptype {R} `{ReaderOk R} d : Safe d (decode_heaptype : M R _ _) 0 any.
  Proof. safe_def @decode_heaptype. Qed.
  Hint Extern 1 (Safe _ decode_heaptype _ _) => eapply safe_heaptype : safe.
  Lemma safe_reftype {R} `{ReaderOk R} d : Safe d (decode_reftype : M R _ _) 0 any. Proof. safe_def @decode_reftype. Qed.
  Hint Extern 1 (Safe _ decode_reftype _ _) => eapply safe_reftype : safe.
  Lemma safe_valtype {R} `{ReaderOk R} d : Safe d (decode_valtype : M R _ _) 0 any. Proof. safe_def @decode_valtype. Qed.
  Hint Extern 1 (Safe _ decode_valtype _ _) => eapply safe_valtype : safe.
  Lemma safe_result_type {R} `{ReaderOk R} d : Safe d (decode_result_type : M R _ _) 0 any. Proof. safe_def @decode_result_type. Qed.
  Lemma safe_globaltype {R} `{ReaderOk R} d : Safe d (decode_globaltype : M R _ _) 0 any. Proof. safe_def @decode_globaltype. Qed.
  Lemma safe_storagetype {R} `{ReaderOk R} d : Safe d (decode_storagetype : M R _ _) 0 any. Proof. safe_def @decode_storagetype. Qed.
  Hint Extern 1 (Safe _ decode_result_type _ _) => eapply safe_result_type : safe.
  Hint Extern 1 (Safe _ decode_globaltype _ _) => eapply safe_globaltype : safe.
  Hint Extern 1 (Safe _ decode_storagetype _ _) => eapply safe_storagetype : safe.
  Lemma safe_fieldtype {R} `{ReaderOk R} d : Safe d (decode_fieldtype : M R _ _) 0 any. Proof. safe_def @decode_fieldtype. Qed.
  Hint Extern 1 (Safe _ decode_fieldtype _ _) => eapply safe_fieldtype : safe.
  Lemma safe_comptype {R} `{ReaderOk R} d : Safe d (decode_comptype : M R _ _) 0 any. Proof. safe_def @decode_comptype. Qed.
  Hint Extern 1 (Safe _ decode_comptype _ _) => eapply safe_comptype : safe.
  Lemma safe_subtype {R} `{ReaderOk R} d : Safe d (decode_subtype : M R _ _) 0 any. Proof. safe_def @decode_subtype. Qed.
  Hint Extern 1 (Safe _ decode_subtype _ _) => eapply safe_subtype : safe.
  Lemma safe_rectype {R} `{ReaderOk R} d : Safe d (decode_rectype : M R _ _) 0 any. Proof. safe_def @decode_rectype. Qed.
  Lemma safe_limits {R} `{ReaderOk R} d : Safe d (parse_limits : M R _ _) 0 any. Proof. safe_def @parse_limits. Qed.
  Hint Extern 1 (Safe _ parse_limits _ _) => eapply safe_limits : safe.
  Lemma safe_memtype {R} `{ReaderOk R} d : Safe d (parse_memtype : M R _ _) 0 any. Proof. safe_def @parse_memtype. Qed.
  Lemma safe_tabletype {R} `{ReaderOk R} d : Safe d (decode_tabletype : M R _ _) 0 any. Proof. safe_def @decode_tabletype. Qed.
  Lemma safe_tagtype {R} `{ReaderOk R} d : Safe d (decode_tagtype : M R _ _) 0 any. Proof. safe_def @decode_tagtype. Qed.
  Hint Extern 1 (Safe _ parse_memtype _ _) => eapply safe_memtype : safe.
  Hint Extern 1 (Safe _ decode_tabletype _ _) => eapply safe_tabletype : safe.
  Hint Extern 1 (Safe _ decode_tagtype _ _) => eapply safe_tagtype : safe.
  Lemma safe_externtype {R} `{ReaderOk R} d : Safe d (decode_externtype : M R _ _) 0 any. Proof. safe_def @decode_externtype. Qed.
End Types.
#[export] Hint Extern 1 (Safe _ decode_typeidx _ _) => eapply safe_typeidx : safe.
#[export] Hint Extern 1 (Safe _ decode_funcidx _ _) => eapply safe_funcidx : safe.
#[export] Hint Extern 1 (Safe _ decode_tableidx _ _) => eapply safe_tableidx : safe.
#[export] Hint Extern 1 (Safe _ decode_memidx _ _) => eapply safe_memidx : safe.
#[export] Hint Extern 1 (Safe _ decode_globalidx _ _) => eapply safe_globalidx : safe.
#[export] Hint Extern 1 (Safe _ decode_elemidx _ _) => eapply safe_elemidx : safe.
#[export] Hint Extern 1 (Safe _ decode_dataidx _ _) => eapply safe_dataidx : safe.
#[export] Hint Extern 1 (Safe _ decode_localidx _ _) => eapply safe_localidx : safe.
#[export] Hint Extern 1 (Safe _ decode_labelidx _ _) => eapply safe_labelidx : safe.
#[export] Hint Extern 1 (Safe _ decode_tagidx _ _) => eapply safe_tagidx : safe.
#[export] Hint Extern 1 (Safe _ decode_heaptype _ _) => eapply safe_heaptype : safe.
#[export] Hint Extern 1 (Safe _ decode_reftype _ _) => eapply safe_reftype : safe.
#[export] Hint Extern 1 (Safe _ decode_valtype _ _) => eapply safe_valtype : safe.
#[export] Hint Extern 1 (Safe _ decode_globaltype _ _) => eapply safe_globaltype : safe.
#[export] Hint Extern 1 (Safe _ decode_rectype _ _) => eapply safe_rectype : safe.
#[export] Hint Extern 1 (Safe _ parse_memtype _ _) => eapply safe_memtype : safe.
#[export] Hint Extern 1 (Safe _ decode_tabletype _ _) => eapply safe_tabletype : safe.
#[export] Hint Extern 1 (Safe _ decode_tagtype _ _) => eapply safe_tagtype : safe.
#[export] Hint Extern 1 (Safe _ decode_externtype _ _) => eapply safe_externtype : safe.

(** checking a property on a range of numbers *)
Fixpoint allN (k : nat) (lo : N) (P : N -> bool) : bool :=
  match k with O => true | S k' => P lo && allN k' (lo + 1)%N P end.
Lemma allN_spec k lo P n : allN k lo P = true -> (lo <= n < lo + N.of_nat k)%N -> P n = true.
Proof.
  revert lo; induction k as [|k IH]; cbn [allN]; intros lo Ha Hn; [lia|].
  apply andb_prop in Ha as [Ha1 Ha2]. destruct (N.eq_dec n lo) as [->|]; [assumption|].
  apply (IH (lo + 1)%N); [assumption|lia].
Qed.
Definition has {A} (tbl : list (N * A)) (n : N) : bool := match assocN n tbl with Some _ => true | None => false end.

Ltac sb := eapply (safe_bind _ 0 0) with (Q1 := any); [solve [safe]|intros ? ?|lia].
Section Instr.
  Context {env : Env} {R : Type} `{ReaderOk R}.
  Lemma safe_inner {E A} d op (tbl : list (N * A)) : has tbl op = true -> Safe d (inner op tbl : M R E A) 0 any.
  Proof. unfold has, inner. destruct (assocN op tbl); [|discriminate]. intros _. safe. Qed.
  Lemma safe_memarg d : Safe d (decode_memarg : M R _ _) 0 any.
  Proof.
    unfold decode_memarg. safe_bind1. safe_bind1; [|safe].
    safe_step; [safe|]. safe_step; [|safe]. sb.
    eapply (safe_bind _ 0 0); [apply safe_sub_u32; lia|intros; safe|lia].
  Qed.
  Lemma safe_laneidx d : Safe d (decode_laneidx : M R _ _) 0 any.
  Proof. unfold decode_laneidx. safe. Qed.
  Lemma safe_blocktype d : Safe d (decode_blocktype : M R _ _) 0 any.
  Proof.
    unfold decode_blocktype. safe_bind1. safe_step; [safe|]. safe_step.
    eapply (safe_bind _ 0 0); [eapply safe_try_ok, safe_valtype|intros o _|lia]. safe.
  Qed.
  Lemma safe_catch d : Safe d (decode_catch : M R _ _) 0 any.
  Proof. unfold decode_catch. safe. Qed.
  Lemma safe_castop d : Safe d (decode_castop : M R _ _) 0 any.
  Proof. unfold decode_castop. safe. Qed.

  Definition delim (x : list instr * ParseResult) : Prop := match snd x with PR_Instr _ => False | _ => True end.
  Lemma safe_parse_body d p ae : d <= stack_limit -> Safe d p 1 any -> Safe d (parse_body p ae : M R _ _) 0 delim.
  Proof.
    intros Hd Hp. unfold parse_body.
    assert (HG : forall n r acc, budget r < n -> let '(x, r') := body_loop p ae n acc r in reach r r' /\
      match x with Ok a => budget r' + 0 <= budget r /\ delim a | Err _ => True | Panic AllocFailure => short d (length acc + budget r)
      | Panic StackOverflow => d <= budget r | _ => False end); [|intros r; exact (HG _ r [] (le_n _))].
    induction n as [|n IH]; intros r acc Hn; [lia|]. cbn [body_loop]. unfold bind at 1.
    specialize (Hp r). destruct (p r) as [[x|e|pn|] r1]; [|exact Hp| |exact Hp].
    2: { destruct Hp as [Hr Hx]. split; [exact Hr|]. destruct pn; auto. eapply short_le; [|exact Hx]. lia. }
    destruct Hp as (Hr & Hb & _). destruct x as [i| |].
    - unfold bind, alloc. destruct (N.leb_spec (lenN (i :: acc)) alloc_limit) as [Ha|Ha]; cbn [ret panic_with].
      2: { split; [exact Hr|]. eapply short_in; [exact Hd| |exact Ha]. cbn [length]. lia. }
      specialize (IH r1 (i :: acc) ltac:(lia)). destruct (body_loop p ae n (i :: acc) r1) as [y r2].
      destruct IH as [Hr2 Hy]. split; [eapply reach_trans; eauto|].
      destruct y as [z|e|pn|]; auto; [destruct Hy; split; [lia|assumption]|]. destruct pn; auto; [|lia]. eapply short_le; [|exact Hy]. cbn [length]. lia.
    - destruct ae; cbn; (split; [assumption|]); [|exact I]. split; [lia|exact I].
    - cbn. split; [assumption|]. split; [lia|exact I].
  Qed.
End Instr.
#[export] Hint Extern 1 (Safe _ decode_memarg _ _) => eapply safe_memarg : safe.
#[export] Hint Extern 1 (Safe _ decode_laneidx _ _) => eapply safe_laneidx : safe.
#[export] Hint Extern 1 (Safe _ decode_blocktype _ _) => eapply safe_blocktype : safe.
#[export] Hint Extern 1 (Safe _ decode_catch _ _) => eapply safe_catch : safe.
#[export] Hint Extern 1 (Safe _ decode_castop _ _) => eapply safe_castop : safe.

Ltac pm := cbn [pmatch] in *; lia.
Section Parse.
  Context {env : Env} {R : Type} `{ReaderOk R}.
  Lemma safe_parse_block d p op : d <= stack_limit -> (2 <= op <= 4)%N -> Safe d p 1 any -> Safe d (parse_block p op : M R _ _) 0 any.
  Proof.
    intros Hsl Hop Hp. unfold parse_block, ctl. sb.
    eapply (safe_bind _ 0 0); [apply safe_parse_body; [exact Hsl|exact Hp]|intros [in1 parsed] Hd|lia].
    eapply safe_switch_cons; intros ?; [safe|]. eapply safe_switch_cons; intros ?; [safe|].
    - eapply safe_switch_cons; intros ?; [|exfalso; pm]. destruct parsed as [i| |]; [destruct Hd| |safe].
      eapply (safe_bind _ 0 0); [apply safe_parse_body; [exact Hsl|exact Hp]|intros [in2 ?] _; safe|lia].
  Qed.
  Lemma safe_try_table d p : d <= stack_limit -> Safe d p 1 any -> Safe d (parse_try_table p : M R _ _) 0 any.
  Proof.
    intros Hsl Hp. unfold parse_try_table, ctl. sb. sb.
    eapply (safe_bind _ 0 0); [apply safe_parse_body; [exact Hsl|exact Hp]|intros [in1 parsed] Hd; safe|lia].
  Qed.
  Lemma safe_fb d : Safe d (parse_fb : M R _ _) 0 any.
  Proof.
    unfold parse_fb, rf, agg, ctl. sb.
    repeat (safe_step; [solve [safe]|]).
    safe_step. { sb. repeat (eapply safe_switch_cons; intros ?; [solve [safe]|]). exfalso. pm. }
    safe.
  Qed.
  Lemma safe_fc d : Safe d (parse_fc : M R _ _) 0 any.
  Proof. unfold parse_fc, num, mem, tab. safe. Qed.
  Lemma safe_fd d : Safe d (parse_fd : M R _ _) 0 any.
  Proof.
    unfold parse_fd, vec. sb.
    safe_step. { sb. safe_bind1; [|safe]. apply safe_inner.
      assert (Ho : (a <= 11 \/ a = 92 \/ a = 93)%N) by pm.
      destruct Ho as [Ho|[->| ->]]; [|reflexivity..]. apply (allN_spec 12 0); [reflexivity|lia]. }
    safe_step. { sb. sb. safe_bind1; [|safe]. apply safe_inner.
      apply (allN_spec 8 84); [reflexivity|pm]. }
    safe_step; [safe|]. safe_step; [safe|].
    safe_step. { sb. safe_bind1; [|safe]. apply safe_inner.
      apply (allN_spec 14 21); [reflexivity|pm]. }
    safe.
  Qed.
End Parse.
#[export] Hint Extern 1 (Safe _ parse_fb _ _) => eapply safe_fb : safe.
#[export] Hint Extern 1 (Safe _ parse_fc _ _) => eapply safe_fc : safe.
#[export] Hint Extern 1 (Safe _ parse_fd _ _) => eapply safe_fd : safe.

Section Expr.
  Context {env : Env} {R : Type} `{ReaderOk R}.
  Lemma safe_parse_op d p opcode : d <= stack_limit -> Safe d p 1 any -> Safe d (parse_op p opcode : M R _ _) 0 any.
  Proof.
    intros Hsl Hp. unfold parse_op, ctl, rf, var, tab, mem, num. cbv zeta.
    safe_step; [safe|]. safe_step; [safe|]. safe_step.
    eapply (safe_bind _ 0 0) with (Q1 := any); [|intros; safe|lia].
    repeat (safe_step; [solve [safe]|]).
    safe_step; [apply safe_parse_block; [exact Hsl|pm|exact Hp]|].
    repeat (safe_step; [solve [safe]|]).
    safe_step; [apply safe_try_table; [exact Hsl|exact Hp]|].
    repeat (safe_step; [solve [safe]|]).
    safe_step. { sb. safe_bind1; [|safe]. apply safe_inner. apply (allN_spec 23 0x28); [reflexivity|pm]. }
    safe.
  Qed.
  Lemma safe_parse d : d <= stack_limit -> Safe d (parse d : M R _ _) 1 any.
  Proof.
    induction d as [|d IH]; intros Hd; cbn [parse].
    - intros r. cbn. split; [apply reach_refl|lia].
    - specialize (IH ltac:(lia)). intros r. unfold bind. pose proof (safe_map_err (S d) PE_ReadOpcode _ _ _ (safe_read_byte (S d)) r) as Hb.
      destruct (map_err PE_ReadOpcode read_byte r) as [[b|e|pn|] r1]; auto.
      destruct Hb as (Hr & Hb & _). pose proof (safe_parse_op d (parse d) b ltac:(lia) IH r1) as Ho.
      destruct (parse_op (parse d) b r1) as [y r2]. destruct Ho as [Hr2 Hy].
      split; [eapply reach_trans; eauto|]. destruct y as [z|e|pn|]; auto; [destruct Hy; split; [lia|exact I]|].
      destruct pn; auto; [|lia]. apply short_S in Hy. eapply short_le; [|exact Hy]. lia.
  Qed.
  Lemma safe_expr : Safe stack_limit (decode_expr : M R _ _) 0 any.
  Proof.
    unfold decode_expr.
    assert (HG : forall n (r : R) acc bb, budget r < n -> let '(x, r') := expr_loop n acc bb r in reach r r' /\
      match x with Ok a => budget r' + 0 <= budget r /\ any a | Err _ => True | Panic AllocFailure => short stack_limit (length acc + budget r)
      | Panic StackOverflow => stack_limit <= budget r | _ => False end); [|intros r; exact (HG _ r [] false (le_n _))].
    induction n as [|n IH]; intros r acc bb Hn; [lia|]. cbn [expr_loop]. unfold bind at 1.
    pose proof (safe_map_err stack_limit Expr_ParseInstruction _ _ _ (safe_parse stack_limit (le_n _)) r) as Hp.
    destruct (map_err Expr_ParseInstruction (parse stack_limit) r) as [[x|e|pn|] r1]; [|exact Hp| |exact Hp].
    2: { destruct Hp as [Hr Hx]. split; [exact Hr|]. destruct pn; auto. eapply short_le; [|exact Hx]. lia. }
    destruct Hp as (Hr & Hb & _). destruct x as [i| |].
    - unfold bind, alloc. destruct (N.leb_spec (lenN (i :: acc)) alloc_limit) as [Ha|Ha]; cbn [ret panic_with].
      2: { split; [exact Hr|]. eapply short_in; [apply le_n| |exact Ha]. cbn [length]. lia. }
      specialize (IH r1 (i :: acc) (if instruction_contains_data_index i then true else bb) ltac:(lia)). destruct (expr_loop n (i :: acc) _ r1) as [y r2].
      destruct IH as [Hr2 Hy]. split; [eapply reach_trans; eauto|].
      destruct y as [z|e|pn|]; auto; [destruct Hy; split; [lia|assumption]|]. destruct pn; auto; [|lia]. eapply short_le; [|exact Hy]. cbn [length]. lia.
    - cbn. split; [assumption|exact I].
    - cbn. split; [assumption|]. split; [lia|exact I].
  Qed.
  Lemma safe_expr_only : Safe stack_limit (decode_expr_only : M R _ _) 0 any.
  Proof. unfold decode_expr_only. eapply (safe_bind _ 0 0); [apply safe_expr|intros [e b] _; safe|lia]. Qed.
End Expr.
#[export] Hint Extern 1 (Safe _ decode_expr _ _) => eapply safe_expr : safe.
#[export] Hint Extern 1 (Safe _ decode_expr_only _ _) => eapply safe_expr_only : safe.

Section Sections.
  Context {env : Env} {R : Type} `{ReaderOk R}.
  Local Notation D := stack_limit.
  Lemma safe_list_all {E T} d (f : M R E T) P : Safe d f 0 P -> Safe d (decode_list f) 0 (Forall P).
  Proof.
    intros Hf. unfold decode_list.
    eapply safe_weaken; [apply safe_list_st with (Inv := fun l _ => Forall P l)|lia|].
    - constructor.
    - intros l [] Hl. eapply (safe_bind _ 0 0); [exact Hf| |lia].
      intros a Ha. apply safe_ret. apply Forall_app. auto.
    - intros l [_ Hl]. exact Hl.
  Qed.
  Lemma safe_custom d : d <= stack_limit -> Safe d (decode_section_custom : M R _ _) 0 any.
  Proof. intros Hd. unfold decode_section_custom. sb. eapply (safe_bind _ 0 0); [apply safe_map_err, safe_read_to_end, Hd|intros; safe|lia]. Qed.
  Lemma safe_type_section d : Safe d (decode_type_section : M R _ _) 0 any.
  Proof. unfold decode_type_section. safe. Qed.
  Lemma safe_import d : Safe d (parse_import : M R _ _) 0 any.
  Proof. unfold parse_import. safe. Qed.
  Lemma safe_import_section d : Safe d (decode_import_section : M R _ _) 0 any.
  Proof. unfold decode_import_section. apply safe_map_err, safe_list, safe_import. Qed.
  Lemma safe_function_section d : Safe d (decode_function_section : M R _ _) 0 any.
  Proof. unfold decode_function_section. safe. Qed.
  Lemma safe_table : Safe D (decode_table : M R _ _) 0 any.
  Proof. unfold decode_table. safe. Qed.
  Lemma safe_table_section : Safe D (decode_table_section : M R _ _) 0 any.
  Proof. unfold decode_table_section. apply safe_map_err, safe_list, safe_table. Qed.
  Lemma safe_memory_section d : Safe d (decode_memory_section : M R _ _) 0 any.
  Proof. unfold decode_memory_section. safe. Qed.
  Lemma safe_tag_section d : Safe d (decode_tag_section : M R _ _) 0 any.
  Proof. unfold decode_tag_section. safe. Qed.
  Lemma safe_global : Safe D (parse_global : M R _ _) 0 any.
  Proof. unfold parse_global. safe. Qed.
  Lemma safe_global_section : Safe D (decode_global_section : M R _ _) 0 any.
  Proof. unfold decode_global_section. apply safe_map_err, safe_list, safe_global. Qed.
  Lemma safe_export d : Safe d (parse_export : M R _ _) 0 any.
  Proof. unfold parse_export. sb. sb. sb. destruct (externidx_from a0 a1); safe. Qed.
  Lemma safe_export_section d : Safe d (decode_export_section : M R _ _) 0 any.
  Proof. unfold decode_export_section. apply safe_map_err, safe_list, safe_export. Qed.
  Lemma safe_start_section d : Safe d (decode_start_section : M R _ _) 0 any.
  Proof. unfold decode_start_section. safe. Qed.
  Lemma safe_elemkind d : Safe d (parse_elemkind : M R _ _) 0 any.
  Proof. unfold parse_elemkind. safe. Qed.
  Local Hint Extern 1 (Safe _ parse_elemkind _ _) => eapply safe_elemkind : safe.
  Lemma safe_elem : Safe D (parse_elem : M R _ _) 0 any.
  Proof. unfold parse_elem. safe. Qed.
  Lemma safe_element_section : Safe D (decode_element_section : M R _ _) 0 any.
  Proof. unfold decode_element_section. apply safe_map_err, safe_list, safe_elem. Qed.
  Lemma safe_datacount_section d : Safe d (decode_datacount_section : M R _ _) 0 any.
  Proof. unfold decode_datacount_section. safe. Qed.
  Lemma safe_data : Safe D (parse_data : M R _ _) 0 any.
  Proof. unfold parse_data. safe. Qed.
  Lemma safe_data_section : Safe D (decode_data_section : M R _ _) 0 any.
  Proof. unfold decode_data_section. apply safe_map_err, safe_list, safe_data. Qed.

  Definition loc_inv (l : list Local_) (s : N) : Prop := (s = total_locals l /\ s <= 2 ^ 32 - 1)%N.
  Lemma total_locals_app l x : total_locals (l ++ [x]) = (total_locals l + l_count x)%N.
  Proof. unfold total_locals. induction l as [|y l IH]; cbn; [lia|]. cbn in IH. lia. Qed.
  Lemma safe_code_local d l s : loc_inv l s ->
    Safe d (parse_code_local (2 ^ 32 - 1)%N s : M R _ _) 0 (fun '(t, s') => loc_inv (l ++ [t]) s').
  Proof.
    intros [-> Hs]. unfold parse_code_local.
    eapply (safe_bind _ 0 0); [apply safe_map_err_u32|intros n Hn|lia]. unfold u32r in Hn.
    eapply (safe_bind _ 0 0); [apply safe_add_u64; lia|intros ? <-|lia].
    safe_step; [safe|]. sb. apply safe_ret. split; [|lia].
    rewrite total_locals_app. reflexivity.
  Qed.
End Sections.

Section Code.
  Context {env : Env} {R : Type} `{ReaderOk R}.
  Local Notation D := stack_limit.
  Definition code_ok (c : Code) : Prop := (total_locals (c_locals c) <= 2 ^ 32 - 1)%N.
  Lemma safe_code : Safe D (parse_code : M R _ _) 0 code_ok.
  Proof.
    unfold parse_code. sb.
    eapply (safe_bind _ 0 0).
    - apply safe_with_take with (Q := fun z => (total_locals (fst z) <= 2 ^ 32 - 1)%N) (m := 0).
      eapply (safe_bind _ 0 0); [eapply safe_map_err, safe_list_st with (Inv := loc_inv)| |lia].
      + split; [reflexivity|lia].
      + intros l s Hl. apply safe_code_local, Hl.
      + intros l [s [-> Hl]]. sb. apply safe_ret. exact Hl.
    - intros [[locals [e b]] limit] [Hl Hle]. cbn [fst] in Hl. safe_step.
      + eapply (safe_bind _ 0 0); [apply safe_sub_u64; lia|intros; safe|lia].
      + apply safe_ret. exact Hl.
    - lia.
  Qed.
  Lemma safe_code_section : Safe D (decode_code_section : M R _ _) 0 (Forall code_ok).
  Proof. unfold decode_code_section. apply safe_map_err, safe_list_all, safe_code. Qed.

  Lemma safe_fill_codes d codes i fs b : Forall code_ok codes -> i + length codes <= length fs ->
    Safe d (fill_codes i codes fs b : M R _ _) 0 any.
  Proof.
    revert i fs b; induction codes as [|c codes IH]; intros i fs b Hc Hl; cbn [fill_codes]; [safe|].
    inversion Hc as [|? ? Hc1 Hc2]; subst.
    eapply (safe_bind _ 0 0); [apply safe_alloc, Hc1|intros _ _|lia]. cbn [length] in Hl.
    destruct (nth_error fs i) as [f|] eqn:Ef.
    - apply IH; [assumption|].
      assert (Hsn : forall A j (x : A) l, length (set_nth j x l) = length l).
      { intros A j x l. revert j. induction l as [|y l IHl]; intros [|j]; cbn; auto. }
      rewrite Hsn. lia.
    - apply nth_error_None in Ef. lia.
  Qed.
  Lemma safe_decode_section kind s : Safe D (decode_section kind s : M R _ _) 0 (fun s' => section_headers (st_module s') = section_headers (st_module s)).
  Proof.
    unfold decode_section. cbv zeta.
    destruct kind;
      try (eapply (safe_bind _ 0 0) with (Q1 := any);
        [apply safe_map_err; first [apply safe_custom, le_n|apply safe_type_section|apply safe_import_section|apply safe_function_section
          |apply safe_table_section|apply safe_memory_section|apply safe_tag_section|apply safe_global_section|apply safe_export_section
          |apply safe_start_section|apply safe_element_section|apply safe_datacount_section|apply safe_data_section]
        |intros ? ?; safe; destruct s as [[] ? ?]; reflexivity|lia]; fail).
    eapply (safe_bind _ 0 0); [apply safe_map_err, safe_code_section|intros cs Hcs|lia].
    safe_step; [safe|].
    eapply (safe_bind _ 0 0); [apply safe_fill_codes; [exact Hcs|unfold lenN in *; lia]|intros [fs b] _; safe; destruct s as [[] ? ?]; reflexivity|lia].
  Qed.
End Code.

Section Module_.
  Context {env : Env} {R : Type} `{ReaderOk R}.
  Local Notation D := stack_limit.
  Lemma safe_preamble d : Safe d (parse_preamble : M R _ _) 0 any.
  Proof. unfold parse_preamble. safe. Qed.
  Lemma safe_section_id d : Safe d (read_section_id : M R _ _) 0 any.
  Proof.
    intros r. unfold read_section_id. pose proof (safe_read_byte0 d r) as Hb.
    destruct (read_byte r) as [[b|[]|p|] r1]; auto.
    all: destruct Hb as [Hr _]; split; [exact Hr|]; try exact I. split; [|exact I]. apply reach_budget in Hr; lia.
  Qed.
  Lemma read_byte_no_alloc (r : R) : fst (read_byte r) <> Panic AllocFailure.
  Proof.
    assert (HL : forall fuel need acc (r : R), fst (read_exact_loop fuel need acc r) <> Panic AllocFailure).
    { clear. induction fuel as [|fuel IH]; intros need acc r; cbn [read_exact_loop]; destruct (need =? 0)%N; try discriminate.
      destruct (read r need) as [[[|b d]|[]|] r1]; try discriminate; [destruct (lenN (b :: d) <=? need)%N; [apply IH|discriminate]|apply IH]. }
    unfold read_byte, bind, read_exact. specialize (HL (S (budget r)) 1%N [] r). destruct (read_exact_loop _ _ _ r) as [[[|b l]|e|pn|] r1]; try discriminate.
    cbn in *. intros HP. apply HL. injection HP as ->. reflexivity.
  Qed.
  Lemma safe_header d : forall r, match decode_section_header r with
    | (Ok (Some _), r') => reach r r' /\ budget r' < budget (r : R)
    | (Ok None, r') => reach r r'
    | (Err _, r') => reach r r'
    | (Panic AllocFailure, r') => reach r r' /\ short d (budget r)
    | (Panic StackOverflow, r') => reach r r' /\ d <= budget r
    | _ => False end.
  Proof.
    intros r. unfold decode_section_header, bind. 
    assert (Hid : match read_section_id r with
      | (Ok (Some _), r') => reach r r' /\ budget r' < budget r
      | (Ok None, r') => reach r r' | (Err _, r') => reach r r' | _ => False end).
    { unfold read_section_id. pose proof (safe_read_byte (S (budget r)) r) as Hb.
      pose proof (read_byte_no_alloc r) as Hn.
      destruct (read_byte r) as [[b|k|pn|] r1]; [intuition lia|destruct k; apply Hb| |apply Hb].
      destruct Hb as [_ Hb]. destruct pn; try exact Hb; [contradiction (Hn eq_refl)|lia]. }
    destruct (read_section_id r) as [[[id|]|e|pn|] r1]; cbn -[section_from_marker decode_u32]; try exact Hid; try contradiction.
    destruct Hid as [Hr Hb]. destruct (section_from_marker id) as [k|]; cbn -[decode_u32]; [|exact Hr].
    pose proof (safe_map_err_u32 d Hdr_DecodeSectionSize r1) as Hu.
    destruct (map_err Hdr_DecodeSectionSize decode_u32 r1) as [[n|e|[]|] r2]; cbn; try contradiction; try (now destruct Hu).
    - destruct Hu as (Hu & Hu2 & _). split; [eapply reach_trans; eauto|]. apply reach_budget in Hu. lia.
    - destruct Hu as [Hu _]. eapply reach_trans; eauto.
    - destruct Hu as (Hu & Hu2). split; [eapply reach_trans; eauto|]. eapply short_le; [|exact Hu2]. lia.
    - destruct Hu as (Hu & Hu2). split; [eapply reach_trans; eauto|lia].
  Qed.
  Lemma safe_section_step h s : forall r : R, let '(x, r') := section_step h s r in reach r r' /\
    match x with
    | Ok s' => budget r' <= budget r /\ length (section_headers (st_module s')) = S (length (section_headers (st_module s)))
    | Err _ => True
    | Panic AllocFailure => short D (S (length (section_headers (st_module s))) + budget r)
    | Panic StackOverflow => D <= budget r
    | Panic _ | Stuck => False
    end.
  Proof.
    intros r. unfold section_step. unfold bind at 1.
    assert (HW : Safe D (with_take (sh_size h) (_ <- validate_section_kind_expected (st_module s) h ;; decode_section (sh_kind h) s) : M R _ _) 0
      (fun '(s', l) => section_headers (st_module s') = section_headers (st_module s) /\ (l <= sh_size h)%N)).
    { apply safe_with_take with (m := 0) (Q := fun s' => section_headers (st_module s') = section_headers (st_module s)).
      eapply (safe_bind _ 0 0) with (Q1 := any); [|intros; apply safe_decode_section|lia].
      unfold validate_section_kind_expected. safe. }
    specialize (HW r). destruct (with_take _ _ r) as [[[s' limit]|e|pn|] r1]; [|exact HW| |exact HW].
    2: { destruct HW as [Hr Hx]. split; [exact Hr|]. destruct pn; auto. eapply short_le; [|exact Hx]. lia. }
    destruct HW as (Hr & Hb & Hh & Hl). destruct (N.eqb_spec limit 0) as [->|Hz]; cbn [negb].
    - cbv zeta. unfold bind, alloc. destruct (N.leb_spec (lenN (section_headers (st_module (on_module (fun m => set_headers (section_headers m ++ [h]) m) s')))) alloc_limit) as [Ha|Ha];
        unfold lenN in Ha; destruct s' as [[] ? ?]; cbn in Ha, Hh; subst; rewrite app_length in Ha; cbn [length] in Ha.
      + cbn [ret]. split; [exact Hr|]. split; [lia|]. destruct (sk_eqb (sh_kind h) SK_Custom); cbn; rewrite app_length; cbn; lia.
      + cbn [panic_with]. split; [exact Hr|]. eapply short_in; [apply le_n| |exact Ha]. lia.
    - unfold bind, sub_u64. rewrite (proj2 (N.leb_le _ _) Hl). cbn. split; [exact Hr|exact I].
  Qed.
  Lemma safe_section_loop_from s (r : R) : let '(x, r') := section_loop' s r in reach r r' /\
    match x with
    | Ok s' => budget r' <= budget r
    | Err _ => True
    | Panic AllocFailure => short D (length (section_headers (st_module s)) + budget r)
    | Panic StackOverflow => D <= budget r
    | Panic _ | Stuck => False
    end.
  Proof.
    unfold section_loop'.
    assert (HG : forall n (r : R) s, budget r < n -> let '(x, r') := section_loop n s r in reach r r' /\
      match x with
      | Ok s' => budget r' <= budget r
      | Err _ => True
      | Panic AllocFailure => short D (length (section_headers (st_module s)) + budget r)
      | Panic StackOverflow => D <= budget r
      | Panic _ | Stuck => False
      end); [|apply HG, le_n].
    clear r s. induction n as [|n IH]; intros r s Hn; [lia|]. cbn [section_loop]. unfold bind, map_err.
    pose proof (safe_header D r) as Hh.
    destruct (decode_section_header r) as [[[h|]|e|[]|] r1]; try contradiction.
    - destruct Hh as [Hr Hb]. pose proof (safe_section_step h s r1) as Hs.
      destruct (section_step h s r1) as [y r2].
      destruct Hs as [Hr2 Hy]. pose proof (reach_trans _ _ _ Hr Hr2) as Hr3.
      destruct y as [s'|e|pn|]; [|split; auto..].
      + destruct Hy as [Hb2 Hl2]. specialize (IH r2 s' ltac:(lia)). destruct (section_loop n s' r2) as [z r3].
        destruct IH as [IH1 IH2]. split; [eapply reach_trans; eauto|].
        destruct z as [z|e|pn|]; auto; [lia|]. destruct pn; auto; [|lia]. eapply short_le; [|exact IH2]. lia.
      + destruct pn; auto; [|lia]. eapply short_le; [|exact Hy]. lia.
    - cbn. split; [exact Hh|]. apply reach_budget in Hh. lia.
    - split; [exact Hh|exact I].
    - destruct Hh as [Hr Hx]. split; [exact Hr|]. eapply short_le; [|exact Hx]. lia.
    - exact Hh.
  Qed.
  Lemma safe_section_loop s : section_headers (st_module s) = [] -> Safe D (section_loop' s : M R _ _) 0 any.
  Proof.
    intros Hs r. pose proof (safe_section_loop_from s r) as HL. rewrite Hs in HL. destruct (section_loop' s r) as [x r']. destruct HL as [Hr Hx]. split; [exact Hr|].
    destruct x; auto. split; [lia|exact I].
  Qed.
  Theorem safe_decode_module : Safe D (decode_module : M R _ _) 0 any.
  Proof.
    unfold decode_module. eapply (safe_bind _ 0 0); [apply safe_map_err, safe_preamble|intros _ _|lia].
    eapply (safe_bind _ 0 0); [apply safe_section_loop; reflexivity|intros s _|lia].
    unfold final_checks. cbv zeta. safe.
  Qed.
End Module_.
