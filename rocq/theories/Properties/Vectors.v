(** C09: what an error in a vector tells.  For every reader, every element
    decoder (with or without captured state) and every input. *)
From Verif Require Import Model.Prelude Model.Io Model.Ast Model.Errors Model.Integer Model.Helpers.
From Verif Require Import Properties.Samples Proofs.Machine Proofs.Loop.
From Coq Require Import Lia.

(** [in_sequence f st r xs st' r']: the element decoder [f], called
    |xs| times in sequence from closure state [st] and reader [r], returned the
    elements [xs] and left closure state [st'] and reader [r']. *)
Inductive in_sequence {St R E T} (f : St -> M R E (T * St)) : St -> R -> list T -> St -> R -> Prop :=
| seq_nil st r : in_sequence f st r [] st r
| seq_cons st r x st1 r1 xs st2 r2 : f st r = (Ok (x, st1), r1) -> in_sequence f st1 r1 xs st2 r2 -> in_sequence f st r (x :: xs) st2 r2.

Section C09.
  Context {env : Env} {St R E T : Type} `{Reader R} (f : St -> M R E (T * St)).
  Notation step := (list_step f).
  Lemma step_eq i items st r : step (i, items, st) r =
    match f st r with (Ok (a, st'), r') => (Ok ((i + 1)%N, a :: items, st'), r') | (Err e, r') => (Err (ParseElement i e), r') | (Panic x, r') => (Panic x, r') | (Stuck, r') => (Stuck, r') end.
  Proof. unfold list_step, bind, map_err, ret. destruct (f st r) as [[[]| | |]]; reflexivity. Qed.
  Lemma iter_err n : forall i items st r e r', iterM step n (i, items, st) r = (Err e, r') <->
    exists xs st1 r1 e0, length xs < n /\ in_sequence f st r xs st1 r1 /\ f st1 r1 = (Err e0, r') /\ e = ParseElement (i + N.of_nat (length xs))%N e0.
  Proof.
    induction n as [|n IH]; intros i items st r e r'.
    - cbn. split; [discriminate|]. intros (xs & _ & _ & _ & Hl & _). lia.
    - cbn [iterM]. unfold bind at 1. rewrite step_eq. destruct (f st r) as [[[a st']|e1|pn|] r1] eqn:Ef.
      + rewrite IH. split.
        * intros (xs & st1 & r2 & e0 & Hl & Hs & He & ->). exists (a :: xs), st1, r2, e0. split; [cbn; lia|]. split; [econstructor; eassumption|]. split; [exact He|]. f_equal. cbn [length]. lia.
        * intros (xs & st1 & r2 & e0 & Hl & Hs & He & ->). inversion Hs as [|? ? x0 ? ? xs' ? ? Hf Hs']; subst; [congruence|]. rewrite Ef in Hf. injection Hf as <- <- <-.
          exists xs', st1, r2, e0. cbn [length] in *. repeat split; try assumption; [lia|f_equal; lia].
      + split.
        * intros [= <- <-]. exists [], st, r, e1. cbn. repeat split; [lia|constructor|exact Ef|f_equal; lia].
        * intros (xs & st1 & r2 & e0 & Hl & Hs & He & ->). inversion Hs; subst; [|congruence]. rewrite Ef in He. injection He as <- <-. cbn. f_equal. f_equal. f_equal. lia.
      + split; [discriminate|]. intros (xs & st1 & r2 & e0 & Hl & Hs & He & ->). inversion Hs; subst; congruence.
      + split; [discriminate|]. intros (xs & st1 & r2 & e0 & Hl & Hs & He & ->). inversion Hs; subst; congruence.
  Qed.
  (** the error for element [i] is reported exactly when: the length prefix
      announces more than [i] elements (and room for them is available),
      elements 0 .. i-1 decode in sequence, and decoding the next one fails
      with the error reported *)
  Theorem C09_element_st st r i e r' : decode_list_st f st r = (Err (ParseElement i e), r') <->
    exists n r0 xs st1 r1, decode_u32 r = (Ok n, r0) /\ (n <= alloc_limit)%N /\ (i < n)%N /\ length xs = N.to_nat i /\
      in_sequence f st r0 xs st1 r1 /\ f st1 r1 = (Err e, r').
  Proof.
    unfold decode_list_st, bind at 1, map_err at 1. destruct (decode_u32 r) as [[n|e0|pn|] r0].
    - unfold bind at 1, alloc. destruct (N.leb_spec n alloc_limit) as [Ha|Ha].
      + unfold ret at 1. unfold bind at 1. rewrite loopN_iter. pose proof (iter_err (N.to_nat n) 0 [] st r0) as HI.
        destruct (iterM step (N.to_nat n) (0%N, [], st) r0) as [[[[? ?] ?]|e1|pn|] r1].
        * split; [discriminate|]. intros (n' & r0' & xs & st1 & r2 & [= <- <-] & _ & Hi & Hl & Hs & Hf).
          refine (_ (proj2 (HI (ParseElement i e) r') _)); [intros HX; discriminate HX|]. exists xs, st1, r2, e. repeat split; try assumption; [lia|f_equal; lia].
        * split.
          -- intros [= -> ->]. destruct (proj1 (HI _ _) eq_refl) as (xs & st1 & r2 & e0 & Hl & Hs & Hf & [= -> <-]).
             exists n, r0, xs, st1, r2. repeat split; try assumption; lia.
          -- intros (n' & r0' & xs & st1 & r2 & [= <- <-] & _ & Hi & Hl & Hs & Hf).
             refine (_ (proj2 (HI (ParseElement i e) r') _)); [intros HX; congruence|]. exists xs, st1, r2, e. repeat split; try assumption; [lia|f_equal; lia].
        * split; [discriminate|]. intros (n' & r0' & xs & st1 & r2 & [= <- <-] & _ & Hi & Hl & Hs & Hf).
          refine (_ (proj2 (HI (ParseElement i e) r') _)); [intros HX; discriminate HX|]. exists xs, st1, r2, e. repeat split; try assumption; [lia|f_equal; lia].
        * split; [discriminate|]. intros (n' & r0' & xs & st1 & r2 & [= <- <-] & _ & Hi & Hl & Hs & Hf).
          refine (_ (proj2 (HI (ParseElement i e) r') _)); [intros HX; discriminate HX|]. exists xs, st1, r2, e. repeat split; try assumption; [lia|f_equal; lia].
      + split; [discriminate|]. intros (n' & r0' & xs & st1 & r2 & [= <- <-] & Ha' & _). lia.
    - split; [discriminate|]. intros (n' & r0' & xs & st1 & r2 & He & _). discriminate.
    - split; [discriminate|]. intros (n' & r0' & xs & st1 & r2 & He & _). discriminate.
    - split; [discriminate|]. intros (n' & r0' & xs & st1 & r2 & He & _). discriminate.
  Qed.
End C09.
(** the same for element decoders without state, as a relation on [p] itself *)
Inductive one_by_one {R E T} (p : M R E T) : R -> list T -> R -> Prop :=
| one_nil r : one_by_one p r [] r
| one_cons r x r1 xs r2 : p r = (Ok x, r1) -> one_by_one p r1 xs r2 -> one_by_one p r (x :: xs) r2.
Theorem C09_element {env : Env} {R E T} `{Reader R} (p : M R E T) r i e r' : decode_list p r = (Err (ParseElement i e), r') <->
  exists n r0 xs r1, decode_u32 r = (Ok n, r0) /\ (n <= alloc_limit)%N /\ (i < n)%N /\ length xs = N.to_nat i /\
    one_by_one p r0 xs r1 /\ p r1 = (Err e, r').
Proof.
  unfold decode_list. rewrite C09_element_st.
  assert (HS : forall r xs r1, one_by_one p r xs r1 <-> in_sequence (fun _ : unit => bind p (fun x => ret (x, tt))) tt r xs tt r1).
  { intros q xs q1. split.
    - induction 1 as [|q x q1 xs q2 Hp _ IH]; [constructor|]. econstructor; [|exact IH]. unfold bind, ret. rewrite Hp. reflexivity.
    - generalize tt at 2. intros u HI. induction HI as [u' q|u' q x u1 q1 xs u2 q2 Hf _ IH]; [constructor|]. econstructor; [|exact IH].
      unfold bind, ret in Hf. destruct (p q) as [[y| | |] q0]; try discriminate. injection Hf as <- _ <-. reflexivity. }
  split.
  - intros (n & r0 & xs & [] & r1 & Hu & Ha & Hi & Hl & Hs & Hf). exists n, r0, xs, r1. rewrite HS. repeat split; try assumption.
    unfold bind, ret in Hf. destruct (p r1) as [[]]; congruence.
  - intros (n & r0 & xs & r1 & Hu & Ha & Hi & Hl & Hs & Hf). exists n, r0, xs, tt, r1. rewrite <- HS. repeat split; try assumption. unfold bind, ret. rewrite Hf. reflexivity.
Qed.
(** a failing length is reported as such *)
Theorem C09_length {env : Env} {R E T} `{Reader R} (p : M R E T) r e r' : decode_list p r = (Err (DecodeLength e), r') <-> decode_u32 r = (Err e, r').
Proof.
  unfold decode_list, decode_list_st, bind at 1, map_err at 1. destruct (decode_u32 r) as [[n|e0|pn|] r0]; try (split; congruence).
  split; [|discriminate]. unfold bind at 1, alloc. destruct (n <=? alloc_limit)%N; [|discriminate]. unfold ret at 1, bind at 1. rewrite loopN_iter.
  match goal with |- context [iterM ?s ?k ?a r0] => destruct (iterM s k a r0) as [[[[? ?] ?]|e1|pn|] r1] eqn:EI end; try discriminate.
  intros [= -> ->]. apply iter_err in EI as (? & ? & ? & ? & _ & _ & _ & Hx). discriminate.
Qed.
Example C09_ex : @decode_list roomy (list byte) _ _ _ decode_u32 [x03; x07; x80; x01; xff; xff; xff; xff; x7f; x00] = (Err (ParseElement 2%N U32_TooLarge), [x00]).
Proof. vm_compute. reflexivity. Qed.
