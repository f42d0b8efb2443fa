(** [loopN] as unary iteration *)
From Verif Require Import Model.Prelude.
From Coq Require Import Lia.

Section Loop.
  Context {R E S : Type}.
  Variable step : S -> M R E S.
  Fixpoint iterM (n : nat) (s : S) : M R E S :=
    match n with O => ret s | Datatypes.S n' => bind (step s) (iterM n') end.
  Lemma iterM_1 s r : iterM 1 s r = step s r.
  Proof. cbn. unfold bind, ret. destruct (step s r) as [[]]; reflexivity. Qed.
  Lemma iterM_add a b s r : iterM (a + b) s r = bind (iterM a s) (iterM b) r.
  Proof.
    revert s r; induction a as [|a IH]; intros s r; [reflexivity|]. cbn. unfold bind.
    destruct (step s r) as [[s1| | |] r1]; auto. rewrite IH. reflexivity.
  Qed.
  Lemma bind_ext {A B} (p p' : M R E A) (q q' : A -> M R E B) r :
    (forall r, p r = p' r) -> (forall a r, q a r = q' a r) -> bind p q r = bind p' q' r.
  Proof. intros Hp Hq. unfold bind. rewrite Hp. destruct (p' r) as [[]]; auto. Qed.
  Lemma loop_pos_iter p s r : loop_pos step p s r = iterM (Pos.to_nat p) s r.
  Proof.
    revert s r; induction p as [p IH|p IH|]; intros s r.
    - replace (Pos.to_nat p~1) with (1 + (Pos.to_nat p + Pos.to_nat p)) by lia.
      rewrite iterM_add. cbn [loop_pos]. unfold bind at 1 3. rewrite iterM_1.
      destruct (step s r) as [[s1| | |] r1]; auto.
      rewrite iterM_add. apply bind_ext; intros; apply IH.
    - replace (Pos.to_nat p~0) with (Pos.to_nat p + Pos.to_nat p) by lia.
      rewrite iterM_add. cbn [loop_pos]. apply bind_ext; intros; apply IH.
    - rewrite Pos2Nat.inj_1, iterM_1. reflexivity.
  Qed.
  Lemma loopN_iter n s r : loopN step n s r = iterM (N.to_nat n) s r.
  Proof. destruct n as [|p]; [reflexivity|]. apply loop_pos_iter. Qed.
End Loop.
