(** The text of a Debug tree has no empty lines, so that it can be told apart
    from what is printed before it, after an empty line. *)
From Verif Require Import Model.Prelude Model.Io Model.Ast Model.Errors Model.Display Model.Debug Model.DebugError Spec.Debug.
From Verif Require Import Proofs.Pretty Proofs.Debug Proofs.DebugError.
From Coq Require Import Bool Lia String Ascii Strings.Byte.
Local Open Scope string_scope.

(** [p]: the previous character is a newline; [None] at an empty line *)
Fixpoint run (p : bool) (s : string) : option bool :=
  match s with
  | "" => Some p
  | String c s => if Ascii.eqb c newline then if p then None else run true s else run false s
  end.
Lemma run_app a : forall p b, run p (a ++ b) = match run p a with Some q => run q b | None => None end.
Proof. induction a as [|c a IH]; intros p b; [reflexivity|]. cbn [append run]. destruct (Ascii.eqb c newline), p; first [reflexivity|apply IH]. Qed.
Lemma run_pad s : forall b p q, run p s = Some q -> run p (pad b s) = Some q.
Proof.
  induction s as [|c s IH]; intros b p q H; [exact H|]. cbn [pad]. cbn [run] in H.
  assert (K : run p (String c (pad (Ascii.eqb c newline) s)) = Some q).
  { cbn [run]. destruct (Ascii.eqb c newline); [destruct p; [discriminate H|]|]; apply IH; exact H. }
  destruct b; [|exact K]. rewrite run_app. change (run p "    ") with (Some false). destruct p; [|exact K].
  cbn [run] in *. destruct (Ascii.eqb c newline); [discriminate K|exact K].
Qed.
Lemma run_field s q : run false s = Some q -> run true (pad true (s ++ "," ++ nl)) = Some true.
Proof.
  intros H. assert (Hq : forall x, run x "," = Some false) by reflexivity.
  assert (K : run false (s ++ "," ++ nl) = Some true) by (rewrite run_app, H; reflexivity).
  assert (Hc : exists c w, s ++ "," ++ nl = String c w) by (destruct s; do 2 eexists; reflexivity). destruct Hc as (c & w & Ec). rewrite Ec in *.
  cbn [pad]. rewrite run_app. change (run true "    ") with (Some false). cbv iota beta. apply (run_pad (String c w) false) in K. exact K.
Qed.
Lemma run_line s p : one_line s -> run p s = match s with "" => Some p | _ => Some false end.
Proof.
  unfold one_line. assert (G : forall s, ~ In newline (chars s) -> run false s = Some false).
  { clear. induction s as [|c s IH]; intros H; [reflexivity|]. cbn [chars In run] in *. destruct (Ascii.eqb_spec c newline) as [->|]; [tauto|]. apply IH. tauto. }
  destruct s as [|c s]; intros H; [reflexivity|]. cbn [chars In run] in *. destruct (Ascii.eqb_spec c newline) as [->|]; [tauto|]. apply G. tauto.
Qed.
Lemma run_line_f s : one_line s -> run false s = Some false.
Proof. intros H. rewrite run_line by exact H. destruct s; reflexivity. Qed.
Lemma run_all {A} (f : A -> string) l : Forall (fun a => run true (f a) = Some true) l -> run true (strings (map f l)) = Some true.
Proof. induction 1 as [|a l H _ IH]; [reflexivity|]. cbn [map strings fold_right]. rewrite run_app, H. exact IH. Qed.
Lemma run_pretty p t : wf p t -> run false (pretty t) = Some false.
Proof.
  induction t as [s|n fs IH|n fs IH|es IH|n t IH] using dtree_ind'; intros Hw.
  - apply run_line_f, atom_line, Hw.
  - apply wf_tuple in Hw as (Hn & Hne & Hf). apply token_line in Hn. destruct fs as [|f fs]; [contradiction|]. cbn [pretty]. rewrite run_app, (run_line_f _ Hn). cbv iota beta. rewrite run_app. change (run false "(") with (Some false). cbv iota beta. rewrite run_app. change (run false nl) with (Some true). cbv iota beta.
    rewrite run_app, run_all; [reflexivity|]. rewrite Forall_forall in *. intros x Hx. eapply run_field. auto.
  - apply wf_struct in Hw as (Hn & Hne & Hf). apply token_line in Hn. destruct fs as [|f fs]; [contradiction|]. cbn [pretty]. rewrite run_app, (run_line_f _ Hn). cbv iota beta. rewrite run_app. change (run false " {") with (Some false). cbv iota beta. rewrite run_app. change (run false nl) with (Some true). cbv iota beta.
    rewrite run_app, run_all; [reflexivity|]. rewrite Forall_forall in *. intros x Hx. destruct (Hf x Hx) as [Hl Hx2]. apply token_line in Hl.
    replace (fst x ++ ": " ++ pretty (snd x) ++ "," ++ nl) with ((fst x ++ ": " ++ pretty (snd x)) ++ "," ++ nl) by (rewrite !sapp_assoc; reflexivity).
    eapply run_field. rewrite run_app, (run_line_f _ Hl). cbv iota beta. rewrite run_app. change (run false ": ") with (Some false). cbv iota beta. auto.
  - apply wf_list in Hw. destruct es as [|f fs]; [reflexivity|]. cbn [pretty]. rewrite run_app. change (run false "[") with (Some false). cbv iota beta. rewrite run_app. change (run false nl) with (Some true). cbv iota beta.
    rewrite run_app, run_all; [reflexivity|]. rewrite Forall_forall in *. intros x Hx. eapply run_field. auto.
  - destruct Hw as (_ & Hn & Ht). apply token_line in Hn. rewrite pretty_path, run_app, (run_line_f _ Hn). cbv iota beta. rewrite run_app. change (run false "::") with (Some false). cbv iota beta. auto.
Qed.

(** the last empty line *)
Lemma last_blank a w a' w' : run true w = Some true -> run true w' = Some true ->
  a ++ String newline (String newline w) = a' ++ String newline (String newline w') -> w = w'.
Proof.
  revert a'. induction a as [|c a IH]; intros [|c' a'] H H' E; cbn [append] in E.
  - injection E. auto.
  - exfalso. injection E as _ E. assert (K : run false (String newline w) = Some true) by exact H. rewrite E, run_app in K.
    destruct (run false a') as [[|]|] eqn:R; cbn in K; discriminate K.
  - exfalso. injection E as _ E. assert (K : run false (String newline w') = Some true) by exact H'. rewrite <- E, run_app in K.
    destruct (run false a) as [[|]|] eqn:R; cbn in K; discriminate K.
  - injection E as _ E. eauto.
Qed.
Section Error.
  Context {T : Texts} (HT : readable T).
  Lemma error_lines e : run true (debug_error e ++ nl) = Some true.
  Proof.
    pose proof (error_wf HT e) as Hw.
    assert (K : run true (debug_error e) = Some false); [|rewrite run_app, K; reflexivity].
    rewrite <- (run_pretty _ _ Hw). unfold debug_error. clear. destruct e; reflexivity.
  Qed.
End Error.
