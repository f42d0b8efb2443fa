(** What [read_exact], [read_byte] and [read_to_end] do, in terms of machines *)
From Verif Require Import Model.Prelude Model.Io Proofs.Machine.
From Coq Require Import Lia ZifyBool ZifyNat ZifyN.

(** read [n] bytes off a machine *)
Fixpoint cread {C} `{Machine C} (n : nat) (acc : list byte) (c : C) : res io_error (list byte) * C :=
  match n with
  | O => (Ok acc, c)
  | S n' => match next c with
            | (AByte b, c') => cread n' (acc ++ [b]) c'
            | (AEof, c') => (Err UnexpectedEof, c')
            | (AErr k, c') => (Err k, c')
            end
  end.

Section Cread.
  Context {C : Type} `{Machine C}.
  Implicit Types c : C.
  Lemma cread_bsteps c bs c' n acc : bsteps c bs c' -> cread (length bs + n) acc c = cread n (acc ++ bs) c'.
  Proof.
    intros Hs; revert acc; induction Hs as [c|c b c1 bs c2 E Hs IH]; intros acc; cbn.
    - rewrite app_nil_r; reflexivity.
    - rewrite E, IH, <- app_assoc. reflexivity.
  Qed.
  Lemma cread_ok n acc c l c' : cread n acc c = (Ok l, c') -> exists bs, l = acc ++ bs /\ length bs = n /\ bsteps c bs c'.
  Proof.
    revert acc c; induction n as [|n IH]; cbn; intros acc c.
    - intros [= <- <-]. exists []. rewrite app_nil_r. repeat split; constructor.
    - destruct (next c) as [[b| |k] c1] eqn:E; try discriminate.
      intros Hr. apply IH in Hr as (bs & -> & <- & Hs). exists (b :: bs).
      rewrite <- app_assoc. repeat split. econstructor; eauto.
  Qed.
  Lemma cread_not_panic n acc c : match fst (cread n acc c) with Ok _ | Err _ => True | _ => False end.
  Proof.
    revert acc c; induction n as [|n IH]; cbn; intros acc c; [exact I|].
    destruct (next c) as [[b| |k] c1] eqn:E; cbn; [apply IH|exact I|exact I].
  Qed.
End Cread.

Section ReadExact.
  Context {R C : Type} `{Lawful R C}.
  Implicit Types (r : R) (c : C).
  Lemma read_exact_loop_spec fuel need acc r x r' :
    budget r < fuel -> read_exact_loop fuel need acc r = (x, r') ->
    (x, abs r') = cread (N.to_nat need) acc (abs r).
  Proof.
    revert need acc r; induction fuel as [|fuel IH]; intros need acc r Hf; [lia|]. cbn [read_exact_loop].
    destruct (N.eqb_spec need 0) as [->|Hn].
    { intros [= <- <-]. reflexivity. }
    pose proof (law_read r need ltac:(lia)) as HL.
    destruct (read r need) as [[[|b d]|k|] r1] eqn:ER; [| | |contradiction].
    - intros [= <- <-]. destruct (N.to_nat need) eqn:En; [lia|]. cbn. rewrite HL. reflexivity.
    - pose proof (ok_data _ _ _ _ ER) as [Hl Hb]. cbn [length] in Hb. unfold lenN in *. 
      destruct (N.leb_spec (N.of_nat (length (b :: d))) need); [|lia].
      intros Hr. apply IH in Hr; [|cbn in *; lia]. rewrite Hr.
      rewrite <- (cread_bsteps (abs r) (b :: d)) by exact HL. f_equal. lia.
    - destruct k.
      + intros [= <- <-]. destruct (N.to_nat need) eqn:En; [lia|]. cbn. rewrite HL. reflexivity.
      + pose proof (ok_intr _ _ _ ER). intros Hr. apply IH in Hr; [|lia]. rewrite Hr, HL. reflexivity.
      + intros [= <- <-]. destruct (N.to_nat need) eqn:En; [lia|]. cbn. rewrite HL. reflexivity.
  Qed.
  Lemma read_exact_spec n r x r' :
    read_exact n r = (x, r') -> (x, abs r') = cread (N.to_nat n) [] (abs r).
  Proof. apply read_exact_loop_spec. lia. Qed.
  Lemma read_exact_sound n r l r' : read_exact n r = (Ok l, r') -> lenN l = n /\ bsteps (abs r) l (abs r').
  Proof.
    intros E. apply read_exact_spec in E. symmetry in E. apply cread_ok in E as (bs & -> & Hl & Hs). cbn. 
    split; [unfold lenN; lia|assumption].
  Qed.
  Lemma read_exact_complete n r l c' : bsteps (abs r) l c' -> lenN l = n -> exists r', read_exact n r = (Ok l, r') /\ abs r' = c'.
  Proof.
    intros Hs Hl. destruct (read_exact n r) as [x r'] eqn:E. pose proof (read_exact_spec _ _ _ _ E) as HS.
    replace (N.to_nat n) with (length l + 0) in HS by (unfold lenN in Hl; lia).
    rewrite (cread_bsteps _ _ _ _ _ Hs) in HS. cbn in HS. injection HS as -> Ha. exists r'. split; [reflexivity|exact Ha].
  Qed.

  Lemma read_byte_spec r x r' : read_byte r = (x, r') ->
    (x, abs r') = match next (abs r) with
                  | (AByte b, c') => (Ok b, c')
                  | (AEof, c') => (Err UnexpectedEof, c')
                  | (AErr k, c') => (Err k, c')
                  end.
  Proof.
    unfold read_byte, bind. destruct (read_exact 1 r) as [y r1] eqn:E. apply read_exact_spec in E.
    change (N.to_nat 1) with 1 in E. cbn [cread app] in E.
    destruct (next (abs r)) as [[b| |k] c1]; inversion E; subst; cbn; intros HE; inversion HE; subst; reflexivity.
  Qed.

  (** read_to_end: all bytes up to an end-of-file report or a failure *)
  Lemma read_to_end_loop_spec {env : Env} fuel i acc r x r' :
    budget r < fuel -> (lenN acc <= alloc_limit)%N -> read_to_end_loop fuel i acc r = (x, r') ->
    exists bs c1, bsteps (abs r) bs c1 /\
      (((lenN (acc ++ bs) <= alloc_limit)%N /\
        ((x = Ok (acc ++ bs) /\ next c1 = (AEof, abs r')) \/ (exists k, k <> Interrupted /\ x = Err k /\ next c1 = (AErr k, abs r')))) \/
       ((alloc_limit < lenN (acc ++ bs))%N /\ x = Panic AllocFailure)).
  Proof.
    revert i acc r; induction fuel as [|fuel IH]; intros i acc r Hf Ha; [lia|]. cbn [read_to_end_loop].
    pose proof (law_read r (N.succ (probe i)) ltac:(lia)) as HL.
    destruct (read r _) as [[[|b d]|k|] r1] eqn:ER; [| | |contradiction].
    - intros [= <- <-]. exists [], (abs r). split; [constructor|]. left. rewrite app_nil_r. auto.
    - pose proof (ok_data _ _ _ _ ER) as [Hl Hb]. cbn [length] in Hb. destruct (N.leb_spec (lenN (b :: d)) (N.succ (probe i))); [|lia].
      destruct (N.leb_spec (lenN (acc ++ b :: d)) alloc_limit) as [Ha'|Ha'].
      2: { intros [= <- <-]. exists (b :: d), (abs r1). split; [exact HL|]. right. auto. }
      intros Hr. apply IH in Hr as (bs & c1 & Hs & Hx); [|lia|exact Ha'].
      exists ((b :: d) ++ bs), c1. split; [eapply bsteps_app; eauto|]. rewrite app_assoc. exact Hx.
    - destruct k.
      + intros [= <- <-]. exists [], (abs r). split; [constructor|]. rewrite app_nil_r. left. split; [exact Ha|]. right. exists UnexpectedEof. repeat split; auto; discriminate.
      + pose proof (ok_intr _ _ _ ER). intros Hr. apply IH in Hr as (bs & c1 & Hs & Hx); [|lia|exact Ha]. rewrite HL in Hs. eauto.
      + intros [= <- <-]. exists [], (abs r). split; [constructor|]. rewrite app_nil_r. left. split; [exact Ha|]. right. exists (OtherKind code). repeat split; auto; discriminate.
  Qed.
  Lemma read_to_end_spec {env : Env} r x r' :
    read_to_end r = (x, r') ->
    exists bs c1, bsteps (abs r) bs c1 /\
      (((lenN bs <= alloc_limit)%N /\
        ((x = Ok bs /\ next c1 = (AEof, abs r')) \/ (exists k, k <> Interrupted /\ x = Err k /\ next c1 = (AErr k, abs r')))) \/
       ((alloc_limit < lenN bs)%N /\ x = Panic AllocFailure)).
  Proof. intros E. apply read_to_end_loop_spec in E; [|lia|apply N.le_0_l]. exact E. Qed.
End ReadExact.
