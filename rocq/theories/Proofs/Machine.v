(** Readers seen abstractly: a machine delivers one atom at a time (a byte, an
    end-of-file report, or a failure). [Lawful R C]: reader [R], however it
    chunks its data and however often it is interrupted, behaves like machine
    [C].  [ReaderOk R]: the laws needed for termination only. *)
From Verif Require Import Model.Prelude Model.Io.
From Coq Require Import Lia ZifyBool ZifyNat ZifyN.

(** ** list helpers *)
Lemma takeN_dropN {A} n (l : list A) : takeN n l ++ dropN n l = l.
Proof.
  revert n; induction l as [|x l IH]; intros n; cbn; auto.
  destruct (N.eqb_spec n 0); cbn; [reflexivity|]. f_equal; apply IH.
Qed.
Lemma lenN_takeN {A} n (l : list A) : (lenN (takeN n l) <= n)%N.
Proof.
  revert n; induction l as [|x l IH]; intros n; cbn; [lia|].
  destruct (N.eqb_spec n 0); cbn; [lia|].
  specialize (IH (N.pred n)). unfold lenN in *; cbn [length]. lia.
Qed.
Lemma takeN_nil {A} n (l : list A) : (0 < n)%N -> takeN n l = [] -> l = [].
Proof. destruct l; cbn; auto. destruct (N.eqb_spec n 0); [lia|discriminate]. Qed.
Lemma length_takeN_dropN {A} n (l : list A) : length (takeN n l) + length (dropN n l) = length l.
Proof. rewrite <- app_length, takeN_dropN; reflexivity. Qed.

(** ** Machines *)
Inductive atom : Type := AByte (b : byte) | AEof | AErr (k : io_kind).

Class Machine (C : Type) : Type := { next : C -> atom * C }.
#[export] Hint Mode Machine ! : typeclass_instances.
#[export] Hint Mode Reader ! : typeclass_instances.

(** [bsteps c bs c']: delivering exactly the bytes [bs] leads from [c] to [c'] *)
Inductive bsteps {C} `{Machine C} : C -> list byte -> C -> Prop :=
| bs_nil c : bsteps c [] c
| bs_cons c b c1 bs c2 : next c = (AByte b, c1) -> bsteps c1 bs c2 -> bsteps c (b :: bs) c2.

Section Bsteps.
  Context {C : Type} `{Machine C}.
  Implicit Types c : C.
  Lemma bsteps_app c bs1 c1 bs2 c2 : bsteps c bs1 c1 -> bsteps c1 bs2 c2 -> bsteps c (bs1 ++ bs2) c2.
  Proof. induction 1; cbn; eauto using bs_nil, bs_cons. Qed.
  Lemma bsteps_app_inv c bs1 bs2 c2 : bsteps c (bs1 ++ bs2) c2 -> exists c1, bsteps c bs1 c1 /\ bsteps c1 bs2 c2.
  Proof.
    revert c; induction bs1 as [|b bs1 IH]; cbn; intros c Hs; [eauto using bs_nil, bs_cons|].
    inversion Hs; subst. edestruct IH as (c1' & ? & ?); eauto using bs_nil, bs_cons.
  Qed.
  Lemma bsteps_det c bs c1 c2 : bsteps c bs c1 -> bsteps c bs c2 -> c1 = c2.
  Proof.
    intros H1; revert c2; induction H1; inversion 1; subst; auto.
    apply IHbsteps. congruence.
  Qed.
  Lemma bsteps_nil_inv c c' : bsteps c [] c' -> c' = c.
  Proof. inversion 1; auto. Qed.
  Lemma bsteps_cons_inv c b bs c' : bsteps c (b :: bs) c' -> exists c1, next c = (AByte b, c1) /\ bsteps c1 bs c'.
  Proof. inversion 1; subst; eauto. Qed.
  Lemma bsteps_one c b c' : next c = (AByte b, c') -> bsteps c [b] c'.
  Proof. eauto using bs_nil, bs_cons. Qed.
End Bsteps.

(** the base machine: a list of atoms; reports end of file when exhausted *)
#[export] Instance list_machine : Machine (list atom) := {
  next l := match l with [] => (AEof, []) | a :: l' => (a, l') end
}.
#[export] Instance take_machine {C} `{Machine C} : Machine (Take C) := {
  next t := if (t_limit t =? 0)%N then (AEof, t)
            else match next (t_inner t) with
                 | (AByte b, c') => (AByte b, mkTake (t_limit t - 1)%N c')
                 | (a, c') => (a, mkTake (t_limit t) c')
                 end
}.
(** pending bytes in front of a machine *)
Definition Pend (C : Type) : Type := (list byte * C)%type.
#[export] Instance pend_machine {C} `{Machine C} : Machine (Pend C) := {
  next p := match fst p with
            | b :: f => (AByte b, (f, snd p))
            | [] => let '(a, c') := next (snd p) in (a, ([], c'))
            end
}.

(** ** Termination laws *)
Class ReaderOk (R : Type) `{Reader R} : Prop := {
  ok_data : forall (r : R) n d r', read r n = (RdOk d, r') -> (lenN d <= n)%N /\ budget r' + length d <= budget r;
  ok_err : forall (r : R) n k r', read r n = (RdErr k, r') -> budget r' <= budget r;
  ok_intr : forall (r : R) n r', read r n = (RdErr Interrupted, r') -> budget r' < budget r;
  ok_calm : forall (r : R) n r', read r n <> (RdPanic, r')
}.

#[export] Instance list_ok : ReaderOk (list byte).
Proof.
  constructor; cbn; intros r n; try (intros; discriminate).
  intros d r' [= <- <-]. split; [apply lenN_takeN|]. pose proof (length_takeN_dropN n r); lia.
Qed.

Lemma events_data_budget b bs n evs :
  events_budget (match dropN n (b :: bs) with [] => evs | c :: cs => EvData c cs :: evs end)
  = length (dropN n (b :: bs)) + events_budget evs.
Proof. destruct (dropN n (b :: bs)); cbn; lia. Qed.

#[export] Instance event_ok : ReaderOk (list event).
Proof.
  constructor; cbn [read budget event_reader]; intros r n.
  - intros d r'. destruct r as [|[b bs| |k] evs]; cbn [read_events].
    + intros [= <- <-]; cbn; split; [unfold lenN; cbn|]; lia.
    + intros [= <- <-]. split; [apply (lenN_takeN n (b :: bs))|].
      pose proof (events_data_budget b bs n evs) as HB. cbn [dropN] in HB. rewrite HB.
      pose proof (length_takeN_dropN n (b :: bs)) as HL. cbn [takeN dropN] in HL.
      cbn [events_budget length] in *; lia.
    + intros [= <- <-]; cbn; split; [unfold lenN; cbn|]; lia.
    + discriminate.
  - intros k r'. destruct r as [|[b bs| |k'] evs]; cbn [read_events]; try discriminate.
    intros [= <- <-]. cbn; lia.
  - intros r'. destruct r as [|[b bs| |k'] evs]; cbn [read_events]; try discriminate.
    intros [= -> <-]. cbn; lia.
  - intros r'. destruct r as [|[b bs| |k'] evs]; cbn [read_events]; discriminate.
Qed.

#[export] Instance take_ok {R} `{ReaderOk R} : ReaderOk (Take R).
Proof.
  constructor; cbn [read budget take_reader]; intros t n.
  - intros d t'. destruct (N.eqb_spec (t_limit t) 0).
    + intros [= <- <-]; unfold lenN; cbn; lia.
    + destruct (read (t_inner t) _) as [[d0|k|] r'] eqn:E; [|discriminate..]. destruct (lenN d0 <=? t_limit t)%N; [|discriminate].
      intros [= <- <-]; cbn. apply ok_data in E as [? ?]. split; [|assumption]. lia.
  - intros k t'. destruct (N.eqb_spec (t_limit t) 0); [discriminate|].
    destruct (read (t_inner t) _) as [[d0|k0|] r'] eqn:E; [destruct (lenN d0 <=? t_limit t)%N; discriminate| |discriminate].
    intros [= <- <-]; cbn. eapply ok_err; eauto.
  - intros t'. destruct (N.eqb_spec (t_limit t) 0); [discriminate|].
    destruct (read (t_inner t) _) as [[d0|k0|] r'] eqn:E; [destruct (lenN d0 <=? t_limit t)%N; discriminate| |discriminate].
    intros [= -> <-]; cbn. eapply ok_intr; eauto.
  - intros t'. destruct (N.eqb_spec (t_limit t) 0); [discriminate|].
    destruct (read (t_inner t) _) as [[d0|k0|] r'] eqn:E; [|discriminate|destruct (ok_calm _ _ _ E)].
    apply ok_data in E as [? ?]. destruct (N.leb_spec (lenN d0) (t_limit t)); [discriminate|lia].
Qed.

#[export] Instance chain_ok {R} `{ReaderOk R} : ReaderOk (Chain R).
Proof.
  constructor; cbn [read budget chain_reader]; intros c n.
  - intros d c'. destruct (c_done c) eqn:ED.
    { destruct (read (c_second c) n) as [[d0|k0|] r'] eqn:E; [|discriminate..].
      intros [= <- <-]; cbn. apply ok_data in E as [? ?]; split; lia. }
    destruct (takeN n (c_first c)) as [|x l] eqn:ET.
    + destruct (N.eqb_spec n 0).
      { intros [= <- <-]; unfold lenN; cbn; rewrite ED; lia. }
      destruct (read (c_second c) n) as [[d0|k0|] r'] eqn:E; [|discriminate..].
      intros [= <- <-]; cbn. apply ok_data in E as [? ?]. split; lia.
    + intros [= <- <-]; cbn. pose proof (lenN_takeN n (c_first c)).
      pose proof (length_takeN_dropN n (c_first c)). rewrite ET in *. cbn in *. split; lia.
  - intros k c'. destruct (c_done c) eqn:ED.
    { destruct (read (c_second c) n) as [[d0|k0|] r'] eqn:E; [discriminate| |discriminate].
      intros [= <- <-]; cbn. apply ok_err in E; lia. }
    destruct (takeN n (c_first c)) as [|x l] eqn:ET; [|discriminate].
    destruct (N.eqb_spec n 0); [discriminate|].
    destruct (read (c_second c) n) as [[d0|k0|] r'] eqn:E; [discriminate| |discriminate].
    intros [= <- <-]; cbn. apply ok_err in E; lia.
  - intros c'. destruct (c_done c) eqn:ED.
    { destruct (read (c_second c) n) as [[d0|k0|] r'] eqn:E; [discriminate| |discriminate].
      intros [= -> <-]; cbn. apply ok_intr in E; lia. }
    destruct (takeN n (c_first c)) as [|x l] eqn:ET; [|discriminate].
    destruct (N.eqb_spec n 0); [discriminate|].
    destruct (read (c_second c) n) as [[d0|k0|] r'] eqn:E; [discriminate| |discriminate].
    intros [= -> <-]; cbn. apply ok_intr in E; lia.
  - intros c'. destruct (c_done c).
    { destruct (read (c_second c) n) as [[d0|k0|] r'] eqn:E; [discriminate..|destruct (ok_calm _ _ _ E)]. }
    destruct (takeN n (c_first c)); [|discriminate]. destruct (n =? 0)%N; [discriminate|].
    destruct (read (c_second c) n) as [[d0|k0|] r'] eqn:E; [discriminate..|destruct (ok_calm _ _ _ E)].
Qed.

(** [reach r r']: some sequence of reads leads from [r] to [r'] *)
Inductive reach {R} `{Reader R} : R -> R -> Prop :=
| reach_refl r : reach r r
| reach_step r n r1 r2 : snd (read r n) = r1 -> reach r1 r2 -> reach r r2.

Section Reach.
  Context {R : Type} `{Reader R}.
  Implicit Types r : R.
  Lemma reach_trans r1 r2 r3 : reach r1 r2 -> reach r2 r3 -> reach r1 r3.
  Proof. induction 1; eauto using reach_refl, reach_step. Qed.
  Lemma reach_read r n x r' : read r n = (x, r') -> reach r r'.
  Proof. intros E. eapply reach_step; [|apply reach_refl]. rewrite E; reflexivity. Qed.
  Lemma read_budget `{!ReaderOk R} r n : budget (snd (read r n)) <= budget r.
  Proof.
    destruct (read r n) as [[d|k|] r'] eqn:E; cbn.
    - apply ok_data in E; lia.
    - eapply ok_err; eauto.
    - destruct (ok_calm _ _ _ E).
  Qed.
  Lemma reach_budget `{!ReaderOk R} r r' : reach r r' -> budget r' <= budget r.
  Proof. induction 1 as [|r n r1 r2 <- _ IH]; [lia|]. pose proof (read_budget r n); lia. Qed.

  Lemma reach_take (t t' : Take R) : reach t t' -> reach (t_inner t) (t_inner t').
  Proof.
    induction 1 as [|t n t1 t2 <- _ IH]; [apply reach_refl|].
    refine (reach_trans _ _ _ _ IH). cbn [read take_reader].
    destruct (N.eqb_spec (t_limit t) 0); [apply reach_refl|].
    destruct (read (t_inner t) _) as [[d0|k|] r'] eqn:E; try destruct (lenN d0 <=? t_limit t)%N; eapply reach_read; eauto.
  Qed.
  Lemma reach_take_limit (t t' : Take R) : reach t t' -> (t_limit t' <= t_limit t)%N.
  Proof.
    induction 1 as [|t n t1 t2 <- _ IH]; [lia|].
    etransitivity; [exact IH|]. cbn [read take_reader].
    destruct (N.eqb_spec (t_limit t) 0); cbn; [lia|].
    destruct (read (t_inner t) _) as [[d0|k|] r'] eqn:E; try destruct (lenN d0 <=? t_limit t)%N; cbn; lia.
  Qed.
  Lemma reach_chain (c c' : Chain R) : reach c c' -> reach (c_second c) (c_second c').
  Proof.
    induction 1 as [|c n c1 c2 <- _ IH]; [apply reach_refl|].
    refine (reach_trans _ _ _ _ IH). cbn [read chain_reader].
    destruct (c_done c).
    { destruct (read (c_second c) n) as [x r'] eqn:E; cbn. eapply reach_read; eauto. }
    destruct (takeN n (c_first c)).
    - destruct (N.eqb_spec n 0); [apply reach_refl|].
      destruct (read (c_second c) n) as [x r'] eqn:E; cbn. eapply reach_read; eauto.
    - apply reach_refl.
  Qed.
End Reach.

(** ** Lawful readers *)
Class Lawful (R C : Type) `{Reader R} `{Machine C} : Type := {
  abs : R -> C;
  lawful_ok :> ReaderOk R;
  law_read : forall r n, (0 < n)%N ->
    match read r n with
    | (RdOk [], r') => next (abs r) = (AEof, abs r')
    | (RdOk d, r') => bsteps (abs r) d (abs r')
    | (RdErr Interrupted, r') => abs r' = abs r
    | (RdErr k, r') => next (abs r) = (AErr k, abs r')
    | (RdPanic, _) => False
    end
}.
#[export] Hint Mode Lawful ! - - - : typeclass_instances.

Lemma bsteps_list bs l : bsteps (map AByte bs ++ l) bs l.
Proof. induction bs; cbn; [constructor|econstructor; [reflexivity|auto]]. Qed.

#[export] Instance list_lawful : Lawful (list byte) (list atom).
Proof.
  refine {| abs := fun l : list byte => map AByte l : list atom |}.
  intros r n Hn; cbn [read list_reader].
  destruct (takeN n r) as [|x d] eqn:E.
  - apply takeN_nil in E; [|assumption]. subst. reflexivity.
  - rewrite <- (takeN_dropN n r) at 1. rewrite E, map_app. apply bsteps_list.
Defined.

Fixpoint events_abs (evs : list event) : list atom :=
  match evs with
  | [] => []
  | EvData b bs :: evs' => map AByte (b :: bs) ++ events_abs evs'
  | EvEof :: evs' => AEof :: events_abs evs'
  | EvErr Interrupted :: evs' => events_abs evs'
  | EvErr k :: evs' => AErr k :: events_abs evs'
  end.

Lemma events_abs_data b bs n evs :
  events_abs (match dropN n (b :: bs) with [] => evs | c :: cs => EvData c cs :: evs end)
  = map AByte (dropN n (b :: bs)) ++ events_abs evs.
Proof. destruct (dropN n (b :: bs)); reflexivity. Qed.

#[export] Instance event_lawful : Lawful (list event) (list atom).
Proof.
  refine {| abs := events_abs : list event -> list atom |}.
  intros r n Hn. cbn [read event_reader]. destruct r as [|[b bs| |k] evs]; cbn [read_events].
  - reflexivity.
  - destruct (takeN n (b :: bs)) as [|x d] eqn:E.
    + apply takeN_nil in E; [discriminate|assumption].
    + rewrite <- E, events_abs_data. cbn [events_abs].
      rewrite <- (takeN_dropN n (b :: bs)) at 1. rewrite map_app, <- app_assoc. apply bsteps_list.
  - reflexivity.
  - destruct k; reflexivity.
Defined.

Definition take_abs {R C} `{Lawful R C} (t : Take R) : Take C := mkTake (t_limit t) (abs (t_inner t)).

Lemma bsteps_take {C} `{Machine C} (c : C) bs c' n :
  (lenN bs <= n)%N -> bsteps c bs c' -> bsteps (mkTake n c) bs (mkTake (n - lenN bs)%N c').
Proof.
  intros Hn Hs; revert n Hn; induction Hs as [c|c b c1 bs c2 E Hs IH]; intros n Hn.
  - rewrite N.sub_0_r. constructor.
  - unfold lenN in *; cbn [length] in *. econstructor.
    + cbn. destruct (N.eqb_spec n 0); [lia|]. rewrite E. reflexivity.
    + replace (n - N.of_nat (S (length bs)))%N with (n - 1 - N.of_nat (length bs))%N by lia.
      apply IH; lia.
Qed.
Lemma bsteps_take_inv {C} `{Machine C} (t : Take C) bs t' :
  bsteps t bs t' -> (lenN bs <= t_limit t)%N /\ t_limit t' = (t_limit t - lenN bs)%N /\ bsteps (t_inner t) bs (t_inner t').
Proof.
  induction 1 as [t|t b t1 bs t2 E Hs (IH1 & IH2 & IH3)]; unfold lenN in *; cbn [length] in *.
  - repeat split; try lia. constructor.
  - cbn in E. destruct (N.eqb_spec (t_limit t) 0); [discriminate|].
    destruct (next (t_inner t)) as [[b'| |k] c'] eqn:E'; try discriminate.
    injection E as <- <-. cbn in *. repeat split; try lia. econstructor; eauto.
Qed.

#[export] Instance take_lawful {R C} `{Lawful R C} : Lawful (Take R) (Take C).
Proof.
  refine {| abs := take_abs |}.
  intros t n Hn. cbn [read take_reader].
  destruct (N.eqb_spec (t_limit t) 0) as [E|E].
  - cbn. rewrite (proj2 (N.eqb_eq _ _) E). reflexivity.
  - assert (Hm : (0 < N.min n (t_limit t))%N) by lia.
    pose proof (law_read (t_inner t) (N.min n (t_limit t)) Hm) as HL.
    destruct (read (t_inner t) _) as [[[|x d]|k|] r'] eqn:ER.
    + change (lenN (@nil byte)) with 0%N. rewrite (proj2 (N.leb_le 0 _)) by lia. cbn. rewrite (proj2 (N.eqb_neq _ _) E), HL. cbn. unfold take_abs. cbn. rewrite N.sub_0_r. reflexivity.
    + apply ok_data in ER as [? _]. destruct (N.leb_spec (lenN (x :: d)) (t_limit t)); [|lia]. unfold take_abs. cbn [t_limit t_inner].
      apply bsteps_take; [lia|exact HL].
    + destruct k; cbn; rewrite ?HL; try (rewrite (proj2 (N.eqb_neq _ _) E)); unfold take_abs; cbn; rewrite ?HL; reflexivity.
    + exact HL.
Defined.

Definition chain_abs {R C} `{Lawful R C} (c : Chain R) : Pend C :=
  (if c_done c then [] else c_first c, abs (c_second c)).

Lemma bsteps_pend_first {C} `{Machine C} f1 f2 (c : C) : bsteps ((f1 ++ f2, c) : Pend C) f1 (f2, c).
Proof. induction f1; cbn; [constructor|econstructor; [reflexivity|assumption]]. Qed.
Lemma bsteps_pend {C} `{Machine C} (c : C) bs c' : bsteps c bs c' -> bsteps (([], c) : Pend C) bs ([], c').
Proof.
  induction 1 as [c|c b c1 bs c2 E Hs IH]; econstructor; [|exact IH].
  cbn. rewrite E. reflexivity.
Qed.
Lemma bsteps_pend_nil_inv {C} `{Machine C} (p : Pend C) bs p' :
  bsteps p bs p' -> fst p = [] -> fst p' = [] /\ bsteps (snd p) bs (snd p').
Proof.
  induction 1 as [p|p b p1 bs p2 E Hs IH]; intros Hf.
  - split; [assumption|constructor].
  - cbn in E. rewrite Hf in E. destruct (next (snd p)) as [a c'] eqn:E'.
    injection E as -> <-. cbn in *. destruct IH as [? ?]; [reflexivity|]. split; [assumption|]. econstructor; eauto.
Qed.
Lemma bsteps_pend_one_inv {C} `{Machine C} b (c : C) bs p' :
  bsteps (([b], c) : Pend C) bs p' ->
  (bs = [] /\ p' = ([b], c)) \/ (exists bs', bs = b :: bs' /\ fst p' = [] /\ bsteps c bs' (snd p')).
Proof.
  intros Hs. inversion Hs as [|? b' p1 bs' ? E Hs']; subst; [left; auto|right].
  cbn in E. injection E as <- <-. exists bs'. split; [reflexivity|].
  apply (bsteps_pend_nil_inv _ _ _ Hs'); reflexivity.
Qed.

#[export] Instance chain_lawful {R C} `{Lawful R C} : Lawful (Chain R) (Pend C).
Proof.
  refine {| abs := chain_abs |}.
  intros c n Hn. cbn [read chain_reader].
  assert (Hsec : forall f, match (let '(x, r') := read (c_second c) n in (x, mkChain f true r')) with
    | (RdOk [], r') => next (([], abs (c_second c)) : Pend C) = (AEof, chain_abs r')
    | (RdOk d, r') => bsteps (([], abs (c_second c)) : Pend C) d (chain_abs r')
    | (RdErr Interrupted, r') => chain_abs r' = ([], abs (c_second c))
    | (RdErr k, r') => next (([], abs (c_second c)) : Pend C) = (AErr k, chain_abs r')
    | (RdPanic, _) => False
    end).
  { intros f. pose proof (law_read (c_second c) n Hn) as HL.
    destruct (read (c_second c) n) as [[[|x d]|k|] r']; unfold chain_abs; cbn; [| | |exact HL].
    - rewrite HL. reflexivity.
    - apply bsteps_pend; exact HL.
    - destruct k; cbn; rewrite HL; reflexivity. }
  destruct (c_done c) eqn:ED.
  { replace (chain_abs c) with (([], abs (c_second c)) : Pend C) by (unfold chain_abs; rewrite ED; reflexivity).
    apply Hsec. }
  destruct (takeN n (c_first c)) as [|x d] eqn:ET.
  - apply takeN_nil in ET; [|assumption].
    destruct (N.eqb_spec n 0); [lia|].
    replace (chain_abs c) with (([], abs (c_second c)) : Pend C) by (unfold chain_abs; rewrite ED, ET; reflexivity).
    apply Hsec.
  - rewrite <- ET. unfold chain_abs; cbn [c_done c_first c_second]. rewrite ED.
    rewrite <- (takeN_dropN n (c_first c)) at 1. apply bsteps_pend_first.
Defined.
