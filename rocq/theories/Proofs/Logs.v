(** A reader that records its calls: it can be forgotten (Erase.v), and what it
    has recorded can be played again (Replay.v). *)
From Verif Require Import Model.Prelude Model.Io Model.Errors Model.Integer Model.Module Spec.Calls.
From Verif Require Import Proofs.Erase Proofs.Replay.
From Coq Require Import Lia.

#[export] Instance logged_erasure {R} `{Reader R} : Erasure (Logged R) R.
Proof.
  refine {| er := source_of |}.
  - intros s n. cbn. destruct (read (source_of s) n). reflexivity.
  - reflexivity.
Defined.

Lemma takeN_all {A} n (l : list A) : (lenN l <= n)%N -> takeN n l = l /\ dropN n l = [].
Proof.
  revert n. induction l as [|a l IH]; intros n Hn; cbn; [auto|]. unfold lenN in *. cbn [length] in Hn.
  destruct (N.eqb_spec n 0) as [->|H0]; [lia|]. destruct (IH (N.pred n)) as [-> ->]; [lia|]. auto.
Qed.
Lemma seen_snoc log c : answers (log ++ [c]) = answers log ++ [event_of c].
Proof. unfold answers. rewrite map_app. reflexivity. Qed.

(** any reader at all: its calls are recorded, and can be played again unless the
    last one broke the contract *)
Lemma fault_honest n x : fault n x = false <-> honest (mkCall n x).
Proof. unfold honest. destruct x; cbn; [apply N.ltb_ge|tauto|split; [discriminate|intros []]]. Qed.
Definition logged_replay_any {R} `{Reader R} : Replay (Logged R) (list event).
Proof.
  refine {| mk := fun (_ : Logged R) l => l; seen s := answers (calls_of s); le := fun _ _ => True; gone s := exists before c, calls_of s = before ++ [c] /\ ~ honest c |}.
  - auto.
  - auto.
  - intros _ _ l rest _. apply events_budget_le.
  - intros s n x s' Es Hn. cbn in Es. destruct (read (source_of s) n) as [y r'] eqn:E. injection Es as -> <-. cbn [calls_of].
    destruct (fault n x) eqn:Hf.
    { left. split; [|reflexivity]. exists (calls_of s), (mkCall n x). split; [reflexivity|]. intros Hh. apply fault_honest in Hh. congruence. }
    right. split; [reflexivity|].
    exists [event_of (mkCall n x)]. split; [split; [apply seen_snoc|exact I]|]. intros rest. unfold event_of. cbn [answer app].
    destruct x as [[|b d]|k|]; cbn [read event_reader read_events budget events_budget more].
    + split; [reflexivity|discriminate].
    + destruct (takeN_all n (b :: d)) as [-> ->]; [apply N.ltb_ge; exact Hf|]. split; [reflexivity|]. intros _. lia.
    + split; [reflexivity|]. intros _. lia.
    + discriminate Hf.
Defined.
(** a well-behaved reader *)
Definition logged_replay {R} `{Reader R} (HW : well_behaved R) : Replay (Logged R) (list event).
Proof.
  refine {| mk := fun (_ : Logged R) l => l; seen s := answers (calls_of s); le := fun _ _ => True; gone := fun _ => False |}.
  - auto.
  - auto.
  - intros _ _ l rest _. apply events_budget_le.
  - intros s n x s' Es Hn. destruct (@rp_read _ _ _ _ logged_replay_any s n x s' Es Hn) as [[_ Hf]|K]; [|right; exact K].
    cbn in Es. destruct (read (source_of s) n) as [y r'] eqn:E. injection Es as -> <-. apply HW in E. apply fault_honest in E. congruence.
Defined.
(** one decoder, run by an arbitrary well-behaved reader and replayed *)
Lemma replayed {R E A} `{Reader R} (HW : well_behaved R) (p : forall Q, Reader Q -> M Q E A) :
  Er (p R _) (p (Logged R) _) -> @Rp _ _ _ _ _ _ (logged_replay HW) (p (list event) _) (p (Logged R) _) ->
  forall r x r', p R _ r = (x, r') -> x <> Stuck -> exists evs, forall rest, p (list event) _ (evs ++ rest) = (x, rest).
Proof.
  intros HE HR r x r' Hd Hx. specialize (HE (mkLogged r [])). cbn [er logged_erasure source_of] in HE. rewrite Hd in HE.
  destruct (p (Logged R) _ (mkLogged r [])) as [y s] eqn:E1. injection HE as <- ->.
  destruct (HR _ _ _ E1 Hx) as [[_ []]|(l & _ & Hr)]. exists l. intros rest. apply Hr.
Qed.
Lemma replay_u32 {R} `{Reader R} (HW : well_behaved R) r n r' : decode_u32 r = (Ok n, r') -> exists evs : list event, decode_u32 evs = (Ok n, []).
Proof.
  intros Hd. destruct (replayed HW (fun Q _ => decode_u32) er_u32 (@rp_u32 _ _ _ _ (logged_replay HW)) r _ _ Hd ltac:(discriminate)) as (evs & He).
  exists evs. rewrite <- (app_nil_r evs) at 1. apply He.
Qed.
Lemma replay_s33 {R} `{Reader R} (HW : well_behaved R) r n r' : decode_s33 r = (Ok n, r') -> exists evs : list event, decode_s33 evs = (Ok n, []).
Proof.
  intros Hd. destruct (replayed HW (fun Q _ => decode_s33) er_s33 (@rp_s33 _ _ _ _ (logged_replay HW)) r _ _ Hd ltac:(discriminate)) as (evs & He).
  exists evs. rewrite <- (app_nil_r evs) at 1. apply He.
Qed.
