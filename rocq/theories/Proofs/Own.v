(** A reader with its own [read_exact]: what is read with it, and what is read
    with [read], are runs of the same decoders over two readers with one state. *)
From Verif Require Import Model.Prelude Model.Io Model.Ast Model.Errors Model.Integer Model.Module Model.Override.
From Verif Require Import Spec.Streams Spec.Calls Spec.Own.
From Verif Require Import Proofs.Machine Proofs.Safe Proofs.SafeWalk Proofs.Tame Proofs.Erase Proofs.Replay Proofs.Logs.
From Coq Require Import Lia.

(** ** The loop over two readers: one for the headers, one for the bodies *)
Section Two.
  Context {env : Env} {S : Type} (HX HY : Reader S).
  Fixpoint loop2 (fuel : nat) (t : st) : M S DecodeModuleError st :=
    match fuel with
    | O => stuck
    | Datatypes.S fuel' =>
        h <- map_err DM_DecodeSectionHeader (@decode_section_header S HX) ;;
        match h with
        | None => ret t
        | Some h => t' <- @section_step env S HY h t ;; loop2 fuel' t'
        end
    end.
End Two.

Section Own.
  Context {R : Type} {HO : OwnReader R} (HC : exact_contract R) (eof : read_res) (HQ : may_be_eof eof).
  Notation HY := (@own_reader R HO).
  (** [read_exact] of one byte as a reader *)
  Definition HX : Reader R := {|
    read r n := if (n =? 0)%N then (RdOk [], r) else let '(x, r') := own_exact 1 r in (as_answer eof x, r');
    budget := @budget R HY |}.
  Definition LX : Reader (Logged R) := {|
    read s n := if (n =? 0)%N then (RdOk [], s) else let '(x, r') := own_exact 1 (source_of s) in (as_answer eof x, mkLogged r' (calls_of s ++ [mkCall 1 (as_answer eof x)]));
    budget s := @budget R HY (source_of s) |}.
  Definition LY : Reader (Logged R) := @logged_reader R HY.

  Lemma exact_one r : @read_exact R HX 1 r = own_exact 1 r.
  Proof using HC HQ.
    unfold read_exact. cbn [read_exact_loop]. change (1 =? 0)%N with false. cbv iota. cbn [read HX]. change (1 =? 0)%N with false. cbv iota.
    pose proof (HC 1%N r) as K. destruct (own_exact 1 r) as [[d|k|pn|] r']; cbn [as_answer]; try contradiction.
    - destruct d as [|b [|c d]]; try (unfold lenN in K; cbn in K; lia). cbn [lenN length]. change (lenN [b] <=? 1)%N with true. cbv iota.
      change (1 - lenN [b])%N with 0%N. destruct (budget r); reflexivity.
    - destruct k; [destruct HQ as [-> | ->]; reflexivity|contradiction|reflexivity].
  Qed.
  Lemma byte_own r : read_byte_own r = @read_byte R HX r.
  Proof using HC HQ. unfold read_byte_own, read_byte, bind. rewrite exact_one. reflexivity. Qed.
  Lemma u32_own is : forall x s r, u32_loop_own is x s r = @u32_loop R HX is x s r.
  Proof using HC HQ.
    induction is as [|i is IH]; intros x s r; [reflexivity|]. cbn [u32_loop_own u32_loop]. unfold bind at 1 4, map_err. rewrite byte_own.
    destruct (@read_byte R HX r) as [[b|k|pn|] r1]; try reflexivity. unfold bind. destruct (shl_u32 _ _ r1) as [[y|k|pn|] r2]; try reflexivity.
    destruct (N.land (b2n b) 128 =? 0)%N; [reflexivity|]. destruct (add_u8 s 7 r2) as [[s'|k|pn|] r3]; try reflexivity. apply IH.
  Qed.
  Lemma header_own r : decode_section_header_own r = @decode_section_header R HX r.
  Proof using HC HQ.
    unfold decode_section_header_own, decode_section_header, bind at 1 3, read_section_id_own, read_section_id. rewrite byte_own.
    destruct (@read_byte R HX r) as [[b|k|pn|] r1]; try reflexivity; [|destruct k; reflexivity].
    destruct (section_from_marker b) as [k|]; [|reflexivity]. unfold bind, map_err, decode_u32_own, decode_u32. rewrite u32_own. reflexivity.
  Qed.
  Lemma loop_own {env : Env} n : forall t r, section_loop_own n t r = loop2 HX HY n t r.
  Proof using HC HQ.
    induction n as [|n IH]; intros t r; [reflexivity|]. cbn [section_loop_own loop2]. unfold bind at 1 3, map_err. rewrite header_own.
    destruct (@decode_section_header R HX r) as [[[h|]|e|pn|] r1]; try reflexivity. unfold bind.
    destruct (section_step h t r1) as [[t'|e|pn|] r2]; try reflexivity. apply IH.
  Qed.

  (** ** The log can be forgotten *)
  Definition erX : @Erasure (Logged R) R LX HX.
  Proof.
    refine (@Build_Erasure (Logged R) R LX HX source_of _ _).
    - intros s n. cbn [read LX HX]. destruct (n =? 0)%N; [reflexivity|]. destruct (own_exact 1 (source_of s)). reflexivity.
    - reflexivity.
  Defined.
  Definition erY : @Erasure (Logged R) R LY HY := @logged_erasure R HY.
  Lemma loop_erased {env : Env} n : forall t s, loop2 HX HY n t (source_of s) = let '(x, s') := loop2 LX LY n t s in (x, source_of s').
  Proof.
    induction n as [|n IH]; intros t s; [reflexivity|]. cbn [loop2]. unfold bind at 1 3, map_err.
    pose proof (@er_header _ _ _ _ erX s) as K. cbn [er erX] in K. rewrite K. clear K.
    destruct (@decode_section_header (Logged R) LX s) as [[[h|]|e|pn|] s1]; try reflexivity. unfold bind.
    pose proof (@er_section_step env _ _ _ _ erY h t s1) as K. cbn [er erY logged_erasure] in K. rewrite K. clear K.
    destruct (@section_step env (Logged R) LY h t s1) as [[t'|e|pn|] s2]; try reflexivity. apply IH.
  Qed.

  (** the contract of [read_exact] makes the one-byte reader keep that of [read] *)
  Lemma one_honest n y : match y with Ok d => lenN d = 1%N | Err k => k <> Interrupted | _ => False end -> (1 <= n)%N -> honest (mkCall n (as_answer eof y)).
  Proof using HQ.
    intros K Hn. unfold honest. cbn [answer asked]. destruct y as [d|k|pn|]; try contradiction; cbn [as_answer]; [lia|].
    destruct k; [destruct HQ as [-> | ->]|..]; try exact I. unfold lenN. cbn. lia.
  Qed.

  (** ** The log can be played again *)
  Context (HW : @well_behaved R HY).
  Definition rpX : @Replay (Logged R) (list event) LX event_reader.
  Proof using HC HQ.
    refine (@Build_Replay (Logged R) (list event) LX event_reader (fun _ l => l) (fun s => answers (calls_of s)) (fun _ _ => True) (fun _ => False) _ _ _ _).
    - auto.
    - auto.
    - intros _ _ l rest _. apply events_budget_le.
    - intros s n x s' Es Hn. cbn [read LX] in Es. rewrite (proj2 (N.eqb_neq _ _) Hn) in Es. pose proof (HC 1%N (source_of s)) as K.
      destruct (own_exact 1 (source_of s)) as [y r'] eqn:E. injection Es as <- <-. cbn [calls_of].
      right. split; [apply fault_honest, (one_honest n y K); lia|].
      exists [event_of (mkCall 1 (as_answer eof y))]. split; [split; [apply seen_snoc|exact I]|]. intros rest. unfold event_of. cbn [answer app].
      destruct y as [d|k|pn|]; try contradiction.
      + destruct d as [|b [|c d]]; try (unfold lenN in K; cbn in K; lia). cbn [as_answer read event_reader read_events budget events_budget more].
        destruct (takeN_all n [b]) as [-> ->]; [unfold lenN; cbn; lia|]. split; [reflexivity|]. intros _. cbn [length]. lia.
      + destruct k; [destruct HQ as [-> | ->]|..]; cbn [as_answer read event_reader read_events budget events_budget more]; (split; [reflexivity|]); try discriminate; intros _; lia.
  Defined.
  Definition rpY : @Replay (Logged R) (list event) LY event_reader := @logged_replay R HY HW.

  Lemma loop_replayed {env : Env} n : forall t s x s', loop2 LX LY n t s = (x, s') -> x <> Stuck ->
    exists l, answers (calls_of s') = answers (calls_of s) ++ l /\
      forall rest fuel, events_budget (l ++ rest) < fuel -> section_loop fuel t (l ++ rest) = (x, rest).
  Proof using HC HQ HW.
    induction n as [|n IH]; intros t s x s' Es Hx; cbn [loop2] in Es. { injection Es as <- _. contradiction. }
    unfold bind at 1 in Es. destruct (map_err DM_DecodeSectionHeader (@decode_section_header _ LX) s) as [y s1] eqn:E1.
    assert (Hy : y <> Stuck) by (intros ->; injection Es as <- _; exact (Hx eq_refl)).
    destruct (@rpw_map_err _ _ _ _ rpX _ _ _ _ DM_DecodeSectionHeader _ _ (@rpw_header _ _ _ _ rpX) s y s1 E1 Hy) as [[_ []]|(l1 & Hl1 & Hr1)]. cbn [seen mk rpX] in Hl1, Hr1. destruct Hl1 as [Hl1 _].
    destruct y as [[h|]|e|pn|]; [|(injection Es as <- <-; exists l1; split; [exact Hl1|]; intros rest [|fuel] Hf; [lia|]; destruct (Hr1 rest) as (HE & _);
      cbn [section_loop]; unfold bind; rewrite HE; reflexivity)..].
    unfold bind in Es. destruct (@section_step env _ LY h t s1) as [z s2] eqn:E2.
    assert (Hz : z <> Stuck) by (intros ->; injection Es as <- _; exact (Hx eq_refl)).
    destruct (@rp_section_step env _ _ _ _ rpY h t s1 z s2 E2 Hz) as [[_ []]|(l2 & Hl2 & Hr2)]. cbn [seen mk rpY logged_replay] in Hl2, Hr2. destruct Hl2 as [Hl2 _].
    destruct z as [t'|e|pn|]; [|(injection Es as <- <-; exists (l1 ++ l2); split; [rewrite Hl2, Hl1, app_assoc; reflexivity|]; intros rest [|fuel] Hf; [lia|]; rewrite <- app_assoc;
      destruct (Hr1 (l2 ++ rest)) as (HE & _); destruct (Hr2 rest) as (HE2 & _); cbn [section_loop]; unfold bind; rewrite HE, HE2; reflexivity)..].
    destruct (IH t' s2 x s' Es Hx) as (l3 & Hl3 & Hr3). exists (l1 ++ l2 ++ l3). split; [rewrite Hl3, Hl2, Hl1, !app_assoc; reflexivity|].
    intros rest [|fuel] Hf; [lia|]. rewrite <- !app_assoc in *. destruct (Hr1 (l2 ++ l3 ++ rest)) as (HE & HS). destruct (Hr2 (l3 ++ rest)) as (HE2 & _).
    cbn [section_loop]. unfold bind. rewrite HE, HE2. apply Hr3.
    assert (Hh : Some h <> None) by discriminate. specialize (HS (Some h) eq_refl Hh). cbn [budget event_reader] in HS. pose proof (events_budget_le l2 (l3 ++ rest)). lia.
  Qed.

  (** ** The calls *)
  (** as [exchange], but only single bytes are asked of [read_exact] *)
  Inductive steps : R -> list call -> R -> Prop :=
  | s_nil r : steps r [] r
  | s_read r n x r1 log r' : read r n = (x, r1) -> n <> 0%N -> steps r1 log r' -> steps r (mkCall n x :: log) r'
  | s_exact r x r1 log r' : own_exact 1 r = (x, r1) -> steps r1 log r' -> steps r (mkCall 1 (as_answer eof x) :: log) r'.
  Lemma steps_app r l1 r1 l2 r' : steps r l1 r1 -> steps r1 l2 r' -> steps r (l1 ++ l2) r'.
  Proof. intros K. revert l2 r'. induction K; intros; cbn; [assumption|eapply s_read; eauto|eapply s_exact; eauto]. Qed.
  Lemma steps_split r l1 l2 r' : steps r (l1 ++ l2) r' -> exists r1, steps r l1 r1 /\ steps r1 l2 r'.
  Proof.
    revert r. induction l1 as [|c l1 IH]; intros r K; cbn in K; [exists r; split; [constructor|exact K]|].
    inversion K as [|? ? ? r2 ? ? ER Hn HT|? ? r2 ? ? ER HT]; subst; destruct (IH _ HT) as (r1 & K1 & K2); exists r1; (split; [|exact K2]).
    - eapply s_read; eauto. - eapply s_exact; eauto.
  Qed.
  Lemma steps_exchange r log r' : steps r log r' -> exchange eof r log r'.
  Proof. induction 1; [constructor|eapply x_read; eauto|eapply x_exact; eauto]. Qed.
  Definition alive (r0 : R) (s : Logged R) : Prop := steps r0 (calls_of s) (source_of s) /\ Forall goes_on (calls_of s).
  Definition ended (r0 : R) (s : Logged R) : Prop := steps r0 (calls_of s) (source_of s) /\ exists before c, calls_of s = before ++ [c] /\ Forall goes_on before /\ stops c.
  Lemma alive_ended r0 r log c r' : steps r0 log r -> Forall goes_on log -> steps r [c] r' ->
    (goes_on c -> alive r0 (mkLogged r' (log ++ [c]))) /\ (stops c -> ended r0 (mkLogged r' (log ++ [c]))).
  Proof.
    intros K1 K2 K3. split; intros K4; (split; [exact (steps_app _ _ _ _ _ K1 K3)|]).
    - apply Forall_app. split; [exact K2|]. constructor; [exact K4|constructor].
    - exists log, c. auto.
  Qed.
  Definition watchX (r0 : R) : @Watched (Logged R) LX.
  Proof.
    refine (@Build_Watched (Logged R) LX (alive r0) (ended r0) (fun _ => False) _ _ _ _ _ _).
    all: intros s n; intros.
    all: match goal with Hr : read ?a ?b = _, Hn : ?b <> 0%N |- _ => cbn [read LX] in Hr; rewrite (proj2 (N.eqb_neq _ _) Hn) in Hr;
           destruct (own_exact 1 (source_of a)) as [y r1] eqn:ER; injection Hr; clear Hr; intros; subst end.
    all: match goal with Ha : alive _ _ |- _ => destruct Ha as (HT & HG) end.
    all: pose proof (alive_ended _ _ _ _ _ HT HG (s_exact _ _ _ _ _ ER (s_nil _))) as [KA KE].
    - apply KA. right. eexists _, _. cbn [answer]. eassumption.
    - pose proof (HC 1%N (source_of s)) as K. rewrite ER in K. assert (Hn1 : (1 <= n)%N) by lia. pose proof (one_honest n y K Hn1) as Kh. unfold honest in Kh. cbn [answer asked] in Kh.
      match goal with E : as_answer _ _ = _ |- _ => rewrite E in Kh end. lia.
    - apply KA. left. cbn [answer]. assumption.
    - apply KE. left. cbn [answer]. assumption.
    - apply KE. right. eexists. cbn [answer]. split; eassumption.
    - pose proof (HC 1%N (source_of s)) as K. rewrite ER in K. assert (Hn1 : (1 <= n)%N) by lia. pose proof (one_honest n y K Hn1) as Kh. unfold honest in Kh. cbn [answer asked] in Kh.
      match goal with E : as_answer _ _ = _ |- _ => rewrite E in Kh end. exact Kh.
  Defined.
  Definition watchY (r0 : R) : @Watched (Logged R) LY.
  Proof.
    refine (@Build_Watched (Logged R) LY (alive r0) (ended r0) (fun _ => False) _ _ _ _ _ _).
    all: intros s n; intros.
    all: match goal with Hr : read ?a ?b = _ |- _ => cbn [read LY logged_reader] in Hr;
           destruct (read (source_of a) b) as [y r1] eqn:ER; injection Hr; clear Hr; intros; subst end.
    all: match goal with Ha : alive _ _ |- _ => destruct Ha as (HT & HG) end.
    all: match goal with Hn : _ <> 0%N |- _ => pose proof (alive_ended _ _ _ _ _ HT HG (s_read _ _ _ _ _ _ ER Hn (s_nil _))) as [KA KE] end.
    - apply KA. right. eexists _, _. reflexivity.
    - apply HW in ER. unfold honest in ER. cbn [answer asked] in ER. lia.
    - apply KA. left. reflexivity.
    - apply KE. left. reflexivity.
    - apply KE. right. eexists. split; [eassumption|reflexivity].
    - apply HW in ER. exact ER.
  Defined.
  Lemma loop_calls {env : Env} r0 n : forall t s, alive r0 s -> let '(x, s') := loop2 LX LY n t s in
    match x with Ok _ => ended r0 s' | _ => alive r0 s' \/ ended r0 s' end.
  Proof.
    induction n as [|n IH]; intros t s Hs; cbn [loop2]; [left; exact Hs|]. unfold bind at 1, map_err.
    pose proof (@header_calls _ LX (watchX r0) s Hs) as Hh. cbn [live dead broken watchX] in Hh.
    destruct (@decode_section_header (Logged R) LX s) as [[[h|]|e|pn|] s1]; try exact Hh; [|destruct Hh as [Hh|[Hh|[[] _]]]; auto].
    unfold bind. pose proof (@tame_section_step env _ LY (watchY r0) h t s1 Hh) as Hp. cbn [live dead broken watchY] in Hp.
    destruct (@section_step env (Logged R) LY h t s1) as [[t'|e|pn|] s2]; try exact Hp; [exact (IH t' s2 Hp)|destruct Hp as [Hp|[Hp|[[] _]]]; auto].
  Qed.

  (** ** It halts *)
  Context (HF : @finite R HY) (HE : exact_finite R).
  Lemma okX : @ReaderOk R HX.
  Proof using HC HQ HE.
    constructor.
    - intros r n d r' K. cbn [read HX] in K. destruct (N.eqb_spec n 0) as [->|Hn]; [injection K as <- <-; unfold lenN; cbn; lia|].
      pose proof (HC 1%N r) as KC. destruct (own_exact 1 r) as [[x|k|pn|] r1] eqn:E; cbn [as_answer] in K; try contradiction.
      + injection K as <- <-. pose proof (proj1 HE _ _ _ _ E). split; [lia|]. cbn [budget HX]. assumption.
      + pose proof (proj2 HE _ _ _ _ E). destruct k; [destruct HQ as [-> | ->]|..]; inversion K; subst. split; [unfold lenN; cbn; lia|]. cbn [budget HX length]. lia.
    - intros r n k r' K. cbn [read HX] in K. destruct (n =? 0)%N; [discriminate K|]. pose proof (HC 1%N r) as KC.
      destruct (own_exact 1 r) as [[x|k'|pn|] r1] eqn:E; cbn [as_answer] in K; try contradiction; try discriminate K.
      pose proof (proj2 HE _ _ _ _ E). destruct k'; [destruct HQ as [-> | ->]|..]; inversion K; subst; exact H.
    - intros r n r' K. cbn [read HX] in K. destruct (n =? 0)%N; [discriminate K|]. pose proof (HC 1%N r) as KC.
      destruct (own_exact 1 r) as [[x|k'|pn|] r1] eqn:E; cbn [as_answer] in K; try contradiction; try discriminate K.
      destruct k'; [destruct HQ as [-> | ->]|..]; inversion K; subst. contradiction.
    - intros r n r' K. cbn [read HX] in K. destruct (n =? 0)%N; [discriminate K|]. pose proof (HC 1%N r) as KC.
      destruct (own_exact 1 r) as [[x|k'|pn|] r1] eqn:E; cbn [as_answer] in K; try contradiction; try discriminate K.
      destruct k'; [destruct HQ as [-> | ->]|..]; discriminate K.
  Qed.
  Lemma okY : @ReaderOk R HY.
  Proof using HW HF.
    destruct HF as (K1 & K2 & K3). constructor; eauto.
    - intros r n d r' E. split; [exact (HW _ _ _ _ E)|exact (K1 _ _ _ _ E)].
    - intros r n r' E. exact (HW _ _ _ _ E).
  Qed.
  Lemma loop_halts {env : Env} n : forall t r, budget r < n -> fst (loop2 HX HY n t r) <> Stuck.
  Proof using HC HQ HW HF HE.
    induction n as [|n IH]; intros t r Hn; [lia|]. cbn [loop2]. unfold bind at 1, map_err.
    pose proof (@safe_header env R HX okX 0 r) as Hh.
    destruct (@decode_section_header R HX r) as [[[h|]|e|pn|] r1]; try discriminate; try contradiction.
    destruct Hh as [_ Hb]. cbn [budget HX] in Hb. unfold bind. pose proof (@safe_section_step env R HY okY h t r1) as Hs.
    destruct (@section_step env R HY h t r1) as [[t'|e|pn|] r2]; try discriminate; [|destruct Hs as [_ []]].
    destruct Hs as [_ [Hb2 _]]. apply IH. lia.
  Qed.
End Own.
