(** C55: how the decoder uses its reader.  [call], [goes_on], [stops],
    [transcript], [Logged], [interruptions] are in Spec/Calls.v. *)
From Verif Require Import Model.Prelude Model.Io Model.Ast Model.Errors Model.Module.
From Verif Require Import Spec.Streams Spec.Calls Spec.Layout.
From Verif Require Import Proofs.Machine Proofs.SafeWalk Proofs.Tame Proofs.Erase Proofs.Logs Properties.Samples.
From Coq Require Import Lia.

(** ** Proofs *)
Section Log.
  Context {R : Type} `{Reader R}.
  Lemma transcript_snoc (r : R) log (r1 : R) n x (r' : R) : transcript r log r1 -> read r1 n = (x, r') -> transcript r (log ++ [mkCall n x]) r'.
  Proof. intros HT. revert n x r'. induction HT; intros; cbn; econstructor; eauto. constructor. Qed.
  Definition fine (log : list call) : Prop := Forall (fun c => asked c <> 0%N) log.
  Definition good (c : call) : Prop := goes_on c /\ honest c.
  Definition alive (r0 : R) (s : Logged R) : Prop :=
    transcript r0 (calls_of s) (source_of s) /\ fine (calls_of s) /\ Forall good (calls_of s).
  Definition ended (r0 : R) (s : Logged R) : Prop :=
    transcript r0 (calls_of s) (source_of s) /\ fine (calls_of s) /\ exists before c, calls_of s = before ++ [c] /\ Forall good before /\ stops c.
  Definition broke (r0 : R) (s : Logged R) : Prop :=
    transcript r0 (calls_of s) (source_of s) /\ fine (calls_of s) /\ exists before c, calls_of s = before ++ [c] /\ Forall good before /\ ~ honest c.
  Lemma good_goes log : Forall good log -> Forall goes_on log.
  Proof. apply Forall_impl. intros c [Hc _]. exact Hc. Qed.
  Lemma good_honest log : Forall good log -> Forall honest log.
  Proof. apply Forall_impl. intros c [_ Hc]. exact Hc. Qed.
  Lemma fine_snoc log n x : fine log -> n <> 0%N -> fine (log ++ [mkCall n x]).
  Proof. intros H1 H2. apply Forall_app. split; [exact H1|]. constructor; [exact H2|constructor]. Qed.
  Local Instance logged_watched (r0 : R) : Watched (Logged R).
  Proof.
    refine {| live := alive r0; dead := ended r0; broken := broke r0 |}.
    all: intros s n; intros; cbn in *.
    all: match goal with Hr : context [read (source_of ?a) ?b] |- _ => destruct (read (source_of a) b) as [y r1] eqn:ER; injection Hr; clear Hr; intros; subst end.
    all: match goal with Ha : alive _ _ |- _ => destruct Ha as (HT & HF & HG) end.
    all: split; [exact (transcript_snoc _ _ _ _ _ _ HT ER)|]; cbn [calls_of source_of]; split; [apply fine_snoc; assumption|].
    - apply Forall_app. split; [exact HG|]. constructor; [|constructor]. split; [right; do 2 eexists; reflexivity|]. unfold honest. cbn [answer asked]. assumption.
    - eexists _, _. split; [reflexivity|]. split; [exact HG|]. unfold honest. cbn [answer asked]. lia.
    - apply Forall_app. split; [exact HG|]. constructor; [|constructor]. split; [left; reflexivity|exact I].
    - eexists _, _. split; [reflexivity|]. split; [exact HG|]. left. reflexivity.
    - eexists _, _. split; [reflexivity|]. split; [exact HG|]. right. eexists. split; [eassumption|reflexivity].
    - eexists _, _. split; [reflexivity|]. split; [exact HG|]. intros [].
  Defined.
  Lemma module_calls {env : Env} (r : R) : let '(x, s) := decode_module (mkLogged r []) in
    decode_module r = (x, source_of s) /\ match x with Ok _ => ended r s | Panic p => alive r s \/ ended r s \/ (broke r s /\ p = ReaderFault) | _ => alive r s \/ ended r s end.
  Proof.
    pose proof (er_decode_module (mkLogged r [])) as HE.
    pose proof (@ended_decode_module _ _ _ (logged_watched r) (mkLogged r [])) as HW.
    destruct (decode_module (mkLogged r [])) as [x s]. split; [exact HE|]. apply HW. split; [constructor|]. split; constructor.
  Qed.
End Log.

Lemma good_events (evs : list event) log (evs' : list event) : transcript evs log evs' -> fine log -> Forall goes_on log ->
  (exists pre, content evs = (pre ++ fst (content evs'), snd (content evs'))) /\ after_stop evs' = after_stop evs /\
  length log + length (fst (content evs')) + interruptions evs' <= length (fst (content evs)) + interruptions evs.
Proof.
  induction 1 as [r|r n x r1 log r' ER HT IH]; intros HF HG.
  - split; [exists []; destruct (content r); reflexivity|]. split; [reflexivity|cbn; lia].
  - inversion HF as [|? ? Hn HF']; inversion HG as [|? ? Hg HG']; subst. destruct (IH HF' HG') as ((pre & Hc) & Ha & Hl). clear IH HF HG HF' HG'. cbn [asked answer] in *.
    assert (HS : (exists p, content r = (p ++ fst (content r1), snd (content r1))) /\ after_stop r1 = after_stop r /\
                 S (length (fst (content r1)) + interruptions r1) <= length (fst (content r)) + interruptions r).
    { destruct r as [|[b bs| |k] r]; cbn in ER.
      - injection ER as <- <-. destruct Hg as [Hg|(? & ? & Hg)]; discriminate Hg.
      - injection ER as <- <-. clear Hg HT Hc Ha Hl. cbn [content after_stop interruptions].
        rewrite (proj2 (N.eqb_neq _ _) Hn). destruct (content r) as [l e] eqn:Ec.
        assert (Hsplit : bs = takeN (N.pred n) bs ++ dropN (N.pred n) bs).
        { clear. generalize (N.pred n) as m. induction bs as [|c bs IH]; intros m; cbn; [reflexivity|]. destruct (m =? 0)%N; cbn; [reflexivity|]. rewrite <- IH. reflexivity. }
        destruct (dropN (N.pred n) bs) as [|c cs].
        + cbn [fst snd]. rewrite Ec. split; [exists (b :: bs); reflexivity|]. split; [reflexivity|]. cbn [fst]. rewrite app_length. cbn [length]. lia.
        + cbn [content after_stop interruptions]. rewrite Ec. cbn [fst snd]. split; [exists (b :: takeN (N.pred n) bs); apply (f_equal (fun z => (z, e))); cbn; rewrite Hsplit at 1; rewrite <- app_assoc; reflexivity|].
          split; [reflexivity|]. rewrite Hsplit. rewrite !app_length. cbn [length]. rewrite !app_length. cbn [length]. lia.
      - injection ER as <- <-. destruct Hg as [Hg|(? & ? & Hg)]; discriminate Hg.
      - injection ER as <- <-. destruct Hg as [Hg|(? & ? & Hg)]; [|discriminate Hg]. injection Hg as ->. cbn [content after_stop interruptions].
        split; [exists []; destruct (content r); reflexivity|]. split; [reflexivity|lia]. }
    destruct HS as ((p & Hp) & Hs & Hle). split; [|split; [congruence|cbn [length]; lia]].
    exists (p ++ pre). rewrite Hp, Hc. cbn [fst snd]. rewrite app_assoc. reflexivity.
Qed.
Lemma stop_events (evs : list event) n x (evs' : list event) : n <> 0%N -> read evs n = (x, evs') -> stops (mkCall n x) -> evs' = after_stop evs /\ fst (content evs) = [].
Proof.
  intros Hn ER Hs. unfold stops in Hs. cbn [answer] in Hs. destruct evs as [|[b bs| |k] evs]; cbn in ER.
  - injection ER as <- <-. auto.
  - rewrite (proj2 (N.eqb_neq _ _) Hn) in ER. injection ER as <- <-. destruct Hs as [Hs|(k & _ & Hs)]; discriminate Hs.
  - injection ER as <- <-. auto.
  - injection ER as <- <-. destruct Hs as [Hs|(k' & Hk & Hs)]; [discriminate Hs|]. injection Hs as <-. destruct k; auto. contradiction.
Qed.
Lemma transcript_app {R} `{Reader R} (r : R) l1 l2 (r' : R) : transcript r (l1 ++ l2) r' -> exists r1 : R, transcript r l1 r1 /\ transcript r1 l2 r'.
Proof.
  revert r. induction l1 as [|c l1 IH]; intros r HT; cbn in HT.
  - exists r. split; [constructor|exact HT].
  - inversion HT as [|? ? ? r2 ? ? ER HT']; subst. destruct (IH _ HT') as (r1 & H1 & H2). exists r1. split; [econstructor; eauto|exact H2].
Qed.
Lemma transcript_honest {R} `{Reader R} (HW : well_behaved R) (r : R) log (r' : R) : transcript r log r' -> Forall honest log.
Proof. induction 1 as [|r n x r1 log r' ER HT IH]; constructor; [exact (HW _ _ _ _ ER)|exact IH]. Qed.
Lemma never_broke {R} `{Reader R} (HW : well_behaved R) (r : R) (s : Logged R) : ~ broke r s.
Proof.
  intros (HT & _ & before & c & Hc & _ & Hb). apply (transcript_honest HW) in HT. rewrite Hc in HT. apply Forall_app in HT as [_ HT].
  apply Hb. inversion HT. assumption.
Qed.
Lemma ended_events evs (s : Logged (list event)) : ended evs s ->
  source_of s = after_stop evs /\ length (calls_of s) <= S (length (fst (content evs)) + interruptions evs).
Proof.
  intros (HT & HF & before & c & Hc & HG & Hs). rewrite Hc in *. apply Forall_app in HF as [HF1 HF2]. inversion HF2 as [|? ? Hn _]; subst.
  destruct (transcript_app _ _ _ _ HT) as (e1 & H1 & H2). inversion H2 as [|? n x ? ? ? ER H3]; subst. inversion H3; subst.
  destruct (good_events _ _ _ H1 HF1 (good_goes _ HG)) as (_ & Ha & Hl). destruct (stop_events _ _ _ _ Hn ER Hs) as [Hx _]. cbn in Hx. rewrite Hx, Ha. split; [reflexivity|].
  rewrite app_length. cbn [length]. lia.
Qed.

(** ** C55 *)

(** Watching the calls changes nothing, for any reader whatsoever.  The calls
    made: none with an empty buffer; the first that reports end of file or a
    failure (other than an interruption) is the last, and there is such a call
    if a module is returned; the first that breaks the contract of [read] (claims
    more bytes than the buffer holds, or panics) is the last, and the decoder panics. *)
Theorem C55_calls env {R} `{Reader R} (r : R) : let '(x, s) := @decode_module env _ _ (mkLogged r []) in
  decode_module r = (x, source_of s) /\ transcript r (calls_of s) (source_of s) /\
  Forall (fun c => asked c <> 0%N) (calls_of s) /\
  exists before last, calls_of s = before ++ last /\ Forall goes_on before /\ Forall honest before /\
    ((exists c, last = [c] /\ stops c) \/
     (exists c, last = [c] /\ ~ honest c /\ x = Panic ReaderFault) \/
     (last = [] /\ forall m, x <> Ok m)).
Proof.
  pose proof (module_calls r) as HM. destruct (decode_module (mkLogged r [])) as [x s]. destruct HM as [HE HM]. split; [exact HE|].
  assert (HC : (alive r s /\ forall m, x <> Ok m) \/ ended r s \/ (broke r s /\ x = Panic ReaderFault)).
  { destruct x as [m|e|p|]; [right; left; exact HM|destruct HM; [left; split; [assumption|discriminate]|right; left; assumption]| |destruct HM; [left; split; [assumption|discriminate]|right; left; assumption]].
    destruct HM as [HM|[HM|[HM ->]]]; [left; split; [assumption|discriminate]|right; left; exact HM|right; right; split; [exact HM|reflexivity]]. }
  destruct HC as [[(HT & HF & HG) Hx]|[(HT & HF & before & c & Hc & HG & Hs)|[(HT & HF & before & c & Hc & HG & Hs) Hx]]]; (split; [exact HT|]; split; [exact HF|]).
  - exists (calls_of s), []. rewrite app_nil_r. split; [reflexivity|]. split; [exact (good_goes _ HG)|]. split; [exact (good_honest _ HG)|]. auto.
  - exists before, [c]. split; [exact Hc|]. split; [exact (good_goes _ HG)|]. split; [exact (good_honest _ HG)|]. left. eauto.
  - exists before, [c]. split; [exact Hc|]. split; [exact (good_goes _ HG)|]. split; [exact (good_honest _ HG)|]. right. left. eauto.
Qed.

(** So there are at most as many calls as the stream delivers bytes and
    interruptions before it first stops, plus one. *)
Theorem C55_bound env (evs : list event) :
  length (calls_of (snd (@decode_module env _ _ (mkLogged evs [])))) <= S (length (fst (content evs)) + interruptions evs).
Proof.
  pose proof (module_calls evs) as HM. destruct (decode_module (mkLogged evs [])) as [x s]. cbn [snd]. destruct HM as [_ HM].
  assert (HC : alive evs s \/ ended evs s) by (destruct x as [m|e|p|]; auto; destruct HM as [HM|[HM|[HM _]]]; auto; destruct (never_broke ok_well_behaved _ _ HM)). destruct HC as [(HT & HF & HG)|HC].
  - destruct (good_events _ _ _ HT HF (good_goes _ HG)) as (_ & _ & Hl). lia.
  - apply (ended_events _ _ HC).
Qed.

(** Where the reader is left: right after its first stop, always if a module is
    returned; or else still within its content. *)
Theorem C55_position env (evs evs' : list event) x : @decode_module env _ _ evs = (x, evs') ->
  evs' = after_stop evs \/
  ((forall m, x <> Ok m) /\ after_stop evs' = after_stop evs /\ exists pre, content evs = (pre ++ fst (content evs'), snd (content evs'))).
Proof.
  intros Hd. pose proof (module_calls evs) as HM. destruct (decode_module (mkLogged evs [])) as [y s]. destruct HM as [HE HM].
  rewrite Hd in HE. injection HE as <- ->.
  assert (HC : (alive evs s /\ forall m, x <> Ok m) \/ ended evs s).
  { destruct x as [m|e|p|]; [right; exact HM|destruct HM; [left; split; [assumption|discriminate]|right; assumption]| |destruct HM; [left; split; [assumption|discriminate]|right; assumption]].
    destruct HM as [HM|[HM|[HM _]]]; [left; split; [assumption|discriminate]|right; exact HM|destruct (never_broke ok_well_behaved _ _ HM)]. }
  destruct HC as [[(HT & HF & HG) Hx]|HC].
  - right. destruct (good_events _ _ _ HT HF (good_goes _ HG)) as (Hp & Ha & _). auto.
  - left. apply (ended_events _ _ HC).
Qed.

(** ** Concrete cases *)
(** a module: its first event stream stop is the end of file, the event after it is left alone *)
Example C55_ex_module : snd (@decode_module roomy _ _ [EvData x00 [x61; x73]; EvErr Interrupted; EvData x6d [x01; x00; x00; x00]; EvEof; EvData x00 []]) = [EvData x00 []].
Proof. vm_compute. reflexivity. Qed.
Example C55_ex_calls : calls_of (snd (@decode_module roomy _ _ (mkLogged [EvData x00 [x61; x73]; EvErr Interrupted; EvData x6d [x01; x00; x00; x00]; EvEof] []))) =
  [mkCall 8 (RdOk [x00; x61; x73]); mkCall 5 (RdErr Interrupted); mkCall 5 (RdOk [x6d; x01; x00; x00; x00]); mkCall 1 (RdOk [])].
Proof. vm_compute. reflexivity. Qed.
(** an error: the rest is not read *)
Example C55_ex_error : @decode_module roomy _ _ (map (fun b => EvData b []) (preamble ++ [x20; x00]) ++ [EvErr UnexpectedEof]) =
  (Err (DM_DecodeSectionHeader (Hdr_InvalidSectionId (InvalidSectionId x20))), [EvData x00 []; EvErr UnexpectedEof]).
Proof. vm_compute. reflexivity. Qed.
(** the swallowed failure of a block type (C33) is still the last call *)
Example C55_ex_swallowed : 
  let evs := map (fun b => EvData b []) (preamble ++ [x03; x02; x01; x00; x0a; x06; x01; x04; x00; x02; x63]) ++ [EvErr (OtherKind 7); EvData x0b []] in
  exists e, @decode_module roomy _ _ evs = (Err e, [EvData x0b []]).
Proof. vm_compute. eexists. reflexivity. Qed.
Print Assumptions C55_calls.
Print Assumptions C55_bound.
Print Assumptions C55_position.
