(** C57: every implementation of [Read].  [well_behaved], [finite], [serves],
    [answers], [bytes_of], [transcript] are in Spec/Calls.v. *)
From Verif Require Import Model.Prelude Model.Io Model.Ast Model.Errors Model.Module.
From Verif Require Import Spec.Lang Spec.Module Spec.Streams Spec.Diagnosis Spec.Layout Spec.Calls Spec.Faults.
From Verif Require Import Proofs.Machine Proofs.Safe Proofs.SafeWalk Proofs.Erase Proofs.Replay Proofs.Logs Proofs.Final.
From Verif Require Import Properties.Samples Properties.Modules Properties.Diagnosis Properties.Calls.
From Coq Require Import Lia.

(** ** Proofs *)
Lemma finite_ok {R} `{Reader R} : well_behaved R -> finite R -> ReaderOk R.
Proof.
  intros HW (H1 & H2 & H3). constructor; eauto.
  - intros r n d r' E. split; [exact (HW _ _ _ _ E)|exact (H1 _ _ _ _ E)].
  - intros r n r' E. exact (HW _ _ _ _ E).
Qed.
(** how a stream stops *)
Definition stop_of (c : call) : ending := match answer c with RdErr k => Fails k | _ => Ends end.
Lemma content_going log rest : Forall goes_on log ->
  content (answers log ++ rest) = (bytes_of log ++ fst (content rest), snd (content rest)).
Proof.
  induction 1 as [|c log Hc _ IH]; [cbn; destruct (content rest); reflexivity|]. unfold answers, bytes_of in *. cbn [map flat_map app].
  destruct Hc as [E|(b & d & E)]; rewrite E.
  - assert (event_of c = EvErr Interrupted) as -> by (unfold event_of; rewrite E; reflexivity). exact IH.
  - assert (event_of c = EvData b d) as -> by (unfold event_of; rewrite E; reflexivity). cbn [content]. rewrite IH. rewrite <- app_assoc. reflexivity.
Qed.
Lemma content_stop c rest : stops c -> content (event_of c :: rest) = ([], stop_of c).
Proof.
  intros [E|(k & Hk & E)]; unfold event_of, stop_of; rewrite E; cbn [content]; [reflexivity|]. destruct k; try reflexivity. contradiction.
Qed.
Lemma content_ended before c rest : Forall goes_on before -> stops c ->
  content (answers (before ++ [c]) ++ rest) = (bytes_of (before ++ [c]), stop_of c).
Proof.
  intros Hb Hc. unfold answers. rewrite map_app, <- app_assoc. cbn [map app]. fold (answers before). rewrite (content_going _ _ Hb).
  rewrite (content_stop _ _ Hc). cbn [fst snd]. unfold bytes_of. rewrite flat_map_app. cbn [flat_map].
  destruct Hc as [E|(k & _ & E)]; rewrite E; reflexivity.
Qed.

Section Serve.
  Context {R : Type} `{Reader R}.
  Lemma serves_going (r : R) log r' bs stop : serves r bs stop -> transcript r log r' -> Forall (fun c => asked c <> 0%N) log -> Forall goes_on log ->
    exists bs', bs = bytes_of log ++ bs' /\ serves r' bs' stop.
  Proof.
    intros Hs HT. revert bs Hs. induction HT as [r|r n x r1 log r' ER HT IH]; intros bs Hs HA HG; [exists bs; auto|].
    inversion HA as [|? ? Hn HA']; inversion HG as [|? ? Hg HG']; subst. cbn [asked answer] in *. inversion Hs as [? ? ? Ha]; subst. specialize (Ha n Hn).
    unfold goes_on in Hg. cbn [answer] in Hg. unfold bytes_of. cbn [flat_map answer]. fold (bytes_of log).
    inversion Ha as [? ? b d bs0 ? r2 E2 Hs2|? ? ? ? r2 E2 Hs2|? ? r2 E2|? ? k r2 E2 Hk]; subst; rewrite ER in E2; injection E2 as -> ->.
    - destruct (IH _ Hs2 HA' HG') as (bs' & -> & Hs'). exists bs'. split; [cbn; rewrite <- app_assoc; reflexivity|exact Hs'].
    - destruct (IH _ Hs2 HA' HG') as (bs' & -> & Hs'). exists bs'. auto.
    - destruct Hg as [E|(? & ? & E)]; discriminate E.
    - destruct Hg as [E|(? & ? & E)]; [|discriminate E]. injection E as ->. contradiction.
  Qed.
  Lemma serves_stop (r : R) c r' bs stop : serves r bs stop -> transcript r [c] r' -> asked c <> 0%N -> stops c -> bs = [] /\ stop = stop_of c.
  Proof.
    intros Hs HT Hn Hc. inversion HT as [|? n x r1 ? ? ER HT']; subst. cbn [asked] in Hn. inversion Hs as [? ? ? Ha]; subst. specialize (Ha n Hn).
    unfold stops in Hc. unfold stop_of. cbn [answer] in *.
    inversion Ha as [? ? b d bs0 ? r2 E2 Hs2|? ? ? ? r2 E2 Hs2|? ? r2 E2|? ? k r2 E2 Hk]; subst; rewrite ER in E2; injection E2 as -> ->; auto.
    - destruct Hc as [E|(? & _ & E)]; discriminate E.
    - destruct Hc as [E|(k & Hk & E)]; [discriminate E|]. injection E as <-. contradiction.
  Qed.
End Serve.

(** ** C57 *)

(** Whatever [Read] does, well-behaved or not.  Either all its answers keep to
    the contract ([honest]); then the outcome is a function of them: played again
    by an event stream they give the same outcome, and exactly they are used up.
    Or the last call broke the contract, by claiming more bytes than the buffer
    holds or by a panic; then the decoder panics, and this is the only way it
    comes to that panic.  ([Stuck] is the model's mark for a loop that was
    interrupted forever, see C57_halts.) *)
Theorem C57_any env {R} `{Reader R} (r r' : R) x : @decode_module env _ _ r = (x, r') -> x <> Stuck ->
  exists before last, transcript r (before ++ last) r' /\ Forall (fun c => asked c <> 0%N) (before ++ last) /\
    Forall goes_on before /\ Forall honest before /\
    ((((exists c, last = [c] /\ stops c) \/ (last = [] /\ forall m, x <> Ok m)) /\ x <> Panic ReaderFault /\
      forall rest : list event, @decode_module env _ _ (answers (before ++ last) ++ rest) = (x, rest)) \/
     (exists c, last = [c] /\ ~ honest c /\ x = Panic ReaderFault)).
Proof.
  intros Hd Hx. pose proof (C55_calls env r) as HC. destruct (decode_module (mkLogged r [])) as [y s] eqn:E.
  destruct HC as (HE & HT & HF & before & last & Hc & HG & HH & HL). rewrite Hd in HE. injection HE as <- ->. rewrite Hc in *.
  exists before, last. split; [exact HT|]. split; [exact HF|]. split; [exact HG|]. split; [exact HH|].
  assert (HL' : ((exists c, last = [c] /\ stops c) \/ (last = [] /\ forall m, x <> Ok m)) \/ (exists c, last = [c] /\ ~ honest c /\ x = Panic ReaderFault)) by tauto.
  clear HL. destruct HL' as [HL|HL]; [left|right; exact HL]. split; [exact HL|].
  assert (HA : Forall honest (before ++ last)).
  { apply Forall_app. split; [exact HH|]. destruct HL as [(c & -> & [Hs|(k & _ & Hs)])|[-> _]]; [..|constructor]; (constructor; [|constructor]);
      unfold honest; rewrite Hs; [unfold lenN; cbn; lia|exact I]. }
  assert (HR : forall rest : list event, @decode_module env _ _ (answers (before ++ last) ++ rest) = (x, rest)).
  { destruct (@rp_decode_module env _ _ _ _ logged_replay_any _ _ _ E Hx) as [[_ HB]|(l & [Hs _] & Hr)].
    - exfalso. cbn [gone logged_replay_any] in HB. destruct HB as (b' & c' & Hb & Hn). rewrite Hc in Hb. rewrite Hb in HA. apply Forall_app in HA as [_ HA].
      apply Hn. inversion HA. assumption.
    - cbn [seen logged_replay_any calls_of answers map app] in Hs. rewrite Hc in Hs. rewrite Hs. intros rest. apply (Hr rest). }
  split; [|exact HR]. intros ->. destruct (C34_panics env (answers (before ++ last) ++ []) ReaderFault ltac:(rewrite HR; reflexivity)) as [[K _]|[K _]]; discriminate K.
Qed.

(** The panic of a reader that broke its contract: it comes exactly then, and the
    call that broke it is the last. *)
Theorem C57_fault env {R} `{Reader R} (r : R) : let '(x, s) := @decode_module env _ _ (mkLogged r []) in
  decode_module r = (x, source_of s) /\ transcript r (calls_of s) (source_of s) /\ (x <> Stuck ->
  (x = Panic ReaderFault <-> exists c, In c (calls_of s) /\ ~ honest c) /\
  forall before c after, calls_of s = before ++ c :: after -> ~ honest c -> after = []).
Proof.
  pose proof (C55_calls env r) as HC. destruct (decode_module (mkLogged r [])) as [x s] eqn:E. destruct HC as (HE & HT & HF & before & last & Hc & HG & HH & HL).
  split; [exact HE|]. split; [exact HT|]. intros Hx.
  assert (HB : forall c, In c before -> honest c) by (intros c; apply (proj1 (Forall_forall _ _) HH)).
  assert (HS : forall c, stops c -> honest c) by (intros c [Hs|(k & _ & Hs)]; unfold honest; rewrite Hs; [unfold lenN; cbn; lia|exact I]).
  split; [split|].
  - intros ->. destruct HL as [(c & -> & Hc')|[(c & -> & Hc' & _)|[-> _]]]; [exfalso| |exfalso].
    + assert (HA : Forall honest (before ++ [c])) by (apply Forall_app; split; [exact HH|constructor; [exact (HS _ Hc')|constructor]]).
      destruct (@rp_decode_module env _ _ _ _ logged_replay_any _ _ _ E Hx) as [[_ (b' & c' & Hb & Hn)]|(l & _ & Hr)].
      * rewrite Hc in Hb. rewrite Hb in HA. apply Forall_app in HA as [_ HA]. apply Hn. inversion HA. assumption.
      * destruct (C34_panics env (l ++ []) ReaderFault ltac:(destruct (Hr []) as (K & _); cbn [mk logged_replay_any] in K; rewrite K; reflexivity)) as [[K _]|[K _]]; discriminate K.
    + exists c. split; [rewrite Hc; apply in_or_app; right; left; reflexivity|exact Hc'].
    + rewrite app_nil_r in Hc.
      destruct (@rp_decode_module env _ _ _ _ logged_replay_any _ _ _ E Hx) as [[_ (b' & c' & Hb & Hn)]|(l & _ & Hr)].
      * rewrite Hc in Hb. apply Hn, HB. rewrite Hb. apply in_or_app. right. left. reflexivity.
      * destruct (C34_panics env (l ++ []) ReaderFault ltac:(destruct (Hr []) as (K & _); cbn [mk logged_replay_any] in K; rewrite K; reflexivity)) as [[K _]|[K _]]; discriminate K.
  - intros (c & Hi & Hn). rewrite Hc in Hi. apply in_app_or in Hi. destruct Hi as [Hi|Hi]; [destruct (Hn (HB c Hi))|].
    destruct HL as [(c' & -> & Hs)|[(c' & -> & _ & HP)|[-> _]]]; [|exact HP|destruct Hi]. destruct Hi as [<-|[]]. destruct (Hn (HS _ Hs)).
  - intros b' c after Hc' Hn. rewrite Hc in Hc'. destruct after as [|a after] using rev_ind; [reflexivity|]. exfalso. clear IHafter.
    assert (Hi : In c before); [|exact (Hn (HB c Hi))].
    destruct last as [|l0 [|l1 last]].
    + rewrite app_nil_r in Hc'. rewrite Hc'. apply in_or_app. right. left. reflexivity.
    + replace (b' ++ c :: after ++ [a]) with ((b' ++ c :: after) ++ [a]) in Hc' by (rewrite <- app_assoc; reflexivity).
      apply app_inj_tail in Hc' as [-> _]. apply in_or_app. right. left. reflexivity.
    + destruct HL as [(? & K & _)|[(? & K & _)|[K _]]]; discriminate K.
Qed.

(** The same as C57_any for the recording reader and an outcome other than that panic. *)
Theorem C57_replay env {R} `{Reader R} (r : R) x s :
  @decode_module env _ _ (mkLogged r []) = (x, s) -> x <> Stuck -> x <> Panic ReaderFault ->
  decode_module r = (x, source_of s) /\
  forall rest : list event, decode_module (answers (calls_of s) ++ rest) = (x, rest).
Proof.
  intros Hd Hx Hf. split.
  - pose proof (module_calls r) as HM. rewrite Hd in HM. apply HM.
  - destruct (@rp_decode_module env _ _ _ _ logged_replay_any _ _ _ Hd Hx) as [[K _]|(l & [Hs _] & Hr)]; [contradiction|].
    cbn [seen logged_replay_any calls_of answers map app] in Hs. rewrite Hs. intros rest. apply (Hr rest).
Qed.

(** A module is returned only if the bytes delivered are a module, and the
    reader has reported the end of file (or failed with UnexpectedEof, C32). *)
Theorem C57_module env {R} `{Reader R} (r r' : R) m : @decode_module env _ _ r = (Ok m, r') ->
  exists before c, transcript r (before ++ [c]) r' /\ Forall goes_on before /\ Forall honest (before ++ [c]) /\
    (answer c = RdOk [] \/ answer c = RdErr UnexpectedEof) /\ Bmodule m (bytes_of before).
Proof.
  intros Hd. destruct (C57_any env r r' _ Hd ltac:(discriminate)) as (before & last & HT & _ & HG & HH & [(HL & _ & HR)|(c & _ & _ & K)]); [|discriminate K].
  destruct HL as [(c & -> & Hc)|[_ Hn]]; [|destruct (Hn m eq_refl)]. exists before, c. split; [exact HT|]. split; [exact HG|].
  split. { apply Forall_app. split; [exact HH|]. destruct Hc as [Hs|(k & _ & Hs)]; (constructor; [|constructor]); unfold honest; rewrite Hs; [unfold lenN; cbn; lia|exact I]. }
  pose proof (content_ended before c [] HG Hc) as HC. specialize (HR []).
  assert (HB : bytes_of (before ++ [c]) = bytes_of before).
  { unfold bytes_of. rewrite flat_map_app. cbn. destruct Hc as [E|(k & _ & E)]; rewrite E; apply app_nil_r. }
  rewrite HB in HC. pose proof (f_equal fst HR) as HR1. cbn [fst] in HR1.
  destruct (C01_sound env _ _ HR1) as (bs & e & HC' & He & HM). rewrite HC in HC'. injection HC' as <- <-. split; [|exact HM].
  unfold stop_of in He. unfold stops in Hc. destruct (answer c) as [d|k|]; [left|right|].
  - destruct Hc as [E|(k & _ & E)]; [exact E|discriminate E].
  - destruct He as [He|He]; [discriminate He|]. injection He as ->. reflexivity.
  - destruct Hc as [E|(k & _ & E)]; discriminate E.
Qed.

(** An error is a fault of what was delivered, however the input would go on. *)
Theorem C57_error env {R} `{Reader R} (r r' : R) e : @decode_module env _ _ r = (Err e, r') ->
  exists log, transcript r log r' /\ Forall honest log /\
    forall (rest : list event) bs stop, content (answers log ++ rest) = (bs, stop) -> diagnosis bs stop e.
Proof.
  intros Hd. destruct (C57_any env r r' _ Hd ltac:(discriminate)) as (before & last & HT & _ & _ & HH & [(HL & _ & HR)|(c & _ & _ & K)]); [|discriminate K].
  exists (before ++ last). split; [exact HT|].
  split. { apply Forall_app. split; [exact HH|]. destruct HL as [(c & -> & [Hs|(k & _ & Hs)])|[-> _]]; [..|constructor]; (constructor; [|constructor]);
      unfold honest; rewrite Hs; [unfold lenN; cbn; lia|exact I]. }
  intros rest bs stop Hc. apply (C50_sound env _ bs stop e Hc). rewrite HR. reflexivity.
Qed.

(** It panics for want of heap or stack, or because the reader broke its contract. *)
Theorem C57_panics env {R} `{Reader R} (r r' : R) p : @decode_module env _ _ r = (Panic p, r') ->
  (p = AllocFailure /\ exists log, transcript r log r' /\ (@alloc_limit env < 2 ^ 32 - 1 \/ @alloc_limit env <= N.of_nat (length (bytes_of log)))%N) \/
  (p = StackOverflow /\ exists log, transcript r log r' /\ @stack_limit env <= S (length (bytes_of log))) \/
  (p = ReaderFault /\ exists before c, transcript r (before ++ [c]) r' /\ Forall honest before /\ ~ honest c).
Proof.
  intros Hd. destruct (C57_any env r r' _ Hd ltac:(discriminate)) as (before & last & HT & _ & HG & HH & [(HL & _ & HR)|(c & -> & Hn & K)]);
    [|injection K as ->; right; right; split; [reflexivity|]; exists before, c; auto].
  pose proof (C34_panics env (answers (before ++ last) ++ []) p ltac:(rewrite HR; reflexivity)) as HP.
  assert (HB : fst (content (answers (before ++ last) ++ [])) = bytes_of (before ++ last)).
  { destruct HL as [(c & -> & Hc)|[-> _]].
    - rewrite (content_ended _ _ _ HG Hc). reflexivity.
    - rewrite !app_nil_r in *. rewrite <- (app_nil_r (answers before)), (content_going _ _ HG). cbn. rewrite app_nil_r. reflexivity. }
  rewrite HB in HP. destruct HP as [[-> HA]|[-> HS]]; [left|right; left]; (split; [reflexivity|]); exists (before ++ last); split; assumption.
Qed.

(** It returns, if the reader is interrupted finitely often and delivers
    finitely much. *)
Theorem C57_halts env {R} `{Reader R} (r : R) : well_behaved R -> finite R -> fst (@decode_module env _ _ r) <> Stuck.
Proof.
  intros HW HF. pose proof (@safe_decode_module env R _ (finite_ok HW HF) r) as HS. destruct (decode_module r) as [[a|e|pn|] r']; try discriminate.
  destruct HS as [_ []].
Qed.

(** Any reader that serves the bytes [bs] and then stops: the outcome is that of
    the plainest such reader; so it depends on the bytes and the stop only. *)
Theorem C57_serves env {R} `{Reader R} (r : R) bs stop : well_behaved R -> finite R -> serves r bs stop ->
  fst (@decode_module env _ _ r) = fst (@decode_module env _ _ (byte_by_byte bs stop)).
Proof.
  intros HW HF Hs. pose proof (C57_halts env r HW HF) as Hx. destruct (decode_module r) as [x r'] eqn:Hd. cbn [fst] in *.
  destruct (C57_any env r r' x Hd Hx) as (before & last & HT & HA & HG & _ & [(HL & _ & HR)|(c & -> & Hn & _)]);
    [|destruct Hn; apply (transcript_honest HW) in HT; apply Forall_app in HT as [_ HT]; inversion HT; assumption].
  apply Forall_app in HA as [HA1 HA2]. destruct (transcript_app _ _ _ _ HT) as (r1 & HT1 & HT2).
  destruct (serves_going _ _ _ _ _ Hs HT1 HA1 HG) as (bs' & -> & Hs1).
  assert (HK : stop <> Fails Interrupted).
  { clear - Hs1 HF. assert (HI : forall n (q : R) l, budget q < n -> ~ serves q l (Fails Interrupted)).
    { induction n as [|n IH]; intros q l Hq Hq2; [lia|]. inversion Hq2 as [? ? ? Ha]; subst. specialize (Ha 1%N ltac:(discriminate)).
      destruct HF as (F1 & F2 & F3).
      inversion Ha as [? ? b d bs0 ? r2 E2 Hs2|? ? ? ? r2 E2 Hs2|? ? r2 E2|? ? k r2 E2 Hk]; subst.
      - apply F1 in E2. cbn in E2. eapply IH; [|exact Hs2]. lia.
      - apply F3 in E2. eapply IH; [|exact Hs2]. lia.
      - contradiction. }
    intros ->. exact (HI (S (budget r1)) r1 _ ltac:(lia) Hs1). }
  assert (HC : forall rest, content rest = (bs', stop) \/ (bs' = [] /\ exists c, last = [c] /\ stops c /\ stop = stop_of c) -> content (answers (before ++ last) ++ rest) = (bytes_of before ++ bs', stop)).
  { intros rest [Hr|(-> & c & -> & Hc & ->)].
    - destruct HL as [(c & -> & Hc)|[-> _]].
      + inversion HA2 as [|? ? Hn _]; subst. destruct (serves_stop _ _ _ _ _ Hs1 HT2 Hn Hc) as [-> ->]. rewrite (content_ended _ _ _ HG Hc).
        unfold bytes_of. rewrite flat_map_app. cbn. destruct Hc as [E|(k & _ & E)]; rewrite E; reflexivity.
      + rewrite app_nil_r, (content_going _ _ HG), Hr. reflexivity.
    - rewrite (content_ended _ _ _ HG Hc). unfold bytes_of. rewrite flat_map_app. cbn. destruct Hc as [E|(k & _ & E)]; rewrite E; reflexivity. }
  specialize (HC (byte_by_byte bs' stop) (or_introl (content_plain _ _ HK))).
  pose proof (content_plain (bytes_of before ++ bs') stop HK) as HP. fold (byte_by_byte (bytes_of before ++ bs') stop) in HP.
  pose proof (C30_content env _ _ (eq_trans HC (eq_sym HP))) as HE. rewrite HR in HE. exact HE.
Qed.

(** In particular a reader that serves a module yields it. *)
Theorem C57_complete env {R} `{Reader R} (r : R) bs m : well_behaved R -> finite R -> serves r bs Ends ->
  sufficient env (length bs) -> Bmodule m bs -> fst (@decode_module env _ _ r) = Ok m.
Proof.
  intros HW HF Hs HE HM. rewrite (C57_serves env r bs Ends HW HF Hs).
  assert (HC : content (byte_by_byte bs Ends) = (bs, Ends)) by (apply (content_plain bs Ends); discriminate). rewrite (C30_slice env _ bs HC). exact (C02_complete_slice env bs m HE HM).
Qed.

(** ** A concrete case: a reader that is no event stream.  It fills at most half
    of the buffer, rounded up, and is interrupted after every delivery. *)
Record Halving : Type := mkHalving { h_busy : bool; h_data : list byte }.
#[local] Instance halving_reader : Reader Halving := {
  read h n := if h_busy h then (RdErr Interrupted, mkHalving false (h_data h))
    else match takeN ((n + 1) / 2) (h_data h) with
         | [] => (RdOk [], h)
         | d => (RdOk d, mkHalving true (dropN ((n + 1) / 2) (h_data h)))
         end;
  budget h := 2 * length (h_data h) + if h_busy h then 1 else 0
}.
Lemma halving_well : well_behaved Halving.
Proof.
  intros [b l] n x r'. cbn [read halving_reader h_busy h_data]. destruct b; [intros [= <- <-]; exact I|]. intros Hr.
  assert (Hd : x = RdOk (takeN ((n + 1) / 2) l)) by (destruct (takeN ((n + 1) / 2) l); injection Hr as <- _; reflexivity). subst x. unfold honest. cbn [answer asked].
  pose proof (lenN_takeN ((n + 1) / 2)%N l) as HL.
  destruct (N.eq_dec n 0) as [->|Hn]; [exact HL|]. assert ((n + 1) / 2 <= n)%N; [apply N.div_le_upper_bound; lia|lia].
Qed.
Lemma halving_finite : finite Halving.
Proof.
  split; [|split]; intros [b l] n; cbn [read budget halving_reader h_busy h_data].
  - intros d r'. destruct b; [discriminate|]. pose proof (length_takeN_dropN ((n + 1) / 2) l) as HL.
    destruct (takeN ((n + 1) / 2) l) as [|c cs]; intros [= <- <-]; cbn [budget h_busy h_data length] in *; lia.
  - intros k r'. destruct b; [|destruct (takeN ((n + 1) / 2) l); discriminate]. intros [= <- <-]. cbn [h_busy h_data]. lia.
  - intros r'. destruct b; [|destruct (takeN ((n + 1) / 2) l); discriminate]. intros [= <-]. cbn [h_busy h_data]. lia.
Qed.
Lemma halving_serves n : forall b l, 2 * length l + (if b : bool then 1 else 0) < n -> serves (mkHalving b l) l Ends.
Proof.
  induction n as [|n IH]; intros b l Hn; [lia|]. constructor. intros k Hk. destruct b.
  - eapply aw_retry; [reflexivity|]. apply IH. lia.
  - destruct l as [|c cs]; [eapply aw_eof; reflexivity|]. assert (H0 : ((k + 1) / 2 <> 0)%N). { pose proof (N.div_str_pos (k + 1) 2). lia. }
    pose proof (takeN_dropN ((k + 1) / 2) (c :: cs)) as HT. pose proof (length_takeN_dropN ((k + 1) / 2) (c :: cs)) as HL.
    destruct (takeN ((k + 1) / 2) (c :: cs)) as [|x xs] eqn:E. { cbn in E. rewrite (proj2 (N.eqb_neq _ _) H0) in E. discriminate E. }
    assert (HA : answers_well (mkHalving false (c :: cs)) k (x :: xs ++ dropN ((k + 1) / 2) (c :: cs)) Ends).
    { eapply aw_data; [cbn [read halving_reader h_busy h_data]; rewrite E; reflexivity|]. apply IH. cbn [length] in *. lia. }
    cbn [app] in HT. rewrite HT in HA. exact HA.
Qed.
Example C57_ex_serves : fst (@decode_module roomy _ _ (mkHalving true add)) = fst (@decode_module roomy _ _ (byte_by_byte add Ends)).
Proof. exact (C57_serves roomy _ _ _ halving_well halving_finite (halving_serves _ _ _ (Nat.lt_succ_diag_r _))). Qed.
Example C57_ex_module : exists m, fst (@decode_module roomy _ _ (mkHalving true add)) = Ok m.
Proof. vm_compute. eexists. reflexivity. Qed.
Example C57_ex_error : exists e r', @decode_module roomy _ _ (mkHalving false custom_section_size_overreported) = (Err e, r').
Proof. vm_compute. eexists _, _. reflexivity. Qed.
(** Readers that break the contract: one claims more bytes than the buffer holds
    (a bytestring longer than asked), one panics, each after [fs_data]. *)
Record Faulty : Type := mkFaulty { fs_lies : option N; fs_data : list byte }.
#[local] Instance faulty_reader : Reader Faulty := {
  read f n := match takeN n (fs_data f) with
    | [] => (match fs_lies f with Some more => RdOk (repeat x00 (N.to_nat (n + more))) | None => RdPanic end, f)
    | d => (RdOk d, mkFaulty (fs_lies f) (dropN n (fs_data f)))
    end;
  budget f := length (fs_data f)
}.
(** the first call *)
Example C57_ex_liar : fst (@decode_module roomy _ _ (mkFaulty (Some 1%N) [])) = Panic ReaderFault.
Proof. vm_compute. reflexivity. Qed.
Example C57_ex_panics : fst (@decode_module roomy _ _ (mkFaulty None preamble)) = Panic ReaderFault.
Proof. vm_compute. reflexivity. Qed.
(** in a section: what is claimed fits the section (so the adaptor lets it pass), but not the buffer *)
Example C57_ex_section : fst (@decode_module roomy _ _ (mkFaulty (Some 1%N) (preamble ++ [x01; x05]))) = Panic ReaderFault.
Proof. vm_compute. reflexivity. Qed.
(** ... or does not fit the section either *)
Example C57_ex_limit : fst (@decode_module roomy _ _ (mkFaulty (Some 9%N) (preamble ++ [x01; x05]))) = Panic ReaderFault.
Proof. vm_compute. reflexivity. Qed.
(** in a custom section, which is read to its end *)
Example C57_ex_custom : fst (@decode_module roomy _ _ (mkFaulty (Some 1%N) (preamble ++ [x00; x05; x01; x61; x00]))) = Panic ReaderFault.
Proof. vm_compute. reflexivity. Qed.
(** a block type looks ahead: the panic is not swallowed as a failure is (C33) *)
Example C57_ex_block : fst (@decode_module roomy _ _ (mkFaulty None (preamble ++ [x03; x02; x01; x00; x0a; x06; x01; x04; x00; x02; x63]))) = Panic ReaderFault.
Proof. vm_compute. reflexivity. Qed.
(** an error found before the contract is broken is reported *)
Example C57_ex_before : fst (@decode_module roomy _ _ (mkFaulty None (preamble ++ [x20]))) = Err (DM_DecodeSectionHeader (Hdr_InvalidSectionId (InvalidSectionId x20))).
Proof. vm_compute. reflexivity. Qed.
(** the calls: the last is the first that breaks the contract *)
Example C57_ex_calls : calls_of (snd (@decode_module roomy _ _ (mkLogged (mkFaulty (Some 1%N) (preamble ++ [x01; x05])) []))) =
  [mkCall 8 (RdOk preamble); mkCall 1 (RdOk [x01]); mkCall 1 (RdOk [x05]); mkCall 1 (RdOk [x00; x00])].
Proof. vm_compute. reflexivity. Qed.
Print Assumptions C57_any.
Print Assumptions C57_fault.
