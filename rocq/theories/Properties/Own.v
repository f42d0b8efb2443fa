(** C60: readers with their own [read_exact].  [decode_module_own], [slice_own],
    [Buffered], [buffered_own] are in Model/Override.v; [exact_contract],
    [exact_finite], [exchange], [serves_both] in Spec/Own.v; [well_behaved],
    [finite], [serves], [answers], [bytes_of] in Spec/Calls.v. *)
From Verif Require Import Model.Prelude Model.Io Model.Ast Model.Errors Model.Module Model.Display Model.Cli Model.Override.
From Verif Require Import Spec.Lang Spec.Module Spec.Streams Spec.Diagnosis Spec.Layout Spec.Calls Spec.Faults Spec.Cli Spec.Own.
From Verif Require Import Proofs.SafeWalk Proofs.Machine Proofs.Final Proofs.Logs Proofs.Own.
From Verif Require Import Properties.Samples Properties.Modules Properties.Diagnosis Properties.Universal Properties.Cli.
From Coq Require Import Lia.

(** ** Proofs *)

(** *** Any reader *)
Section Any.
  Context {env : Env} {R : Type} {HO : OwnReader R} (HC : exact_contract R) (HW : well_behaved R) (eof : read_res) (HQ : may_be_eof eof).
  Lemma own_any (r r' : R) x : decode_module_own r = (x, r') -> x <> Stuck ->
    (exists k, own_exact 8 r = (Err k, r') /\ x = Err (DM_ParsePreamble (Pre_Io k))) \/
    (exists d r1 before last, own_exact 8 r = (Ok d, r1) /\ steps eof r1 (before ++ last) r' /\ Forall goes_on before /\
      ((exists c, last = [c] /\ stops c) \/ (last = [] /\ forall m, x <> Ok m)) /\
      forall rest : list event, decode_module (answers (mkCall 8 (RdOk d) :: before ++ last) ++ rest) = (x, rest)).
  Proof using HC HW HQ.
    intros Hd Hx. unfold decode_module_own in Hd. unfold bind at 1, map_err, parse_preamble_own, bind at 1, map_err in Hd.
    pose proof (HC 8%N r) as K8. destruct (own_exact 8 r) as [[d|k|pn|] r1] eqn:E8; try contradiction.
    2: { injection Hd as <- <-. left. exists k. auto. }
    right. exists d, r1.
    assert (HD : exists b d', d = b :: d') by (destruct d as [|b d']; [discriminate K8|eauto]). destruct HD as (b & d' & ->).
    assert (HR : forall l : list event, read_exact 8 (EvData b d' :: l) = (Ok (b :: d'), l)).
    { intros l. unfold read_exact. cbn [read_exact_loop]. change (8 =? 0)%N with false. cbv iota. cbn [read event_reader read_events].
      destruct (takeN_all 8 (b :: d')) as [-> ->]; [lia|]. rewrite K8. change (8 <=? 8)%N with true. cbv iota. change (8 - 8)%N with 0%N. destruct (budget (EvData b d' :: l)); reflexivity. }
    assert (HN : forall log, answers (mkCall 8 (RdOk (b :: d')) :: log) = EvData b d' :: answers log) by reflexivity.
    destruct (negb (bytes_eqb (b :: d') EXPECTED_PREAMBLE)) eqn:EB.
    { injection Hd as <- <-. exists [], []. split; [reflexivity|]. split; [constructor|]. split; [constructor|]. split; [right; split; [reflexivity|discriminate]|].
      intros rest. rewrite HN. cbn [app answers map]. unfold decode_module, bind at 1, map_err, parse_preamble, bind at 1, map_err. rewrite HR, EB. reflexivity. }
    cbn [ret] in Hd. unfold bind in Hd. unfold section_loop_own' in Hd. rewrite (loop_own HC eof HQ) in Hd.
    set (t0 := mkSt default_module false false) in *. 
    pose proof (loop_erased eof (S (budget r1)) t0 (mkLogged r1 [])) as HE. cbn [source_of] in HE.
    pose proof (loop_calls HC eof HQ HW r1 (S (budget r1)) t0 (mkLogged r1 [])) as HL.
    destruct (loop2 (LX eof) LY (S (budget r1)) t0 (mkLogged r1 [])) as [y s] eqn:EL. rewrite HE in Hd.
    assert (HA : alive eof r1 (mkLogged r1 [])) by (split; constructor). specialize (HL HA).
    assert (Hy : y <> Stuck) by (intros ->; injection Hd as <- _; exact (Hx eq_refl)).
    destruct (loop_replayed HC eof HQ HW _ _ _ _ _ EL Hy) as (l & Hl & Hr). cbn [calls_of answers map app] in Hl.
    assert (HM : forall rest, decode_module (EvData b d' :: answers (calls_of s) ++ rest) = (x, rest) /\ r' = source_of s /\ (forall m, x = Ok m -> exists t, y = Ok t)).
    { intros rest. unfold decode_module, bind at 1, map_err, parse_preamble, bind at 1, map_err. rewrite HR, EB. cbn [ret]. unfold bind, section_loop'. rewrite Hl. cbn [budget event_reader]. fold t0.
      rewrite (Hr rest _ (Nat.lt_succ_diag_r _)). destruct y as [t|e|pn|].
      - unfold final_checks in *. cbv zeta in *.
        repeat match goal with |- context [if ?c then _ else _] => destruct c; [injection Hd as <- <-; split; [reflexivity|split; [reflexivity|discriminate]]|] end.
        injection Hd as <- <-. split; [reflexivity|split; [reflexivity|eauto]].
      - injection Hd as <- <-. split; [reflexivity|split; [reflexivity|discriminate]].
      - injection Hd as <- <-. split; [reflexivity|split; [reflexivity|discriminate]].
      - contradiction. }
    assert (HS : exists before last, calls_of s = before ++ last /\ steps eof r1 (before ++ last) (source_of s) /\ Forall goes_on before /\ ((exists c, last = [c] /\ stops c) \/ (last = [] /\ forall m, x <> Ok m))).
    { assert (HQ' : (alive eof r1 s /\ forall t, y <> Ok t) \/ ended eof r1 s) by (destruct y; [right; exact HL|destruct HL; [left; split; [assumption|discriminate]|right; assumption]..]).
      destruct HQ' as [[[Q1 Q2] Q3]|(Q1 & before & c & Q2 & Q3 & Q4)].
      - exists (calls_of s), []. rewrite app_nil_r. split; [reflexivity|]. split; [exact Q1|]. split; [exact Q2|]. right. split; [reflexivity|]. intros m ->.
        destruct (proj2 (proj2 (HM [])) m eq_refl) as (t & ->). exact (Q3 t eq_refl).
      - exists before, [c]. rewrite Q2 in Q1. split; [exact Q2|]. split; [exact Q1|]. split; [exact Q3|]. left. eauto. }
    destruct HS as (before & last & HS1 & HS2 & HS3 & HS4). exists before, last. destruct (proj2 (HM [])) as [-> _]. split; [reflexivity|]. split; [exact HS2|]. split; [exact HS3|].
    split; [exact HS4|]. intros rest. rewrite HN, <- HS1. apply HM.
  Qed.
End Any.
Lemma steps_asked {R} `{OwnReader R} eof (r r' : R) log : steps eof r log r' -> Forall (fun c => asked c <> 0%N) log.
Proof. induction 1; constructor; try assumption. discriminate. Qed.
Lemma err_stops eof n k : may_be_eof eof -> k <> Interrupted -> stops (mkCall n (as_answer eof (Err k))).
Proof.
  intros HQ Hk. destruct k; [|contradiction|right; eexists; split; [exact Hk|reflexivity]].
  destruct HQ as [-> | ->]; [left; reflexivity|right; eexists; split; [exact Hk|reflexivity]].
Qed.
Lemma err_preamble env eof k (rest : list event) : may_be_eof eof -> k <> Interrupted ->
  @decode_module env _ _ (event_of (mkCall 8 (as_answer eof (Err k))) :: rest) = (Err (DM_ParsePreamble (Pre_Io k)), rest).
Proof. intros [-> | ->] Hk; destruct k; try contradiction; reflexivity. Qed.

(** *** Readers that serve some bytes *)
(** what UnexpectedEof is taken for *)
Definition eof_for (stop : ending) : read_res :=
  match stop with Fails UnexpectedEof => RdErr UnexpectedEof | _ => RdOk [] end.
Lemma eof_for_ok stop : may_be_eof (eof_for stop).
Proof. destruct stop as [|[]]; cbn; [left|right|left|left]; reflexivity. Qed.
Section Serve.
  Context {R : Type} {HO : OwnReader R}.
  Lemma both_going eof (r : R) log r' bs stop : may_be_eof eof -> serves_both r bs stop -> steps eof r log r' -> Forall goes_on log ->
    exists bs', bs = bytes_of log ++ bs' /\ serves_both r' bs' stop.
  Proof.
    intros HQ Hs HT. revert bs Hs. induction HT as [r|r n x r1 log r' ER Hn HT IH|r x r1 log r' ER HT IH]; intros bs Hs HG; [exists bs; auto|..];
    inversion HG as [|? ? Hg HG']; subst; inversion Hs as [? ? ? Ha Hf]; subst; unfold goes_on in Hg; cbn [answer] in Hg; unfold bytes_of; cbn [flat_map answer]; fold (bytes_of log).
    - specialize (Ha n Hn).
      inversion Ha as [? ? b d bs0 ? r2 E2 Hs2|? ? ? ? r2 E2 Hs2|? ? r2 E2|? ? k r2 E2 Hk]; subst; rewrite ER in E2; injection E2 as -> ->.
      + destruct (IH _ Hs2 HG') as (bs' & -> & Hs'). exists bs'. split; [cbn; rewrite <- app_assoc; reflexivity|exact Hs'].
      + destruct (IH _ Hs2 HG') as (bs' & -> & Hs'). exists bs'. auto.
      + destruct Hg as [E|(? & ? & E)]; discriminate E.
      + destruct Hg as [E|(? & ? & E)]; [|discriminate E]. injection E as ->. contradiction.
    - specialize (Hf 1%N ltac:(discriminate)).
      inversion Hf as [? ? d bs0 ? r2 E2 Hl Hs2|? ? ? r2 E2 Hl|? ? ? k r2 E2 Hk Hl]; subst; rewrite ER in E2; injection E2 as -> ->.
      + cbn [as_answer] in *. destruct (IH _ Hs2 HG') as (bs' & -> & Hs'). exists bs'. split; [rewrite <- app_assoc; reflexivity|exact Hs'].
      + exfalso. cbn [as_answer] in Hg. destruct HQ as [-> | ->]; destruct Hg as [E|(? & ? & E)]; discriminate E.
      + exfalso. assert (HK : as_answer eof (Err k) <> RdErr Interrupted /\ forall b d, as_answer eof (Err k) <> RdOk (b :: d)).
        { destruct k; cbn; [destruct HQ as [-> | ->]|contradiction|]; split; discriminate. }
        destruct Hg as [E|(? & ? & E)]; [exact (proj1 HK E)|exact (proj2 HK _ _ E)].
  Qed.
  Lemma both_stop (r : R) c r' bs stop : serves_both r bs stop -> steps (eof_for stop) r [c] r' -> stops c -> bs = [] /\ stop = stop_of c.
  Proof.
    intros Hs HT Hc. inversion Hs as [? ? ? Ha Hf]; subst. unfold stops in Hc. unfold stop_of.
    inversion HT as [|? n x r1 ? ? ER Hn HT'|? x r1 ? ? ER HT']; subst; cbn [answer] in *.
    - specialize (Ha n Hn).
      inversion Ha as [? ? b d bs0 ? r2 E2 Hs2|? ? ? ? r2 E2 Hs2|? ? r2 E2|? ? k r2 E2 Hk]; subst; rewrite ER in E2; injection E2 as -> ->; auto.
      + destruct Hc as [E|(? & _ & E)]; discriminate E.
      + destruct Hc as [E|(k & Hk & E)]; [discriminate E|]. injection E as <-. contradiction.
    - specialize (Hf 1%N ltac:(discriminate)).
      inversion Hf as [? ? d bs0 ? r2 E2 Hl Hs2|? ? ? r2 E2 Hl|? ? ? k r2 E2 Hk Hl]; subst; rewrite ER in E2; injection E2 as -> ->; cbn [as_answer] in *.
      + destruct d as [|b d]; [discriminate Hl|]. destruct Hc as [E|(? & _ & E)]; discriminate E.
      + cbn [eof_for]. destruct bs; [auto|unfold lenN in Hl; cbn [length] in Hl; lia].
      + assert (bs = []) as -> by (destruct bs; [reflexivity|unfold lenN in Hl; cbn [length] in Hl; lia]). split; [reflexivity|]. destruct k; try reflexivity.
  Qed.
  Lemma both_going_on (HF : finite R) : forall n (q : R) l, budget q < n -> ~ serves_both q l (Fails Interrupted).
  Proof.
    destruct HF as (F1 & F2 & F3).
    induction n as [|n IH]; intros q l Hq Hq2; [lia|]. inversion Hq2 as [? ? ? Ha _]; subst. specialize (Ha 1%N ltac:(discriminate)).
    inversion Ha as [? ? b d bs0 ? r2 E2 Hs2|? ? ? ? r2 E2 Hs2|? ? r2 E2|? ? k r2 E2 Hk]; subst.
    - apply F1 in E2. cbn in E2. eapply IH; [|exact Hs2]. lia.
    - apply F3 in E2. eapply IH; [|exact Hs2]. lia.
    - contradiction.
  Qed.
End Serve.

(** *** std's default [read_exact] *)
Section Default.
  Context {R : Type} `{Reader R} (HW : well_behaved R) (HF : finite R).
  Lemma default_contract n (r : R) : match read_exact n r with
    | (Ok d, r') => lenN d = n /\ budget r' + length d <= budget r
    | (Err k, r') => k <> Interrupted /\ budget r' <= budget r
    | _ => False end.
  Proof using HW HF.
    destruct HF as (F1 & F2 & F3). unfold read_exact.
    assert (HL : forall fuel need (acc : list byte) (r : R), budget r < fuel -> match read_exact_loop fuel need acc r with
      | (Ok d, r') => exists d', d = acc ++ d' /\ lenN d' = need /\ budget r' + length d' <= budget r
      | (Err k, r') => k <> Interrupted /\ budget r' <= budget r
      | _ => False end).
    { induction fuel as [|fuel IH]; intros need acc q Hq; [lia|]. cbn [read_exact_loop]. destruct (N.eqb_spec need 0) as [->|Hn].
      { exists []. rewrite app_nil_r. split; [reflexivity|]. split; [reflexivity|cbn; lia]. }
      destruct (read q need) as [[[|b d]|k|] q1] eqn:ER; [..|exact (HW _ _ _ _ ER)].
      - split; [discriminate|]. apply F1 in ER. cbn in ER. lia.
      - pose proof (HW _ _ _ _ ER) as Hl. unfold honest in Hl. cbn [answer asked] in Hl. pose proof (F1 _ _ _ _ ER) as Hb. destruct (N.leb_spec (lenN (b :: d)) need) as [_|]; [|lia].
        specialize (IH (need - lenN (b :: d))%N (acc ++ b :: d) q1). cbn [length] in Hb. specialize (IH ltac:(lia)).
        destruct (read_exact_loop fuel _ _ q1) as [[z|k|pn|] q2]; try contradiction.
        + destruct IH as (d' & -> & Hd & Hb2). exists ((b :: d) ++ d'). split; [rewrite <- app_assoc; reflexivity|]. unfold lenN in *. rewrite app_length. cbn [length] in *. lia.
        + destruct IH as [K1 K2]. split; [exact K1|lia].
      - destruct k.
        + split; [discriminate|]. exact (F2 _ _ _ _ ER).
        + specialize (F3 _ _ _ ER). specialize (IH need acc q1 ltac:(lia)). destruct (read_exact_loop fuel _ _ q1) as [[z|k|pn|] q2]; try contradiction.
          * destruct IH as (d' & K1 & K2 & K3). exists d'. split; [exact K1|]. split; [exact K2|lia].
          * destruct IH as [K1 K2]. split; [exact K1|lia].
        + split; [discriminate|]. exact (F2 _ _ _ _ ER). }
    specialize (HL (S (budget r)) n [] r (Nat.lt_succ_diag_r _)). destruct (read_exact_loop _ _ _ r) as [[z|k|pn|] q2]; try contradiction; [|exact HL].
    destruct HL as (d' & -> & K1 & K2). auto.
  Qed.
  (** one call of [read] on a reader that serves, and what is left of it *)
  Definition read_step (P : R -> list byte -> ending -> Prop) (r : R) (n : N) (bs : list byte) (stop : ending) : Prop :=
    (exists b d bs' r', read r n = (RdOk (b :: d), r') /\ bs = b :: d ++ bs' /\ P r' bs' stop) \/
    (exists r', read r n = (RdErr Interrupted, r') /\ P r' bs stop) \/
    (bs = [] /\ stop = Ends /\ exists r', read r n = (RdOk [], r')) \/
    (bs = [] /\ exists k r', stop = Fails k /\ k <> Interrupted /\ read r n = (RdErr k, r')).
  Definition steady (P : R -> list byte -> ending -> Prop) : Prop :=
    forall r bs stop n, n <> 0%N -> P r bs stop -> read_step P r n bs stop.
  Lemma serves_steady : steady serves.
  Proof.
    intros r bs stop n Hn Hs. inversion Hs as [? ? ? Ha]; subst. specialize (Ha n Hn). unfold read_step.
    inversion Ha as [? ? b d bs0 ? r2 E2 Hs2|? ? ? ? r2 E2 Hs2|? ? r2 E2|? ? k r2 E2 Hk]; subst.
    - left. exists b, d, bs0, r2. auto.
    - right. left. eauto.
    - right. right. left. eauto.
    - right. right. right. split; [reflexivity|]. eauto.
  Qed.
  Lemma default_fills P n (r : R) bs stop : steady P -> P r bs stop -> n <> 0%N -> match read_exact n r with
    | (Ok d, r') => exists bs', bs = d ++ bs' /\ P r' bs' stop
    | (Err k, _) => (lenN bs < n)%N /\ ((stop = Ends /\ k = UnexpectedEof) \/ stop = Fails k)
    | _ => True end.
  Proof using HW.
    intros HP Hr _. unfold read_exact.
    assert (HL : forall fuel need (acc : list byte) (r : R) bs, P r bs stop -> match read_exact_loop fuel need acc r with
      | (Ok d, r') => exists d' bs', d = acc ++ d' /\ bs = d' ++ bs' /\ P r' bs' stop
      | (Err k, _) => (lenN bs < need)%N /\ ((stop = Ends /\ k = UnexpectedEof) \/ stop = Fails k)
      | _ => True end).
    { induction fuel as [|fuel IH]; intros need acc q l Hq; cbn [read_exact_loop]; destruct (N.eqb_spec need 0) as [->|Hn].
      1,3: exists [], l; rewrite app_nil_r; auto.
      - exact I.
      - destruct (HP q l stop need Hn Hq) as [(b & d & l' & q1 & ER & -> & Hq1)|[(q1 & ER & Hq1)|[(-> & -> & q1 & ER)|(-> & k & q1 & -> & Hk & ER)]]]; rewrite ER.
        + pose proof (HW _ _ _ _ ER) as Hl. unfold honest in Hl. cbn [answer asked] in Hl. destruct (N.leb_spec (lenN (b :: d)) need) as [_|]; [|lia].
          specialize (IH (need - lenN (b :: d))%N (acc ++ b :: d) q1 l' Hq1). destruct (read_exact_loop fuel _ _ q1) as [[z|k|pn|] q2]; try exact I.
          * destruct IH as (d' & bs' & -> & -> & K). exists ((b :: d) ++ d'), bs'. split; [rewrite <- app_assoc; reflexivity|]. split; [cbn; rewrite <- app_assoc; reflexivity|exact K].
          * destruct IH as [K1 K2]. split; [|exact K2]. unfold lenN in *. cbn [length] in *. rewrite app_length. lia.
        + exact (IH need acc q1 l Hq1).
        + split; [unfold lenN; cbn; lia|auto].
        + destruct k; [|contradiction|]; (split; [unfold lenN; cbn; lia|auto]). }
    specialize (HL (S (budget r)) n [] r bs Hr). destruct (read_exact_loop _ _ _ r) as [[z|k|pn|] q2]; try exact I; [|exact HL].
    destruct HL as (d' & bs' & -> & -> & K). exists bs'. auto.
  Qed.
End Default.

(** to show that a reader serves, it is enough to find an invariant *)
Section Invariant.
  Context {R : Type} {HO : OwnReader R} (HF : finite R) (HE : exact_finite R).
  Lemma serves_invariant P : @steady R own_reader P ->
    (forall n r bs stop, n <> 0%N -> P r bs stop -> match own_exact n r with
      | (Ok d, r') => lenN d = n /\ exists bs', bs = d ++ bs' /\ P r' bs' stop
      | (Err k, _) => k <> Interrupted /\ (lenN bs < n)%N /\ ((stop = Ends /\ k = UnexpectedEof) \/ stop = Fails k)
      | _ => False end) ->
    forall r bs stop, P r bs stop -> serves_both r bs stop.
  Proof using HF HE.
    intros HP HX. destruct HF as (F1 & F2 & F3), HE as (E1 & E2).
    assert (HI : forall m (r : R) bs stop, budget r < m -> P r bs stop -> serves_both r bs stop).
    { induction m as [|m IH]; intros r bs stop Hm Hr; [lia|]. constructor; intros n Hn.
      - destruct (HP r bs stop n Hn Hr) as [(b & d & l' & q1 & ER & -> & Hq1)|[(q1 & ER & Hq1)|[(-> & -> & q1 & ER)|(-> & k & q1 & -> & Hk & ER)]]].
        + eapply rw_data; [exact ER|]. apply F1 in ER. cbn [length] in ER. apply IH; [lia|exact Hq1].
        + eapply rw_retry; [exact ER|]. apply F3 in ER. apply IH; [lia|exact Hq1].
        + eapply rw_eof. exact ER.
        + eapply rw_fail; eassumption.
      - specialize (HX n r bs stop Hn Hr). destruct (own_exact n r) as [[d|k|pn|] r1] eqn:EX; try contradiction.
        + destruct HX as (Hl & bs' & -> & Hp). eapply fw_data; [exact EX|exact Hl|]. apply E1 in EX. apply IH; [|exact Hp]. unfold lenN in Hl. lia.
        + destruct HX as (Hk & Hl & [[-> ->]| ->]); [eapply fw_eof|eapply fw_fail]; eassumption. }
    intros r bs stop Hr. exact (HI _ r bs stop (Nat.lt_succ_diag_r _) Hr).
  Qed.
End Invariant.

(** event streams *)
Lemma events_well : well_behaved (list event).
Proof. exact ok_well_behaved. Qed.
Lemma events_finite : finite (list event).
Proof. split; [|split]; intros r n; [intros d r' K; exact (proj2 (ok_data _ _ _ _ K))|intros k r' K; exact (ok_err _ _ _ _ K)|intros r' K; exact (ok_intr _ _ _ K)]. Qed.
Definition plain_at (evs : list event) (bs : list byte) (stop : ending) : Prop := stop <> Fails Interrupted /\ evs = byte_by_byte bs stop.
Lemma plain_steady : steady plain_at.
Proof.
  intros evs bs stop n Hn [HK ->]. unfold read_step. destruct bs as [|b bs].
  - right. right. destruct stop as [|k]; [left; split; [reflexivity|]; split; [reflexivity|]; eexists; reflexivity|right].
    split; [reflexivity|]. exists k. eexists. split; [reflexivity|]. split; [congruence|reflexivity].
  - left. exists b, [], bs, (byte_by_byte bs stop). split; [|split; [reflexivity|split; [exact HK|reflexivity]]].
    unfold byte_by_byte. cbn [map app read event_reader read_events]. destruct (takeN_all n [b]) as [-> ->]; [unfold lenN; cbn; lia|]. reflexivity.
Qed.

(** ** C60 *)

(** A type that keeps std's [read_exact]: this is [decode_module] of
    Model/Module.v, so that what follows generalises C57. *)
Definition default_own {R} `{Reader R} : OwnReader R := {| own_exact := read_exact |}.
Theorem C60_default env {R} `{Reader R} (r : R) : @decode_module_own env R default_own r = @decode_module env R _ r.
Proof. reflexivity. Qed.
(** and it keeps the contract, if [read] keeps its own *)
Theorem C60_default_contract {R} `{Reader R} : well_behaved R -> finite R ->
  @exact_contract R default_own /\ @exact_finite R default_own /\
  forall r bs stop, serves r bs stop -> @serves_both R default_own r bs stop.
Proof.
  intros HW HF. assert (HE : @exact_finite R default_own).
  { split; intros n r ? r' K; cbn [own_exact default_own] in K; pose proof (default_contract HW HF n r) as HC; rewrite K in HC; apply HC. }
  split; [|split; [exact HE|]].
  - intros n r. cbn [own_exact default_own]. pose proof (default_contract HW HF n r) as HC. destruct (read_exact n r) as [[d|k|pn|] r']; try contradiction; apply HC.
  - apply (@serves_invariant R default_own HF HE serves serves_steady).
    intros n r bs stop Hn Hs. cbn [own_exact default_own]. pose proof (default_contract HW HF n r) as HC. pose proof (default_fills HW _ n r bs stop serves_steady Hs Hn) as HL.
    destruct (read_exact n r) as [[d|k|pn|] r']; try contradiction; tauto.
Qed.

(** Whatever [read] and [read_exact] do, as long as they keep their contracts:
    the outcome is a function of the answers they gave.  Played again by an
    event stream, with std's [read_exact], they give the same outcome.  No call
    comes after one that reports end of file or a failure. *)
Theorem C60_any env {R} `{OwnReader R} eof (r r' : R) x : exact_contract R -> well_behaved R -> may_be_eof eof ->
  @decode_module_own env R _ r = (x, r') -> x <> Stuck ->
  exists before last, exchange eof r (before ++ last) r' /\ Forall (fun c => asked c <> 0%N) (before ++ last) /\ Forall goes_on before /\
    ((exists c, last = [c] /\ stops c) \/ (last = [] /\ forall m, x <> Ok m)) /\
    forall rest : list event, @decode_module env _ _ (answers (before ++ last) ++ rest) = (x, rest).
Proof.
  intros HC HW HQ Hd Hx. destruct (own_any HC HW eof HQ r r' x Hd Hx) as [(k & E8 & ->)|(d & r1 & before & last & E8 & HT & HG & HL & HR)].
  - pose proof (HC 8%N r) as Hk. rewrite E8 in Hk. exists [], [mkCall 8 (as_answer eof (Err k))]. split; [eapply x_exact; [exact E8|constructor]|].
    split; [repeat constructor; discriminate|]. split; [constructor|]. split; [left; eexists; split; [reflexivity|apply err_stops; assumption]|].
    intros rest. apply err_preamble; assumption.
  - exists (mkCall 8 (RdOk d) :: before), last. cbn [app]. split; [exact (x_exact eof r _ (Ok d) _ _ _ E8 (steps_exchange _ _ _ _ HT))|].
    split; [constructor; [discriminate|exact (steps_asked _ _ _ _ HT)]|].
    split; [|split; [exact HL|exact HR]]. constructor; [|exact HG]. right. pose proof (HC 8%N r) as Hk. rewrite E8 in Hk. destruct d as [|b d]; [discriminate Hk|]. exists b, d. reflexivity.
Qed.

(** A module is returned only if the bytes delivered are a module, and the
    reader has reported the end of file (or a failure of that kind, C32). *)
Theorem C60_module env {R} `{OwnReader R} (r r' : R) m : exact_contract R -> well_behaved R -> @decode_module_own env R _ r = (Ok m, r') ->
  exists before c, exchange (RdOk []) r (before ++ [c]) r' /\ Forall goes_on before /\
    (answer c = RdOk [] \/ answer c = RdErr UnexpectedEof) /\ Bmodule m (bytes_of before).
Proof.
  intros HC HW Hd. destruct (C60_any env (RdOk []) r r' _ HC HW (or_introl eq_refl) Hd ltac:(discriminate)) as (before & last & HT & _ & HG & HL & HR).
  destruct HL as [(c & -> & Hc)|[_ Hn]]; [|destruct (Hn m eq_refl)]. exists before, c. split; [exact HT|]. split; [exact HG|].
  pose proof (content_ended before c [] HG Hc) as HN. specialize (HR []).
  assert (HB : bytes_of (before ++ [c]) = bytes_of before).
  { unfold bytes_of. rewrite flat_map_app. cbn. destruct Hc as [E|(k & _ & E)]; rewrite E; apply app_nil_r. }
  rewrite HB in HN. pose proof (f_equal fst HR) as HR1. cbn [fst] in HR1.
  destruct (C01_sound env _ _ HR1) as (bs & e & HN' & He & HM). rewrite HN in HN'. injection HN' as <- <-. split; [|exact HM].
  unfold stop_of in He. unfold stops in Hc. destruct (answer c) as [d|k|]; [left|right|].
  - destruct Hc as [E|(k & _ & E)]; [exact E|discriminate E].
  - destruct He as [He|He]; [discriminate He|]. injection He as ->. reflexivity.
  - destruct Hc as [E|(k & _ & E)]; discriminate E.
Qed.

(** An error is a fault of what was delivered, however the input would go on. *)
Theorem C60_error env {R} `{OwnReader R} eof (r r' : R) e : exact_contract R -> well_behaved R -> may_be_eof eof ->
  @decode_module_own env R _ r = (Err e, r') ->
  exists log, exchange eof r log r' /\
    forall (rest : list event) bs stop, content (answers log ++ rest) = (bs, stop) -> diagnosis bs stop e.
Proof.
  intros HC HW HQ Hd. destruct (C60_any env eof r r' _ HC HW HQ Hd ltac:(discriminate)) as (before & last & HT & _ & _ & _ & HR).
  exists (before ++ last). split; [exact HT|]. intros rest bs stop Hc. apply (C50_sound env _ bs stop e Hc). rewrite HR. reflexivity.
Qed.

(** It panics for want of heap or stack only. *)
Theorem C60_panics env {R} `{OwnReader R} (r r' : R) p : exact_contract R -> well_behaved R -> @decode_module_own env R _ r = (Panic p, r') ->
  (p = AllocFailure /\ exists log, exchange (RdOk []) r log r' /\ (@alloc_limit env < 2 ^ 32 - 1 \/ @alloc_limit env <= N.of_nat (length (bytes_of log)))%N) \/
  (p = StackOverflow /\ exists log, exchange (RdOk []) r log r' /\ @stack_limit env <= S (length (bytes_of log))).
Proof.
  intros HC HW Hd. destruct (C60_any env (RdOk []) r r' _ HC HW (or_introl eq_refl) Hd ltac:(discriminate)) as (before & last & HT & _ & HG & HL & HR).
  pose proof (C34_panics env (answers (before ++ last) ++ []) p ltac:(rewrite HR; reflexivity)) as HP.
  assert (HB : fst (content (answers (before ++ last) ++ [])) = bytes_of (before ++ last)).
  { destruct HL as [(c & -> & Hc)|[-> _]].
    - rewrite (content_ended _ _ _ HG Hc). reflexivity.
    - rewrite !app_nil_r in *. rewrite <- (app_nil_r (answers before)), (content_going _ _ HG). cbn. rewrite app_nil_r. reflexivity. }
  rewrite HB in HP. destruct HP as [[-> HA]|[-> HS]]; [left|right]; (split; [reflexivity|]); exists (before ++ last); split; assumption.
Qed.

(** It returns. *)
Theorem C60_halts env {R} `{OwnReader R} (r : R) : exact_contract R -> exact_finite R -> well_behaved R -> finite R ->
  fst (@decode_module_own env R _ r) <> Stuck.
Proof.
  intros HC HE HW HF. unfold decode_module_own. unfold bind at 1, map_err, parse_preamble_own, bind at 1, map_err.
  pose proof (HC 8%N r) as K8. destruct (own_exact 8 r) as [[d|k|pn|] r1] eqn:E8; try contradiction; [|discriminate].
  destruct (negb (bytes_eqb d EXPECTED_PREAMBLE)); [discriminate|]. cbn [ret]. unfold bind, section_loop_own'. rewrite (loop_own HC (RdOk []) (or_introl eq_refl)).
  pose proof (loop_halts HC (RdOk []) (or_introl eq_refl) HW HF HE (S (budget r1)) (mkSt default_module false false) r1 (Nat.lt_succ_diag_r _)) as HL.
  destruct (loop2 _ _ _ _ r1) as [[t|e|pn|] r2]; try discriminate; [|contradiction].
  unfold final_checks. cbv zeta. repeat match goal with |- context [if ?c then _ else _] => destruct c; [discriminate|] end. discriminate.
Qed.

(** Any reader that serves the bytes [bs] and then stops, by [read] and by
    [read_exact]: the outcome is that of the plainest such reader. *)
Theorem C60_serves env {R} `{OwnReader R} (r : R) bs stop : exact_contract R -> exact_finite R -> well_behaved R -> finite R ->
  serves_both r bs stop -> fst (@decode_module_own env R _ r) = fst (@decode_module env _ _ (byte_by_byte bs stop)).
Proof.
  intros HC HE HW HF Hs. pose proof (C60_halts env r HC HE HW HF) as Hx. destruct (decode_module_own r) as [x r'] eqn:Hd. cbn [fst] in *.
  assert (HK : stop <> Fails Interrupted) by (intros ->; exact (both_going_on HF _ r bs (Nat.lt_succ_diag_r _) Hs)).
  inversion Hs as [? ? ? _ Hf]; subst. specialize (Hf 8%N ltac:(discriminate)).
  assert (HP : forall l, content (byte_by_byte l stop) = (l, stop)) by (intros l; exact (content_plain l stop HK)).
  destruct (own_any HC HW (eof_for stop) (eof_for_ok stop) r r' x Hd Hx) as [(k & E8 & ->)|(d & r1 & before & last & E8 & HT & HG & HL & HR)].
  - assert (HX : (lenN bs < 8)%N /\ k = io stop) by (inversion Hf as [? ? d bs0 ? r2 E2 Hl Hs2|? ? ? r2 E2 Hl|? ? ? k' r2 E2 Hk Hl]; subst; rewrite E8 in E2; inversion E2; subst; auto).
    destruct HX as [Hl ->].
    pose proof (default_fills events_well plain_at 8 _ bs stop plain_steady (conj HK eq_refl) ltac:(discriminate)) as K1. pose proof (default_contract events_well events_finite 8 (byte_by_byte bs stop)) as K2.
    unfold decode_module, bind at 1, map_err, parse_preamble, bind at 1, map_err. destruct (read_exact 8 (byte_by_byte bs stop)) as [[d|k|pn|] evs]; try contradiction.
    + exfalso. destruct K1 as (bs' & -> & _), K2 as [K2 _]. unfold lenN in *. rewrite app_length in Hl. lia.
    + destruct K1 as [_ [[-> ->]| ->]]; reflexivity.
  - inversion Hf as [? ? d0 bs0 ? r2 E2 Hl Hs1|? ? ? r2 E2 Hl|? ? ? k' r2 E2 Hk Hl]; subst; rewrite E8 in E2; inversion E2; subst. clear E2.
    destruct (steps_split _ _ _ _ _ HT) as (r3 & HT1 & HT2).
    destruct (both_going _ _ _ _ _ _ (eof_for_ok stop) Hs1 HT1 HG) as (bs' & -> & Hs3).
    set (c8 := mkCall 8 (RdOk d0)) in *.
    assert (HG8 : Forall goes_on (c8 :: before)). { constructor; [|exact HG]. right. destruct d0 as [|b d]; [discriminate Hl|]. exists b, d. reflexivity. }
    assert (HB : bytes_of (c8 :: before) = d0 ++ bytes_of before) by reflexivity.
    assert (HN : content (answers ((c8 :: before) ++ last) ++ byte_by_byte bs' stop) = (d0 ++ bytes_of before ++ bs', stop)).
    { destruct HL as [(c & -> & Hc)|[-> _]].
      - destruct (both_stop _ _ _ _ _ Hs3 HT2 Hc) as [-> ->]. rewrite (content_ended _ _ _ HG8 Hc).
        unfold bytes_of. rewrite flat_map_app. fold (bytes_of (c8 :: before)). rewrite HB. cbn. destruct Hc as [E|(k & _ & E)]; rewrite E; rewrite <- app_assoc; reflexivity.
      - rewrite app_nil_r, (content_going _ _ HG8), HP, HB. cbn [fst snd]. rewrite <- app_assoc. reflexivity. }
    pose proof (C30_content env _ _ (eq_trans HN (eq_sym (HP (d0 ++ bytes_of before ++ bs'))))) as HQ. cbn [app] in HQ. rewrite HR in HQ. exact HQ.
Qed.

(** In particular a reader that serves a module yields it. *)
Theorem C60_complete env {R} `{OwnReader R} (r : R) bs m : exact_contract R -> exact_finite R -> well_behaved R -> finite R ->
  serves_both r bs Ends -> sufficient env (length bs) -> Bmodule m bs -> fst (@decode_module_own env R _ r) = Ok m.
Proof.
  intros HC HE HW HF Hs HS HM. rewrite (C60_serves env r bs Ends HC HE HW HF Hs).
  assert (HN : content (byte_by_byte bs Ends) = (bs, Ends)) by (apply (content_plain bs Ends); discriminate). rewrite (C30_slice env _ bs HN). exact (C02_complete_slice env bs m HS HM).
Qed.

(** ** Slices: [&[u8]] with its own [read_exact] *)
Lemma slice_contract : @exact_contract _ slice_own.
Proof.
  intros n l. cbn [own_exact slice_own]. unfold slice_exact. destruct (N.ltb_spec (lenN l) n) as [|Hn]; [discriminate|].
  revert n Hn. induction l as [|b l IH]; intros n Hn; unfold lenN in *; cbn [takeN length] in *; [lia|]. destruct (N.eqb_spec n 0) as [->|H0]; [reflexivity|].
  specialize (IH (N.pred n) ltac:(lia)). cbn [length]. lia.
Qed.
Lemma slice_finite : @exact_finite _ slice_own.
Proof.
  split; intros n l ? l' K; cbn [own_exact slice_own] in K; unfold slice_exact in K; destruct (lenN l <? n)%N; try discriminate K; injection K as <- <-; cbn [budget own_reader slice_own list_reader length]; try lia.
  pose proof (length_takeN_dropN n l). lia.
Qed.
Lemma list_well : well_behaved (list byte).
Proof. exact ok_well_behaved. Qed.
Lemma list_finite : finite (list byte).
Proof. split; [|split]; intros r n; [intros d r' K; exact (proj2 (ok_data _ _ _ _ K))|intros k r' K; exact (ok_err _ _ _ _ K)|intros r' K; exact (ok_intr _ _ _ K)]. Qed.
Lemma slice_serves bs : @serves_both _ slice_own bs bs Ends.
Proof.
  apply (@serves_invariant _ slice_own list_finite slice_finite (fun l bs stop => l = bs /\ stop = Ends)); [| |auto].
  - intros r l stop n Hn [-> ->]. unfold read_step. cbn [own_reader slice_own read list_reader]. destruct l as [|b l]; [right; right; left; eauto|left].
    cbn [takeN dropN]. rewrite (proj2 (N.eqb_neq _ _) Hn). exists b, (takeN (N.pred n) l), (dropN (N.pred n) l), (dropN (N.pred n) l). split; [reflexivity|]. split; [|auto]. rewrite takeN_dropN. reflexivity.
  - intros n r l stop Hn [-> ->]. pose proof (slice_contract n l) as HC. cbn [own_exact slice_own] in *. unfold slice_exact in *. destruct (N.ltb_spec (lenN l) n) as [Hl|Hl].
    + split; [discriminate|]. auto.
    + split; [exact HC|]. exists (dropN n l). rewrite takeN_dropN. auto.
Qed.
Theorem C60_slice env bs : fst (@decode_module_own env _ slice_own bs) = fst (@decode_module env _ list_reader bs).
Proof.
  rewrite (@C60_serves env _ slice_own bs bs Ends slice_contract slice_finite list_well list_finite (slice_serves bs)).
  apply C30_slice. apply (content_plain bs Ends). discriminate.
Qed.

(** ** [BufReader] of any capacity around any reader, with anything in its buffer *)
Section Buffered.
  Context {R : Type} `{Reader R} (HW : well_behaved R) (HF : finite R).
  Lemma buffered_well : well_behaved (Buffered R).
  Proof using HW.
    intros [c data r] n d b' K. cbn [read buffered_reader b_data b_cap b_inner] in K. destruct data as [|x data].
    - destruct (c <=? n)%N.
      + destruct (read r n) as [y r'] eqn:E. inversion K; subst; clear K. exact (HW _ _ _ _ E).
      + destruct (read r c) as [[y|k|] r'] eqn:E; [destruct (N.leb_spec (lenN y) c) as [_|Hy]|..]; inversion K; subst; clear K; unfold honest; cbn [answer asked]; [apply lenN_takeN| |exact I|exact (HW _ _ _ _ E)].
        apply HW in E. unfold honest in E. cbn [answer asked] in E. lia.
    - injection K as <- _. exact (lenN_takeN n (x :: data)).
  Qed.
  Lemma buffered_finite : finite (Buffered R).
  Proof using HF.
    destruct HF as (F1 & F2 & F3). split; [|split]; intros [c data r] n; cbn [read budget buffered_reader b_data b_cap b_inner].
    - intros d b' K. destruct data as [|x data].
      + destruct (c <=? n)%N.
        * destruct (read r n) as [y r'] eqn:E. inversion K; subst; clear K. cbn [b_data b_inner length]. apply F1 in E. lia.
        * destruct (read r c) as [[y|k|] r'] eqn:E; [destruct (lenN y <=? c)%N|..]; inversion K; subst; clear K. cbn [b_data b_inner length]. apply F1 in E. pose proof (length_takeN_dropN n y). lia.
      + injection K as <- <-. cbn [b_data b_inner]. pose proof (length_takeN_dropN n (x :: data)) as HL. cbn [takeN dropN] in *. lia.
    - intros k b' K. destruct data as [|x data]; [|discriminate K]. destruct (c <=? n)%N.
      + destruct (read r n) as [y r'] eqn:E. inversion K; subst; clear K. cbn [b_data b_inner length]. apply F2 in E. lia.
      + destruct (read r c) as [[y|k'|] r'] eqn:E; [destruct (lenN y <=? c)%N; discriminate K| |discriminate K]. inversion K; subst; clear K. cbn [b_data b_inner length]. apply F2 in E. lia.
    - intros b' K. destruct data as [|x data]; [|discriminate K]. destruct (c <=? n)%N.
      + destruct (read r n) as [y r'] eqn:E. inversion K; subst; clear K. cbn [b_data b_inner length]. apply F3 in E. lia.
      + destruct (read r c) as [[y|k'|] r'] eqn:E; [destruct (lenN y <=? c)%N; discriminate K| |discriminate K]. inversion K; subst; clear K. cbn [b_data b_inner length]. apply F3 in E. lia.
  Qed.
  Lemma lenN_take n (l : list byte) : (n <= lenN l)%N -> lenN (takeN n l) = n.
  Proof.
    revert n. induction l as [|b l IH]; intros n Hn; unfold lenN in *; cbn [takeN length] in *; [lia|]. destruct (N.eqb_spec n 0) as [->|H0]; [reflexivity|].
    specialize (IH (N.pred n) ltac:(lia)). cbn [length]. lia.
  Qed.
  Lemma buffered_exact_facts n (b : Buffered R) : match buffered_exact n b with
    | (Ok d, b') => lenN d = n /\ budget b' + length d <= budget b
    | (Err k, b') => k <> Interrupted /\ budget b' <= budget b
    | _ => False end.
  Proof using HW HF.
    unfold buffered_exact. destruct (N.leb_spec n (lenN (b_data b))) as [Hn|Hn].
    - split; [exact (lenN_take _ _ Hn)|]. cbn [budget buffered_reader b_data b_inner]. pose proof (length_takeN_dropN n (b_data b)). lia.
    - apply (default_contract buffered_well buffered_finite).
  Qed.
  Lemma buffered_contract : @exact_contract (Buffered R) buffered_own.
  Proof using HW HF. intros n b. cbn [own_exact buffered_own]. pose proof (buffered_exact_facts n b) as K. destruct (buffered_exact n b) as [[d|k|pn|] b']; try contradiction; apply K. Qed.
  Lemma buffered_exact_finite : @exact_finite (Buffered R) buffered_own.
  Proof using HW HF. split; intros n b ? b' K; cbn [own_exact buffered_own] in K; pose proof (buffered_exact_facts n b) as Q; rewrite K in Q; apply Q. Qed.
  (** what is in the buffer comes first *)
  Definition holds (b : Buffered R) (bs : list byte) (stop : ending) : Prop := exists rest, bs = b_data b ++ rest /\ serves (b_inner b) rest stop.
  Lemma holds_steady : steady holds.
  Proof using HW.
    intros [c data r] bs stop n Hn (rest & -> & Hs). unfold read_step, holds. cbn [read buffered_reader b_data b_cap b_inner] in *. destruct data as [|x data].
    - cbn [app]. destruct (N.leb_spec c n) as [Hc|Hc].
      + destruct (serves_steady r rest stop n Hn Hs) as [(b & d & l' & q1 & ER & -> & Hq1)|[(q1 & ER & Hq1)|[(-> & -> & q1 & ER)|(-> & k & q1 & -> & Hk & ER)]]]; rewrite ER.
        * left. exists b, d, l'. eexists. split; [reflexivity|]. split; [reflexivity|]. exists l'. auto.
        * right. left. eexists. split; [reflexivity|]. exists rest. auto.
        * right. right. left. eauto.
        * right. right. right. split; [reflexivity|]. eauto.
      + destruct (serves_steady r rest stop c ltac:(lia) Hs) as [(b & d & l' & q1 & ER & -> & Hq1)|[(q1 & ER & Hq1)|[(-> & -> & q1 & ER)|(-> & k & q1 & -> & Hk & ER)]]]; rewrite ER.
        * apply HW in ER. unfold honest in ER. cbn [answer asked] in ER. rewrite (proj2 (N.leb_le _ _) ER). left. cbn [takeN dropN]. rewrite (proj2 (N.eqb_neq _ _) Hn). exists b, (takeN (N.pred n) d), (dropN (N.pred n) d ++ l'). eexists. split; [reflexivity|].
          split; [rewrite app_assoc, takeN_dropN; reflexivity|]. exists l'. auto.
        * right. left. eexists. split; [reflexivity|]. exists rest. auto.
        * replace (lenN (@nil byte) <=? c)%N with true by (symmetry; apply N.leb_le; unfold lenN; cbn; lia). right. right. left. eauto.
        * right. right. right. split; [reflexivity|]. eauto.
    - left. cbn [takeN dropN]. rewrite (proj2 (N.eqb_neq _ _) Hn). exists x, (takeN (N.pred n) data), (dropN (N.pred n) data ++ rest). eexists. split; [reflexivity|].
      split; [cbn; rewrite app_assoc, takeN_dropN; reflexivity|]. exists rest. auto.
  Qed.
  Lemma buffered_serves b bs stop : holds b bs stop -> @serves_both (Buffered R) buffered_own b bs stop.
  Proof using HW HF.
    apply (@serves_invariant (Buffered R) buffered_own buffered_finite buffered_exact_finite holds holds_steady).
    intros n q l e Hn Hq. pose proof (buffered_exact_facts n q) as HC. cbn [own_exact buffered_own]. unfold buffered_exact in *. destruct (N.leb_spec n (lenN (b_data q))) as [Hl|Hl].
    - split; [apply HC|]. destruct Hq as (rest & -> & Hs). exists (dropN n (b_data q) ++ rest). split; [rewrite app_assoc, takeN_dropN; reflexivity|]. exists rest. auto.
    - pose proof (default_fills buffered_well holds n q l e holds_steady Hq Hn) as HL. destruct (read_exact n q) as [[d|k|pn|] q']; try contradiction; tauto.
  Qed.
End Buffered.
Theorem C60_buffered env {R} `{Reader R} capacity buffer (r : R) bs stop : well_behaved R -> finite R -> serves r bs stop ->
  fst (@decode_module_own env (Buffered R) buffered_own (mkBuffered capacity buffer r)) = fst (@decode_module env _ _ (byte_by_byte (buffer ++ bs) stop)).
Proof.
  intros HW HF Hs. apply (@C60_serves env (Buffered R) buffered_own); [exact (buffered_contract HW HF)|exact (buffered_exact_finite HW HF)|exact (buffered_well HW)|exact (buffered_finite HF)|].
  apply (buffered_serves HW HF). exists bs. auto.
Qed.
(** so buffering makes no difference *)
Theorem C60_transparent env {R} `{Reader R} capacity (r : R) bs stop : well_behaved R -> finite R -> serves r bs stop ->
  fst (@decode_module_own env (Buffered R) buffered_own (mkBuffered capacity [] r)) = fst (@decode_module env _ _ r).
Proof. intros HW HF Hs. rewrite (C60_buffered env capacity [] r bs stop HW HF Hs). symmetry. exact (C57_serves env r bs stop HW HF Hs). Qed.

(** ** The tool: what it prints, and its exit status, for an input opened through
    a [BufReader] are what C47, C58 and C59 say for the same bytes *)
Theorem C60_cli (T : Texts) env {R} `{Reader R} capacity (r : R) (evs : list event) bs stop verbose : well_behaved R -> finite R -> serves r bs stop ->
  content evs = (bs, stop) ->
  @cli_main_own T env (Buffered R) buffered_own verbose (inr (mkBuffered capacity [] r)) = @cli_main T env _ _ verbose (inr evs).
Proof.
  intros HW HF Hs Hc. unfold cli_main_own, cli_main. rewrite (C60_transparent env capacity r bs stop HW HF Hs), (C57_serves env r bs stop HW HF Hs).
  assert (HK : stop <> Fails Interrupted) by (intros ->; clear - Hc; revert bs Hc; induction evs as [|[b d| |[]] evs IH]; intros bs Hc; cbn [content] in Hc; try discriminate Hc; [destruct (content evs) as [l s]; injection Hc as <- ->|]; eauto).
  rewrite (C30_content env (byte_by_byte bs stop) evs); [reflexivity|]. rewrite Hc. exact (content_plain bs stop HK).
Qed.

(** and a failure to open the input is reported, as C47 has it *)
Theorem C60_open (T : Texts) env {R} `{Reader R} verbose e dbg :
  exists lines, @cli_main_own T env (Buffered R) buffered_own verbose (inl (e, dbg)) = Some (mkOutcome 1 [] lines) /\ reported verbose e dbg lines.
Proof. eexists. split; [reflexivity|]. apply abort_reported. Qed.

(** ** Concrete cases *)
Example C60_ex_slice : fst (@decode_module_own roomy _ slice_own kitchensink) = Ok (module_in kitchensink).
Proof. vm_compute. reflexivity. Qed.
(** a buffer of three bytes around an interrupted stream *)
Definition jerky : list event := [EvData x00 [x61; x73; x6d]; EvErr Interrupted] ++ byte_by_byte (dropN 4 add) Ends.
Lemma event_serves n : forall (evs : list event) bs stop, events_budget evs < n -> content evs = (bs, stop) -> serves evs bs stop.
Proof.
  induction n as [|n IH]; intros evs bs stop Hn Hc; [lia|]. constructor. intros k Hk. destruct evs as [|[b d| |e] evs]; cbn [content events_budget] in *.
  - injection Hc as <- <-. eapply aw_eof. reflexivity.
  - destruct (content evs) as [l s] eqn:Ec. injection Hc as <- <-. pose proof (takeN_dropN (N.pred k) d) as HT. pose proof (length_takeN_dropN (N.pred k) d) as HL.
    replace (b :: d ++ l) with (b :: takeN (N.pred k) d ++ (dropN (N.pred k) d ++ l)) by (rewrite app_assoc, HT; reflexivity). eapply aw_data; [cbn [read event_reader read_events takeN dropN]; rewrite (proj2 (N.eqb_neq _ _) Hk); reflexivity|].
    destruct (dropN (N.pred k) d) as [|c cs] eqn:Ed; (apply IH; [cbn [events_budget length] in *; lia|]); [exact Ec|]. cbn [content]. rewrite Ec. reflexivity.
  - injection Hc as <- <-. eapply aw_eof. reflexivity.
  - destruct e; try (injection Hc as <- <-; eapply aw_fail; [reflexivity|discriminate]). eapply aw_retry; [reflexivity|]. apply IH; [lia|exact Hc].
Qed.
Example C60_ex_serves : serves jerky add Ends.
Proof. apply (event_serves (S (events_budget jerky))); [lia|vm_compute; reflexivity]. Qed.
Example C60_ex_buffered : fst (@decode_module_own roomy (Buffered (list event)) buffered_own (mkBuffered 3 [] jerky)) = Ok (module_in add).
Proof. vm_compute. reflexivity. Qed.
Example C60_ex_transparent : fst (@decode_module_own roomy (Buffered (list event)) buffered_own (mkBuffered 3 [] jerky)) = fst (@decode_module roomy _ _ jerky).
Proof. exact (C60_transparent roomy 3 jerky add Ends events_well events_finite C60_ex_serves). Qed.
(** a failing one: the preamble is cut short, and std's slice is used up *)
Example C60_ex_short : @decode_module_own roomy _ slice_own [x00; x61; x73] = (Err (DM_ParsePreamble (Pre_Io UnexpectedEof)), []).
Proof. vm_compute. reflexivity. Qed.
