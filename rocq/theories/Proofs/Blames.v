(** [Blames p F]: the errors of decoder [p] are exactly the faults [F] of the
    input, up to running out of a resource. *)
From Verif Require Import Model.Prelude Model.Io Model.Ast Model.Errors Model.Integer Model.Helpers.
From Verif Require Import Proofs.Machine Proofs.Reads Proofs.Parses Proofs.Leb Proofs.Loop Proofs.GHelpers Proofs.Utf8 Proofs.FinalInt.
From Verif Require Import Spec.Lang Spec.Types Spec.Streams Spec.Leb Spec.Faults.
From Coq Require Import Lia ZifyBool ZifyNat ZifyN.

Definition stopping (s : ending) : atom := match s with Ends => AEof | Fails k => AErr k end.
(** the machine delivers [bs] and then stops *)
Definition delivers {C} `{Machine C} (c : C) (bs : list byte) (stop : ending) : Prop :=
  exists c1 c2, bsteps c bs c1 /\ next c1 = (stopping stop, c2).

Section Delivers.
  Context {C : Type} `{Machine C}.
  Lemma delivers_app (c : C) bs1 c1 bs2 stop : bsteps c bs1 c1 -> delivers c1 bs2 stop -> delivers c (bs1 ++ bs2) stop.
  Proof. intros Hb (c2 & c3 & Hb2 & Hn). exists c2, c3. split; [eapply bsteps_app; eauto|assumption]. Qed.
  Lemma delivers_steps (c : C) bs stop bs1 c1 : delivers c bs stop -> bsteps c bs1 c1 ->
    exists bs2, bs = bs1 ++ bs2 /\ delivers c1 bs2 stop.
  Proof.
    intros HD Hb. revert bs HD. induction Hb as [c|c b c1 bs1 c2 E Hb IH]; intros bs HD.
    - exists bs. auto.
    - destruct HD as (d1 & d2 & Hd & Hn). destruct Hd as [d|d b' e1 bs' e2 E' Hd'].
      { destruct stop; cbn in Hn; congruence. }
      rewrite E in E'. injection E' as <- <-.
      destruct (IH bs') as (bs2 & -> & HD2); [exists e2, d2; auto|]. exists bs2. auto.
  Qed.
  Lemma delivers_split (c : C) bs1 bs2 stop : delivers c (bs1 ++ bs2) stop -> exists c1, bsteps c bs1 c1 /\ delivers c1 bs2 stop.
  Proof. intros (c2 & c3 & Hb & Hn). apply bsteps_app_inv in Hb as (c1 & H1 & H2). exists c1. split; [assumption|]. exists c2, c3. auto. Qed.
  Lemma delivers_next (c : C) bs stop : delivers c bs stop ->
    match next c with
    | (AByte b, c1) => exists bs', bs = b :: bs' /\ delivers c1 bs' stop
    | (AEof, _) => bs = [] /\ stop = Ends
    | (AErr k, _) => bs = [] /\ stop = Fails k
    end.
  Proof.
    intros (c1 & c2 & Hb & Hn). destruct Hb as [c|c b c0 bs c1 E Hb].
    - rewrite Hn. destruct stop; cbn; auto.
    - rewrite E. exists bs. split; [reflexivity|]. exists c1, c2. auto.
  Qed.
  Lemma delivers_det (c : C) bs stop bs' stop' : delivers c bs stop -> delivers c bs' stop' -> bs = bs' /\ stop = stop'.
  Proof.
    intros (c1 & c2 & Hb & Hn). revert bs'. induction Hb as [c|c b c0 bs c1 E Hb IH]; intros bs' HD; apply delivers_next in HD.
    - rewrite Hn in HD. destruct stop; cbn in HD; destruct HD as [-> ->]; auto.
    - rewrite E in HD. destruct HD as (bs2 & -> & HD). destruct (IH Hn _ HD) as [-> ->]. auto.
  Qed.
End Delivers.

Lemma delivers_pend {C} `{Machine C} b (c : C) bs stop : delivers c bs stop -> delivers (([b], c) : Pend C) (b :: bs) stop.
Proof.
  intros (c1 & c2 & Hb & Hn). exists ([], c1), ([], c2). split.
  - econstructor; [reflexivity|]. apply bsteps_pend. exact Hb.
  - cbn. rewrite Hn. reflexivity.
Qed.
Lemma delivers_pend_nil {C} `{Machine C} (c : C) bs stop : delivers c bs stop -> delivers (([], c) : Pend C) bs stop.
Proof.
  intros (c1 & c2 & Hb & Hn). exists ([], c1), ([], c2). split; [apply bsteps_pend; exact Hb|].
  cbn. rewrite Hn. reflexivity.
Qed.
Lemma delivers_take {C} `{Machine C} n (c : C) bs stop : delivers c bs stop ->
  delivers (mkTake n c) (fst (fenced n bs stop)) (snd (fenced n bs stop)).
Proof.
  intros (c1 & c2 & Hb & Hn). unfold fenced. destruct (N.leb_spec n (N.of_nat (length bs))) as [Hl|Hl]; cbn [fst snd].
  - rewrite <- (firstn_skipn (N.to_nat n) bs) in Hb. apply bsteps_app_inv in Hb as (d & Hb & _).
    exists (mkTake 0 d), (mkTake 0 d). split; [|reflexivity].
    replace 0%N with (n - lenN (firstn (N.to_nat n) bs))%N.
    + apply bsteps_take; [|exact Hb]. unfold lenN. rewrite firstn_length. lia.
    + unfold lenN. rewrite firstn_length. lia.
  - exists (mkTake (n - lenN bs)%N c1), (mkTake (n - lenN bs)%N c2). split.
    + apply bsteps_take; [unfold lenN; lia|exact Hb].
    + cbn. unfold lenN. destruct (N.eqb_spec (n - N.of_nat (length bs)) 0); [lia|]. rewrite Hn. destruct stop; reflexivity.
Qed.

Record Blames {R C E A} `{Lawful R C} (p : M R E A) (F : faulty E) : Prop := {
  b_sound : forall r bs stop e r', delivers (abs r) bs stop -> p r = (Err e, r') -> F bs stop e;
  b_complete : forall r bs stop e, delivers (abs r) bs stop -> F bs stop e ->
    (exists r', p r = (Err e, r')) \/ gave_up (fst (p r))
}.

Section Comb.
  Context {R C : Type} `{HL : Lawful R C}.

  Lemma blames_ext {E A} (p : M R E A) (F F' : faulty E) :
    Blames p F -> (forall bs stop e, F bs stop e <-> F' bs stop e) -> Blames p F'.
  Proof.
    intros [S K] HF. split.
    - intros r bs stop e r' HD Hr. apply HF. eapply S; eauto.
    - intros r bs stop e HD He. eapply K; eauto. apply HF; assumption.
  Qed.
  Lemma blames_eqv {E A} (p q : M R E A) F : (forall r, p r = q r) -> Blames q F -> Blames p F.
  Proof.
    intros Hpq [S K]. split; intros r bs stop e; rewrite Hpq; [apply S|apply K].
  Qed.
  Lemma blames_ret {E A} (a : A) : Blames (ret a : M R E A) nothing.
  Proof. split; [discriminate|intros ? ? ? ? _ []]. Qed.
  Lemma blames_panic {E A} pn : Blames (panic_with pn : M R E A) nothing.
  Proof. split; [discriminate|intros ? ? ? ? _ []]. Qed.
  Lemma blames_throw {E A} (e : E) : Blames (throw e : M R E A) (wrong e).
  Proof. split; [intros r bs stop e' r' _ [= <- <-]; reflexivity|]. intros r bs stop e' _ ->. left. eexists. reflexivity. Qed.
  Lemma blames_give_up {E A} (x : res E A) (F : faulty E) : gave_up x -> Blames (fun r : R => (x, r)) F.
  Proof. intros Hx. split; [intros r bs stop e r' _ [= -> ->]; destruct Hx|]. intros. right. exact Hx. Qed.
  Lemma blames_alloc {env : Env} {E} n : Blames (alloc n : M R E unit) nothing.
  Proof. unfold alloc. destruct (N.leb_spec n alloc_limit); [apply blames_ret|]. apply blames_give_up. exact I. Qed.
  Lemma blames_after_alloc {env : Env} {E A} n (q : M R E A) F : Blames q F -> Blames (bind (alloc n) (fun _ => q)) F.
  Proof. intros Hq. unfold alloc. destruct (N.leb_spec n alloc_limit); [exact Hq|]. apply (blames_give_up (Panic AllocFailure)). exact I. Qed.
  Lemma blames_fuel {E A} (p : nat -> M R E A) (f : R -> nat) F : (forall n, Blames (p n) F) -> Blames (fun r => p (f r) r) F.
  Proof.
    intros Hp. split.
    - intros r bs stop e r' HD Hr. destruct (Hp (f r)) as [S _]. eapply S; eauto.
    - intros r bs stop e HD He. destruct (Hp (f r)) as [_ K]. eapply K; eauto.
  Qed.
  Lemma blames_map_err {E E' A} (f : E -> E') (p : M R E A) F : Blames p F -> Blames (map_err f p) (at_ f F).
  Proof.
    intros [S K]. unfold map_err. split.
    - intros r bs stop e r' HD Hr. destruct (p r) as [[x|e0|pn|] r1] eqn:Ep; try discriminate.
      injection Hr as <- <-. exists e0. split; [eapply S; eauto|reflexivity].
    - intros r bs stop e HD (e0 & He & ->). destruct (K _ _ _ _ HD He) as [(r1 & ->)|Hg]; [left; eauto|].
      right. destruct (p r) as [[x|e1|pn|] r1]; cbn in *; auto; contradiction.
  Qed.
  Lemma blames_bind {E A B} (p : M R E A) (q : A -> M R E B) G F K :
    Parses p G -> Blames p F -> (forall a, (exists bs, G a bs) -> Blames (q a) (K a)) ->
    Blames (bind p q) (fun bs stop e => F bs stop e \/ after_ G K bs stop e).
  Proof.
    intros [S1 C1] [S2 C2] Hq. unfold bind. split.
    - intros r bs stop e r' HD Hr. destruct (p r) as [[a|e0|pn|] r1] eqn:Ep; try discriminate.
      + right. destruct (S1 _ _ _ Ep) as (bs1 & Hb & HG).
        destruct (delivers_steps _ _ _ _ _ HD Hb) as (bs2 & -> & HD2).
        exists a, bs1, bs2. split; [reflexivity|]. split; [assumption|].
        destruct (Hq a (ex_intro _ _ HG)) as [S3 _]. eapply S3; eauto.
      + injection Hr as <- <-. left. eapply S2; eauto.
    - intros r bs stop e HD [HF|(a & bs1 & bs2 & -> & HG & HK)].
      + destruct (C2 _ _ _ _ HD HF) as [(r1 & ->)|Hg]; [left; eauto|].
        right. destruct (p r) as [[x|e1|pn|] r1]; cbn in *; auto; contradiction.
      + apply delivers_split in HD as (c1 & Hb & HD). destruct (C1 _ _ _ _ HG Hb) as [(r1 & -> & <-)|Hg].
        * destruct (Hq a (ex_intro _ _ HG)) as [_ C3]. eapply C3; eauto.
        * right. destruct (p r) as [[x|e1|pn|] r1]; cbn in *; auto; contradiction.
  Qed.
  (** a named field *)
  Lemma blames_field {E E' A B} (f : E -> E') (p : M R E A) (q : A -> M R E' B) G F K :
    Parses p G -> Blames p F -> (forall a, (exists bs, G a bs) -> Blames (q a) (K a)) ->
    Blames (bind (map_err f p) q) (field f F G K).
  Proof.
    intros HP HB Hq. eapply blames_ext; [apply blames_bind; [apply parses_map_err; exact HP|apply blames_map_err; exact HB|exact Hq]|].
    intros. reflexivity.
  Qed.
  Lemma blames_pure {E A B} (p : M R E A) (q : A -> M R E B) F :
    Blames p F -> (forall a r e r', q a r <> (Err e, r')) -> Blames (bind p q) F.
  Proof.
    intros [S K] Hq. unfold bind. split.
    - intros r bs stop e r' HD Hr. destruct (p r) as [[a|e0|pn|] r1] eqn:Ep; try discriminate.
      + exfalso. eapply Hq; eauto.
      + injection Hr as <- <-. eapply S; eauto.
    - intros r bs stop e HD HF. destruct (K _ _ _ _ HD HF) as [(r1 & ->)|Hg]; [left; eauto|].
      right. destruct (p r) as [[x|e1|pn|] r1]; cbn in *; auto; contradiction.
  Qed.
  Lemma blames_last {E E' A B} (f : E -> E') (p : M R E A) (q : A -> B) F :
    Blames p F -> Blames (bind (map_err f p) (fun a => ret (q a))) (at_ f F).
  Proof. intros Hp. apply blames_pure; [apply blames_map_err; exact Hp|discriminate]. Qed.
  Lemma blames_at2 {E E1 E2 A} (f : E -> E1) (g : E1 -> E2) (p : M R E2 A) F :
    Blames p (at_ g (at_ f F)) -> Blames p (at_ (fun e => g (f e)) F).
  Proof.
    intros Hp. eapply blames_ext; [exact Hp|]. intros bs stop e. unfold at_. split.
    - intros (e1 & (e0 & HF & ->) & ->). eauto.
    - intros (e0 & HF & ->). eauto.
  Qed.

  (** ** primitive readers *)
  Lemma cread_blames n : forall (c : C) acc bs stop, delivers c bs stop ->
    if (N.of_nat n <=? N.of_nat (length bs))%N then exists l c', cread n acc c = (Ok l, c')
    else exists c', cread n acc c = (Err (io stop), c').
  Proof.
    induction n as [|n IH]; intros c acc bs stop HD.
    - destruct (N.leb_spec (N.of_nat 0) (N.of_nat (length bs))); [|lia]. cbn. eauto.
    - apply delivers_next in HD. cbn [cread]. destruct (next c) as [[b| |k] c1] eqn:E.
      + destruct HD as (bs' & -> & HD). specialize (IH c1 (acc ++ [b]) bs' stop HD).
        destruct (N.leb_spec (N.of_nat n) (N.of_nat (length bs'))); destruct (N.leb_spec (N.of_nat (S n)) (N.of_nat (length (b :: bs')))); cbn [length] in *; try lia; exact IH.
      + destruct HD as [-> ->]. cbn. eauto.
      + destruct HD as [-> ->]. cbn. eauto.
  Qed.
  Lemma blames_read_exact n : Blames (read_exact n : M R _ _) (Fbytes n).
  Proof.
    assert (HB : forall (r : R) bs stop, delivers (abs r) bs stop ->
      if (n <=? N.of_nat (length bs))%N then exists l r', read_exact n r = (Ok l, r') else exists r', read_exact n r = (Err (io stop), r')).
    { intros r bs stop HD. pose proof (cread_blames (N.to_nat n) (abs r) [] bs stop HD) as HC.
      rewrite N2Nat.id in HC. destruct (read_exact n r) as [x r'] eqn:E. pose proof (read_exact_spec _ _ _ _ E) as HS.
      destruct (N.leb_spec n (N.of_nat (length bs))).
      - destruct HC as (l & c' & HC). rewrite HC in HS. injection HS as -> _. eauto.
      - destruct HC as (c' & HC). rewrite HC in HS. injection HS as -> _. eauto. }
    split.
    - intros r bs stop e r' HD Hr. specialize (HB r bs stop HD). rewrite Hr in HB. unfold Fbytes.
      destruct (N.leb_spec n (N.of_nat (length bs))); [destruct HB as (? & ? & [=])|destruct HB as (? & [= -> _])]. auto.
    - intros r bs stop e HD [Hl ->]. specialize (HB r bs stop HD). destruct (N.leb_spec n (N.of_nat (length bs))); [lia|]. left. exact HB.
  Qed.
  Lemma blames_read_byte : Blames (read_byte : M R _ _) (fun bs stop e => bs = [] /\ e = io stop).
  Proof.
    assert (HB : forall (r : R) bs stop, delivers (abs r) bs stop -> match bs with
      | [] => exists r', read_byte r = (Err (io stop), r')
      | b :: bs' => exists r', read_byte r = (Ok b, r') /\ delivers (abs r') bs' stop end).
    { intros r bs stop HD. apply delivers_next in HD. destruct (read_byte r) as [x r'] eqn:E. apply read_byte_spec in E.
      destruct (next (abs r)) as [[b| |k] c1].
      - destruct HD as (bs' & -> & HD). injection E as -> <-. eauto.
      - destruct HD as [-> ->]. injection E as -> _. eauto.
      - destruct HD as [-> ->]. injection E as -> _. eauto. }
    split.
    - intros r bs stop e r' HD Hr. specialize (HB r bs stop HD). rewrite Hr in HB. destruct bs; [destruct HB as (? & [= -> _])|destruct HB as (? & [=] & _)]. auto.
    - intros r bs stop e HD [-> ->]. left. exact (HB r [] stop HD).
  Qed.
  Lemma blames_byte {E B} (f : io_error -> E) (q : byte -> M R E B) K :
    (forall b, Blames (q b) (K b)) -> Blames (bind (map_err f read_byte) q) (byte_ f K).
  Proof.
    intros Hq. eapply blames_ext.
    { apply blames_field with (K := K); [apply parses_read_byte|apply blames_read_byte|]. intros b _. apply Hq. }
    intros bs stop e. unfold field, at_, after_, byte_, Bbyte. split.
    - intros [(e' & [-> ->] & ->)|(b & pre & rest & -> & -> & HK)]; [reflexivity|exact HK].
    - destruct bs as [|b rest].
      + intros ->. left. eexists. split; [split; reflexivity|reflexivity].
      + intros HK. right. exists b, [b], rest. auto.
  Qed.
  Lemma blames_chain {E A} b (body : M (Chain R) E A) F :
    Blames body F -> Blames (with_chain b body) (fun bs stop e => F (b :: bs) stop e).
  Proof.
    intros [S K]. unfold with_chain. split.
    - intros r bs stop e r' HD Hr. destruct (body (mkChain [b] false r)) as [x c] eqn:Eb. injection Hr as -> <-.
      eapply S; [|exact Eb]. cbn. apply delivers_pend. exact HD.
    - intros r bs stop e HD He.
      assert (HD' : delivers (abs (mkChain [b] false r)) (b :: bs) stop) by (cbn; apply delivers_pend; exact HD).
      destruct (K _ _ _ _ HD' He) as [(c & ->)|Hg]; [left; eauto|]. right. destruct (body (mkChain [b] false r)); exact Hg.
  Qed.
  Lemma blames_take {E A} n (body : M (Take R) E A) F :
    Blames body F -> Blames (with_take n body) (fun bs stop e => F (fst (fenced n bs stop)) (snd (fenced n bs stop)) e).
  Proof.
    intros [S K]. unfold with_take. split.
    - intros r bs stop e r' HD Hr. destruct (body (mkTake n r)) as [[x|e0|pn|] t] eqn:Eb; try discriminate. injection Hr as -> <-.
      eapply S; [|exact Eb]. cbn. unfold take_abs. cbn. apply delivers_take. exact HD.
    - intros r bs stop e HD He.
      pose proof (delivers_take n (abs r) bs stop HD) as HD'.
      destruct (K (mkTake n r) _ _ _ HD' He) as [(c & ->)|Hg]; [left; eauto|]. right.
      destruct (body (mkTake n r)) as [[x|e0|pn|] t]; cbn in *; auto; contradiction.
  Qed.
  Lemma blames_read_to_end {env : Env} : Blames (read_to_end : M R _ _) (fun _ stop e => stop = Fails e).
  Proof.
    assert (HB : forall (r : R) bs stop, delivers (abs r) bs stop -> match stop with
      | Fails k => exists r', read_to_end r = (Err k, r') | Ends => exists l r', read_to_end r = (Ok l, r') end \/ gave_up (fst (read_to_end r))).
    { intros r bs stop HD. destruct (read_to_end r) as [x r'] eqn:E. apply read_to_end_spec in E as (bs1 & c1 & Hb & [[_ Hx]|[_ ->]]); [left|right; exact I].
      assert (HD' : exists s, delivers (abs r) bs1 s /\ match s with Ends => x = Ok bs1 | Fails k => x = Err k end).
      { destruct Hx as [[-> Hn]|(k & _ & -> & Hn)]; [exists Ends|exists (Fails k)]; (split; [|reflexivity]); eexists _, _; split; eauto. }
      destruct HD' as (s & HD' & Hs). destruct (delivers_det _ _ _ _ _ HD HD') as [<- <-]. destruct stop; subst; eauto. }
    split.
    - intros r bs stop e r' HD Hr. specialize (HB r bs stop HD). rewrite Hr in HB. destruct HB as [HB|[]]. destruct stop; [destruct HB as (? & ? & [=])|destruct HB as (? & [= -> _])]. reflexivity.
    - intros r bs stop e HD ->. exact (HB r bs _ HD).
  Qed.

  (** ** LEB128 *)
  Lemma blames_leb {E A} (p : M R E A) k long iof fin (fits : list byte -> bool) misfit :
    (forall (r : R) x r', p r = (x, r') -> leb_post (abs r) k x (abs r') long iof fin) ->
    (forall cs b, (b2n b < 128)%N -> (fits (cs ++ [b]) = true /\ exists a, fin cs b = Ok a) \/ (fits (cs ++ [b]) = false /\ fin cs b = Err misfit)) ->
    Blames p (Fleb k fits misfit long iof).
  Proof.
    intros HP Hfin.
    assert (Hdec : forall cs1 b1 r1 cs2 b2 r2, Forall continues cs1 -> Forall continues cs2 -> ~ continues b1 -> ~ continues b2 ->
      cs1 ++ b1 :: r1 = cs2 ++ b2 :: r2 -> cs1 = cs2 /\ b1 = b2 /\ r1 = r2).
    { induction cs1 as [|c cs1 IH]; intros b1 r1 [|d cs2] b2 r2 H1 H2 H3 H4 Heq; cbn in Heq.
      - injection Heq as -> ->. auto.
      - injection Heq as -> ->. inversion H2; subst. contradiction.
      - injection Heq as <- <-. inversion H1; subst. contradiction.
      - injection Heq as -> Heq. inversion H1; inversion H2; subst. destruct (IH _ _ _ _ _ ltac:(eassumption) ltac:(eassumption) H3 H4 Heq) as (-> & -> & ->). auto. }
    split.
    - intros r bs stop e r' HD Hr. destruct (HP _ _ _ Hr) as (cs & c1 & Hb & Hf & Hx). apply continues_all in Hf.
      destruct (delivers_steps _ _ _ _ _ HD Hb) as (rest & -> & HD1).
      destruct Hx as [(Hl & _ & [= ->])|[(Hl & b & Hn & Hb1 & Hx)|[(Hl & Hn & [= ->])|(Hl & kk & Hn & [= ->])]]].
      + constructor; assumption.
      + apply delivers_next in HD1. rewrite Hn in HD1. destruct HD1 as (rest' & -> & _).
        destruct (Hfin cs b Hb1) as [[_ (a & Ha)]|[Hm Ha]]; rewrite Ha in Hx; [discriminate|]. injection Hx as ->.
        constructor; auto. unfold continues, val. change (Byte.to_N b) with (b2n b). lia.
      + apply delivers_next in HD1. rewrite Hn in HD1. destruct HD1 as [-> ->]. rewrite app_nil_r. apply (Fleb_cut _ _ _ _ _ cs Ends); assumption.
      + apply delivers_next in HD1. rewrite Hn in HD1. destruct HD1 as [-> ->]. rewrite app_nil_r. apply (Fleb_cut _ _ _ _ _ cs (Fails kk)); assumption.
    - intros r bs stop e HD HF. left. destruct (p r) as [x r'] eqn:Ep. exists r'. f_equal.
      destruct (HP _ _ _ Ep) as (cs & c1 & Hb & Hf & Hx). apply continues_all in Hf.
      destruct (delivers_steps _ _ _ _ _ HD Hb) as (rest & Hbs & HD1). apply delivers_next in HD1.
      assert (Hshort : forall cs' rest', cs ++ rest = cs' ++ rest' -> Forall continues cs' -> length cs < length cs' ->
                 exists b rest'', rest = b :: rest'' /\ continues b).
      { clear -Hf. intros cs' rest'. revert Hf. revert cs. induction cs' as [|d cs' IH]; intros [|c cs] Hf Heq Hf' Hl; cbn in *; try lia.
        - inversion Hf'; subst. eauto.
        - injection Heq as -> Heq. inversion Hf; inversion Hf'; subst. apply (IH cs); [assumption|exact Heq|assumption|lia]. }
      assert (Hlong : forall cs' b' rest', cs ++ rest = cs' ++ b' :: rest' -> ~ continues b' -> length cs <= length cs').
      { clear -Hf. intros cs' b' rest'. revert Hf. revert cs. induction cs' as [|d cs' IH]; intros [|c cs] Hf Heq Hb'; cbn in *; try lia.
        - injection Heq as -> _. inversion Hf; subst. contradiction.
        - injection Heq as -> Heq. inversion Hf; subst. specialize (IH _ ltac:(eassumption) Heq Hb'). lia. }
      destruct HF as [cs' b' rest' stop H1 H2 H3 H4|cs' rest' stop H1 H2|cs' stop H1 H2].
      + destruct Hx as [(Hl & _ & ->)|[(Hl & b & Hn & Hb1 & ->)|[(Hl & Hn & ->)|(Hl & kk & Hn & ->)]]].
        * exfalso. pose proof (Hlong _ _ _ (eq_sym Hbs) H3). lia.
        * rewrite Hn in HD1. destruct HD1 as (rest2 & -> & _).
          assert (Hnc : ~ continues b) by (unfold continues, val; change (Byte.to_N b) with (b2n b); lia).
          destruct (Hdec _ _ _ _ _ _ H1 Hf H3 Hnc Hbs) as (-> & -> & ->).
          destruct (Hfin cs b Hb1) as [[Hm _]|[_ Ha]]; [congruence|exact Ha].
        * rewrite Hn in HD1. destruct HD1 as [-> ->]. rewrite app_nil_r in *. exfalso.
          pose proof (Hlong cs' b' rest' ltac:(congruence) H3).
          pose proof (f_equal (@length byte) Hbs) as Hlen. rewrite app_length in Hlen. cbn in Hlen. lia.
        * rewrite Hn in HD1. destruct HD1 as [-> ->]. rewrite app_nil_r in *. exfalso.
          pose proof (Hlong cs' b' rest' ltac:(congruence) H3).
          pose proof (f_equal (@length byte) Hbs) as Hlen. rewrite app_length in Hlen. cbn in Hlen. lia.
      + destruct Hx as [(Hl & _ & ->)|[(Hl & b & Hn & Hb1 & ->)|[(Hl & Hn & ->)|(Hl & kk & Hn & ->)]]]; [reflexivity|..]; exfalso;
          (destruct (Hshort cs' rest' (eq_sym Hbs) H1 ltac:(lia)) as (b2 & r2 & -> & Hc)); rewrite Hn in HD1.
        * destruct HD1 as (? & [= -> _] & _). unfold continues, val in Hc. change (Byte.to_N b) with (b2n b) in Hc. lia.
        * destruct HD1 as [[=] _].
        * destruct HD1 as [[=] _].
      + destruct Hx as [(Hl & _ & ->)|[(Hl & b & Hn & Hb1 & ->)|[(Hl & Hn & ->)|(Hl & kk & Hn & ->)]]].
        * exfalso. pose proof (f_equal (@length byte) Hbs) as Hlen. rewrite app_length in Hlen. lia.
        * rewrite Hn in HD1. destruct HD1 as (rest2 & -> & _). exfalso. rewrite Hbs in H1. apply Forall_app in H1 as [_ H1]. inversion H1 as [|? ? Hc _]; subst.
          unfold continues, val in Hc. change (Byte.to_N b) with (b2n b) in Hc. lia.
        * rewrite Hn in HD1. destruct HD1 as [_ ->]. reflexivity.
        * rewrite Hn in HD1. destruct HD1 as [_ ->]. reflexivity.
  Qed.
  Lemma blames_u32 : Blames (decode_u32 : M R _ _) Fu32.
  Proof.
    eapply blames_leb; [apply decode_u32_spec|]. intros cs b Hb. rewrite fin_u_result. cbv zeta. unfold fits.
    destruct (unsigned_fits 32 _); [left|right]; eauto.
  Qed.
  Lemma blames_u64 : Blames (decode_u64 : M R _ _) Fu64.
  Proof.
    eapply blames_leb; [apply decode_u64_spec|]. intros cs b Hb. rewrite fin_u_result. cbv zeta. unfold fits.
    destruct (unsigned_fits 64 _); [left|right]; eauto.
  Qed.
  Lemma blames_i32 : Blames (decode_i32 : M R _ _) Fi32.
  Proof.
    eapply blames_leb; [apply decode_i32_spec|]. intros cs b Hb. rewrite fin_s_result. cbv zeta. unfold fits.
    destruct (signed_fits 32 _); [left|right]; eauto.
  Qed.
  Lemma blames_i64 : Blames (decode_i64 : M R _ _) Fi64.
  Proof.
    eapply blames_leb; [apply decode_i64_spec|]. intros cs b Hb. rewrite fin_s_result. cbv zeta. unfold fits.
    destruct (signed_fits 64 _); [left|right]; eauto.
  Qed.
  Lemma blames_s33 : Blames (decode_s33 : M R _ _) Fs33.
  Proof.
    eapply blames_leb; [apply decode_s33_spec|]. intros cs b Hb. rewrite fin_s_result. cbv zeta. unfold fits.
    destruct (signed_fits 33 _); [left|right]; eauto.
  Qed.
End Comb.
