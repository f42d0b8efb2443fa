(** C63: [pretty] writes the lines of Spec/Outline.v. *)
From Verif Require Import Model.Debug Spec.Debug Spec.Outline Proofs.Pretty.
From Coq Require Import List String Ascii Lia.
Import ListNotations.
Local Open Scope string_scope.

Lemma spaces_sp k : spaces (4 * k) = sp k.
Proof. induction k as [|k IH]; [reflexivity|]. replace (4 * S k)%nat with (S (S (S (S (4 * k)))))%nat by lia. cbn [spaces sp]. rewrite IH. reflexivity. Qed.
Lemma page_one l : page [l] = sp (fst l) ++ snd l.
Proof. unfold page. cbn [map String.concat]. rewrite spaces_sp. reflexivity. Qed.
Lemma page_cons l ls : ls <> [] -> page (l :: ls) = sp (fst l) ++ snd l ++ line_feed ++ page ls.
Proof.
  intros H. destruct ls as [|l' ls]; [contradiction|]. unfold page. cbn [map String.concat]. rewrite spaces_sp, !sapp_assoc. reflexivity.
Qed.
Lemma page_app l1 l2 : l1 <> [] -> l2 <> [] -> page (l1 ++ l2)%list = page l1 ++ line_feed ++ page l2.
Proof.
  intros H1 H2. induction l1 as [|l l1 IH]; [contradiction|]. destruct l1 as [|l' l1].
  - cbn [List.app]. rewrite page_cons by assumption. rewrite page_one, !sapp_assoc. reflexivity.
  - change ((l :: l' :: l1) ++ l2)%list with (l :: ((l' :: l1) ++ l2))%list. assert (K : l' :: l1 <> []) by discriminate.
    rewrite page_cons by (cbn [List.app]; discriminate). rewrite (IH K), (page_cons l (l' :: l1) K), !sapp_assoc. reflexivity.
Qed.
Lemma lines_cons k b t a : exists l ls, lines k b t a = l :: ls.
Proof. revert b. induction t as [s|n fs IH|n fs IH|es IH|n t IH] using dtree_ind'; intros b; try (destruct fs); try (destruct es); cbn [lines]; eauto. Qed.
Lemma lines_some k b t a : lines k b t a <> [].
Proof. destruct (lines_cons k b t a) as (l & ls & ->). discriminate. Qed.

Lemma page_items {A} (F : A -> list (nat * string)) (f : A -> string) k close a x l :
  Forall (fun y => F y <> [] /\ page (F y) = sp (S k) ++ f y ++ ",") (x :: l) ->
  line_feed ++ page (flat_map F (x :: l) ++ [(k, (close ++ a)%string)])%list = items (Some k) close (map f (x :: l)) ++ a.
Proof.
  revert x. induction l as [|y l IH]; intros x H; inversion H as [|? ? [Hn Hp] Hl]; subst.
  - cbn [flat_map map items rest]. rewrite List.app_nil_r, page_app by (assumption || discriminate). rewrite page_one, Hp. cbn [fst snd]. unfold start_, fin, line_feed. cbn [append]. fold newline.
    rewrite <- !sapp_assoc. cbn [append]. f_equal. do 2 f_equal. rewrite <- ?sapp_assoc. reflexivity.
  - change (flat_map F (x :: y :: l)) with (F x ++ flat_map F (y :: l))%list. rewrite <- List.app_assoc, page_app; [|assumption|intros E; apply app_eq_nil in E as [_ E]; discriminate E].
    rewrite (IH y Hl), Hp. cbn [map items rest]. unfold start_, sep, line_feed. cbn [append]. fold newline. rewrite <- !sapp_assoc. cbn [append]. f_equal. do 2 f_equal. 
    cbn [append]. rewrite <- ?sapp_assoc. reflexivity.
Qed.

Lemma lines_tuple k b n f fs a : lines k b (DTuple n (f :: fs)) a = (k, b ++ n ++ "(") :: (flat_map (fun f => lines (S k) "" f ",") (f :: fs) ++ [(k, (")" ++ a)%string)])%list. Proof. reflexivity. Qed.
Lemma lines_struct k b n f fs a : lines k b (DStruct n (f :: fs)) a = (k, b ++ n ++ " {") :: (flat_map (fun nf => lines (S k) (fst nf ++ ": ")%string (snd nf) ",") (f :: fs) ++ [(k, ("}" ++ a)%string)])%list. Proof. reflexivity. Qed.
Lemma lines_list k b f fs a : lines k b (DList (f :: fs)) a = (k, b ++ "[") :: (flat_map (fun f => lines (S k) "" f ",") (f :: fs) ++ [(k, ("]" ++ a)%string)])%list. Proof. reflexivity. Qed.
Lemma more {A} (l : list A) y : (l ++ [y])%list <> []. Proof. intros E. apply app_eq_nil in E as [_ E]. discriminate E. Qed.

Lemma page_lines p t : wf p t -> forall k b a, page (lines k b t a) = sp k ++ b ++ show (Some k) t ++ a.
Proof.
  induction t as [s|n fs IH|n fs IH|es IH|n t IH] using dtree_ind'; intros Hw k b a.
  - cbn [lines]. rewrite page_one. reflexivity.
  - apply wf_tuple in Hw as (_ & Hn & Hf). destruct fs as [|f fs]; [contradiction|]. rewrite lines_tuple, page_cons by apply more. rewrite page_items with (f := show (Some (S k))).
    + cbn [fst snd]. rewrite show_tuple. cbn [inner]. rewrite <- !sapp_assoc. reflexivity.
    + rewrite Forall_forall in *. intros y Hy. split; [apply lines_some|]. rewrite (IH y Hy (Hf y Hy)). reflexivity.
  - apply wf_struct in Hw as (_ & Hn & Hf). destruct fs as [|f fs]; [contradiction|]. rewrite lines_struct, page_cons by apply more. rewrite page_items with (f := field_text (show (Some (S k)))).
    + cbn [fst snd]. rewrite show_struct. cbn [inner gap append]. rewrite <- !sapp_assoc. reflexivity.
    + rewrite Forall_forall in *. intros y Hy. split; [apply lines_some|]. rewrite (IH y Hy (proj2 (Hf y Hy))). unfold field_text. rewrite <- !sapp_assoc. reflexivity.
  - apply wf_list in Hw. destruct es as [|f fs].
    + cbn [lines]. rewrite page_one. reflexivity.
    + rewrite lines_list, page_cons by apply more. rewrite page_items with (f := show (Some (S k))).
      * cbn [fst snd]. rewrite show_list. cbn [inner]. rewrite <- !sapp_assoc. reflexivity.
      * rewrite Forall_forall in *. intros y Hy. split; [apply lines_some|]. rewrite (IH y Hy (Hw y Hy)). reflexivity.
  - destruct Hw as (_ & _ & Hw). cbn [lines]. rewrite (IH Hw), show_path. cbn [outer]. rewrite <- !sapp_assoc. reflexivity.
Qed.
Theorem pretty_page p t : wf p t -> pretty t = page (lines 0 "" t "").
Proof. intros Hw. rewrite (page_lines p t Hw), (pretty_show p t Hw), sapp_nil. reflexivity. Qed.
Theorem compact_phrase p t : wf p t -> compact t = phrase t.
Proof.
  induction t as [s|n fs IH|n fs IH|es IH|n t IH] using dtree_ind'; intros Hw.
  - reflexivity.
  - apply wf_tuple in Hw as (_ & Hn & Hf). destruct fs as [|f fs]; [contradiction|]. cbn [compact phrase].
    assert (E : map compact (f :: fs) = map phrase (f :: fs)) by (apply map_ext_in; rewrite Forall_forall in *; auto). rewrite E. reflexivity.
  - apply wf_struct in Hw as (_ & Hn & Hf). destruct fs as [|f fs]; [contradiction|]. cbn [compact phrase].
    assert (E : map (fun nf => fst nf ++ ": " ++ compact (snd nf)) (f :: fs) = map (fun nf => fst nf ++ ": " ++ phrase (snd nf)) (f :: fs)).
    { apply map_ext_in. rewrite Forall_forall in *. intros y Hy. rewrite (IH y Hy (proj2 (Hf y Hy))). reflexivity. }
    rewrite E. reflexivity.
  - apply wf_list in Hw. cbn [compact phrase]. assert (E : map compact es = map phrase es) by (apply map_ext_in; rewrite Forall_forall in *; auto). rewrite E. reflexivity.
  - destruct Hw as (_ & _ & Hw). cbn [compact phrase]. rewrite (pretty_page p t Hw). reflexivity.
Qed.
