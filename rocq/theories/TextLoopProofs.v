(* The scores that loop over the ground truths: answer correctness, context recall,
   context precision. *)
From Verif Require Import Prelude Counting TextModel TextSpec TextReadProofs TextScoreProofs.
From Coq Require Import QArith Qfield Lqa String.
From Coq Require List.
Local Open Scope string_scope.
Local Open Scope nat_scope.
Local Open Scope list_scope.

(* ------------------------------------------------------------------ *)
(** * Maxima *)
Lemma Qmax2_spec a b : (a <= Qmax2 a b)%Q /\ (b <= Qmax2 a b)%Q /\ (Qmax2 a b = a \/ Qmax2 a b = b).
Proof.
  unfold Qmax2. destruct (Qle_bool b a) eqn:E.
  - apply Qle_bool_iff in E. split; [lra|]. auto.
  - assert (~ (b <= a)%Q) by (intro H; apply Qle_bool_iff in H; congruence). split; [lra|]. split; [lra|auto].
Qed.
Lemma fold_max_greatest r q : greatest (q :: r) (fold_left Qmax2 r q).
Proof.
  revert q. induction r as [|x r IH]; intro q; cbn [fold_left].
  - split; [exists q; split; [left; reflexivity|reflexivity]|]. intros x [<-|[]]. lra.
  - destruct (IH (Qmax2 q x)) as [(y & Hy & E) H]. destruct (Qmax2_spec q x) as (H1 & H2 & H3). split.
    + destruct Hy as [<-|Hy].
      * destruct H3 as [H3|H3]; rewrite H3 in E at 1; [exists q|exists x]; (split; [cbn; auto|exact E]).
      * exists y. split; [right; right; exact Hy|exact E].
    + pose proof (H _ (or_introl eq_refl)) as H0. intros y' [<-|[<-|Hy']]; [lra|lra|]. apply H. right; exact Hy'.
Qed.
Lemma max_of_greatest l q : max_of l = Ok q -> greatest l q.
Proof. destruct l as [|x r]; [discriminate|]. cbn. intro H; injection H as <-. apply fold_max_greatest. Qed.
Lemma greatest_unique l q q' : greatest l q -> greatest l q' -> (q == q')%Q.
Proof.
  intros [(x & Hx & E) H] [(x' & Hx' & E') H']. specialize (H _ Hx'). specialize (H' _ Hx). lra.
Qed.
Lemma greatest_ext l l' q : Forall2 Qeq l l' -> greatest l q -> greatest l' q.
Proof.
  intros F [(x & Hx & E) H]. split.
  - clear H. revert x Hx E. induction F as [|a b r r' Hab F IH]; intros x Hx E; [destruct Hx|].
    destruct Hx as [<-|Hx]; [exists b; split; [left; reflexivity|lra]|]. destruct (IH x Hx E) as (y & Hy & E'). exists y; split; [right; exact Hy|exact E'].
  - clear x Hx E. induction F as [|a b r r' Hab F IH]; intros y Hy; [destruct Hy|]. destruct Hy as [<-|Hy].
    + specialize (H a (or_introl eq_refl)). lra.
    + apply IH; [intros z Hz; apply H; right; exact Hz|exact Hy].
Qed.
Lemma greatest_eq l q q' : (q == q')%Q -> greatest l q -> greatest l q'.
Proof. intros E [(x & Hx & E') H]. split; [exists x; split; [exact Hx|lra]|]. intros y Hy. specialize (H y Hy). lra. Qed.
Lemma greatest_some x l : exists q, max_of (x :: l) = Ok q /\ greatest (x :: l) q.
Proof. eexists. split; [reflexivity|]. apply fold_max_greatest. Qed.

(* ------------------------------------------------------------------ *)
(** * Answer correctness *)
Lemma f1_agrees tp fp fn : (f1_of (Z.of_nat tp) (Z.of_nat fp) (Z.of_nat fn) == f1_score tp fp fn)%Q.
Proof.
  unfold f1_of, f1_score. destruct (Z.ltb_spec 0 (Z.of_nat tp)) as [H|H]; destruct (Nat.ltb_spec 0 tp) as [H'|H']; try lia; [|reflexivity].
  unfold fraction. rewrite !Nat2Z.inj_add, !inject_Z_plus.
  set (a := inject_Z (Z.of_nat tp)). set (b := inject_Z (Z.of_nat fp)). set (d := inject_Z (Z.of_nat fn)).
  assert (Ha : (0 < a)%Q) by (unfold a; change 0%Q with (inject_Z 0); rewrite <- Zlt_Qlt; lia).
  assert (Hb : (0 <= b)%Q) by (unfold b; change 0%Q with (inject_Z 0); rewrite <- Zle_Qle; lia).
  assert (Hd : (0 <= d)%Q) by (unfold d; change 0%Q with (inject_Z 0); rewrite <- Zle_Qle; lia).
  assert (X : (0 < a / (a + b))%Q) by (apply Qlt_shift_div_l; [lra|rewrite Qmult_0_l; exact Ha]).
  assert (Y : (0 < a / (a + d))%Q) by (apply Qlt_shift_div_l; [lra|rewrite Qmult_0_l; exact Ha]).
  assert (Z1 : (0 < a * (a + d) + a * (a + b))%Q).
  { pose proof (Qmult_lt_0_compat a (a + d)). pose proof (Qmult_lt_0_compat a (a + b)). lra. }
  field. repeat split; lra.
Qed.
Lemma f1_range tp fp fn : (0 <= f1_score tp fp fn <= 1)%Q.
Proof.
  rewrite <- f1_agrees. unfold f1_of. destruct (Z.ltb_spec 0 (Z.of_nat tp)) as [H|H]; [|split; lra].
  rewrite inject_Z_plus.
  set (a := inject_Z (Z.of_nat tp)). set (b := inject_Z (Z.of_nat fp)). set (d := inject_Z (Z.of_nat fn)).
  assert (Ha : (0 < a)%Q) by (unfold a; change 0%Q with (inject_Z 0); rewrite <- Zlt_Qlt; lia).
  assert (Hb : (0 <= b)%Q) by (unfold b; change 0%Q with (inject_Z 0); rewrite <- Zle_Qle; lia).
  assert (Hd : (0 <= d)%Q) by (unfold d; change 0%Q with (inject_Z 0); rewrite <- Zle_Qle; lia).
  split; [apply Qle_shift_div_l; [lra|rewrite Qmult_0_l; lra]|apply Qle_shift_div_r; [lra|rewrite Qmult_1_l; lra]].
Qed.
Lemma f1_one tp fp fn : (f1_score tp fp fn == 1)%Q <-> 0 < tp /\ fp = 0 /\ fn = 0.
Proof.
  rewrite <- f1_agrees. unfold f1_of. destruct (Z.ltb_spec 0 (Z.of_nat tp)) as [H|H].
  - rewrite inject_Z_plus.
    set (a := inject_Z (Z.of_nat tp)). set (b := inject_Z (Z.of_nat fp)). set (d := inject_Z (Z.of_nat fn)).
    assert (Ha : (0 < a)%Q) by (unfold a; change 0%Q with (inject_Z 0); rewrite <- Zlt_Qlt; lia).
    assert (Hb : (0 <= b)%Q) by (unfold b; change 0%Q with (inject_Z 0); rewrite <- Zle_Qle; lia).
    assert (Hd : (0 <= d)%Q) by (unfold d; change 0%Q with (inject_Z 0); rewrite <- Zle_Qle; lia).
    split.
    + intro E. assert (E2 : (a == a + (1 # 2) * (b + d))%Q).
      { assert (E1 : (a == a / (a + (1 # 2) * (b + d)) * (a + (1 # 2) * (b + d)))%Q) by (field; lra).
        rewrite E, Qmult_1_l in E1. exact E1. }
      assert (Eb : (b == inject_Z 0)%Q) by (change (inject_Z 0) with 0%Q; lra).
      assert (Ed : (d == inject_Z 0)%Q) by (change (inject_Z 0) with 0%Q; lra).
      unfold b, d in Eb, Ed. rewrite inject_Z_injective in Eb, Ed. lia.
    + intros (_ & -> & ->). unfold b, d. change (inject_Z (Z.of_nat 0)) with 0%Q. field. lra.
  - split; [intro E; lra|]. lia.
Qed.

Section Loops.
  Context {St : Type} (c : client St) (py : python).
  Hypothesis Hpy : python_ok py.

  Lemma three_lists m (ps ss : list json) s r s' tr sys query : m = (sys, AskCorrectness query ps ss) ->
    generate_answer_correctness_verdicts py sys query ps ss c s = (Ok r, s', tr) <->
    exists t d tp fp fn, talk c s tr s' /\ tr = [(m, Ok t)] /\ r = (tp, fp, fn) /\ object_in py t d
      /\ statement_list d (lit "TP") tp /\ statement_list d (lit "FP") fp /\ statement_list d (lit "FN") fn
      /\ List.length tp + List.length fp = List.length ps /\ List.length fn <= List.length ss.
  Proof.
    intros ->. unfold generate_answer_correctness_verdicts.
    assert (Nd : NoDup [lit "TP"; lit "FP"; lit "FN"]) by (repeat constructor; cbn; intuition discriminate).
    split.
    - intro H. apply bind_ok in H. destruct H as (d & s1 & t1 & t2 & H1 & H & ->).
      apply (generate_ok c py Hpy _ _ _ _ _ _ _ _ _ Nd) in H1. destruct H1 as (t & T & -> & O & K).
      apply bind_ok in H. destruct H as (tp & s2 & t3 & t4 & H2 & H & ->). apply ret_ok in H2. destruct H2 as (F1 & -> & ->).
      apply bind_ok in H. destruct H as (fp & s3 & t5 & t6 & H2 & H & ->). apply ret_ok in H2. destruct H2 as (F2 & -> & ->).
      apply bind_ok in H. destruct H as (fn & s4 & t7 & t8 & H2 & H & ->). apply ret_ok in H2. destruct H2 as (F3 & -> & ->).
      apply ret_ok in H. destruct H as (H & -> & ->).
      destruct (len tp + len fp =? len ps)%Z eqn:E1; cbn [negb] in H; [|discriminate].
      destruct (len ss <? len fn)%Z eqn:E2; [discriminate|]. injection H as <-.
      apply Z.eqb_eq in E1. apply Z.ltb_ge in E2. unfold len in E1, E2.
      exists t, d, tp, fp, fn. rewrite app_nil_r. split; [exact T|]. split; [reflexivity|]. split; [reflexivity|]. split; [exact O|].
      apply field_ok in F1, F2, F3.
      assert (G : forall k l, In k [lit "TP"; lit "FP"; lit "FN"] -> dget k d = Some (JArr l) -> statement_list d k l).
      { intros k l Hk E. specialize (K k Hk). apply validate_statements_ok in K. destruct K as (l' & (E' & F) & _).
        rewrite E in E'. injection E' as <-. split; assumption. }
      split; [apply G; [cbn; auto|exact F1]|]. split; [apply G; [cbn; auto|exact F2]|]. split; [apply G; [cbn; auto|exact F3]|].
      split; lia.
    - intros (t & d & tp & fp & fn & T & -> & -> & O & S1 & S2 & S3 & L1 & L2).
      apply bind_ok. exists d, s', [((sys, AskCorrectness query ps ss), Ok t)], []. split.
      { apply (generate_ok c py Hpy _ _ _ _ _ _ _ _ _ Nd). exists t. split; [exact T|]. split; [reflexivity|]. split; [exact O|].
        intros k Hk. apply validate_statements_ok. cbn in Hk.
        destruct Hk as [<-|[<-|[<-|[]]]]; [exists tp|exists fp|exists fn]; (split; [assumption|split; intros; discriminate]). }
      split; [|reflexivity].
      apply bind_ok. exists tp, s', [], []. split; [apply ret_ok; split; [apply field_ok, S1|auto]|]. split; [|reflexivity].
      apply bind_ok. exists fp, s', [], []. split; [apply ret_ok; split; [apply field_ok, S2|auto]|]. split; [|reflexivity].
      apply bind_ok. exists fn, s', [], []. split; [apply ret_ok; split; [apply field_ok, S3|auto]|]. split; [|reflexivity].
      apply ret_ok. split; [|auto]. unfold len. replace (_ =? _)%Z with true by (symmetry; apply Z.eqb_eq; lia). cbn [negb].
      replace (_ <? _)%Z with false by (symmetry; apply Z.ltb_ge; lia). reflexivity.
  Qed.

  Definition f1s_of (cs : list (nat * nat * nat)) : list Q :=
    List.map (fun x => f1_of (Z.of_nat (fst (fst x))) (Z.of_nat (snd (fst x))) (Z.of_nat (snd x))) cs.
  Lemma correctness_loop_ok sys query ps gts f1s s r s' tr :
    correctness_loop py sys query ps gts f1s c s = (Ok r, s', tr) <->
    talk c s tr s' /\ exists cs, compared py sys query ps gts tr cs /\ r = f1s ++ f1s_of cs.
  Proof.
    revert f1s s s' tr. induction gts as [|g gts IH]; intros f1s s s' tr; cbn [correctness_loop].
    - rewrite ret_ok. split.
      + intros (H & -> & ->). injection H as <-. split; [constructor|]. exists []. split; [constructor|]. cbn. rewrite app_nil_r; reflexivity.
      + intros (T & cs & H & ->). inversion H; subst. apply talk_nil in T. subst. cbn. rewrite app_nil_r. auto.
    - split.
      + intro H. apply bind_ok in H. destruct H as (ss & s1 & t1 & t2 & H1 & H & ->).
        apply (list_ok c py Hpy) in H1. destruct H1 as (t & T & -> & R).
        apply bind_ok in H. destruct H as ([[tp fp] fn] & s2 & t3 & t4 & H2 & H & ->).
        eapply three_lists in H2; [|reflexivity]. destruct H2 as (t' & d & tp' & fp' & fn' & T2 & -> & E & O & S1 & S2 & S3 & L1 & L2).
        injection E as <- <- <-. apply IH in H. destruct H as (T3 & cs & C & ->). split.
        { apply (talk_app c s [_]). exists s1. split; [exact T|]. apply (talk_app c s1 [_]). eauto. }
        exists ((List.length tp, List.length fp, List.length fn) :: cs). split; [eapply compared_cons; eassumption|].
        unfold f1s_of. cbn [List.map fst snd]. rewrite <- app_assoc. reflexivity.
      + intros (T & cs & C & ->). inversion C as [|? ? t1 ss t2 d tp fp fn tr' cs' R O S1 S2 S3 L1 L2 C']; subst.
        apply talk_cons in T. destruct T as (s1 & T1 & T). apply talk_cons in T. destruct T as (s2 & T2 & T).
        apply bind_ok. exists ss, s1, [((sys, AskStatements g), Ok t1)], (((sys, AskCorrectness query ps ss), Ok t2) :: tr'). split.
        { apply (list_ok c py Hpy). exists t1. rewrite talk_one. auto. }
        split; [|reflexivity]. apply bind_ok. exists (tp, fp, fn), s2, [((sys, AskCorrectness query ps ss), Ok t2)], tr'. split.
        { apply (three_lists _ _ _ _ _ _ _ sys query eq_refl). exists t2, d, tp, fp, fn. rewrite talk_one. auto 12. }
        split; [|reflexivity]. apply IH. split; [exact T|]. exists cs'. split; [exact C'|].
        unfold f1s_of. cbn [List.map fst snd]. rewrite <- app_assoc. reflexivity.
  Qed.
  Lemma f1s_agree cs : Forall2 Qeq (f1s_of cs) (List.map (fun x => f1_score (fst (fst x)) (snd (fst x)) (snd x)) cs).
  Proof. induction cs as [|x cs IH]; constructor; [apply f1_agrees|exact IH]. Qed.

  Lemma correctness_ok sys query resp gts s q s' tr :
    returns (calculate_answer_correctness py sys query resp gts) c s q s' tr <->
    talk c s tr s' /\ exists t ps tr' cs, tr = ((sys, AskStatements resp), Ok t) :: tr'
      /\ reads_statements py t "statements" ps /\ compared py sys query ps gts tr' cs
      /\ greatest (0%Q :: List.map (fun x => f1_score (fst (fst x)) (snd (fst x)) (snd x)) cs) q.
  Proof.
    unfold returns, calculate_answer_correctness. split.
    - intros (q0 & H & Hq). apply bind_ok in H. destruct H as (ps & s1 & t1 & t2 & H1 & H & ->).
      apply (list_ok c py Hpy) in H1. destruct H1 as (t & T & -> & R).
      apply bind_ok in H. destruct H as (f1s & s2 & t3 & t4 & H2 & H & ->). apply ret_ok in H. destruct H as (H & -> & ->).
      apply correctness_loop_ok in H2. destruct H2 as (T2 & cs & C & ->). rewrite app_nil_r. split.
      { apply (talk_app c s [_]). eauto. }
      exists t, ps, t3, cs. split; [reflexivity|]. split; [exact R|]. split; [exact C|]. apply max_of_greatest in H.
      apply (greatest_eq _ q0); [exact Hq|]. eapply greatest_ext; [|exact H]. constructor; [reflexivity|apply f1s_agree].
    - intros (T & t & ps & tr' & cs & -> & R & C & G). apply talk_cons in T. destruct T as (s1 & T1 & T).
      destruct (greatest_some 0%Q (f1s_of cs)) as (q0 & M & G0). exists q0. split.
      + apply bind_ok. exists ps, s1, [((sys, AskStatements resp), Ok t)], tr'. split.
        { apply (list_ok c py Hpy). exists t. rewrite talk_one. auto. }
        split; [|reflexivity]. apply bind_ok. exists (0%Q :: f1s_of cs), s', tr', []. split.
        { apply correctness_loop_ok. split; [exact T|]. exists cs. split; [exact C|reflexivity]. }
        split; [|rewrite app_nil_r; reflexivity]. apply ret_ok. auto.
      + eapply greatest_unique; [|exact G]. eapply greatest_ext; [|exact G0]. constructor; [reflexivity|apply f1s_agree].
  Qed.

  (* ------------------------------------------------------------------ *)
  (** * Context recall *)
  Lemma recall_loop_ok sys contexts gts scores s r s' tr :
    recall_loop py sys contexts gts scores c s = (Ok r, s', tr) <->
    talk c s tr s' /\ exists vss, recalled py sys contexts gts tr vss /\ Forall (fun vs => vs <> []) vss /\ r = scores ++ List.map share vss.
  Proof.
    revert scores s s' tr. induction gts as [|g gts IH]; intros scores s s' tr; cbn [recall_loop].
    - rewrite ret_ok. split.
      + intros (H & -> & ->). injection H as <-. split; [constructor|]. exists []. split; [constructor|]. split; [constructor|]. cbn. rewrite app_nil_r; reflexivity.
      + intros (T & vss & H & _ & ->). inversion H; subst. apply talk_nil in T. subst. cbn. rewrite app_nil_r. auto.
    - unfold generate_context_recall_verdicts. split.
      + intro H. apply bind_ok in H. destruct H as (ss & s1 & t1 & t2 & H1 & H & ->).
        apply (list_ok c py Hpy) in H1. destruct H1 as (t & T & -> & R).
        apply bind_ok in H. destruct H as (vs & s2 & t3 & t4 & H2 & H & ->). unfold len in H2.
        apply (verdicts_ok c py Hpy) in H2. destruct H2 as (t' & T2 & -> & R2).
        apply bind_ok in H. destruct H as (x & s3 & t5 & t6 & H3 & H & ->). apply ret_ok in H3. destruct H3 as (H3 & -> & ->).
        apply IH in H. destruct H as (T3 & vss & C & N & ->).
        assert (Nv : vs <> []) by (intros ->; discriminate).
        rewrite (yes_fraction_verdicts _ _ (reads_verdict _ _ _ _ _ R2) Nv) in H3. injection H3 as <-. split.
        { apply (talk_app c s [_]). exists s1. split; [exact T|]. apply (talk_app c s1 [_]). eauto. }
        exists (vs :: vss). split; [eapply recalled_cons; eassumption|]. split; [constructor; assumption|].
        cbn [List.map]. rewrite <- app_assoc. reflexivity.
      + intros (T & vss & C & N & ->). inversion C as [|? ? t1 ss t2 vs tr' vss' R R2 C']; subst. inversion N; subst.
        apply talk_cons in T. destruct T as (s1 & T1 & T). apply talk_cons in T. destruct T as (s2 & T2 & T).
        apply bind_ok. exists ss, s1, [((sys, AskStatements g), Ok t1)], (((sys, AskRecall contexts ss), Ok t2) :: tr'). split.
        { apply (list_ok c py Hpy). exists t1. rewrite talk_one. auto. }
        split; [|reflexivity]. apply bind_ok. exists vs, s2, [((sys, AskRecall contexts ss), Ok t2)], tr'. split.
        { apply (verdicts_ok c py Hpy). exists t2. rewrite talk_one. auto. }
        split; [|reflexivity]. apply bind_ok. exists (share vs), s2, [], tr'. split.
        { apply ret_ok. split; [|auto]. apply (yes_fraction_verdicts yes_no); [apply (reads_verdict _ _ _ _ _ R2)|assumption]. }
        split; [|reflexivity]. apply IH. split; [exact T|]. exists vss'. split; [exact C'|]. split; [assumption|].
        cbn [List.map]. rewrite <- app_assoc. reflexivity.
  Qed.
  Lemma recalled_len sys contexts gts tr vss : recalled py sys contexts gts tr vss -> List.length vss = List.length gts.
  Proof. intro H; induction H; cbn; congruence. Qed.

  Lemma recall_ok sys predicted gts s q s' tr :
    returns (calculate_context_recall py sys predicted gts) c s q s' tr <->
    talk c s tr s' /\ ((predicted = [] /\ gts = [] /\ tr = [] /\ (q == 1)%Q)
      \/ ((predicted = [] <-> gts <> []) /\ tr = [] /\ (q == 0)%Q)
      \/ (predicted <> [] /\ gts <> [] /\ exists vss, recalled py sys predicted gts tr vss
          /\ Forall (fun vs => vs <> []) vss /\ greatest (List.map share vss) q)).
  Proof.
    unfold returns, calculate_context_recall.
    destruct predicted as [|p0 ps]; destruct gts as [|g0 gs];
      change (len (@nil (list Z)) =? 0)%Z with true; try change (len (p0 :: ps) =? 0)%Z with false;
      try change (len (g0 :: gs) =? 0)%Z with false; cbn [andb orb].
    - split.
      + intros (q0 & H & Hq). apply ret_ok in H. destruct H as (H & -> & ->). injection H as H. split; [constructor|].
        left. rewrite <- Hq, H. repeat (split; [reflexivity|]). reflexivity.
      + intros (T & [(_ & _ & -> & Hq)|[((H & _) & _)|(H & _)]]); [|exfalso; apply (H eq_refl); reflexivity|exfalso; apply H; reflexivity].
        apply talk_nil in T. subst. exists 1%Q. split; [reflexivity|symmetry; exact Hq].
    - split.
      + intros (q0 & H & Hq). apply ret_ok in H. destruct H as (H & -> & ->). injection H as H. split; [constructor|].
        right. left. split; [split; [intros _; discriminate|reflexivity]|]. rewrite <- Hq, H. split; reflexivity.
      + intros (T & [(_ & H & _)|[(_ & -> & Hq)|(H & _)]]); [discriminate| |exfalso; apply H; reflexivity].
        apply talk_nil in T. subst. exists 0%Q. split; [reflexivity|symmetry; exact Hq].
    - split.
      + intros (q0 & H & Hq). apply ret_ok in H. destruct H as (H & -> & ->). injection H as H. split; [constructor|].
        right. left. split; [split; [discriminate|intro X; exfalso; apply X; reflexivity]|]. rewrite <- Hq, H. split; reflexivity.
      + intros (T & [(H & _)|[(_ & -> & Hq)|(_ & H & _)]]); [discriminate| |exfalso; apply H; reflexivity].
        apply talk_nil in T. subst. exists 0%Q. split; [reflexivity|symmetry; exact Hq].
    - split.
      + intros (q0 & H & Hq). apply bind_ok in H. destruct H as (sc & s1 & t1 & t2 & H1 & H & ->). apply ret_ok in H. destruct H as (H & -> & ->).
        apply recall_loop_ok in H1. destruct H1 as (T & vss & C & N & ->). rewrite app_nil_r. split; [exact T|]. right. right.
        split; [discriminate|]. split; [discriminate|]. exists vss. split; [exact C|]. split; [exact N|]. cbn [List.app] in H.
        apply max_of_greatest in H. apply (greatest_eq _ q0); assumption.
      + intros (T & [(H & _)|[((_ & H) & _)|(_ & _ & vss & C & N & G)]]); [discriminate|exfalso; assert (X : g0 :: gs <> []) by discriminate; apply H in X; discriminate|].
        pose proof (recalled_len _ _ _ _ _ C) as L. destruct vss as [|v0 vss]; [discriminate|].
        destruct (greatest_some (share v0) (List.map share vss)) as (q0 & M & G0). exists q0. split.
        * apply bind_ok. exists (List.map share (v0 :: vss)), s', tr, []. split; [|split; [apply ret_ok; auto|rewrite app_nil_r; reflexivity]].
          apply recall_loop_ok. split; [exact T|]. exists (v0 :: vss). auto.
        * eapply greatest_unique; [exact G0|exact G].
  Qed.

  (* ------------------------------------------------------------------ *)
  (** * Context precision *)
  Definition orl (a b : list bool) : list bool := List.map (fun p => fst p || snd p) (combine a b).
  Lemma aggregate_ok a b : List.length a = List.length b -> aggregate a b = Ok (orl a b).
  Proof.
    revert b. induction a as [|x a IH]; intros [|y b] H; try discriminate; [reflexivity|].
    cbn [aggregate orl combine List.map]. rewrite IH by (cbn in H; lia). reflexivity.
  Qed.
  Lemma orl_len a b : List.length a = List.length b -> List.length (orl a b) = List.length a.
  Proof. intro H. unfold orl. rewrite map_length, combine_length. lia. Qed.
  Definition agg_of (vss : list (list json)) (a : list bool) : list bool :=
    fold_left (fun a vs => orl a (List.map affirmative vs)) vss a.
  Lemma agg_nth vss : forall a i, Forall (fun vs => List.length vs = List.length a) vss ->
    nth i (agg_of vss a) false = nth i a false || relevant vss (S i).
  Proof.
    induction vss as [|vs vss IH]; intros a i F; [cbn; rewrite Bool.orb_false_r; reflexivity|].
    cbn [agg_of fold_left]. fold (agg_of vss (orl a (List.map affirmative vs))). inversion F as [|? ? L F']; subst.
    rewrite IH.
    - unfold relevant. cbn [existsb]. rewrite Bool.orb_assoc. f_equal.
      replace (S i - 1) with i by lia. unfold orl. destruct (nth_error vs i) as [v|] eqn:E.
      + assert (Hi : i < List.length vs) by (apply nth_error_Some; congruence).
        rewrite nth_indep with (d' := (fun p : bool * bool => fst p || snd p) (false, false)) by (rewrite map_length, combine_length, map_length; lia).
        rewrite (map_nth (fun p : bool * bool => fst p || snd p)). rewrite combine_nth by (rewrite map_length; auto). cbn [fst snd]. f_equal.
        rewrite nth_indep with (d' := affirmative JNull) by (rewrite map_length; lia). rewrite map_nth. f_equal. apply nth_error_nth. exact E.
      + apply nth_error_None in E. rewrite nth_overflow by (rewrite map_length, combine_length, map_length; lia).
        rewrite (nth_overflow a) by lia. reflexivity.
    - eapply Forall_impl; [|exact F']. cbn. intros x Hx. rewrite orl_len by (rewrite map_length; auto). exact Hx.
  Qed.
  Lemma judged_lengths ask allowed n gts tr vss : judged py ask allowed n gts tr vss -> Forall (fun vs => List.length vs = n) vss.
  Proof. intro H; induction H; constructor; [eapply reads_length; eassumption|assumption]. Qed.

  Lemma precision_loop_ok sys query contexts gts agg s r s' tr : List.length agg = List.length contexts ->
    precision_loop py sys query contexts gts agg c s = (Ok r, s', tr) <->
    talk c s tr s' /\ exists vss, judged py (fun g => (sys, AskPrecision query contexts g)) yes_no (List.length contexts) gts tr vss /\ r = agg_of vss agg.
  Proof.
    revert agg s s' tr. induction gts as [|g gts IH]; intros agg s s' tr L; cbn [precision_loop].
    - rewrite ret_ok. split.
      + intros (H & -> & ->). injection H as <-. split; [constructor|]. exists []. split; [constructor|reflexivity].
      + intros (T & vss & H & ->). inversion H; subst. apply talk_nil in T. subst. auto.
    - unfold generate_context_precision_verdicts. split.
      + intro H. apply bind_ok in H. destruct H as (vs & s1 & t1 & t2 & H1 & H & ->). unfold len in H1.
        apply (verdicts_ok c py Hpy) in H1. destruct H1 as (t & T & -> & R).
        apply bind_ok in H. destruct H as (ys & s2 & t3 & t4 & H2 & H & ->). apply ret_ok in H2. destruct H2 as (H2 & -> & ->).
        rewrite (yes_list_verdicts _ _ (reads_verdict _ _ _ _ _ R)) in H2. injection H2 as <-.
        apply bind_ok in H. destruct H as (a' & s3 & t5 & t6 & H3 & H & ->). apply ret_ok in H3. destruct H3 as (H3 & -> & ->).
        pose proof (reads_length _ _ _ _ _ R) as Lv. rewrite aggregate_ok in H3 by (rewrite map_length; lia). injection H3 as <-.
        apply IH in H; [|rewrite orl_len by (rewrite map_length; lia); exact L]. destruct H as (T2 & vss & C & ->). split.
        { apply (talk_app c s [_]). eauto. }
        exists (vs :: vss). split; [|reflexivity]. apply (judged_cons py (fun g => (sys, AskPrecision query contexts g))); assumption.
      + intros (T & vss & C & ->). inversion C as [|? ? t vs tr' vss' R C']; subst. apply talk_cons in T. destruct T as (s1 & T1 & T).
        apply bind_ok. exists vs, s1, [((sys, AskPrecision query contexts g), Ok t)], tr'. split.
        { apply (verdicts_ok c py Hpy). exists t. rewrite talk_one. auto. }
        split; [|reflexivity]. apply bind_ok. exists (List.map affirmative vs), s1, [], tr'. split.
        { apply ret_ok. split; [|auto]. apply (yes_list_verdicts yes_no), (reads_verdict _ _ _ _ _ R). }
        split; [|reflexivity]. pose proof (reads_length _ _ _ _ _ R) as Lv. apply bind_ok. exists (orl agg (List.map affirmative vs)), s1, [], tr'. split.
        { apply ret_ok. split; [|auto]. apply aggregate_ok. rewrite map_length; lia. }
        split; [|reflexivity]. apply IH; [rewrite orl_len by (rewrite map_length; lia); exact L|]. split; [exact T|]. exists vss'. auto.
  Qed.
End Loops.

(* precision at each relevant rank *)
Lemma countb_nth rel seen m : (forall i, i < List.length seen -> rel (m + i) = nth i seen false) ->
  countb (fun b => b) seen = countb rel (seq m (List.length seen)).
Proof.
  revert m. induction seen as [|b r IH]; intros m H; [reflexivity|]. cbn [List.length seq].
  unfold countb. cbn [filter]. pose proof (H 0 ltac:(cbn; lia)) as H0. rewrite Nat.add_0_r in H0. cbn in H0. rewrite H0.
  assert (E : List.length (filter (fun b => b) r) = List.length (filter rel (seq (S m) (List.length r)))).
  { apply IH. intros i Hi. specialize (H (S i) ltac:(cbn; lia)). cbn [nth] in H. rewrite <- H. f_equal. lia. }
  destruct b; cbn [List.length]; rewrite E; reflexivity.
Qed.
Lemma precisions_spec rel rest : forall seen, (forall i, i < List.length (seen ++ rest) -> rel (S i) = nth i (seen ++ rest) false) ->
  precisions seen rest = List.map (precision_at rel) (filter rel (seq (S (List.length seen)) (List.length rest))).
Proof.
  induction rest as [|b r IH]; intros seen H; [reflexivity|]. cbn [precisions List.length seq filter].
  assert (Hb : rel (S (List.length seen)) = b).
  { rewrite H by (rewrite app_length; cbn; lia). rewrite app_nth2, Nat.sub_diag by lia. reflexivity. }
  assert (IH' := IH (seen ++ [b])). rewrite <- app_assoc in IH'. cbn [List.app] in IH'. specialize (IH' H).
  rewrite app_length, Nat.add_comm in IH'. cbn [List.length Nat.add] in IH'. rewrite Hb. destruct b; [|exact IH'].
  cbn [List.map]. f_equal; [|exact IH']. unfold precision_at, fraction, count_true, len.
  assert (L : List.length (seen ++ [true]) = S (List.length seen)) by (rewrite app_length; cbn; lia).
  rewrite L. rewrite (countb_nth rel (seen ++ [true]) 1).
  - rewrite L. reflexivity.
  - intros i Hi. cbn [Nat.add]. rewrite H by (rewrite app_length in Hi |- *; cbn in Hi |- *; lia).
    change (true :: r) with ([true] ++ r). rewrite app_assoc, app_nth1 by exact Hi. reflexivity.
Qed.
Lemma Qsum_sumQ l : (Qsum l == sumQ l)%Q.
Proof.
  unfold Qsum. assert (G : forall a, (fold_left Qplus l a == a + sumQ l)%Q).
  { induction l as [|x l IH]; intro a; cbn [fold_left sumQ fold_right]; [ring|]. rewrite IH. unfold sumQ. ring. }
  rewrite G. ring.
Qed.
Lemma precision_score_ok rel agg : (forall i, i < List.length agg -> rel (S i) = nth i agg false) ->
  exists q, precision_score agg = Ok q /\ (q == mean_precision rel (List.length agg))%Q.
Proof.
  intro H. unfold precision_score, mean_precision. rewrite (precisions_spec rel agg [] H). cbn [List.length].
  destruct (filter rel (seq 1 (List.length agg))) as [|k ks]; [exists 0%Q; split; reflexivity|].
  cbn [List.map]. eexists. split; [reflexivity|]. cbn [List.length Nat.ltb Nat.leb]. rewrite Qsum_sumQ.
  unfold len. cbn [List.map List.length]. rewrite map_length. reflexivity.
Qed.

Lemma precision_ok {St} (c : client St) py sys query predicted gts s q s' tr : python_ok py ->
  returns (calculate_context_precision py sys query predicted gts) c s q s' tr <->
  talk c s tr s' /\ ((predicted = [] /\ gts = [] /\ tr = [] /\ (q == 1)%Q)
    \/ ((predicted = [] <-> gts <> []) /\ tr = [] /\ (q == 0)%Q)
    \/ (predicted <> [] /\ gts <> [] /\ exists vss,
         judged py (fun g => (sys, AskPrecision query predicted g)) yes_no (List.length predicted) gts tr vss
         /\ (q == mean_precision (relevant vss) (List.length predicted))%Q)).
Proof.
  intro Hpy. unfold returns, calculate_context_precision.
  destruct predicted as [|p0 ps]; destruct gts as [|g0 gs];
    change (len (@nil (list Z)) =? 0)%Z with true; try change (len (p0 :: ps) =? 0)%Z with false;
    try change (len (g0 :: gs) =? 0)%Z with false; cbn [andb orb].
  - split.
    + intros (q0 & H & Hq). apply ret_ok in H. destruct H as (H & -> & ->). injection H as H. split; [constructor|].
      left. rewrite <- Hq, H. repeat (split; [reflexivity|]). reflexivity.
    + intros (T & [(_ & _ & -> & Hq)|[((H & _) & _)|(H & _)]]); [|exfalso; apply (H eq_refl); reflexivity|exfalso; apply H; reflexivity].
      apply talk_nil in T. subst. exists 1%Q. split; [reflexivity|symmetry; exact Hq].
  - split.
    + intros (q0 & H & Hq). apply ret_ok in H. destruct H as (H & -> & ->). injection H as H. split; [constructor|].
      right. left. split; [split; [intros _; discriminate|reflexivity]|]. rewrite <- Hq, H. split; reflexivity.
    + intros (T & [(_ & H & _)|[(_ & -> & Hq)|(H & _)]]); [discriminate| |exfalso; apply H; reflexivity].
      apply talk_nil in T. subst. exists 0%Q. split; [reflexivity|symmetry; exact Hq].
  - split.
    + intros (q0 & H & Hq). apply ret_ok in H. destruct H as (H & -> & ->). injection H as H. split; [constructor|].
      right. left. split; [split; [discriminate|intro X; exfalso; apply X; reflexivity]|]. rewrite <- Hq, H. split; reflexivity.
    + intros (T & [(H & _)|[(_ & -> & Hq)|(_ & H & _)]]); [discriminate| |exfalso; apply H; reflexivity].
      apply talk_nil in T. subst. exists 0%Q. split; [reflexivity|symmetry; exact Hq].
  - set (pr := p0 :: ps) in *. set (gts := g0 :: gs) in *.
    assert (L0 : List.length (List.map (fun _ : text => false) pr) = List.length pr) by apply map_length.
    assert (Key : forall vss trx, judged py (fun g => (sys, AskPrecision query pr g)) yes_no (List.length pr) gts trx vss ->
      exists x, precision_score (agg_of vss (List.map (fun _ => false) pr)) = Ok x /\ (x == mean_precision (relevant vss) (List.length pr))%Q).
    { intros vss trx J. apply judged_lengths in J.
      assert (La : List.length (agg_of vss (List.map (fun _ => false) pr)) = List.length pr).
      { revert J L0. generalize (List.map (fun _ : text => false) pr). induction vss as [|vs vss IH]; intros a J La; [exact La|].
        inversion J; subst. cbn. apply IH; [assumption|]. rewrite orl_len by (rewrite map_length; lia). exact La. }
      rewrite <- La. apply precision_score_ok. intros i Hi. rewrite agg_nth.
      - assert (E : nth i (List.map (fun _ : text => false) pr) false = false).
        { clear. revert i. generalize pr. intro l; induction l as [|x l IH]; intros [|i]; try reflexivity. cbn. apply IH. }
        rewrite E. reflexivity.
      - eapply Forall_impl; [|exact J]. intros x Hx. cbn beta in Hx. rewrite L0. exact Hx. }
    split.
    + intros (q0 & H & Hq). apply bind_ok in H. destruct H as (a & s1 & t1 & t2 & H1 & H & ->). apply ret_ok in H. destruct H as (H & -> & ->).
      apply (precision_loop_ok c py Hpy _ _ _ _ _ _ _ _ _ L0) in H1. destruct H1 as (T & vss & J & ->).
      rewrite app_nil_r. split; [exact T|]. right. right. split; [discriminate|]. split; [discriminate|]. exists vss. split; [exact J|].
      destruct (Key _ _ J) as (x & E & Hx). rewrite E in H. injection H as <-. rewrite <- Hq. exact Hx.
    + intros (T & [(H & _)|[((_ & H) & _)|(_ & _ & vss & J & Hq)]]); [discriminate|exfalso; assert (X : gts <> []) by discriminate; apply H in X; discriminate|].
      destruct (Key _ _ J) as (x & E & Hx). exists x. split; [|rewrite Hx; symmetry; exact Hq].
      apply bind_ok. exists (agg_of vss (List.map (fun _ => false) pr)), s', tr, []. split; [|split; [apply ret_ok; auto|rewrite app_nil_r; reflexivity]].
      apply (precision_loop_ok c py Hpy _ _ _ _ _ _ _ _ _ L0). split; [exact T|]. exists vss. auto.
Qed.
