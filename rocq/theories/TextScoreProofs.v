(* The scores: each one in terms of the conversation with the client. *)
From Verif Require Import Prelude Counting TextModel TextSpec TextReadProofs.
From Coq Require Import QArith Qfield Lqa String.
From Coq Require List.
Local Open Scope string_scope.
Local Open Scope nat_scope.
Local Open Scope list_scope.

(* ------------------------------------------------------------------ *)
(** * Programs *)
Section Programs.
  Context {St : Type} (c : client St).

  Lemma ret_ok {A} (o : outcome A) s a s' tr : ret o c s = (Ok a, s', tr) <-> o = Ok a /\ s' = s /\ tr = [].
  Proof. unfold ret. split; [intro H; inversion H; auto|intros (-> & -> & ->); reflexivity]. Qed.
  Lemma bind_ok {A B} (m : prog St A) (k : A -> prog St B) s b s' tr :
    bind m k c s = (Ok b, s', tr) <->
    exists a s1 t1 t2, m c s = (Ok a, s1, t1) /\ k a c s1 = (Ok b, s', t2) /\ tr = t1 ++ t2.
  Proof.
    unfold bind. destruct (m c s) as [[o s1] t1]. destruct o as [a|i|e].
    - destruct (k a c s1) as [[o2 s2] t2] eqn:E. split.
      + intro H; inversion H; subst. exists a, s1, t1, t2. auto.
      + intros (a' & s1' & t1' & t2' & H & E' & ->). inversion H; subst. rewrite E in E'. inversion E'; subst. reflexivity.
    - split; [discriminate|]. intros (a & s2 & t2 & t3 & H & _). discriminate.
    - split; [discriminate|]. intros (a & s2 & t2 & t3 & H & _). discriminate.
  Qed.
  Lemma call_ok m s t s' tr : @call St m c s = (Ok t, s', tr) <-> c s m = (Ok t, s') /\ tr = [(m, Ok t)].
  Proof.
    unfold call. destruct (c s m) as [o s1]. split.
    - intro H; inversion H; subst. auto.
    - intros [H ->]. inversion H; subst. reflexivity.
  Qed.
  Lemma talk_one s m o s' : talk c s [(m, o)] s' <-> c s m = (o, s').
  Proof.
    split.
    - intro H. inversion H; subst. match goal with T : talk _ _ [] _ |- _ => inversion T; subst end. assumption.
    - intro H. eapply talk_next; [exact H|constructor].
  Qed.
  Lemma talk_app s t1 t2 s' : talk c s (t1 ++ t2) s' <-> exists s1, talk c s t1 s1 /\ talk c s1 t2 s'.
  Proof.
    revert s. induction t1 as [|[m o] t1 IH]; intro s; cbn [List.app].
    - split; [intro H; exists s; split; [constructor|exact H]|]. intros (s1 & H & H2). inversion H; subst; exact H2.
    - split.
      + intro H. inversion H as [|? ? ? sx ? ? E T]; subst. apply IH in T. destruct T as (s2 & T1 & T2).
        exists s2. split; [eapply talk_next; eassumption|exact T2].
      + intros (s1 & H & H2). inversion H as [|? ? ? sx ? ? E T]; subst. eapply talk_next; [exact E|]. apply IH. eauto.
  Qed.
  Lemma talk_cons s m o tr s' : talk c s ((m, o) :: tr) s' <-> exists s1, c s m = (o, s1) /\ talk c s1 tr s'.
  Proof.
    split.
    - intro H. inversion H; subst. eauto.
    - intros (s1 & H & T). eapply talk_next; eauto.
  Qed.
  Lemma talk_nil s s' : talk c s [] s' <-> s' = s.
  Proof. split; [intro H; inversion H; reflexivity|intros ->; constructor]. Qed.
End Programs.

Lemma check_keys_ok val d ks al en : check_keys val d ks al en = Ok tt <-> forall k, In k ks -> val d k al en = Ok tt.
Proof.
  induction ks as [|k r IH]; cbn [check_keys]; [split; [intros _ ? []|reflexivity]|].
  destruct (val d k al en) as [[]|i|e] eqn:E.
  - rewrite IH. split; [intros H k' [<-|Hk]; auto|intros H k' Hk; apply H; right; exact Hk].
  - split; [discriminate|]. intro H. rewrite (H k (or_introl eq_refl)) in E. discriminate.
  - split; [discriminate|]. intro H. rewrite (H k (or_introl eq_refl)) in E. discriminate.
Qed.

Section Generate.
  Context {St : Type} (c : client St) (py : python).
  Hypothesis Hpy : python_ok py.

  Lemma generate_ok m ks val al en s d s' tr : NoDup ks ->
    generate py m ks val al en c s = (Ok d, s', tr) <->
    exists t, talk c s tr s' /\ tr = [(m, Ok t)] /\ object_in py t d /\ forall k, In k ks -> val d k al en = Ok tt.
  Proof.
    intro Hn. unfold generate. pose proof (set_order py Hpy ks Hn) as P. split.
    - intro H. apply bind_ok in H. destruct H as (t & s1 & t1 & t2 & H1 & H & ->). apply call_ok in H1. destruct H1 as [H1 ->].
      apply bind_ok in H. destruct H as (d0 & s2 & t3 & t4 & H2 & H & ->). apply ret_ok in H2. destruct H2 as (H2 & -> & ->).
      apply bind_ok in H. destruct H as ([] & s3 & t5 & t6 & H3 & H & ->). apply ret_ok in H3. destruct H3 as (H3 & -> & ->).
      apply ret_ok in H. destruct H as (H & -> & ->). inversion H; subst. cbn [List.app].
      exists t. rewrite talk_one. split; [exact H1|]. split; [reflexivity|]. split; [apply trim_ok; exact H2|].
      intros k Hk. apply (proj1 (check_keys_ok _ _ _ _ _) H3). eapply Permutation_in; eassumption.
    - intros (t & T & -> & O & K). rewrite talk_one in T. apply bind_ok.
      exists t, s', [(m, Ok t)], []. split; [apply call_ok; auto|]. split; [|reflexivity].
      apply bind_ok. exists d, s', [], []. split; [apply ret_ok; split; [apply trim_ok; exact O|auto]|]. split; [|reflexivity].
      apply bind_ok. exists tt, s', [], []. split; [|split; [reflexivity|reflexivity]]. apply ret_ok. split; [|auto].
      apply check_keys_ok. intros k Hk. apply K. eapply Permutation_in; [apply Permutation_sym; exact P|exact Hk].
  Qed.

  Lemma field_ok key d l : field key d = Ok l <-> dget key d = Some (JArr l).
  Proof.
    unfold field. destruct (dget key d) as [v|]; [|split; discriminate].
    destruct v; split; intro H; try discriminate; inversion H; reflexivity.
  Qed.

  Lemma list_ok m key s l s' tr :
    bind (generate py m [lit key] validate_statements None None) (fun d => ret (field (lit key) d)) c s = (Ok l, s', tr) <->
    exists t, talk c s tr s' /\ tr = [(m, Ok t)] /\ reads_statements py t key l.
  Proof.
    rewrite bind_ok. unfold reads_statements. split.
    - intros (d & s1 & t1 & t2 & H & H2 & ->). apply ret_ok in H2. destruct H2 as (F & -> & ->).
      apply generate_ok in H; [|constructor; [intros []|constructor]]. destruct H as (t & T & -> & O & K).
      exists t. rewrite app_nil_r. split; [exact T|]. split; [reflexivity|]. exists d. split; [exact O|].
      apply field_ok in F. specialize (K _ (or_introl eq_refl)). apply validate_statements_ok in K.
      destruct K as (l' & K & _). destruct K as [E K]. rewrite F in E; inversion E; subst. split; assumption.
    - intros (t & T & -> & d & O & S). exists d, s', [(m, Ok t)], []. split; [|split; [|reflexivity]].
      + apply generate_ok; [constructor; [intros []|constructor]|]. exists t. split; [exact T|]. split; [reflexivity|].
        split; [exact O|]. intros k [<-|[]]. apply validate_statements_ok. exists l. split; [exact S|]. split; intros; discriminate.
      + apply ret_ok. split; [|auto]. apply field_ok, S.
  Qed.
  Lemma verdicts_ok m allowed n s l s' tr :
    generate_verdicts py m allowed (Z.of_nat n) c s = (Ok l, s', tr) <->
    exists t, talk c s tr s' /\ tr = [(m, Ok t)] /\ reads_verdicts py t allowed n l.
  Proof.
    unfold generate_verdicts, reads_verdicts. rewrite bind_ok. split.
    - intros (d & s1 & t1 & t2 & H & H2 & ->). apply ret_ok in H2. destruct H2 as (F & -> & ->).
      apply generate_ok in H; [|constructor; [intros []|constructor]]. destruct H as (t & T & -> & O & K).
      exists t. rewrite app_nil_r. split; [exact T|]. split; [reflexivity|]. exists d. split; [exact O|].
      apply field_ok in F. specialize (K _ (or_introl eq_refl)). apply validate_verdicts_ok in K.
      destruct K as (l' & K). destruct K as [E K]. rewrite F in E; inversion E; subst. split; assumption.
    - intros (t & T & -> & d & O & S). exists d, s', [(m, Ok t)], []. split; [|split; [|reflexivity]].
      + apply generate_ok; [constructor; [intros []|constructor]|]. exists t. split; [exact T|]. split; [reflexivity|].
        split; [exact O|]. intros k [<-|[]]. apply validate_verdicts_ok. exists l. exact S.
      + apply ret_ok. split; [|auto]. apply field_ok, S.
  Qed.
End Generate.

(* ------------------------------------------------------------------ *)
(** * Verdicts and shares *)
Lemma is_yes_verdict a v : verdict a v -> is_yes v = Ok (affirmative v).
Proof.
  intros (d & t & -> & _ & E & _). cbn [is_yes affirmative]. rewrite E. f_equal.
  destruct (list_eq_dec Z.eq_dec t (lit "yes")) as [->|N]; [apply text_eqb_refl|apply text_eqb_neq; exact N].
Qed.
Lemma yes_list_verdicts a vs : Forall (verdict a) vs -> yes_list vs = Ok (List.map affirmative vs).
Proof.
  intro H. induction H as [|v r Hv Hr IH]; [reflexivity|]. cbn [yes_list List.map]. rewrite (is_yes_verdict a v Hv), IH. reflexivity.
Qed.
Lemma yes_fraction_verdicts a vs : Forall (verdict a) vs -> vs <> [] -> yes_fraction vs = Ok (share vs).
Proof.
  intros H Hn. unfold yes_fraction. rewrite (yes_list_verdicts a vs H). unfold divide, share, fraction, count_true, len.
  rewrite countb_map. destruct (Z.eqb_spec (Z.of_nat (List.length vs)) 0) as [E|E]; [|reflexivity].
  destruct vs; [congruence|cbn in E; lia].
Qed.
Lemma yes_fraction_nil : yes_fraction [] = Raised ZeroDivisionError.
Proof. reflexivity. Qed.
Lemma reads_length py t a n vs : reads_verdicts py t a n vs -> List.length vs = n.
Proof. intros (d & _ & _ & H & _). lia. Qed.
Lemma reads_verdict py t a n vs : reads_verdicts py t a n vs -> Forall (verdict a) vs.
Proof. intros (d & _ & _ & _ & H). exact H. Qed.

Lemma fraction_range a b : a <= b -> (0 <= fraction a b <= 1)%Q.
Proof.
  intro H. unfold fraction. destruct b as [|b].
  - assert (a = 0) by lia. subst. split; apply Qle_bool_iff; reflexivity.
  - assert (P : (0 < inject_Z (Z.of_nat (S b)))%Q) by (change 0%Q with (inject_Z 0); rewrite <- Zlt_Qlt; lia). split.
    + apply Qle_shift_div_l; [exact P|]. rewrite Qmult_0_l. change 0%Q with (inject_Z 0). rewrite <- Zle_Qle. lia.
    + apply Qle_shift_div_r; [exact P|]. rewrite Qmult_1_l, <- Zle_Qle. lia.
Qed.
Lemma share_range vs : (0 <= share vs <= 1)%Q.
Proof. apply fraction_range, countb_le_length. Qed.
Lemma fraction_one a b : 0 < b -> (fraction a b == 1)%Q <-> a = b.
Proof.
  intro Hb. unfold fraction. assert (P : ~ (inject_Z (Z.of_nat b) == 0)%Q).
  { change 0%Q with (inject_Z 0). rewrite inject_Z_injective. lia. }
  split.
  - intro H. assert (E : (inject_Z (Z.of_nat a) == inject_Z (Z.of_nat b))%Q).
    { setoid_replace (inject_Z (Z.of_nat a)) with (inject_Z (Z.of_nat a) / inject_Z (Z.of_nat b) * inject_Z (Z.of_nat b))%Q by (field; exact P).
      rewrite H. ring. }
    rewrite inject_Z_injective in E. lia.
  - intros ->. field. exact P.
Qed.
Lemma fraction_zero a b : 0 < b -> (fraction a b == 0)%Q <-> a = 0.
Proof.
  intro Hb. unfold fraction. assert (P : ~ (inject_Z (Z.of_nat b) == 0)%Q).
  { change 0%Q with (inject_Z 0). rewrite inject_Z_injective. lia. }
  split.
  - intro H. assert (E : (inject_Z (Z.of_nat a) == inject_Z 0)%Q).
    { setoid_replace (inject_Z (Z.of_nat a)) with (inject_Z (Z.of_nat a) / inject_Z (Z.of_nat b) * inject_Z (Z.of_nat b))%Q by (field; exact P).
      rewrite H. ring. }
    rewrite inject_Z_injective in E. lia.
  - intros ->. unfold Qdiv. change (inject_Z (Z.of_nat 0)) with 0%Q. ring.
Qed.

(* ------------------------------------------------------------------ *)
(** * One score at a time *)
Section Scores.
  Context {St : Type} (c : client St) (py : python).
  Hypothesis Hpy : python_ok py.

  Lemma len_zero {A} (l : list A) : (len l =? 0)%Z = true <-> l = [].
  Proof. unfold len. rewrite Z.eqb_eq. destruct l; cbn; split; intro H; try reflexivity; try discriminate; lia. Qed.
  Lemma len_pos {A} (l : list A) : (len l =? 0)%Z = false <-> l <> [].
  Proof. rewrite <- len_zero. destruct (len l =? 0)%Z; split; congruence. Qed.

  Lemma two_steps_ok ask1 key ask2 allowed none s q s' tr :
    returns (bind (bind (generate py ask1 [lit key] validate_statements None None) (fun d => ret (field (lit key) d))) (fun items =>
             if (len items =? 0)%Z then ret (Ok none)
             else bind (generate_verdicts py (ask2 items) allowed (len items)) (fun vs => ret (yes_fraction vs)))) c s q s' tr
    <-> talk c s tr s' /\ two_steps py ask1 key ask2 allowed none q tr.
  Proof.
    unfold returns, two_steps. split.
    - intros (q0 & H & Hq). apply bind_ok in H. destruct H as (items & s1 & t1 & t2 & H1 & H2 & ->).
      apply (list_ok c py Hpy) in H1. destruct H1 as (t & T & -> & R).
      destruct (len items =? 0)%Z eqn:L.
      + apply ret_ok in H2. destruct H2 as (H2 & -> & ->). rewrite app_nil_r. split; [exact T|].
        exists t, items. split; [exact R|]. left. apply len_zero in L. injection H2 as H2. rewrite <- Hq, H2.
        split; [exact L|]. split; reflexivity.
      + apply bind_ok in H2. destruct H2 as (vs & s2 & t3 & t4 & H2 & H3 & ->). apply ret_ok in H3. destruct H3 as (H3 & -> & ->).
        unfold len in H2. apply (verdicts_ok c py Hpy) in H2. destruct H2 as (t' & T2 & -> & R2). rewrite app_nil_r.
        split; [apply talk_app; eauto|]. exists t, items. split; [exact R|]. right. apply len_pos in L. split; [exact L|].
        exists t', vs. split; [reflexivity|]. split; [exact R2|].
        rewrite (yes_fraction_verdicts allowed) in H3.
        * injection H3 as H3. rewrite <- Hq, H3. reflexivity.
        * apply (reads_verdict _ _ _ _ _ R2).
        * intros ->. apply reads_length in R2. destruct items; [congruence|discriminate].
    - intros (T & t1 & items & R & [(-> & -> & Hq)|(Hn & t2 & vs & -> & R2 & Hq)]).
      + exists none. split; [|symmetry; exact Hq]. apply bind_ok. exists [], s', [(ask1, Ok t1)], []. split.
        * apply (list_ok c py Hpy). eauto.
        * split; [|reflexivity]. apply ret_ok; auto.
      + exists (share vs). split; [|symmetry; exact Hq]. apply (talk_app c s [_] [_]) in T. destruct T as (s1 & T1 & T2).
        apply bind_ok. exists items, s1, [(ask1, Ok t1)], [(ask2 items, Ok t2)]. split; [apply (list_ok c py Hpy); eauto|].
        split; [|reflexivity]. rewrite (proj2 (len_pos items) Hn). apply bind_ok.
        exists vs, s', [(ask2 items, Ok t2)], []. split; [apply (verdicts_ok c py Hpy); eauto|]. split; [|reflexivity].
        apply ret_ok. split; [|auto]. apply (yes_fraction_verdicts allowed).
        * apply (reads_verdict _ _ _ _ _ R2).
        * intros ->. apply reads_length in R2. destruct items; [congruence|discriminate].
  Qed.

  Lemma bias_ok sys resp s q s' tr :
    returns (calculate_bias py sys resp) c s q s' tr <->
    talk c s tr s' /\ two_steps py (sys, AskOpinions resp) "opinions" (fun os => (sys, AskBias os)) yes_no 0 q tr.
  Proof. apply two_steps_ok. Qed.
  Lemma toxicity_ok sys resp s q s' tr :
    returns (calculate_toxicity py sys resp) c s q s' tr <->
    talk c s tr s' /\ two_steps py (sys, AskOpinions resp) "opinions" (fun os => (sys, AskToxicity os)) yes_no 0 q tr.
  Proof. apply two_steps_ok. Qed.
  Lemma faithfulness_ok sys resp contexts s q s' tr :
    returns (calculate_faithfulness py sys resp contexts) c s q s' tr <->
    talk c s tr s' /\ ((contexts = [] /\ tr = [] /\ (q == 0)%Q) \/
      (contexts <> [] /\ two_steps py (sys, AskClaims resp) "claims" (fun cs => (sys, AskFaithfulness cs contexts)) yes_no 1 q tr)).
  Proof.
    unfold calculate_faithfulness. destruct (len contexts =? 0)%Z eqn:L.
    - apply len_zero in L. unfold returns. split.
      + intros (q0 & H & Hq). apply ret_ok in H. destruct H as (H & -> & ->). injection H as H.
        split; [constructor|]. left. rewrite <- Hq, H. split; [exact L|]. split; reflexivity.
      + intros (T & [(_ & -> & Hq)|(Hn & _)]); [|contradiction]. exists 0%Q. split; [|symmetry; exact Hq].
        apply talk_nil in T. subst. reflexivity.
    - apply len_pos in L. pose proof (two_steps_ok (sys, AskClaims resp) "claims" (fun cs => (sys, AskFaithfulness cs contexts)) yes_no 1 s q s' tr) as G.
      split.
      + intro H. apply G in H. destruct H as [T H]. auto.
      + intros (T & [(H & _)|(_ & H)]); [contradiction|]. apply G. auto.
  Qed.

  Lemma relevance_ok sys query resp s q s' tr :
    returns (calculate_answer_relevance py sys query resp) c s q s' tr <->
    talk c s tr s' /\ exists t1 ss t2 vs,
      tr = [((sys, AskStatements resp), Ok t1); ((sys, AskRelevance query ss), Ok t2)]
      /\ reads_statements py t1 "statements" ss
      /\ reads_verdicts py t2 [lit "yes"; lit "no"; lit "idk"] (List.length ss) vs
      /\ (q == if 0 <? List.length ss then share vs else 0)%Q.
  Proof.
    unfold returns, calculate_answer_relevance, generate_answer_relevance_verdicts. split.
    - intros (q0 & H & Hq). apply bind_ok in H. destruct H as (ss & s1 & t1 & t2 & H1 & H2 & ->).
      apply (list_ok c py Hpy) in H1. destruct H1 as (t & T & -> & R).
      apply bind_ok in H2. destruct H2 as (vs & s2 & t3 & t4 & H2 & H3 & ->).
      unfold len in H2. apply (verdicts_ok c py Hpy) in H2. destruct H2 as (t' & T2 & -> & R2).
      assert (E : s' = s2 /\ t4 = [] /\ (q0 == if 0 <? List.length ss then share vs else 0)%Q).
      { rewrite <- (reads_length _ _ _ _ _ R2). destruct (len vs =? 0)%Z eqn:L.
        - apply len_zero in L. subst. apply ret_ok in H3. destruct H3 as (H3 & -> & ->). injection H3 as H3. rewrite <- H3. split; [reflexivity|]. split; reflexivity.
        - apply len_pos in L. apply ret_ok in H3. destruct H3 as (H3 & -> & ->). rewrite (yes_fraction_verdicts _ _ (reads_verdict _ _ _ _ _ R2) L) in H3.
          injection H3 as H3. rewrite <- H3. split; [reflexivity|]. split; [reflexivity|]. destruct vs; [congruence|reflexivity]. }
      destruct E as (-> & -> & E). split; [apply talk_app; eauto|].
      exists t, ss, t', vs. split; [reflexivity|]. split; [exact R|]. split; [exact R2|]. rewrite <- Hq. exact E.
    - intros (T & t1 & ss & t2 & vs & -> & R & R2 & Hq). apply (talk_app c s [_] [_]) in T. destruct T as (s1 & T1 & T2).
      exists (if 0 <? List.length ss then share vs else 0%Q). split.
      + apply bind_ok. exists ss, s1, [((sys, AskStatements resp), Ok t1)], [((sys, AskRelevance query ss), Ok t2)].
        split; [apply (list_ok c py Hpy); eauto|]. split; [|reflexivity]. apply bind_ok.
        exists vs, s', [((sys, AskRelevance query ss), Ok t2)], []. split; [apply (verdicts_ok c py Hpy); eauto|]. split; [|reflexivity].
        rewrite <- (reads_length _ _ _ _ _ R2). destruct vs as [|v vs]; [apply ret_ok; auto|].
        change (len (v :: vs) =? 0)%Z with false. cbv iota. apply ret_ok. split; [|auto].
        cbn [List.length Nat.ltb Nat.leb]. apply (yes_fraction_verdicts [lit "yes"; lit "no"; lit "idk"]); [apply (reads_verdict _ _ _ _ _ R2)|discriminate].
      + destruct (0 <? List.length ss); symmetry; exact Hq.
  Qed.

  (* one question, a verdict for each context *)
  Lemma one_step_ok ask allowed (contexts : list text) s q s' tr : contexts <> [] ->
    returns (bind (generate_verdicts py ask allowed (len contexts)) (fun vs => ret (yes_fraction vs))) c s q s' tr
    <-> talk c s tr s' /\ exists t vs, tr = [(ask, Ok t)] /\ reads_verdicts py t allowed (List.length contexts) vs /\ (q == share vs)%Q.
  Proof.
    intro Hn. unfold returns. split.
    - intros (q0 & H & Hq). apply bind_ok in H. destruct H as (vs & s1 & t1 & t2 & H1 & H2 & ->).
      unfold len in H1. apply (verdicts_ok c py Hpy) in H1. destruct H1 as (t & T & -> & R). apply ret_ok in H2. destruct H2 as (H2 & -> & ->).
      rewrite app_nil_r. split; [exact T|]. exists t, vs. split; [reflexivity|]. split; [exact R|].
      rewrite (yes_fraction_verdicts allowed) in H2.
      + injection H2 as H2. rewrite <- Hq, H2. reflexivity.
      + apply (reads_verdict _ _ _ _ _ R).
      + intros ->. apply reads_length in R. destruct contexts; [congruence|discriminate].
    - intros (T & t & vs & -> & R & Hq). exists (share vs). split; [|symmetry; exact Hq]. apply bind_ok.
      exists vs, s', [(ask, Ok t)], []. split; [apply (verdicts_ok c py Hpy); eauto|]. split; [|reflexivity]. apply ret_ok.
      split; [|auto]. apply (yes_fraction_verdicts allowed).
      + apply (reads_verdict _ _ _ _ _ R).
      + intros ->. apply reads_length in R. destruct contexts; [congruence|discriminate].
  Qed.
  Lemma context_relevance_ok sys query contexts s q s' tr :
    returns (calculate_context_relevance py sys query contexts) c s q s' tr <->
    talk c s tr s' /\ ((contexts = [] /\ tr = [] /\ (q == 0)%Q) \/
      (contexts <> [] /\ exists t vs, tr = [((sys, AskContextRelevance query contexts), Ok t)]
         /\ reads_verdicts py t yes_no (List.length contexts) vs /\ (q == share vs)%Q)).
  Proof.
    unfold calculate_context_relevance, generate_context_relevance_verdicts. destruct (len contexts =? 0)%Z eqn:L.
    - apply len_zero in L. unfold returns. split.
      + intros (q0 & H & Hq). apply ret_ok in H. destruct H as (H & -> & ->). injection H as H.
        split; [constructor|]. left. rewrite <- Hq, H. split; [exact L|]. split; reflexivity.
      + intros (T & [(_ & -> & Hq)|(Hn & _)]); [|contradiction]. exists 0%Q. split; [|symmetry; exact Hq].
        apply talk_nil in T. subst. reflexivity.
    - apply len_pos in L. rewrite (one_step_ok _ _ contexts _ _ _ _ L). split.
      + intros (T & H). auto.
      + intros (T & [(H & _)|(_ & H)]); [contradiction|]. auto.
  Qed.
  Lemma hallucination_ok sys resp contexts s q s' tr :
    returns (calculate_hallucination py sys resp contexts) c s q s' tr <->
    talk c s tr s' /\ contexts <> [] /\ exists t vs, tr = [((sys, AskHallucination resp contexts), Ok t)]
         /\ reads_verdicts py t yes_no (List.length contexts) vs /\ (q == share vs)%Q.
  Proof.
    unfold calculate_hallucination, generate_hallucination_verdicts. destruct (len contexts =? 0)%Z eqn:L.
    - apply len_zero in L. unfold returns. split.
      + intros (q0 & H & Hq). apply ret_ok in H. destruct H as (H & _). discriminate.
      + intros (_ & Hn & _). contradiction.
    - apply len_pos in L. rewrite (one_step_ok _ _ contexts _ _ _ _ L). split.
      + intros (T & H). auto.
      + intros (T & _ & H). auto.
  Qed.

  Lemma coherence_ok sys txt summary s q s' tr :
    returns (calculate_summary_coherence py sys txt summary) c s q s' tr <->
    talk c s tr s' /\ exists t ds, tr = [((sys, AskCoherence txt summary), Ok t)]
      /\ first_integer (py_digit py) t false ds
      /\ (py_max_digits py <= 0 \/ Z.of_nat (List.length ds) <= py_max_digits py)%Z
      /\ (1 <= digits_value ds <= 5)%Z /\ (q == inject_Z (digits_value ds))%Q.
  Proof.
    unfold returns, calculate_summary_coherence, generate_summary_coherence. split.
    - intros (q0 & H & Hq). apply bind_ok in H. destruct H as (z & s1 & t1 & t2 & H1 & H2 & ->).
      apply ret_ok in H2. destruct H2 as (H2 & -> & ->). injection H2 as H2.
      apply bind_ok in H1. destruct H1 as (t & s2 & t3 & t4 & H1 & H3 & ->). apply call_ok in H1. destruct H1 as [H1 ->].
      apply bind_ok in H3. destruct H3 as (f & s3 & t5 & t6 & H3 & H4 & ->). apply ret_ok in H3. destruct H3 as (H3 & -> & ->).
      apply ret_ok in H4. destruct H4 as (H4 & -> & ->). cbn [List.app]. split; [apply talk_one; exact H1|].
      destruct f as [z'|]; [|discriminate]. destruct (existsb (Z.eqb z') [1; 2; 3; 4; 5]%Z) eqn:X; [|discriminate].
      injection H4 as ->. assert (Hz : (1 <= z <= 5)%Z).
      { apply existsb_exists in X. destruct X as (y & Hy & E). apply Z.eqb_eq in E. subst. cbn in Hy. intuition lia. }
      assert (Hex : exists c d, In c t /\ py_digit py c = Some d).
      { destruct (search_signed (py_digit py) t) as [[g l]|] eqn:E.
        - apply search_signed_some in E; [|apply (minus_no_digit _ Hpy)]. destruct E as (b & n & a & -> & F & Hn & _).
          destruct n as [|x n]; [congruence|]. inversion F; subst. exists x, y. split; [apply in_or_app; right; left; reflexivity|assumption].
        - unfold find_first_signed_integer in H3. rewrite E in H3. discriminate. }
      destruct (some_first_integer py t Hpy Hex) as (neg & ds & F). rewrite (find_found py t neg ds Hpy F) in H3.
      destruct ((0 <? py_max_digits py)%Z && (py_max_digits py <? Z.of_nat (List.length ds))%Z)%bool eqn:M; [discriminate|].
      injection H3 as H3.
      assert (Hpos : (0 <= digits_value ds)%Z).
      { destruct F as (b & n & a & _ & F & _). clear - F Hpy. induction F as [|x d n ds E F IH]; cbn [digits_value]; [lia|].
        pose proof (digit_range py Hpy x d E). pose proof (Z.pow_nonneg 10 (Z.of_nat (List.length ds))). nia. }
      destruct neg; [lia|]. exists t, ds. split; [reflexivity|]. split; [exact F|]. split.
      { apply Bool.andb_false_iff in M. rewrite !Z.ltb_ge in M. exact M. }
      rewrite H3. split; [exact Hz|]. rewrite <- Hq, H2. reflexivity.
    - intros (T & t & ds & -> & F & M & Hz & Hq). exists (inject_Z (digits_value ds)). split; [|symmetry; exact Hq].
      apply talk_one in T. apply bind_ok. exists (digits_value ds), s', [((sys, AskCoherence txt summary), Ok t)], []. split; [|split; reflexivity].
      apply bind_ok. exists t, s', [((sys, AskCoherence txt summary), Ok t)], []. split; [apply call_ok; auto|]. split; [|reflexivity].
      apply bind_ok. exists (Some (digits_value ds)), s', [], []. split; [|split; [|reflexivity]].
      + apply ret_ok. split; [|auto]. rewrite (find_found py t false ds Hpy F).
        replace (_ && _)%bool with false; [reflexivity|]. symmetry. apply Bool.andb_false_iff. rewrite !Z.ltb_ge. exact M.
      + apply ret_ok. split; [|auto]. replace (existsb _ _) with true; [reflexivity|]. symmetry. apply existsb_exists.
        exists (digits_value ds). split; [|apply Z.eqb_refl]. cbn. lia.
  Qed.
End Scores.
