(* Exceptions and numbers of calls of the scores; the retries; compute_all. *)
From Verif Require Import Prelude Counting TextModel TextSpec TextReadProofs TextScoreProofs TextLoopProofs.
From Coq Require Import QArith Lqa String.
From Coq Require List.
Local Open Scope string_scope.
Local Open Scope nat_scope.
Local Open Scope list_scope.

(* ------------------------------------------------------------------ *)
(** * Which exceptions can come out *)
Section Safe.
  Context {St : Type} (c : client St) (py : python).

  (* a result satisfies P; an exception has one of the causes [raises_by], or is in X *)
  Definition safe {A} (m : prog St A) (P : A -> Prop) (X : pyerr -> list exchange -> Prop) : Prop :=
    forall s, match m c s with
              | (Ok a, _, _) => P a
              | (Invalid _, _, _) => True
              | (Raised e, _, tr) => Exists (fun x => raises_by py x e) tr \/ X e tr
              end.
  Definition closed (X : pyerr -> list exchange -> Prop) : Prop := forall e t1 t2, X e t2 -> X e (t1 ++ t2).
  Definition extends (X : pyerr -> list exchange -> Prop) : Prop := forall e t1 t2, X e t1 -> X e (t1 ++ t2).

  Lemma safe_bind {A B} (m : prog St A) (k : A -> prog St B) (P : A -> Prop) (R : B -> Prop) (X : pyerr -> list exchange -> Prop) : closed X ->
    safe m P X -> (forall a, P a -> safe (k a) R X) -> safe (bind m k) R X.
  Proof.
    intros Hx Hm Hk s. unfold bind. specialize (Hm s). destruct (m c s) as [[o s1] t1]. destruct o as [a|i|e]; [|exact I|exact Hm].
    specialize (Hk a Hm s1). destruct (k a c s1) as [[o2 s2] t2]. destruct o2; [exact Hk|exact I|].
    destruct Hk as [Hk|Hk]; [left; apply Exists_app; right; exact Hk|right; apply Hx, Hk].
  Qed.
  Lemma safe_ret {A} (o : outcome A) (P : A -> Prop) (X : pyerr -> list exchange -> Prop) : (forall a, o = Ok a -> P a) -> (forall e, o = Raised e -> X e []) -> safe (ret o) P X.
  Proof. intros H1 H2 s. unfold ret. destruct o; [apply H1; reflexivity|exact I|right; apply H2; reflexivity]. Qed.
  Lemma safe_weaken {A} (m : prog St A) (P P' : A -> Prop) (X X' : pyerr -> list exchange -> Prop) : safe m P X -> (forall a, P a -> P' a) -> (forall e tr, X e tr -> X' e tr) -> safe m P' X'.
  Proof. intros H HP HX s. specialize (H s). destruct (m c s) as [[o s1] t1]. destruct o; auto. destruct H; auto. Qed.

  Definition nothing (e : pyerr) (tr : list exchange) : Prop := False.
  Lemma closed_nothing : closed nothing.
  Proof. intros e t1 t2 H; exact H. Qed.

  Hypothesis Hpy : python_ok py.

  Lemma check_keys_raise val d ks al en e : check_keys val d ks al en = Raised e -> exists k, In k ks /\ val d k al en = Raised e.
  Proof.
    induction ks as [|k r IH]; cbn [check_keys]; [discriminate|]. destruct (val d k al en) as [[]|i|e'] eqn:E; [|discriminate|].
    - intro H. destruct (IH H) as (k' & Hk & E'). exists k'. split; [right; exact Hk|exact E'].
    - intro H; injection H as ->. exists k. split; [left; reflexivity|exact E].
  Qed.
  Lemma safe_generate m ks val al en : NoDup ks ->
    (forall t d k e, In k ks -> object_in py t d -> val d k al en = Raised e -> raises_by py (m, Ok t) e) ->
    safe (generate py m ks val al en) (fun d => forall k, In k ks -> val d k al en = Ok tt) nothing.
  Proof.
    intros Hn Hv s. pose proof (set_order py Hpy ks Hn) as P. unfold generate, bind at 1, call. destruct (c s m) as [o s1] eqn:E. destruct o as [t|i|e].
    - unfold bind at 1, ret at 1. destruct (trim_and_load_json py t) as [d|i|e] eqn:ET.
      + apply trim_ok in ET. unfold bind, ret. destruct (check_keys val d (py_set_order py ks) al en) as [[]|i|e] eqn:EK; [|exact I|].
        * intros k Hk. apply (proj1 (check_keys_ok _ _ _ _ _) EK). eapply Permutation_in; eassumption.
        * left. apply check_keys_raise in EK. destruct EK as (k & Hk & EK). apply Exists_cons_hd. eapply Hv; [|exact ET|exact EK].
          eapply Permutation_in; [apply Permutation_sym; exact P|exact Hk].
      + exact I.
      + left. apply Exists_cons_hd. right. left. apply trim_raised in ET. destruct ET as (x & O & L). exists t, x. auto.
    - exact I.
    - left. apply Exists_cons_hd. left. reflexivity.
  Qed.

  Lemma safe_list m key : safe (bind (generate py m [lit key] validate_statements None None) (fun d => ret (field (lit key) d))) (fun _ => True) nothing.
  Proof.
    eapply safe_bind; [apply closed_nothing|apply safe_generate; [constructor; [intros []|constructor]|]|].
    - intros t d k e _ _ H. exfalso. eapply validate_statements_never_raises, H.
    - intros d K. apply safe_ret; [auto|]. intros e H. specialize (K _ (or_introl eq_refl)). apply validate_statements_ok in K.
      destruct K as (l & (E & _) & _). unfold field in H. rewrite E in H. discriminate.
  Qed.
  Lemma safe_verdicts m allowed n : safe (generate_verdicts py m allowed n)
    (fun vs => Forall (verdict allowed) vs /\ Z.of_nat (List.length vs) = n) nothing.
  Proof.
    unfold generate_verdicts. eapply safe_bind; [apply closed_nothing|apply safe_generate; [constructor; [intros []|constructor]|]|].
    - intros t d k e [<-|[]] O H. apply validate_verdicts_raise in H. destruct H as (-> & l & d' & v & H).
      right. right. split; [reflexivity|]. exists t, d, l, d', v. split; [reflexivity|]. split; [exact O|exact H].
    - intros d K. specialize (K _ (or_introl eq_refl)). apply validate_verdicts_ok in K. destruct K as (l & E & L & F).
      apply safe_ret; unfold field; rewrite E; intros x H; [|discriminate]. injection H as <-. auto.
  Qed.
  Lemma safe_share allowed vs : Forall (verdict allowed) vs -> vs <> [] ->
    safe (ret (yes_fraction vs)) (fun q => (0 <= q <= 1)%Q) nothing.
  Proof.
    intros F N. rewrite (yes_fraction_verdicts allowed vs F N). apply safe_ret; intros x H; [|discriminate]. injection H as <-. apply share_range.
  Qed.
  Lemma length_nonempty {A B} (l : list A) (l' : list B) n : Z.of_nat (List.length l) = n -> n = len l' -> l' <> [] -> l <> [].
  Proof. intros H1 H2 H3 ->. unfold len in H2. destruct l'; [congruence|]. cbn in *. lia. Qed.

  Lemma safe_two_steps m1 key ask2 allowed none : (0 <= none <= 1)%Q ->
    safe (bind (bind (generate py m1 [lit key] validate_statements None None) (fun d => ret (field (lit key) d))) (fun items =>
          if (len items =? 0)%Z then ret (Ok none)
          else bind (generate_verdicts py (ask2 items) allowed (len items)) (fun vs => ret (yes_fraction vs))))
      (fun q => (0 <= q <= 1)%Q) nothing.
  Proof.
    intro Hn. eapply safe_bind; [apply closed_nothing|apply safe_list|]. intros items _. destruct (len items =? 0)%Z eqn:L.
    - apply safe_ret; intros x H; [injection H as <-; exact Hn|discriminate].
    - apply len_pos in L. eapply safe_bind; [apply closed_nothing|apply safe_verdicts|]. intros vs [F E].
      eapply safe_share; [exact F|]. eapply length_nonempty; [exact E|reflexivity|exact L].
  Qed.
  Lemma safe_bias sys resp : safe (calculate_bias py sys resp) (fun q => (0 <= q <= 1)%Q) nothing.
  Proof. apply safe_two_steps. lra. Qed.
  Lemma safe_toxicity sys resp : safe (calculate_toxicity py sys resp) (fun q => (0 <= q <= 1)%Q) nothing.
  Proof. apply safe_two_steps. lra. Qed.
  Lemma safe_faithfulness sys resp ctx : safe (calculate_faithfulness py sys resp ctx) (fun q => (0 <= q <= 1)%Q) nothing.
  Proof.
    unfold calculate_faithfulness. destruct (len ctx =? 0)%Z; [apply safe_ret; intros x H; [injection H as <-; lra|discriminate]|].
    apply (safe_two_steps (sys, AskClaims resp) "claims" (fun cs => (sys, AskFaithfulness cs ctx))). lra.
  Qed.
  Lemma safe_relevance sys query resp : safe (calculate_answer_relevance py sys query resp) (fun q => (0 <= q <= 1)%Q) nothing.
  Proof.
    unfold calculate_answer_relevance. eapply safe_bind; [apply closed_nothing|apply safe_list|]. intros ss _.
    eapply safe_bind; [apply closed_nothing|apply safe_verdicts|]. intros vs [F E]. destruct (len vs =? 0)%Z eqn:L.
    - apply safe_ret; intros x H; [injection H as <-; lra|discriminate].
    - apply len_pos in L. eapply safe_share; eassumption.
  Qed.
  Lemma safe_one ask allowed (ctx : list text) : ctx <> [] ->
    safe (bind (generate_verdicts py ask allowed (len ctx)) (fun vs => ret (yes_fraction vs))) (fun q => (0 <= q <= 1)%Q) nothing.
  Proof.
    intro Hn. eapply safe_bind; [apply closed_nothing|apply safe_verdicts|]. intros vs [F E].
    eapply safe_share; [exact F|]. eapply length_nonempty; [exact E|reflexivity|exact Hn].
  Qed.
  Lemma safe_context_relevance sys query ctx : safe (calculate_context_relevance py sys query ctx) (fun q => (0 <= q <= 1)%Q) nothing.
  Proof.
    unfold calculate_context_relevance. destruct (len ctx =? 0)%Z eqn:L; [apply safe_ret; intros x H; [injection H as <-; lra|discriminate]|].
    apply safe_one, len_pos, L.
  Qed.
  Lemma safe_hallucination sys resp ctx : safe (calculate_hallucination py sys resp ctx) (fun q => (0 <= q <= 1)%Q)
    (fun e tr => e = ValueError /\ ctx = []).
  Proof.
    unfold calculate_hallucination. destruct (len ctx =? 0)%Z eqn:L.
    - apply safe_ret; intros x H; [discriminate|]. injection H as <-. split; [reflexivity|apply len_zero, L].
    - eapply safe_weaken; [apply safe_one, len_pos, L|auto|intros e tr []].
  Qed.
  Lemma safe_precision_loop sys query ctx gts : forall agg, List.length agg = List.length ctx ->
    safe (precision_loop py sys query ctx gts agg) (fun r => List.length r = List.length ctx) nothing.
  Proof.
    induction gts as [|g gts IH]; intros agg L; cbn [precision_loop].
    - apply safe_ret; intros x H; [injection H as <-; exact L|discriminate].
    - eapply safe_bind; [apply closed_nothing|apply safe_verdicts|]. intros vs [F E]. unfold len in E.
      eapply (safe_bind _ _ (fun ys => ys = List.map affirmative vs)); [apply closed_nothing|apply safe_ret; rewrite (yes_list_verdicts _ _ F); intros x H; [injection H as <-; reflexivity|discriminate]|].
      intros ys ->. eapply (safe_bind _ _ (fun a => List.length a = List.length ctx)); [apply closed_nothing| |exact IH].
      rewrite aggregate_ok by (rewrite map_length; lia). apply safe_ret; intros x H; [|discriminate]. injection H as <-.
      rewrite orl_len by (rewrite map_length; lia). exact L.
  Qed.
  Lemma sum_le l : (forall x, In x l -> (0 <= x <= 1)%Q) -> (0 <= sumQ l <= inject_Z (Z.of_nat (List.length l)))%Q.
  Proof.
    induction l as [|x l IH]; intro H; cbn [sumQ fold_right]; [split; apply Qle_bool_iff; reflexivity|].
    specialize (IH (fun y Hy => H y (or_intror Hy))). pose proof (H x (or_introl eq_refl)).
    cbn [List.length]. rewrite Nat2Z.inj_succ. unfold Z.succ. rewrite inject_Z_plus. change (inject_Z 1) with 1%Q. unfold sumQ in IH. lra.
  Qed.
  Lemma mean_precision_range rel n : (0 <= mean_precision rel n <= 1)%Q.
  Proof.
    unfold mean_precision. destruct (filter rel (seq 1 n)) as [|k ks] eqn:E; [split; apply Qle_bool_iff; reflexivity|]. cbn [List.length Nat.ltb Nat.leb].
    assert (H : (0 <= sumQ (List.map (precision_at rel) (k :: ks)) <= inject_Z (Z.of_nat (S (List.length ks))))%Q).
    { replace (S (List.length ks)) with (List.length (List.map (precision_at rel) (k :: ks))) by (rewrite map_length; reflexivity).
      apply sum_le. intros x Hx. apply in_map_iff in Hx. destruct Hx as (j & <- & _). apply fraction_range.
      pose proof (countb_le_length rel (seq 1 j)). rewrite seq_length in H. exact H. }
    assert (P : (0 < inject_Z (Z.of_nat (S (List.length ks))))%Q) by (change 0%Q with (inject_Z 0); rewrite <- Zlt_Qlt; lia).
    split; [apply Qle_shift_div_l; [exact P|rewrite Qmult_0_l; apply H]|apply Qle_shift_div_r; [exact P|rewrite Qmult_1_l; apply H]].
  Qed.
  Lemma safe_precision sys query ctx gts : safe (calculate_context_precision py sys query ctx gts) (fun q => (0 <= q <= 1)%Q) nothing.
  Proof.
    unfold calculate_context_precision. destruct (_ && _)%bool; [apply safe_ret; intros x H; [injection H as <-; lra|discriminate]|].
    destruct (_ || _)%bool; [apply safe_ret; intros x H; [injection H as <-; lra|discriminate]|].
    eapply safe_bind; [apply closed_nothing|apply safe_precision_loop, map_length|]. intros agg _.
    destruct (precision_score_ok (fun k => nth (k - 1) agg false) agg) as (q & E & Hq).
    { intros i _. replace (S i - 1) with i by lia. reflexivity. }
    rewrite E. apply safe_ret; intros x H; [|discriminate]. injection H as <-. rewrite Hq. apply mean_precision_range.
  Qed.
  Lemma safe_three sys query ps ss : safe (generate_answer_correctness_verdicts py sys query ps ss) (fun _ => True) nothing.
  Proof.
    unfold generate_answer_correctness_verdicts. eapply safe_bind; [apply closed_nothing|apply safe_generate|].
    - repeat constructor; cbn; intuition discriminate.
    - intros t d k e _ _ H. exfalso. eapply validate_statements_never_raises, H.
    - intros d K.
      assert (G : forall k, In k [lit "TP"; lit "FP"; lit "FN"] -> safe (ret (field k d)) (fun _ => True) nothing).
      { intros k Hk. specialize (K k Hk). apply validate_statements_ok in K. destruct K as (l & (E & _) & _).
        unfold field. rewrite E. apply safe_ret; [auto|discriminate]. }
      eapply safe_bind; [apply closed_nothing|apply G; cbn; auto|]. intros tp _.
      eapply safe_bind; [apply closed_nothing|apply G; cbn; auto|]. intros fp _.
      eapply safe_bind; [apply closed_nothing|apply G; cbn; auto|]. intros fn _.
      apply safe_ret; [auto|]. intros e H. destruct (negb _); [discriminate|]. destruct (_ <? _)%Z; discriminate.
  Qed.
  Lemma safe_correctness_loop sys query ps gts : forall f1s, Forall (fun q => (0 <= q <= 1)%Q) f1s -> f1s <> [] ->
    safe (correctness_loop py sys query ps gts f1s) (fun r => r <> [] /\ Forall (fun q => (0 <= q <= 1)%Q) r) nothing.
  Proof.
    induction gts as [|g gts IH]; intros f1s F N; cbn [correctness_loop].
    - apply safe_ret; intros x H; [injection H as <-; auto|discriminate].
    - eapply safe_bind; [apply closed_nothing|apply safe_list|]. intros ss _.
      eapply safe_bind; [apply closed_nothing|apply safe_three|]. intros [[tp fp] fn] _. apply IH.
      + apply Forall_app. split; [exact F|]. constructor; [|constructor]. unfold len. rewrite f1_agrees. apply f1_range.
      + intro H. apply app_eq_nil in H. destruct H; discriminate.
  Qed.
  Lemma safe_correctness sys query resp gts : safe (calculate_answer_correctness py sys query resp gts) (fun q => (0 <= q <= 1)%Q) nothing.
  Proof.
    unfold calculate_answer_correctness. eapply safe_bind; [apply closed_nothing|apply safe_list|]. intros ps _.
    eapply safe_bind; [apply closed_nothing|apply safe_correctness_loop|].
    - constructor; [lra|constructor].
    - discriminate.
    - intros r [N F]. destruct r as [|x r]; [congruence|]. destruct (greatest_some x r) as (q & E & (y & Hy & Ey) & _). rewrite E.
      apply safe_ret; intros z H; [|discriminate]. injection H as <-. rewrite Forall_forall in F. specialize (F _ Hy). lra.
  Qed.
  Lemma safe_recall_loop sys ctx gts : forall scores, Forall (fun q => (0 <= q <= 1)%Q) scores -> (gts = [] -> scores <> []) ->
    safe (recall_loop py sys ctx gts scores) (fun r => r <> [] /\ Forall (fun q => (0 <= q <= 1)%Q) r) (empty_groundtruth py gts).
  Proof.
    induction gts as [|g gts IH]; intros scores F N; cbn [recall_loop].
    - apply safe_ret; intros x H; [injection H as <-; auto|discriminate].
    - intro s. unfold bind at 1. destruct (generate_statements py sys g c s) as [[o s1] t1] eqn:E1.
      pose proof (safe_list (sys, AskStatements g) "statements" s) as S1. unfold generate_statements in E1. rewrite E1 in S1.
      destruct o as [ss|i|e]; [|exact I|destruct S1 as [S1|[]]; left; exact S1].
      apply (list_ok c py Hpy) in E1. destruct E1 as (t & T & -> & R).
      unfold bind at 1. destruct (generate_context_recall_verdicts py sys ctx ss c s1) as [[o s2] t2] eqn:E2.
      pose proof (safe_verdicts (sys, AskRecall ctx ss) yes_no (len ss) s1) as S2. unfold generate_context_recall_verdicts in E2. rewrite E2 in S2.
      destruct o as [vs|i|e]; [|exact I|destruct S2 as [S2|[]]; left; apply Exists_app; right; exact S2].
      destruct S2 as [Fv Ev]. destruct vs as [|v vs].
      + cbn [List.app]. unfold bind, ret. cbn. right. split; [reflexivity|]. exists sys, g, t. split; [left; reflexivity|]. split; [left; reflexivity|].
        destruct ss; [exact R|cbn in Ev; unfold len in Ev; cbn in Ev; lia].
      + unfold bind at 1, ret. rewrite (yes_fraction_verdicts yes_no) by (exact Fv || discriminate).
        assert (SI : safe (recall_loop py sys ctx gts (scores ++ [share (v :: vs)])) (fun r => r <> [] /\ Forall (fun q => (0 <= q <= 1)%Q) r) (empty_groundtruth py gts)).
        { apply IH.
          - apply Forall_app. split; [exact F|]. constructor; [apply share_range|constructor].
          - intros _ H. apply app_eq_nil in H. destruct H; discriminate. }
        specialize (SI s2). destruct (recall_loop py sys ctx gts (scores ++ [share (v :: vs)]) c s2) as [[o s3] t3].
        destruct o as [r|i|e]; [exact SI|exact I|]. destruct SI as [SI|(-> & sys' & g' & t' & Hg & Ht & Hr)].
        * left. apply Exists_app. right. apply Exists_app. right. exact SI.
        * right. split; [reflexivity|]. exists sys', g', t'. split; [right; exact Hg|]. split; [|exact Hr]. apply in_or_app. right. apply in_or_app. right. exact Ht.
  Qed.
  Lemma safe_recall sys ctx gts : safe (calculate_context_recall py sys ctx gts) (fun q => (0 <= q <= 1)%Q) (empty_groundtruth py gts).
  Proof.
    unfold calculate_context_recall. destruct (_ && _)%bool; [apply safe_ret; intros x H; [injection H as <-; lra|discriminate]|].
    destruct (_ || _)%bool eqn:L; [apply safe_ret; intros x H; [injection H as <-; lra|discriminate]|].
    apply Bool.orb_false_iff in L. destruct L as [_ L]. apply len_pos in L.
    eapply safe_bind; [intros e t1 t2 (-> & sys' & g & t & H1 & H2 & H3); split; [reflexivity|]; exists sys', g, t; split; [exact H1|]; split; [apply in_or_app; right; exact H2|exact H3]|apply safe_recall_loop|].
    - constructor.
    - intro; contradiction.
    - intros r [N F]. destruct r as [|x r]; [congruence|]. destruct (greatest_some x r) as (q & E & (y & Hy & Ey) & _). rewrite E.
      apply safe_ret; intros z H; [|discriminate]. injection H as <-. rewrite Forall_forall in F. specialize (F _ Hy). lra.
  Qed.
  Lemma safe_coherence sys txt summary : safe (calculate_summary_coherence py sys txt summary) (fun q => exists z, q = inject_Z z /\ (1 <= z <= 5)%Z) (long_integer py).
  Proof.
    intro s. unfold calculate_summary_coherence, generate_summary_coherence, bind, call, ret. destruct (c s (sys, AskCoherence txt summary)) as [o s1] eqn:E.
    destruct o as [t|i|e]; [|exact I|left; apply Exists_cons_hd; left; reflexivity].
    destruct (find_first_signed_integer py t) as [f|i|e] eqn:Ef; [|exact I|].
    - destruct f as [z|]; [|exact I]. destruct (existsb (Z.eqb z) [1; 2; 3; 4; 5]%Z) eqn:X; [|exact I].
      exists z. split; [reflexivity|]. apply existsb_exists in X. destruct X as (y & Hy & Ez). apply Z.eqb_eq in Ez. subst. cbn in Hy. intuition lia.
    - right. destruct (search_signed (py_digit py) t) as [[g l]|] eqn:Es.
      + apply search_signed_some in Es; [|apply (minus_no_digit _ Hpy)]. rewrite (find_found py t g l Hpy Es) in Ef.
        destruct (_ && _)%bool eqn:M; [|discriminate]. injection Ef as <-. split; [reflexivity|].
        exists (sys, AskCoherence txt summary), t, g, l. split; [left; reflexivity|]. split; [exact Es|].
        apply Bool.andb_true_iff in M. rewrite !Z.ltb_lt in M. exact M.
      + unfold find_first_signed_integer in Ef. rewrite Es in Ef. discriminate.
  Qed.
End Safe.

(* ------------------------------------------------------------------ *)
(** * How often the client is called *)
Section Calls.
  Context {St : Type} (c : client St).
  Definition at_most {A} (n : nat) (m : prog St A) : Prop := forall s, List.length (snd (m c s)) <= n.
  Lemma at_most_ret {A} (o : outcome A) n : at_most n (ret o).
  Proof. intro s. cbn. lia. Qed.
  Lemma at_most_bind {A B} n k (m : prog St A) (f : A -> prog St B) : at_most n m -> (forall a, at_most k (f a)) -> at_most (n + k) (bind m f).
  Proof.
    intros Hm Hf s. unfold bind. specialize (Hm s). destruct (m c s) as [[o s1] t1]. cbn [snd] in Hm. destruct o as [a|i|e]; try (cbn; lia).
    specialize (Hf a s1). destruct (f a c s1) as [[o2 s2] t2]. cbn [snd] in *. rewrite app_length. lia.
  Qed.
  Lemma at_most_mono {A} n k (m : prog St A) : at_most n m -> n <= k -> at_most k m.
  Proof. intros H L s. specialize (H s). lia. Qed.
  Lemma at_most_call m : at_most 1 (@call St m).
  Proof. intro s. unfold call. destruct (c s m). cbn. lia. Qed.
  Lemma at_most_generate py m ks val al en : at_most 1 (generate py m ks val al en).
  Proof.
    unfold generate. apply (at_most_bind 1 0); [apply at_most_call|]. intro t. apply (at_most_bind 0 0); [apply at_most_ret|]. intro d.
    apply (at_most_bind 0 0); [apply at_most_ret|]. intros _. apply at_most_ret.
  Qed.
  Lemma at_most_list py m key : at_most 1 (bind (generate py m [lit key] validate_statements None None) (fun d => ret (field (lit key) d))).
  Proof. apply (at_most_bind 1 0); [apply at_most_generate|]. intro; apply at_most_ret. Qed.
  Lemma at_most_verdicts py m a n : at_most 1 (generate_verdicts py m a n).
  Proof. apply (at_most_bind 1 0); [apply at_most_generate|]. intro; apply at_most_ret. Qed.

  Lemma at_most_two py m1 key ask2 allowed none :
    at_most 2 (bind (bind (generate py m1 [lit key] validate_statements None None) (fun d => ret (field (lit key) d))) (fun items =>
          if (len items =? 0)%Z then ret (Ok none)
          else bind (generate_verdicts py (ask2 items) allowed (len items)) (fun vs => ret (yes_fraction vs)))).
  Proof.
    apply (at_most_bind 1 1); [apply at_most_list|]. intro items. destruct (len items =? 0)%Z; [apply at_most_ret|].
    apply (at_most_bind 1 0); [apply at_most_verdicts|]. intro; apply at_most_ret.
  Qed.
  Lemma calls_bias py sys resp : at_most 2 (calculate_bias py sys resp).
  Proof. apply at_most_two. Qed.
  Lemma calls_toxicity py sys resp : at_most 2 (calculate_toxicity py sys resp).
  Proof. apply at_most_two. Qed.
  Lemma calls_faithfulness py sys resp ctx : at_most 2 (calculate_faithfulness py sys resp ctx).
  Proof.
    unfold calculate_faithfulness. destruct (len ctx =? 0)%Z; [apply at_most_ret|].
    apply (at_most_two py (sys, AskClaims resp) "claims" (fun cs => (sys, AskFaithfulness cs ctx))).
  Qed.
  Lemma calls_relevance py sys query resp : at_most 2 (calculate_answer_relevance py sys query resp).
  Proof.
    apply (at_most_bind 1 1); [apply at_most_list|]. intro ss. apply (at_most_bind 1 0); [apply at_most_verdicts|].
    intro vs. destruct (len vs =? 0)%Z; apply at_most_ret.
  Qed.
  Lemma calls_context_relevance py sys query ctx : at_most 1 (calculate_context_relevance py sys query ctx).
  Proof.
    unfold calculate_context_relevance. destruct (len ctx =? 0)%Z; [apply at_most_ret|].
    apply (at_most_bind 1 0); [apply at_most_verdicts|]. intro; apply at_most_ret.
  Qed.
  Lemma calls_hallucination py sys resp ctx : at_most 1 (calculate_hallucination py sys resp ctx).
  Proof.
    unfold calculate_hallucination. destruct (len ctx =? 0)%Z; [apply at_most_ret|].
    apply (at_most_bind 1 0); [apply at_most_verdicts|]. intro; apply at_most_ret.
  Qed.
  Lemma calls_coherence py sys a b : at_most 1 (calculate_summary_coherence py sys a b).
  Proof.
    apply (at_most_bind 1 0); [|intro; apply at_most_ret]. apply (at_most_bind 1 0); [apply at_most_call|]. intro t.
    apply (at_most_bind 0 0); [apply at_most_ret|]. intro; apply at_most_ret.
  Qed.
  Lemma calls_precision py sys query ctx gts : at_most (List.length gts) (calculate_context_precision py sys query ctx gts).
  Proof.
    unfold calculate_context_precision. destruct (_ && _)%bool; [apply at_most_ret|]. destruct (_ || _)%bool; [apply at_most_ret|].
    rewrite <- (Nat.add_0_r (List.length gts)). apply at_most_bind; [|intro; apply at_most_ret].
    generalize (List.map (fun _ : text => false) ctx). induction gts as [|g gts IH]; intro agg; cbn [precision_loop List.length]; [apply at_most_ret|].
    apply (at_most_bind 1); [apply at_most_verdicts|]. intro vs. apply (at_most_bind 0); [apply at_most_ret|]. intro ys.
    apply (at_most_bind 0); [apply at_most_ret|]. exact IH.
  Qed.
  Lemma calls_recall py sys ctx gts : at_most (2 * List.length gts) (calculate_context_recall py sys ctx gts).
  Proof.
    unfold calculate_context_recall. destruct (_ && _)%bool; [apply at_most_ret|]. destruct (_ || _)%bool; [apply at_most_ret|].
    rewrite <- (Nat.add_0_r (2 * List.length gts)). apply at_most_bind; [|intro; apply at_most_ret].
    generalize (@nil Q). induction gts as [|g gts IH]; intro sc; cbn [recall_loop List.length]; [apply at_most_ret|].
    replace (2 * S (List.length gts)) with (1 + (1 + (0 + 2 * List.length gts))) by lia.
    apply at_most_bind; [apply at_most_list|]. intro ss. apply at_most_bind; [apply at_most_verdicts|]. intro vs.
    apply at_most_bind; [apply at_most_ret|]. intro q. apply IH.
  Qed.
  Lemma calls_correctness py sys query resp gts : at_most (1 + 2 * List.length gts) (calculate_answer_correctness py sys query resp gts).
  Proof.
    unfold calculate_answer_correctness. apply at_most_bind; [apply at_most_list|]. intro ps.
    rewrite <- (Nat.add_0_r (2 * List.length gts)). apply at_most_bind; [|intro; apply at_most_ret].
    generalize [0%Q]. induction gts as [|g gts IH]; intro sc; cbn [correctness_loop List.length]; [apply at_most_ret|].
    replace (2 * S (List.length gts)) with (1 + (1 + 2 * List.length gts)) by lia.
    apply at_most_bind; [apply at_most_list|]. intro ss. apply at_most_bind.
    - unfold generate_answer_correctness_verdicts. apply (at_most_bind 1 0); [apply at_most_generate|]. intro d.
      apply (at_most_bind 0 0); [apply at_most_ret|]. intro. apply (at_most_bind 0 0); [apply at_most_ret|]. intro.
      apply (at_most_bind 0 0); [apply at_most_ret|]. intro. apply at_most_ret.
    - intros [[tp fp] fn]. apply IH.
  Qed.
End Calls.


(* ------------------------------------------------------------------ *)
(** * Programs only return, call and sequence *)
Section Built.
  Context {St : Type} (c : client St).
  Inductive built : forall A, prog St A -> Prop :=
  | built_ret A (o : outcome A) : built A (ret o)
  | built_call m : built text (call m)
  | built_bind A B (m : prog St A) (k : A -> prog St B) : built A m -> (forall a, built B (k a)) -> built B (bind m k).
  Arguments built {A} _.
  (* the exchanges of a run are what the client said *)
  Lemma built_talks {A} (m : prog St A) : built m -> forall s, talk c s (snd (m c s)) (snd (fst (m c s))).
  Proof.
    induction 1 as [A o|m|A B m k _ IHm _ IHk]; intro s.
    - cbn. constructor.
    - unfold call. destruct (c s m) as [o s1] eqn:E. cbn. apply talk_one. exact E.
    - unfold bind. specialize (IHm s). destruct (m c s) as [[o s1] t1]. cbn [fst snd] in IHm. destruct o as [a|i|e]; try exact IHm.
      specialize (IHk a s1). destruct (k a c s1) as [[o2 s2] t2]. cbn [fst snd] in *. apply talk_app. eauto.
  Qed.
  (* with a stateless client every run is the same *)
  Lemma built_steady {A} (m : prog St A) : stateless c -> built m -> forall s s', fst (fst (m c s)) = fst (fst (m c s')) /\ snd (m c s) = snd (m c s').
  Proof.
    intro H. induction 1 as [A o|m|A B m k _ IHm _ IHk]; intros s s'.
    - cbn. auto.
    - unfold call. specialize (H s s' m). destruct (c s m), (c s' m). cbn in *. subst. auto.
    - unfold bind. specialize (IHm s s'). destruct (m c s) as [[o s1] t1], (m c s') as [[o' s1'] t1']. cbn [fst snd] in IHm. destruct IHm as [-> ->].
      destruct o' as [a|i|e]; [|auto|auto]. specialize (IHk a s1 s1'). destruct (k a c s1) as [[o2 s2] t2], (k a c s1') as [[o2' s2'] t2'].
      cbn [fst snd] in *. destruct IHk as [-> ->]. auto.
  Qed.
  Ltac built := repeat first [apply built_ret | apply built_call | apply built_bind; [|intro]].
  Lemma built_generate py m ks val al en : built (generate py m ks val al en).
  Proof. unfold generate. built. Qed.
  Hint Resolve built_generate : core.
  Lemma built_list py m key : built (bind (generate py m [lit key] validate_statements None None) (fun d => ret (field (lit key) d))).
  Proof. built; auto. Qed.
  Lemma built_verdicts py m a n : built (generate_verdicts py m a n).
  Proof. unfold generate_verdicts. built; auto. Qed.
  Hint Resolve built_list built_verdicts : core.
  Lemma built_two py m1 key ask2 allowed none :
    built (bind (bind (generate py m1 [lit key] validate_statements None None) (fun d => ret (field (lit key) d))) (fun items =>
          if (len items =? 0)%Z then ret (Ok none)
          else bind (generate_verdicts py (ask2 items) allowed (len items)) (fun vs => ret (yes_fraction vs)))).
  Proof. apply built_bind; [auto|]. intro items. destruct (len items =? 0)%Z; built; auto. Qed.
  Lemma built_bias py sys resp : built (calculate_bias py sys resp).
  Proof. apply built_two. Qed.
  Lemma built_toxicity py sys resp : built (calculate_toxicity py sys resp).
  Proof. apply built_two. Qed.
  Lemma built_faithfulness py sys resp ctx : built (calculate_faithfulness py sys resp ctx).
  Proof.
    unfold calculate_faithfulness. destruct (len ctx =? 0)%Z; [built|].
    apply (built_two py (sys, AskClaims resp) "claims" (fun cs => (sys, AskFaithfulness cs ctx))).
  Qed.
  Lemma built_relevance py sys query resp : built (calculate_answer_relevance py sys query resp).
  Proof. apply built_bind; [apply built_list|]. intro ss. apply built_bind; [apply built_verdicts|]. intro vs. destruct (len vs =? 0)%Z; built. Qed.
  Lemma built_context_relevance py sys query ctx : built (calculate_context_relevance py sys query ctx).
  Proof. unfold calculate_context_relevance. destruct (len ctx =? 0)%Z; [built|]. apply built_bind; [apply built_verdicts|]. intro; built. Qed.
  Lemma built_hallucination py sys resp ctx : built (calculate_hallucination py sys resp ctx).
  Proof. unfold calculate_hallucination. destruct (len ctx =? 0)%Z; [built|]. apply built_bind; [apply built_verdicts|]. intro; built. Qed.
  Lemma built_coherence py sys a b : built (calculate_summary_coherence py sys a b).
  Proof. unfold calculate_summary_coherence, generate_summary_coherence. built. Qed.
  Lemma built_precision py sys query ctx gts : built (calculate_context_precision py sys query ctx gts).
  Proof.
    unfold calculate_context_precision. destruct (_ && _)%bool; [built|]. destruct (_ || _)%bool; [built|]. apply built_bind; [|intro; built].
    generalize (List.map (fun _ : text => false) ctx). induction gts as [|g gts IH]; intro agg; cbn [precision_loop]; [built|].
    apply built_bind; [apply built_verdicts|]. intro vs. apply built_bind; [built|]. intro ys. apply built_bind; [built|]. exact IH.
  Qed.
  Lemma built_recall py sys ctx gts : built (calculate_context_recall py sys ctx gts).
  Proof.
    unfold calculate_context_recall. destruct (_ && _)%bool; [built|]. destruct (_ || _)%bool; [built|]. apply built_bind; [|intro; built].
    generalize (@nil Q). induction gts as [|g gts IH]; intro sc; cbn [recall_loop]; [built|].
    apply built_bind; [apply built_list|]. intro ss. apply built_bind; [apply built_verdicts|]. intro vs. apply built_bind; [built|]. intro q. apply IH.
  Qed.
  Lemma built_correctness py sys query resp gts : built (calculate_answer_correctness py sys query resp gts).
  Proof.
    unfold calculate_answer_correctness. apply built_bind; [apply built_list|]. intro ps. apply built_bind; [|intro; built].
    generalize [0%Q]. induction gts as [|g gts IH]; intro sc; cbn [correctness_loop]; [built|].
    apply built_bind; [apply built_list|]. intro ss. apply built_bind.
    - unfold generate_answer_correctness_verdicts. apply built_bind; [apply built_generate|]. intro; built.
    - intros [[tp fp] fn]. apply IH.
  Qed.
End Built.
Arguments built {St A} _.
