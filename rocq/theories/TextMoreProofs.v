(* The methods of the evaluator: retries, ranges, exceptions, numbers of calls,
   compute_all; BLEU and ROUGE; the clients; consequences for context precision. *)
From Verif Require Import Prelude Counting TextModel TextSpec TextReadProofs TextScoreProofs TextLoopProofs TextSafeProofs.
From Coq Require Import QArith Lqa String.
From Coq Require List.
Local Open Scope string_scope.
Local Open Scope nat_scope.
Local Open Scope list_scope.

(* ------------------------------------------------------------------ *)
(** * Retries *)
Section Attempts.
  Context {St : Type} (c : client St).

  Lemma failing_cons {A} (fn : prog St A) s i s1 t1 : fn c s = (Invalid i, s1, t1) -> forall n tr last s2, failing fn c n s1 tr last s2 ->
    failing fn c (S n) s (t1 ++ tr) (Some (match last with None => i | Some j => j end)) s2.
  Proof.
    intros E n tr last s2 H. induction H as [sa|n sa tr last sb j tr1 s2 H IH E'].
    - rewrite app_nil_r. change t1 with ([] ++ t1). econstructor; [constructor|exact E].
    - rewrite app_assoc. econstructor; [apply IH, E|exact E'].
  Qed.
  Lemma failing_uncons {A} (fn : prog St A) n s tr last s2 : failing fn c (S n) s tr last s2 ->
    exists i s1 t1 tr' last', fn c s = (Invalid i, s1, t1) /\ failing fn c n s1 tr' last' s2 /\ tr = t1 ++ tr'
      /\ last = Some (match last' with None => i | Some j => j end).
  Proof.
    revert s tr last s2. induction n as [|n IH]; intros s tr last s2 H; inversion H as [|n' s' tr' last' s1 i tr1 s2' H1 H2]; subst; clear H.
    - inversion H1; subst. exists i, s2, tr1, [], None. split; [exact H2|]. split; [constructor|]. rewrite app_nil_r. auto.
    - apply IH in H1. destruct H1 as (j & s3 & t3 & tr3 & l3 & E & F & -> & ->).
      exists j, s3, t3, (tr3 ++ tr1), (Some i). split; [exact E|]. split; [econstructor; eassumption|]. rewrite app_assoc. auto.
  Qed.

  (* what the retries make of the attempts *)
  Definition finishes {A} (o : outcome A) : Prop := match o with Invalid _ => False | _ => True end.
  Definition done (o : outcome metric) : outcome (option metric) :=
    match o with Ok m => Ok (Some m) | Invalid i => Invalid i | Raised e => Raised e end.
  Lemma attempts_spec (fn : prog St metric) model retries n : forall err s o s' tr,
    attempts fn c model retries n err s = (o, s', tr) <->
    (exists k tr0 last s0 o' tr1, k < n /\ failing fn c k s tr0 last s0 /\ fn c s0 = (o', s', tr1) /\ finishes o' /\ o = done o' /\ tr = tr0 ++ tr1)
    \/ (exists last, failing fn c n s tr last s' /\
        o = Ok (option_map (fun i => error_metric i model retries) (match last with None => err | Some j => Some j end))).
  Proof.
    induction n as [|n IH]; intros err s o s' tr; cbn [attempts].
    - split.
      + intro H. injection H as <- <- <-. right. exists None. split; [constructor|reflexivity].
      + intros [(k & H)|(last & H & ->)]; [destruct H as (? & ? & ? & ? & ? & H & _); lia|]. inversion H; subst. reflexivity.
    - destruct (fn c s) as [[o1 s1] t1] eqn:E. destruct o1 as [m|i|e].
      + split.
        * intro H. injection H as <- <- <-. left. exists 0, [], None, s, (Ok m), t1. split; [lia|]. split; [constructor|]. split; [exact E|]. split; [exact I|]. auto.
        * intros [(k & tr0 & last & s0 & o' & tr1 & Hk & F & E' & Fi & -> & ->)|(last & F & ->)].
          -- destruct k as [|k]; [inversion F; subst; rewrite E in E'; injection E' as <- <- <-; reflexivity|].
             apply failing_uncons in F. destruct F as (? & ? & ? & ? & ? & F & _). congruence.
          -- apply failing_uncons in F. destruct F as (? & ? & ? & ? & ? & F & _). congruence.
      + destruct (attempts fn c model retries n (Some i) s1) as [[o2 s2] t2] eqn:E2. pose proof (proj1 (IH _ _ _ _ _) E2) as H2.
        split.
        * intro H. injection H as <- <- <-. destruct H2 as [(k & tr0 & last & s0 & o' & tr1 & Hk & F & E' & Fi & -> & ->)|(last & F & ->)].
          -- left. exists (S k), (t1 ++ tr0), (Some (match last with None => i | Some j => j end)), s0, o', tr1. split; [lia|].
             split; [apply (failing_cons fn s i s1); assumption|]. split; [exact E'|]. split; [exact Fi|]. split; [reflexivity|apply app_assoc].
          -- right. exists (Some (match last with None => i | Some j => j end)). split; [apply (failing_cons fn s i s1); assumption|]. destruct last; reflexivity.
        * intro H. assert (X : attempts fn c model retries n (Some i) s1 = (o, s', match tr with _ => skipn (List.length t1) tr end) /\ tr = t1 ++ skipn (List.length t1) tr).
          { destruct H as [(k & tr0 & last & s0 & o' & tr1 & Hk & F & E' & Fi & -> & ->)|(last & F & ->)].
            - destruct k as [|k]; [inversion F; subst; rewrite E in E'; injection E' as <- <- <-; destruct Fi|].
              apply failing_uncons in F. destruct F as (i' & s1' & t1' & tr' & last' & E1 & F & -> & ->). rewrite E in E1. injection E1 as <- <- <-.
              rewrite <- app_assoc, skipn_app, skipn_all, Nat.sub_diag. cbn [List.app skipn]. split; [|reflexivity]. apply IH. left.
              exists k, tr', last', s0, o', tr1. split; [lia|]. auto.
            - apply failing_uncons in F. destruct F as (i' & s1' & t1' & tr' & last' & E1 & F & -> & ->). rewrite E in E1. injection E1 as <- <- <-.
              rewrite skipn_app, skipn_all, Nat.sub_diag. cbn [List.app skipn]. split; [|reflexivity]. apply IH. right. exists last'. split; [exact F|]. destruct last'; reflexivity. }
          destruct X as [X1 X2]. rewrite X1 in E2. injection E2 as -> -> E3. rewrite X2, E3. reflexivity.
      + split.
        * intro H. injection H as <- <- <-. left. exists 0, [], None, s, (Raised e), t1. split; [lia|]. split; [constructor|]. split; [exact E|]. split; [exact I|]. auto.
        * intros [(k & tr0 & last & s0 & o' & tr1 & Hk & F & E' & Fi & -> & ->)|(last & F & ->)].
          -- destruct k as [|k]; [inversion F; subst; rewrite E in E'; injection E' as <- <- <-; reflexivity|].
             apply failing_uncons in F. destruct F as (? & ? & ? & ? & ? & F & _). congruence.
          -- apply failing_uncons in F. destruct F as (? & ? & ? & ? & ? & F & _). congruence.
  Qed.

  (* wrapping a score into a metric *)
  Lemma scored_run (ev : evaluator St) ty p model s : scored ev ty p model c s =
    match p c s with
    | (Ok q, s', tr) => (Ok (MkMetric ty (VNum q) (PLlm model (ev_retries ev))), s', tr)
    | (Invalid i, s', tr) => (Invalid i, s', tr)
    | (Raised e, s', tr) => (Raised e, s', tr)
    end.
  Proof. unfold scored, bind, ret. destruct (p c s) as [[[q|i|e] s'] tr]; [rewrite app_nil_r|..]; reflexivity. Qed.
  Lemma failing_scored (fn : prog St metric) (p : prog St Q) :
    (forall s i s' tr, fn c s = (Invalid i, s', tr) <-> p c s = (Invalid i, s', tr)) ->
    forall n s tr last s', failing fn c n s tr last s' <-> failing p c n s tr last s'.
  Proof.
    intros H n. induction n as [|n IH]; intros s tr last s'.
    - split; intro F; inversion F; subst; constructor.
    - split; intro F; inversion F; subst; econstructor; try (apply IH; eassumption); apply H; assumption.
  Qed.
End Attempts.

(* ------------------------------------------------------------------ *)
(** * The ten methods *)
Section Methods.
  Context {St : Type} (py : python) (ev : evaluator St) (r : query_response).

  (* each method retries its score *)
  Definition wrapped (ty : mtype) (p : prog St Q) (fn : text -> prog St metric) : Prop :=
    forall model c s, fn model c s =
      match p c s with
      | (Ok q, s', tr) => (Ok (MkMetric ty (VNum q) (PLlm model (ev_retries ev))), s', tr)
      | (Invalid i, s', tr) => (Invalid i, s', tr)
      | (Raised e, s', tr) => (Raised e, s', tr)
      end.
  Lemma method_wrapped ty m : In (ty, m) (guided_methods py ev r) ->
    exists p fn, score_of py (ev_system ev) r ty = Some p /\ m = guided ev fn /\ wrapped ty p fn.
  Proof.
    assert (W : forall ty p, wrapped ty p (scored ev ty p)) by (intros t p model c s; apply scored_run).
    assert (V : forall ty k, wrapped ty (with_context r k) (fun model => needs_context r (fun x => scored ev ty (k x) model))).
    { intros t k model c s. unfold needs_context, with_context. destruct (qr_context r); [apply scored_run|reflexivity]. }
    unfold guided_methods. cbn [In]. intro H.
    repeat match type of H with _ \/ _ => destruct H as [H|H] end; try contradiction; injection H as <- <-;
      cbn [score_of]; eexists; eexists; (split; [reflexivity|]); (split; [reflexivity|]); first [apply W | apply V].
  Qed.
  Lemma methods_types : List.map fst (guided_methods py ev r) =
    [AnswerCorrectness; AnswerRelevance; Bias; ContextPrecision; ContextRecall; ContextRelevance; Faithfulness; Hallucination; SummaryCoherence; Toxicity].
  Proof. reflexivity. Qed.

  (* C41 *)
  Lemma method_result ty m p c model : In (ty, m) (guided_methods py ev r) -> score_of py (ev_system ev) r ty = Some p ->
    ev_client ev = Some (c, Some model) -> (0 <= ev_retries ev)%Z ->
    forall s o s' tr, m s = (o, s', tr) <->
    (exists k tr0 last s0 tr1, (Z.of_nat k <= ev_retries ev)%Z /\ failing p c k s tr0 last s0 /\ tr = tr0 ++ tr1 /\
       ((exists q, p c s0 = (Ok q, s', tr1) /\ o = Ok (Some (MkMetric ty (VNum q) (PLlm model (ev_retries ev)))))
        \/ (exists e, p c s0 = (Raised e, s', tr1) /\ o = Raised e)))
    \/ (exists i, failing p c (Z.to_nat (1 + ev_retries ev)) s tr (Some i) s'
         /\ o = Ok (Some (MkMetric ErrorType (VError i) (PLlm model (ev_retries ev))))).
  Proof.
    intros Hin Hp Hc Hr s o s' tr. apply method_wrapped in Hin. destruct Hin as (p' & fn & Hp' & -> & W). rewrite Hp in Hp'. injection Hp' as <-.
    unfold guided. rewrite Hc, attempts_spec. specialize (W model c).
    assert (FI : forall s i s' tr, fn model c s = (Invalid i, s', tr) <-> p c s = (Invalid i, s', tr)).
    { intros s1 i s2 t. rewrite W. destruct (p c s1) as [[[q|j|e] s3] t3]; [split; discriminate|split; intro H; injection H as -> -> ->; reflexivity|split; discriminate]. }
    pose proof (failing_scored c (fn model) p FI) as F. split.
    - intros [(k & tr0 & last & s0 & o' & tr1 & Hk & Ff & E & Fi & -> & ->)|(last & Ff & ->)].
      + left. exists k, tr0, last, s0, tr1. split; [lia|]. split; [apply F, Ff|]. split; [reflexivity|]. rewrite W in E.
        destruct (p c s0) as [[[q|j|e] s3] t3]; injection E as <- <- <-; [left|destruct Fi|right]; eexists; split; reflexivity.
      + right. destruct last as [i|].
        * exists i. split; [apply F, Ff|reflexivity].
        * exfalso. assert (N : Z.to_nat (1 + ev_retries ev) <> 0) by lia. remember (Z.to_nat (1 + ev_retries ev)) as n0. inversion Ff; subst; congruence.
    - intros [(k & tr0 & last & s0 & tr1 & Hk & Ff & -> & H)|(i & Ff & ->)].
      + left. destruct H as [(q & E & ->)|(e & E & ->)].
        * exists k, tr0, last, s0, (Ok (MkMetric ty (VNum q) (PLlm model (ev_retries ev)))), tr1. split; [lia|]. split; [apply F, Ff|].
          rewrite W, E. repeat split; reflexivity.
        * exists k, tr0, last, s0, (Raised e), tr1. split; [lia|]. split; [apply F, Ff|]. rewrite W, E. repeat split; reflexivity.
      + right. exists (Some i). split; [apply F, Ff|reflexivity].
  Qed.
  (* no client, no model name *)
  Lemma method_guards ty m s : In (ty, m) (guided_methods py ev r) ->
    (ev_client ev = None -> m s = (Raised ValueError, s, [])) /\
    (forall c, ev_client ev = Some (c, None) -> m s = (Raised AttributeError, s, [])).
  Proof.
    intro H. apply method_wrapped in H. destruct H as (p & fn & _ & -> & _). unfold guided. split; [intros ->|intros c ->]; reflexivity.
  Qed.
  Lemma method_negative ty m c model s : In (ty, m) (guided_methods py ev r) -> ev_client ev = Some (c, Some model) -> (ev_retries ev < 0)%Z ->
    m s = (Ok None, s, []).
  Proof.
    intros H Hc Hr. apply method_wrapped in H. destruct H as (p & fn & _ & -> & _). unfold guided. rewrite Hc.
    replace (Z.to_nat (1 + ev_retries ev)) with 0 by lia. reflexivity.
  Qed.

  (* ranges and exceptions of the scores *)
  Lemma score_safe ty p (c : client St) : python_ok py -> score_of py (ev_system ev) r ty = Some p ->
    safe c py p (in_range ty) (gap py r ty).
  Proof.
    intros Hpy H.
    assert (G : forall (k : context -> prog St Q) (P : Q -> Prop) (X : context -> pyerr -> list exchange -> Prop), (forall x, safe c py (k x) P (X x)) ->
      safe c py (with_context r k) P (fun e tr => match qr_context r with None => e = ValueError | Some x => X x e tr end)).
    { intros k P X Hk s. unfold with_context. destruct (qr_context r) as [x|]; [apply Hk|]. right. reflexivity. }
    destruct ty; cbn [score_of] in H; try discriminate; injection H as <-; cbn [in_range].
    - eapply safe_weaken; [apply G; intro x; apply safe_correctness, Hpy|auto|]. unfold gap, nothing. destruct (qr_context r); [intros e tr []|]. intros e tr ->. left. auto.
    - eapply safe_weaken; [apply safe_relevance, Hpy|auto|intros e tr []].
    - eapply safe_weaken; [apply safe_bias, Hpy|auto|intros e tr []].
    - eapply safe_weaken; [apply G; intro x; apply safe_precision, Hpy|auto|]. unfold gap, nothing. destruct (qr_context r); [intros e tr []|]. intros e tr ->. left. auto.
    - eapply safe_weaken; [apply G; intro x; apply safe_recall, Hpy|auto|]. unfold gap. destruct (qr_context r); [intros e tr H; left; exact H|]. intros e tr ->. left. auto.
    - eapply safe_weaken; [apply G; intro x; apply safe_context_relevance, Hpy|auto|]. unfold gap, nothing. destruct (qr_context r); [intros e tr []|]. intros e tr ->. left. auto.
    - eapply safe_weaken; [apply G; intro x; apply safe_faithfulness, Hpy|auto|]. unfold gap, nothing. destruct (qr_context r); [intros e tr []|]. intros e tr ->. left. auto.
    - eapply safe_weaken; [apply G; intro x; apply safe_hallucination, Hpy|auto|]. unfold gap. destruct (qr_context r); [intros e tr H; left; exact H|]. intros e tr ->. left. auto.
    - eapply safe_weaken; [apply safe_coherence, Hpy|auto|]. intros e tr H. right. auto.
    - eapply safe_weaken; [apply safe_toxicity, Hpy|auto|intros e tr []].
  Qed.
  Lemma gap_app ty e t1 t2 : gap py r ty e t2 -> gap py r ty e (t1 ++ t2).
  Proof.
    unfold gap. intros [H|[-> (-> & m & t & g & ds & H & H')]].
    - left. destruct (qr_context r) as [x|]; [|exact H]. destruct ty; try exact H. destruct H as (-> & sys & g & t & H1 & H2 & H3).
      split; [reflexivity|]. exists sys, g, t. split; [exact H1|]. split; [apply in_or_app; right; exact H2|exact H3].
    - right. split; [reflexivity|]. split; [reflexivity|]. exists m, t, g, ds. split; [apply in_or_app; right; exact H|exact H'].
  Qed.
  (* C42 *)
  Lemma method_safe ty m c model s : python_ok py -> In (ty, m) (guided_methods py ev r) ->
    ev_client ev = Some (c, Some model) -> (0 <= ev_retries ev)%Z ->
    match m s with
    | (Ok (Some mt), _, _) => m_params mt = PLlm model (ev_retries ev) /\
        ((m_type mt = ty /\ exists q, m_value mt = VNum q /\ in_range ty q) \/ (m_type mt = ErrorType /\ exists i, m_value mt = VError i))
    | (Ok None, _, _) | (Invalid _, _, _) => False
    | (Raised e, _, tr) => Exists (fun x => raises_by py x e) tr \/ gap py r ty e tr
    end.
  Proof.
    intros Hpy Hin Hc Hr. destruct (method_wrapped _ _ Hin) as (p & fn & Hp & _ & _).
    destruct (m s) as [[o s'] tr] eqn:E. apply (proj1 (method_result ty m p c model Hin Hp Hc Hr s o s' tr)) in E.
    pose proof (score_safe ty p c Hpy Hp) as S. destruct E as [(k & tr0 & last & s0 & tr1 & _ & _ & -> & H)|(i & _ & ->)].
    - specialize (S s0). destruct H as [(q & E & ->)|(e & E & ->)]; rewrite E in S.
      + split; [reflexivity|]. left. split; [reflexivity|]. exists q. auto.
      + destruct S as [S|S]; [left; apply Exists_app; right; exact S|right; apply gap_app, S].
    - split; [reflexivity|]. right. split; [reflexivity|]. exists i. reflexivity.
  Qed.

  (* calls *)
  Lemma score_calls ty p (c : client St) : score_of py (ev_system ev) r ty = Some p -> at_most c (calls_of ty (groundtruths r)) p.
  Proof.
    assert (G : forall (k : context -> prog St Q) n, (forall x, qr_context r = Some x -> at_most c n (k x)) -> at_most c n (with_context r k)).
    { intros k n H s. unfold with_context. destruct (qr_context r) as [x|]; [apply H; reflexivity|cbn; lia]. }
    unfold groundtruths. intro H. destruct ty; cbn [score_of] in H; try discriminate; injection H as <-; cbn [calls_of];
      try (apply G; intros x Hx; rewrite ?Hx).
    - apply calls_correctness.
    - apply calls_relevance.
    - apply calls_bias.
    - apply calls_precision.
    - apply calls_recall.
    - apply calls_context_relevance.
    - apply calls_faithfulness.
    - apply calls_hallucination.
    - apply calls_coherence.
    - apply calls_toxicity.
  Qed.
  Lemma failing_calls (c : client St) (p : prog St Q) n : at_most c n p -> forall k s tr last s', failing p c k s tr last s' -> List.length tr <= k * n.
  Proof.
    intros H k. induction k as [|k IH]; intros s tr last s' F; inversion F; subst; [cbn; lia|]. rewrite app_length. cbn [Nat.mul].
    specialize (IH _ _ _ _ H1). specialize (H s1). rewrite H2 in H. cbn in H. lia.
  Qed.
  Lemma method_calls ty m s : In (ty, m) (guided_methods py ev r) ->
    (Z.of_nat (List.length (snd (m s))) <= Z.max 0 (1 + ev_retries ev) * Z.of_nat (calls_of ty (groundtruths r)))%Z.
  Proof.
    intro Hin. destruct (ev_client ev) as [[c [model|]]|] eqn:Hc.
    - destruct (Z_lt_le_dec (ev_retries ev) 0) as [L|L].
      + rewrite (method_negative ty m c model s Hin Hc L). cbn [snd List.length]. change (Z.of_nat 0) with 0%Z. apply Z.mul_nonneg_nonneg; lia.
      + destruct (method_wrapped _ _ Hin) as (p & fn & Hp & _ & _). pose proof (score_calls ty p c Hp) as Hn.
        destruct (m s) as [[o s'] tr] eqn:E. apply (proj1 (method_result ty m p c model Hin Hp Hc L s o s' tr)) in E. cbn [snd].
        assert (X : exists k, k <= Z.to_nat (1 + ev_retries ev) /\ List.length tr <= k * calls_of ty (groundtruths r)).
        { destruct E as [(k & tr0 & last & s0 & tr1 & Hk & F & -> & H)|(i & F & _)].
          - exists (S k). split; [lia|]. rewrite app_length. apply (failing_calls _ _ _ Hn) in F. specialize (Hn s0). cbn [Nat.mul].
            destruct H as [(q & E & _)|(e & E & _)]; rewrite E in Hn; cbn in Hn; lia.
          - exists (Z.to_nat (1 + ev_retries ev)). split; [lia|]. apply (failing_calls _ _ _ Hn) in F. exact F. }
        destruct X as (k & Hk & Hl). rewrite Z.max_r by lia. nia.
    - destruct (method_guards ty m s Hin) as [_ H]. rewrite (H c Hc). cbn. apply Z.mul_nonneg_nonneg; lia.
    - destruct (method_guards ty m s Hin) as [H _]. rewrite (H Hc). cbn. apply Z.mul_nonneg_nonneg; lia.
  Qed.

  (* stateless clients *)
  Lemma score_built ty (p : prog St Q) : score_of py (ev_system ev) r ty = Some p -> built p.
  Proof.
    assert (G : forall k : context -> prog St Q, (forall x, built (k x)) -> built (with_context r k)).
    { intros k H. unfold with_context. destruct (qr_context r); [apply H|]. apply (built_ret Q (Raised ValueError)). }
    intro H. destruct ty; cbn [score_of] in H; try discriminate; injection H as <-; try (apply G; intro x).
    - apply built_correctness.
    - apply built_relevance.
    - apply built_bias.
    - apply built_precision.
    - apply built_recall.
    - apply built_context_relevance.
    - apply built_faithfulness.
    - apply built_hallucination.
    - apply built_coherence.
    - apply built_toxicity.
  Qed.
  Lemma method_built_talk ty m c model : In (ty, m) (guided_methods py ev r) -> ev_client ev = Some (c, model) ->
    forall s, talk c s (snd (m s)) (snd (fst (m s))).
  Proof.
    intros Hin Hc s. destruct model as [model|]; [|destruct (method_guards ty m s Hin) as [_ H]; rewrite (H c Hc); constructor].
    destruct (method_wrapped _ _ Hin) as (p & fn & Hp & -> & W). unfold guided. rewrite Hc. pose proof (score_built ty p Hp) as B.
    specialize (W model c). generalize (@None invalid). generalize (Z.to_nat (1 + ev_retries ev)). intros n. revert s.
    induction n as [|n IH]; intros s err; cbn [attempts]; [constructor|]. pose proof (built_talks c p B s) as T. rewrite W.
    destruct (p c s) as [[[q|i|e] s1] t1]; cbn [fst snd] in T; [exact T| |exact T].
    specialize (IH s1 (Some i)). destruct (attempts (fn model) c model (ev_retries ev) n (Some i) s1) as [[o2 s2] t2]. cbn [fst snd] in *.
    apply talk_app. eauto.
  Qed.
  Lemma stateless_failing (c : client St) (p : prog St Q) : stateless c -> built p -> forall n s tr last s', failing p c n s tr last s' -> 0 < n ->
    forall s0, exists i, fst (fst (p c s0)) = Invalid i /\ last = Some i.
  Proof.
    intros Hc B n s tr last s' F. induction F as [|n s tr last s1 i tr1 s2 F IH E]; intros L s0; [lia|].
    destruct (built_steady c p Hc B s0 s1) as [H _]. rewrite E in H. exists i. split; [exact H|reflexivity].
  Qed.
  (* the answer of the first attempt decides *)
  Lemma stateless_method ty m p c model s : stateless c -> In (ty, m) (guided_methods py ev r) -> score_of py (ev_system ev) r ty = Some p ->
    ev_client ev = Some (c, Some model) -> (0 <= ev_retries ev)%Z ->
    fst (fst (m s)) = match fst (fst (p c s)) with
                      | Ok q => Ok (Some (MkMetric ty (VNum q) (PLlm model (ev_retries ev))))
                      | Invalid i => Ok (Some (MkMetric ErrorType (VError i) (PLlm model (ev_retries ev))))
                      | Raised e => Raised e
                      end.
  Proof.
    intros Hst Hin Hp Hc Hr. pose proof (score_built ty p Hp) as B. destruct (m s) as [[o s'] tr] eqn:E.
    apply (proj1 (method_result ty m p c model Hin Hp Hc Hr s o s' tr)) in E. cbn [fst].
    destruct E as [(k & tr0 & last & s0 & tr1 & _ & _ & _ & H)|(i & F & ->)].
    - destruct (built_steady c p Hst B s s0) as [X _]. destruct H as [(q & E & ->)|(e & E & ->)]; rewrite E in X; cbn [fst] in X; rewrite X; reflexivity.
    - destruct (stateless_failing c p Hst B _ _ _ _ _ F ltac:(lia) s) as (j & X & Y). injection Y as ->. rewrite X. reflexivity.
  Qed.
End Methods.

(* ------------------------------------------------------------------ *)
(** * compute_all *)
Section All.
  Context {St : Type}.
  Lemma mbind_ok {A B} (m : method St A) (k : A -> method St B) s b s' tr :
    mbind m k s = (Ok b, s', tr) <-> exists a s1 t1 t2, m s = (Ok a, s1, t1) /\ k a s1 = (Ok b, s', t2) /\ tr = t1 ++ t2.
  Proof.
    unfold mbind. split.
    - destruct (m s) as [[[a|i|e] s1] t1]; [|discriminate..]. destruct (k a s1) as [[o s2] t2] eqn:E. intro H. injection H as -> -> <-. exists a, s1, t1, t2. auto.
    - intros (a & s1 & t1 & t2 & -> & -> & ->). reflexivity.
  Qed.
  Lemma run_methods_ok (ms : list (mtype * method St (option metric))) : forall s res s' tr, run_methods ms s = (Ok res, s', tr) <-> in_turn ms s res s' tr.
  Proof.
    induction ms as [|[ty m] ms IH]; intros s res s' tr; cbn [run_methods].
    - split; [intro H; injection H as <- <- <-; constructor|intro H; inversion H; subst; reflexivity].
    - rewrite mbind_ok. split.
      + intros (v & s1 & t1 & t2 & E & H & ->). apply mbind_ok in H. destruct H as (rest & s2 & t3 & t4 & E2 & H & ->).
        injection H as <- <- <-. rewrite app_nil_r. constructor 2 with (s1 := s1); [exact E|apply IH, E2].
      + intro H. inversion H as [|ty' m' ms' s0 v s1 t1 rest s2 t2 E T]; subst. exists v, s1, t1, t2. split; [exact E|]. split; [|reflexivity].
        apply mbind_ok. exists rest, s', t2, []. split; [apply IH, T|]. split; [reflexivity|symmetry; apply app_nil_r].
  Qed.
  Lemma compute_all_ok py n (ev : evaluator St) r w types stem s res s' tr :
    compute_all py n ev r w types stem s = (Ok res, s', tr) <->
    exists guided rouges bleu, in_turn (guided_methods py ev r) s guided s' tr
      /\ compute_rouge n r types stem = Ok rouges /\ compute_sentence_bleu n r w = Ok bleu
      /\ res = guided ++ [(ROUGE, List.map Some rouges); (BLEU, [Some bleu])].
  Proof.
    unfold compute_all. rewrite mbind_ok. split.
    - intros (g & s1 & t1 & t2 & E & H & ->). apply run_methods_ok in E. unfold mbind, mret in H.
      destruct (compute_rouge n r types stem) as [ro|i|e]; [|discriminate..].
      destruct (compute_sentence_bleu n r w) as [b|i|e]; [|discriminate..]. injection H as <- <- <-. rewrite app_nil_r. exists g, ro, b. auto.
    - intros (g & ro & b & T & E1 & E2 & ->). exists g, s', tr, []. split; [apply run_methods_ok, T|]. unfold mbind, mret. rewrite E1, E2.
      split; [reflexivity|symmetry; apply app_nil_r].
  Qed.
  Lemma in_turn_types (ms : list (mtype * method St (option metric))) s res s' tr : in_turn ms s res s' tr -> List.map fst res = List.map fst ms.
  Proof. induction 1; cbn; congruence. Qed.
  Lemma in_turn_each (ms : list (mtype * method St (option metric))) s res s' tr ty vs : in_turn ms s res s' tr -> In (ty, vs) res ->
    exists m s0 v s1 t0, In (ty, m) ms /\ m s0 = (Ok v, s1, t0) /\ vs = [v].
  Proof.
    induction 1 as [|ty' m ms s v s1 t1 res s2 t2 E _ IH]; cbn [In]; [tauto|]. intros [H|H].
    - injection H as <- <-. exists m, s, v, s1, t1. auto.
    - destruct (IH H) as (m' & s0 & v' & s1' & t0 & H1 & H2 & H3). exists m', s0, v', s1', t0. auto.
  Qed.
  Lemma in_turn_all (ms : list (mtype * method St (option metric))) s res s' tr ty m : in_turn ms s res s' tr -> In (ty, m) ms ->
    exists s0 v s1 t0, m s0 = (Ok v, s1, t0) /\ In (ty, [v]) res.
  Proof.
    induction 1 as [|ty' m' ms s v s1 t1 res s2 t2 E _ IH]; cbn [In]; [tauto|]. intros [H|H].
    - injection H as <- <-. exists s, v, s1, t1. auto.
    - destruct (IH H) as (s0 & v' & s1' & t0 & H2 & H3). exists s0, v', s1', t0. auto.
  Qed.
  (* calls: no matter how it ends *)
  Lemma run_methods_calls (ms : list (mtype * method St (option metric))) (f : mtype -> nat) : (forall ty m s, In (ty, m) ms -> List.length (snd (m s)) <= f ty) ->
    forall s, List.length (snd (run_methods ms s)) <= list_sum (List.map (fun x => f (fst x)) ms).
  Proof.
    induction ms as [|[ty m] ms IH]; intros H s; cbn [run_methods]; [cbn; lia|]. cbn [List.map fst]. change (list_sum (f ty :: ?l)) with (f ty + list_sum l).
    unfold mbind at 1. pose proof (H ty m s (or_introl eq_refl)) as H1. destruct (m s) as [[[v|i|e] s1] t1]; cbn [snd] in *; try lia.
    specialize (IH (fun ty m s Hin => H ty m s (or_intror Hin)) s1). unfold mbind. destruct (run_methods ms s1) as [[[v'|i|e] s2] t2]; cbn [snd mret] in *; rewrite ?app_nil_r, app_length; lia.
  Qed.
  Lemma compute_all_calls py n (ev : evaluator St) r w types stem s :
    (Z.of_nat (List.length (snd (compute_all py n ev r w types stem s))) <= Z.max 0 (1 + ev_retries ev) * (12 + 5 * Z.of_nat (groundtruths r)))%Z.
  Proof.
    set (g := groundtruths r). set (k := Z.to_nat (Z.max 0 (1 + ev_retries ev))).
    assert (H : List.length (snd (run_methods (guided_methods py ev r) s)) <= k * (12 + 5 * g)).
    { eapply Nat.le_trans; [apply (run_methods_calls _ (fun ty => k * calls_of ty g))|].
      - intros ty m s0 Hin. pose proof (method_calls py ev r ty m s0 Hin) as H. fold g in H. unfold k.
        apply Nat2Z.inj_le. rewrite Nat2Z.inj_mul, Z2Nat.id by lia. exact H.
      - cbn [guided_methods List.map fst list_sum fold_right calls_of]. nia. }
    assert (L : List.length (snd (compute_all py n ev r w types stem s)) <= k * (12 + 5 * g)).
    { unfold compute_all. unfold mbind at 1. destruct (run_methods (guided_methods py ev r) s) as [[[v|i|e] s1] t1]; cbn [snd] in *; try lia.
      unfold mbind, mret. destruct (compute_rouge n r types stem) as [ro|i|e]; cbn [snd]; rewrite ?app_nil_r; try lia.
      destruct (compute_sentence_bleu n r w) as [b|i|e]; cbn [snd]; rewrite ?app_nil_r; lia. }
    unfold k in L. nia.
  Qed.
  (* a method that always raises makes the whole raise *)
  Lemma run_methods_stuck (ms : list (mtype * method St (option metric))) ty m e : In (ty, m) ms -> (forall s, exists s' tr, m s = (Raised e, s', tr)) ->
    forall s res s' tr, run_methods ms s <> (Ok res, s', tr).
  Proof.
    intros Hin H s res s' tr E. apply run_methods_ok in E. destruct (in_turn_all _ _ _ _ _ _ _ E Hin) as (s0 & v & s1 & t0 & E0 & _).
    destruct (H s0) as (s2 & t2 & E2). congruence.
  Qed.
  Lemma hallucination_empty py (ev : evaluator St) r x c model : qr_context r = Some x -> prediction x = [] -> ev_client ev = Some (c, Some model) -> (0 <= ev_retries ev)%Z ->
    forall s, compute_hallucination py ev r s = (Raised ValueError, s, []).
  Proof.
    intros Hx Hp Hc Hr s. unfold compute_hallucination, guided. rewrite Hc. destruct (Z.to_nat (1 + ev_retries ev)) as [|k] eqn:E; [lia|].
    cbn [attempts]. unfold needs_context. rewrite Hx. unfold scored, calculate_hallucination. rewrite Hp. reflexivity.
  Qed.
  Lemma no_context_raises py (ev : evaluator St) r c model : qr_context r = None -> ev_client ev = Some (c, Some model) -> (0 <= ev_retries ev)%Z ->
    forall ty m, In (ty, m) (guided_methods py ev r) -> uses_context ty = true -> forall s, m s = (Raised ValueError, s, []).
  Proof.
    intros Hx Hc Hr ty m Hin Hu s. destruct (method_wrapped py ev r _ _ Hin) as (p & fn & Hp & -> & W). unfold guided. rewrite Hc.
    destruct (Z.to_nat (1 + ev_retries ev)) as [|k] eqn:E; [lia|]. cbn [attempts]. rewrite W.
    assert (X : p c s = (Raised ValueError, s, [])).
    { destruct ty; try discriminate Hu; cbn [score_of] in Hp; injection Hp as <-; unfold with_context; rewrite Hx; reflexivity. }
    rewrite X. reflexivity.
  Qed.
  Lemma compute_all_empty py n (ev : evaluator St) r w types stem c model : ev_client ev = Some (c, Some model) -> (0 <= ev_retries ev)%Z ->
    (qr_context r = None \/ exists x, qr_context r = Some x /\ prediction x = []) ->
    forall s res s' tr, compute_all py n ev r w types stem s <> (Ok res, s', tr).
  Proof.
    intros Hc Hr Hx s res s' tr E. apply compute_all_ok in E. destruct E as (g & ro & b & T & _). apply run_methods_ok in T. revert T.
    apply (run_methods_stuck _ Hallucination (compute_hallucination py ev r) ValueError); [cbn; tauto|]. intro s0. exists s0, []. destruct Hx as [Hx|(x & Hx & Hp)].
    - apply (no_context_raises py ev r c model Hx Hc Hr Hallucination); [cbn; tauto|reflexivity].
    - eapply hallucination_empty; eassumption.
  Qed.
End All.

(* ------------------------------------------------------------------ *)
(** * BLEU and ROUGE *)
Lemma bleu_spec n p refs w f : calculate_sentence_bleu n p refs w = Ok f <->
  w <> [] /\ exists raw, nlp_bleu n p refs w = Ok raw /\
    match raw with
    | Fin q => ((tiny <= q)%Q /\ f = Fin q) \/ (~ (tiny <= q)%Q /\ f = Fin 0)
    | PInf => f = PInf
    | NInf | NaN => f = Fin 0
    end.
Proof.
  unfold calculate_sentence_bleu. destruct (len w =? 0)%Z eqn:L.
  - apply len_zero in L. split; [discriminate|]. intros [H _]. contradiction.
  - apply len_pos in L. destruct (nlp_bleu n p refs w) as [raw|i|e].
    + split.
      * intro H. injection H as <-. split; [exact L|]. exists raw. split; [reflexivity|]. destruct raw as [q| | |]; try reflexivity.
        destruct (Qle_bool tiny q) eqn:B; [left|right]; (split; [|reflexivity]).
        -- apply Qle_bool_iff, B.
        -- intro H. apply Qle_bool_iff in H. congruence.
      * intros (_ & raw' & E & H). injection E as <-. f_equal. destruct raw as [q| | |]; try (subst; reflexivity).
        destruct H as [[H ->]|[H ->]].
        -- apply Qle_bool_iff in H. rewrite H. reflexivity.
        -- destruct (Qle_bool tiny q) eqn:B; [|reflexivity]. apply Qle_bool_iff in B. contradiction.
    + split; [discriminate|]. intros (_ & raw & E & _). discriminate.
    + split; [discriminate|]. intros (_ & raw & E & _). discriminate.
Qed.
Lemma bleu_nonnegative n p refs w f : calculate_sentence_bleu n p refs w = Ok f -> nonnegative f.
Proof.
  intro H. apply bleu_spec in H. destruct H as (_ & raw & _ & H). destruct raw as [q| | |]; try (subst; cbn; try exact I; lra).
  destruct H as [[H ->]|[_ ->]]; cbn; [|lra]. unfold tiny in H. lra.
Qed.

Lemma rset_keys k v d : In k (List.map fst d) -> List.map fst (rset k v d) = List.map fst d.
Proof.
  induction d as [|[k' v'] d IH]; cbn [List.map fst rset]; [intros []|]. intro H. destruct (text_eqb k k') eqn:E; [reflexivity|].
  cbn [List.map fst]. f_equal. apply IH. destruct H as [->|H]; [|exact H]. rewrite text_eqb_refl in E. discriminate.
Qed.
Lemma rset_new k v d : ~ In k (List.map fst d) -> rset k v d = d ++ [(k, v)].
Proof.
  induction d as [|[k' v'] d IH]; cbn [List.map fst rset List.app]; [reflexivity|]. intro H. destruct (text_eqb k k') eqn:E.
  - apply text_eqb_eq in E. subst. exfalso. apply H. left. reflexivity.
  - f_equal. apply IH. intro. apply H. right. assumption.
Qed.
Lemma rset_same k (f : text -> flt) d : In k (List.map fst d) -> (forall k' v', In (k', v') d -> v' = f k') -> rset k (f k) d = d.
Proof.
  induction d as [|[k' v'] d IH]; cbn [List.map fst rset]; [intros []|]. intros H Hf. destruct (text_eqb k k') eqn:E.
  - apply text_eqb_eq in E. subst. f_equal. f_equal. symmetry. apply Hf. left. reflexivity.
  - f_equal. apply IH; [|intros k1 v1 H1; apply Hf; right; exact H1]. destruct H as [->|H]; [|exact H]. rewrite text_eqb_refl in E. discriminate.
Qed.
(* each requested type once, in the order of the first request *)
Fixpoint firsts (seen types : list text) : list text :=
  match types with
  | [] => []
  | t :: r => if existsb (text_eqb t) seen then firsts seen r else t :: firsts (seen ++ [t]) r
  end.
Lemma firsts_in types : forall seen t, In t (firsts seen types) <-> In t types /\ ~ In t seen.
Proof.
  induction types as [|u r IH]; intros seen t; cbn [firsts]; [cbn; tauto|]. destruct (existsb (text_eqb u) seen) eqn:E.
  - apply existsb_text in E. rewrite IH. cbn [In]. split; [tauto|]. intros [[->|H] Hn]; tauto.
  - assert (Hu : ~ In u seen) by (intro H; apply existsb_text in H; congruence). cbn [In]. rewrite IH, in_app_iff. cbn [In]. split.
    + intros [->|[H1 H2]]; [tauto|]. tauto.
    + intros [[->|H1] H2]; [tauto|]. destruct (list_eq_dec Z.eq_dec u t) as [->|N]; [tauto|]. right. tauto.
Qed.
Lemma firsts_nodup types : forall seen, NoDup (firsts seen types).
Proof.
  induction types as [|u r IH]; intro seen; cbn [firsts]; [constructor|]. destruct (existsb (text_eqb u) seen); [apply IH|].
  constructor; [|apply IH]. rewrite firsts_in, in_app_iff. cbn. tauto.
Qed.
Lemma firsts_id types : forall seen, NoDup types -> (forall t, In t types -> ~ In t seen) -> firsts seen types = types.
Proof.
  induction types as [|u r IH]; intros seen N H; cbn [firsts]; [reflexivity|]. inversion N; subst. destruct (existsb (text_eqb u) seen) eqn:E.
  - apply existsb_text in E. exfalso. apply (H u); [left; reflexivity|exact E].
  - f_equal. apply IH; [assumption|]. intros t Ht. rewrite in_app_iff. cbn. intros [X|[->|[]]]; [|contradiction]. apply (H t); [right; exact Ht|exact X].
Qed.
Definition rouge_value (metrics : list (text * list flt)) (t : text) : flt :=
  match rget t metrics with Some (x :: _) => flt_max x zero | _ => zero end.
Lemma rouge_loop_ok metrics types : forall results, (forall k v, In (k, v) results -> v = rouge_value metrics k) ->
  (forall t, In t types -> exists x xs, rget t metrics = Some (x :: xs)) ->
  rouge_loop metrics types results = Ok (results ++ List.map (fun t => (t, rouge_value metrics t)) (firsts (List.map fst results) types)).
Proof.
  induction types as [|t r IH]; intros results Hr Ht; cbn [rouge_loop firsts]; [rewrite app_nil_r; reflexivity|].
  destruct (Ht t (or_introl eq_refl)) as (x & xs & E). rewrite E.
  assert (V : flt_max x zero = rouge_value metrics t) by (unfold rouge_value; rewrite E; reflexivity). rewrite V.
  destruct (existsb (text_eqb t) (List.map fst results)) eqn:X.
  - apply existsb_text in X. rewrite (rset_same t (rouge_value metrics) results X Hr). apply IH; [exact Hr|]. intros; apply Ht; right; assumption.
  - assert (Hn : ~ In t (List.map fst results)) by (intro H; apply existsb_text in H; congruence). rewrite (rset_new _ _ _ Hn), IH.
    + rewrite map_app. cbn [List.map fst]. rewrite <- app_assoc. reflexivity.
    + intros k v H. apply in_app_or in H. destruct H as [H|[H|[]]]; [apply Hr, H|]. injection H as <- <-. reflexivity.
    + intros; apply Ht; right; assumption.
Qed.
Lemma rouge_loop_all metrics types : forall results res, rouge_loop metrics types results = Ok res -> forall t, In t types -> exists x xs, rget t metrics = Some (x :: xs).
Proof.
  induction types as [|u r IH]; intros results res H t Ht; [destruct Ht|]. cbn [rouge_loop] in H. destruct (rget u metrics) as [[|x xs]|] eqn:E; [discriminate| |discriminate].
  destruct Ht as [<-|Ht]; [eauto|]. eapply IH; eassumption.
Qed.
Lemma rouge_ok n p refs types stem metrics : nlp_rouge n p refs types stem = Ok (Some metrics) ->
  forall res, calculate_rouge_scores n p refs types stem = Ok res <->
  (forall t, In t types -> exists x xs, rget t metrics = Some (x :: xs)) /\ res = List.map (fun t => (t, rouge_value metrics t)) (firsts [] types).
Proof.
  intros E res. unfold calculate_rouge_scores. rewrite E. split.
  - intro H. pose proof (rouge_loop_all _ _ _ _ H) as A. split; [exact A|]. rewrite rouge_loop_ok in H; [|intros k v []|exact A]. injection H as <-. reflexivity.
  - intros [A ->]. rewrite rouge_loop_ok; [reflexivity|intros k v []|exact A].
Qed.

(* ------------------------------------------------------------------ *)
(** * Clients *)
Lemma validate_messages_ok v : validate_messages v = Ok tt <->
  exists ms, v = JArr ms /\ Forall (fun m => exists d ro co, m = JObj d /\ dget (lit "role") d = Some (JStr ro) /\ dget (lit "content") d = Some (JStr co)) ms.
Proof.
  split.
  - destruct v as [| | | | |ms|]; try discriminate. cbn [validate_messages]. intro H. exists ms. split; [reflexivity|].
    destruct (forallb (fun m => match as_dict m with Some _ => true | None => false end) ms) eqn:E1; [|discriminate].
    destruct (forallb (fun m => has_key (lit "role") m && has_key (lit "content") m) ms) eqn:E2; [|discriminate].
    destruct (forallb (str_at (lit "role")) ms) eqn:E3; [|discriminate]. destruct (forallb (str_at (lit "content")) ms) eqn:E4; [|discriminate].
    rewrite forallb_forall in E3, E4. apply Forall_forall. intros m Hm. specialize (E3 m Hm). specialize (E4 m Hm).
    destruct m as [| | | | | |d]; try discriminate. cbn [str_at] in E3, E4.
    destruct (dget (lit "role") d) as [[| | | |ro| |]|] eqn:R; try discriminate. destruct (dget (lit "content") d) as [[| | | |co| |]|] eqn:C; try discriminate.
    exists d, ro, co. auto.
  - intros (ms & -> & F). cbn [validate_messages]. rewrite Forall_forall in F.
    assert (E1 : forallb (fun m => match as_dict m with Some _ => true | None => false end) ms = true) by (apply forallb_forall; intros m Hm; destruct (F m Hm) as (d & ro & co & -> & _); reflexivity).
    assert (E2 : forallb (fun m => has_key (lit "role") m && has_key (lit "content") m) ms = true).
    { apply forallb_forall; intros m Hm; destruct (F m Hm) as (d & ro & co & -> & R & C). unfold has_key. rewrite R, C. reflexivity. }
    assert (E3 : forallb (str_at (lit "role")) ms = true) by (apply forallb_forall; intros m Hm; destruct (F m Hm) as (d & ro & co & -> & R & C); unfold str_at; rewrite R; reflexivity).
    assert (E4 : forallb (str_at (lit "content")) ms = true) by (apply forallb_forall; intros m Hm; destruct (F m Hm) as (d & ro & co & -> & R & C); unfold str_at; rewrite C; reflexivity).
    rewrite E1, E2, E3, E4. reflexivity.
Qed.
Lemma messages_valid render m : validate_messages (messages_of render m) = Ok tt.
Proof.
  apply validate_messages_ok. eexists. split; [reflexivity|]. constructor; [|constructor; [|constructor]]; eexists; eexists; eexists; (split; [reflexivity|]); (split; reflexivity).
Qed.

Section OpenAI.
  Context {A : Type} (api : A -> json -> outcome api_answer * A) (render : request -> text).
  Lemma openai_step s m o s' : openai_client api render s m = (o, s') ->
    exists an, api (oa_api s) (messages_of render m) = (an, oa_api s')
      /\ oa_prompt s' = (oa_prompt s + fst (billed an))%Z /\ oa_completion s' = (oa_completion s + snd (billed an))%Z
      /\ o = match an with
             | Ok (MkAnswer [] _) => Raised IndexError
             | Ok (MkAnswer ((content, finish) :: _) _) =>
                 if list_eq_dec Z.eq_dec finish (lit "length") then Raised ValueError
                 else if list_eq_dec Z.eq_dec finish (lit "content_filter") then Raised ValueError
                 else Ok (match content with None => [] | Some t => t end)
             | Invalid i => Invalid i
             | Raised e => Raised e
             end.
  Proof.
    unfold openai_client. rewrite messages_valid. destruct (api (oa_api s) (messages_of render m)) as [[[[|[content finish] chs] us]|i|e] a] eqn:E; cbn [an_choices an_usage].
    - intro H. injection H as <- <-. eexists. split; [reflexivity|]. cbn. rewrite !Z.add_0_r. auto.
    - assert (X : forall (o1 : outcome text) (st : openai_state A), (if text_eqb finish (lit "length") then (Raised ValueError, st) else if text_eqb finish (lit "content_filter") then (Raised ValueError, st) else (o1, st))
        = (if list_eq_dec Z.eq_dec finish (lit "length") then Raised ValueError else if list_eq_dec Z.eq_dec finish (lit "content_filter") then Raised ValueError else o1, st)).
      { intros o1 st. destruct (list_eq_dec Z.eq_dec finish (lit "length")) as [e|N].
        - rewrite (proj2 (text_eqb_eq _ _) e). reflexivity.
        - rewrite (proj2 (text_eqb_neq _ _) N). destruct (list_eq_dec Z.eq_dec finish (lit "content_filter")) as [e|N2].
          + rewrite (proj2 (text_eqb_eq _ _) e). reflexivity.
          + rewrite (proj2 (text_eqb_neq _ _) N2). reflexivity. }
      rewrite X. clear X. intro H. injection H as <- <-. eexists. split; [destruct us as [[p q]|]; reflexivity|].
      destruct us as [[p q]|]; cbn; rewrite ?Z.add_0_r; auto.
    - intro H. injection H as <- <-. eexists. split; [reflexivity|]. cbn. rewrite !Z.add_0_r. auto.
    - intro H. injection H as <- <-. eexists. split; [reflexivity|]. cbn. rewrite !Z.add_0_r. auto.
  Qed.
  Lemma openai_totals s tr s' : talk (openai_client api render) s tr s' ->
    exists log, api_talk api (oa_api s) log (oa_api s') /\ List.map fst log = List.map (fun x => messages_of render (fst x)) tr
      /\ oa_prompt s' = (oa_prompt s + sumZ (List.map (fun x => fst (billed (snd x))) log))%Z
      /\ oa_completion s' = (oa_completion s + sumZ (List.map (fun x => snd (billed (snd x))) log))%Z.
  Proof.
    induction 1 as [s|s m o s1 tr s2 E T IH].
    - exists []. cbn. rewrite !Z.add_0_r. repeat split; constructor.
    - destruct IH as (log & T' & M & P & C). apply openai_step in E. destruct E as (an & E & P1 & C1 & _).
      exists ((messages_of render m, an) :: log). split; [econstructor; eassumption|]. cbn [List.map fst snd sumZ fold_right].
      split; [rewrite M; reflexivity|]. unfold sumZ in P, C. split; lia.
  Qed.
End OpenAI.
Lemma mistral_step {A} (api : A -> json -> outcome (option (option (list mistral_choice))) * A) render s m o s' :
  mistral_client api render s m = (o, s') ->
  exists an, api s (messages_of render m) = (an, s')
    /\ o = match an with
           | Ok (Some (Some [])) => Raised IndexError
           | Ok (Some (Some (MkChoice (Some (Some content)) finish :: _))) =>
               if list_eq_dec Z.eq_dec finish (lit "length") then Raised ValueError
               else match content with JStr t => Ok t | _ => Raised TypeError end
           | Ok _ => Ok []
           | Invalid i => Invalid i
           | Raised e => Raised e
           end.
Proof.
  unfold mistral_client. rewrite messages_valid. destruct (api s (messages_of render m)) as [[[[[|[[[content|]|] finish] chs]|]|]|i|e] a]; cbn [mc_message mc_finish];
    try (intro H; injection H as <- <-; eexists; split; reflexivity).
  intro H. exists (Ok (Some (Some (MkChoice (Some (Some content)) finish :: chs)))). destruct (list_eq_dec Z.eq_dec finish (lit "length")) as [e|N].
  - rewrite (proj2 (text_eqb_eq _ _) e) in H. injection H as <- <-. auto.
  - rewrite (proj2 (text_eqb_neq _ _) N) in H. destruct content; injection H as <- <-; auto.
Qed.

(* ------------------------------------------------------------------ *)
(** * Context precision: order matters *)
Lemma sum_one l : (forall x, In x l -> (0 <= x <= 1)%Q) -> (sumQ l == inject_Z (Z.of_nat (List.length l)))%Q <-> (forall x, In x l -> (x == 1)%Q).
Proof.
  induction l as [|x l IH]; intro H.
  - split; [intros _ x []|reflexivity].
  - specialize (IH (fun y Hy => H y (or_intror Hy))). pose proof (H x (or_introl eq_refl)) as Hx. pose proof (sum_le l (fun y Hy => H y (or_intror Hy))) as Hl.
    cbn [sumQ fold_right List.length]. fold (sumQ l). rewrite Nat2Z.inj_succ. unfold Z.succ. rewrite inject_Z_plus. change (inject_Z 1) with 1%Q. split.
    + intro E. assert (X : (x == 1)%Q) by lra. assert (Y : (sumQ l == inject_Z (Z.of_nat (List.length l)))%Q) by lra.
      intros y [<-|Hy]; [exact X|]. apply IH; assumption.
    + intro E. pose proof (E x (or_introl eq_refl)). assert (Y : (sumQ l == inject_Z (Z.of_nat (List.length l)))%Q) by (apply IH; intros y Hy; apply E; right; exact Hy). lra.
Qed.
Lemma countb_cons {A} (f : A -> bool) x l : countb f (x :: l) = (if f x then 1 else 0) + countb f l.
Proof. unfold countb. cbn [filter]. destruct (f x); reflexivity. Qed.
Lemma countb_nil {A} (f : A -> bool) : countb f [] = 0.
Proof. reflexivity. Qed.
Lemma countb_all {A} (f : A -> bool) l : countb f l = List.length l <-> forall x, In x l -> f x = true.
Proof.
  induction l as [|x l IH]; [split; [intros _ y []|reflexivity]|]. rewrite countb_cons. cbn [List.length]. pose proof (countb_le_length f l). destruct (f x) eqn:E.
  - split.
    + intros H1 y [<-|Hy]; [exact E|]. apply IH; [lia|exact Hy].
    + intro H1. cbn [Nat.add]. f_equal. apply IH. intros y Hy. apply H1. right. exact Hy.
  - split; [lia|]. intro H1. rewrite (H1 x (or_introl eq_refl)) in E. discriminate.
Qed.
Lemma precision_at_range rel k : (0 <= precision_at rel k <= 1)%Q.
Proof. apply fraction_range. pose proof (countb_le_length rel (seq 1 k)). rewrite seq_length in H. exact H. Qed.
Lemma mean_precision_one rel n : (mean_precision rel n == 1)%Q <->
  (exists k, 1 <= k <= n /\ rel k = true) /\ (forall j k, 1 <= j -> j <= k -> k <= n -> rel k = true -> rel j = true).
Proof.
  unfold mean_precision. set (ks := filter rel (seq 1 n)).
  assert (Hks : forall k, In k ks <-> 1 <= k <= n /\ rel k = true) by (intro k; unfold ks; rewrite filter_In, in_seq; intuition lia).
  destruct ks as [|k0 ks'] eqn:E.
  - cbn. split; [intro H; exfalso; revert H; unfold Qeq; cbn; lia|]. intros [(k & H) _]. apply Hks in H. destruct H.
  - rewrite <- E in *. assert (L : 0 < List.length ks) by (rewrite E; cbn; lia). rewrite (proj2 (Nat.ltb_lt _ _) L).
    assert (P : (0 < inject_Z (Z.of_nat (List.length ks)))%Q) by (change 0%Q with (inject_Z 0); rewrite <- Zlt_Qlt; lia).
    assert (D : forall a, (a / inject_Z (Z.of_nat (List.length ks)) == 1)%Q <-> (a == inject_Z (Z.of_nat (List.length ks)))%Q).
    { intro a. split; intro H.
      - rewrite <- (Qmult_1_l (inject_Z _)), <- H. field. lra.
      - rewrite H. field. lra. }
    rewrite D. rewrite <- (map_length (precision_at rel) ks) at 1. rewrite sum_one.
    2:{ intros x Hx. apply in_map_iff in Hx. destruct Hx as (k & <- & _). apply precision_at_range. }
    split.
    + intro H. split; [exists k0; apply Hks; rewrite E; left; reflexivity|]. intros j k H1 H2 H3 H4.
      assert (X : (precision_at rel k == 1)%Q) by (apply H, in_map, Hks; lia || (split; [lia|exact H4])).
      unfold precision_at in X. apply fraction_one in X; [|lia]. assert (Y : countb rel (seq 1 k) = List.length (seq 1 k)) by (rewrite seq_length; exact X).
      rewrite countb_all in Y. apply Y, in_seq. lia.
    + intros [_ H] x Hx. apply in_map_iff in Hx. destruct Hx as (k & <- & Hk). apply Hks in Hk. destruct Hk as [Hk Hr]. apply fraction_one; [lia|].
      replace k with (List.length (seq 1 k)) at 2 by apply seq_length. apply countb_all. intros j Hj. apply in_seq in Hj. apply (H j k); lia || exact Hr.
Qed.

Lemma sumQ_app a b : (sumQ (a ++ b) == sumQ a + sumQ b)%Q.
Proof. unfold sumQ. induction a as [|x a IH]; cbn [List.app fold_right]; [rewrite Qplus_0_l; reflexivity|]. rewrite IH. ring. Qed.
Lemma seq_split3 n k : 1 <= k -> S k <= n -> seq 1 n = seq 1 (k - 1) ++ [k; S k] ++ seq (S (S k)) (n - S k).
Proof.
  intros H1 H2. replace n with ((k - 1) + (2 + (n - S k))) at 1 by lia. rewrite seq_app. f_equal. replace (1 + (k - 1)) with k by lia.
  rewrite seq_app. f_equal. f_equal. lia.
Qed.
Lemma swapped_count rel k j : 1 <= k -> j <> k -> countb (swapped rel k) (seq 1 j) = countb rel (seq 1 j).
Proof.
  intros H1 Hj. assert (Same : forall l, (forall x, In x l -> x <> k /\ x <> S k) -> countb (swapped rel k) l = countb rel l).
  { intros l. induction l as [|x l IH]; intro H; [reflexivity|]. rewrite ?countb_cons, ?countb_nil. destruct (H x (or_introl eq_refl)) as [A B].
    unfold swapped at 1. rewrite (proj2 (Nat.eqb_neq _ _) A), (proj2 (Nat.eqb_neq _ _) B), IH by (intros; apply H; right; assumption). reflexivity. }
  destruct (Nat.lt_ge_cases j k) as [L|G].
  - apply Same. intros x Hx. apply in_seq in Hx. lia.
  - rewrite (seq_split3 j k) by lia. rewrite !countb_app, (Same (seq 1 (k - 1))), (Same (seq (S (S k)) (j - S k))) by (intros x Hx; apply in_seq in Hx; lia).
    rewrite ?countb_cons, ?countb_nil. unfold swapped. rewrite !Nat.eqb_refl. replace (S k =? k) with false by (symmetry; apply Nat.eqb_neq; lia). destruct (rel k), (rel (S k)); lia.
Qed.
Lemma mean_precision_swap rel n k : 1 <= k -> S k <= n -> rel k = false -> rel (S k) = true ->
  (mean_precision rel n < mean_precision (swapped rel k) n)%Q.
Proof.
  intros H1 H2 Rk Rk1.
  assert (Sk : swapped rel k k = true) by (unfold swapped; rewrite Nat.eqb_refl; exact Rk1).
  assert (Sk1 : swapped rel k (S k) = false) by (unfold swapped; rewrite Nat.eqb_refl; replace (S k =? k) with false by (symmetry; apply Nat.eqb_neq; lia); exact Rk).
  assert (So : forall j, j <> k -> j <> S k -> swapped rel k j = rel j) by (intros j A B; unfold swapped; rewrite (proj2 (Nat.eqb_neq _ _) A), (proj2 (Nat.eqb_neq _ _) B); reflexivity).
  set (a := filter rel (seq 1 (k - 1))). set (b := filter rel (seq (S (S k)) (n - S k))).
  assert (E1 : filter rel (seq 1 n) = a ++ S k :: b).
  { rewrite (seq_split3 n k H1 H2), !filter_app. cbn [filter]. rewrite Rk, Rk1. reflexivity. }
  assert (E2 : filter (swapped rel k) (seq 1 n) = a ++ k :: b).
  { rewrite (seq_split3 n k H1 H2), !filter_app. cbn [filter]. rewrite Sk, Sk1. cbn [List.app]. f_equal; [|f_equal]; apply filter_ext_in; intros j Hj; apply in_seq in Hj; apply So; lia. }
  assert (P : forall j, j <> k -> precision_at (swapped rel k) j = precision_at rel j) by (intros j Hj; unfold precision_at; rewrite swapped_count by assumption; reflexivity).
  assert (Ma : List.map (precision_at (swapped rel k)) a = List.map (precision_at rel) a) by (apply map_ext_in; intros j Hj; apply P; apply filter_In in Hj; destruct Hj as [Hj _]; apply in_seq in Hj; lia).
  assert (Mb : List.map (precision_at (swapped rel k)) b = List.map (precision_at rel) b) by (apply map_ext_in; intros j Hj; apply P; apply filter_In in Hj; destruct Hj as [Hj _]; apply in_seq in Hj; lia).
  assert (U : forall f : nat -> bool, countb f (seq 1 k) = countb f (seq 1 (k - 1)) + if f k then 1 else 0).
  { intro f. replace (seq 1 k) with (seq 1 (k - 1) ++ [k]).
    - rewrite countb_app, countb_cons, countb_nil. lia.
    - replace [k] with [1 + (k - 1)] by (f_equal; lia). rewrite <- seq_S. f_equal. lia. }
  assert (V : countb rel (seq 1 (S k)) = countb rel (seq 1 k) + 1).
  { rewrite seq_S, countb_app, countb_cons, countb_nil. change (1 + k) with (S k). rewrite Rk1. lia. }
  assert (Ck : countb (swapped rel k) (seq 1 k) = countb rel (seq 1 (S k))).
  { rewrite V, !U, swapped_count by lia. rewrite Sk, Rk. lia. }
  assert (Cp : 0 < countb rel (seq 1 (S k))) by lia.
  assert (LT : (precision_at rel (S k) < precision_at (swapped rel k) k)%Q).
  { unfold precision_at. rewrite Ck. unfold fraction, Qdiv. apply Qmult_lt_l; [change 0%Q with (inject_Z 0); rewrite <- Zlt_Qlt; lia|].
    destruct k as [|k']; [lia|]. unfold Qlt, Qinv, inject_Z. cbn [Qnum Qden]. rewrite !Nat2Z.inj_succ. destruct (Z.succ (Z.succ (Z.of_nat k'))) as [|p|p] eqn:Ep; [lia| |lia].
    destruct (Z.succ (Z.of_nat k')) as [|p'|p'] eqn:Ep'; [lia| |lia]. cbn [Qnum Qden]. lia. }
  unfold mean_precision. rewrite E1, E2. assert (L : List.length (a ++ S k :: b) = List.length (a ++ k :: b)) by (rewrite !app_length; reflexivity). rewrite <- L.
  assert (L0 : 0 < List.length (a ++ S k :: b)) by (rewrite app_length; cbn; lia). rewrite (proj2 (Nat.ltb_lt _ _) L0).
  apply Qmult_lt_r; [apply Qinv_lt_0_compat; change 0%Q with (inject_Z 0); rewrite <- Zlt_Qlt; lia|].
  rewrite !map_app. cbn [List.map]. rewrite Ma, Mb, !sumQ_app. cbn [sumQ fold_right]. fold (sumQ (List.map (precision_at rel) b)). lra.
Qed.
