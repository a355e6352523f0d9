(* C41-C45, C63-C71: properties of text generation.
   Vocabulary: TextSpec.v.  A client is any function from its state and a message to an
   answer (text, invalid response, exception) and a new state; [talk c s tr s']: asked the
   questions of [tr] in turn it gave the answers of [tr].  [python_ok]: TextSpec.v.
   Model: TextModel.v. *)
From Verif Require Import Prelude Counting TextModel TextSpec TextReadProofs TextScoreProofs TextLoopProofs TextSafeProofs TextMoreProofs TextDemo.
From Coq Require Import QArith Lqa String.
From Coq Require List.
Local Open Scope string_scope.
Local Open Scope nat_scope.
Local Open Scope list_scope.

(* ---------------------------------------------------------------- C41 *)
(* full claim: for every retry count.  Proved for counts that are not negative: the first
   attempt that is not an invalid response decides, and it comes after at most [retries]
   others; an Error metric is returned iff all 1 + retries attempts are invalid, with the
   last error.  Refuted for negative counts. *)
Theorem C41_retries_partial : forall St py (ev : evaluator St) r ty m p c model,
  In (ty, m) (guided_methods py ev r) -> score_of py (ev_system ev) r ty = Some p ->
  ev_client ev = Some (c, Some model) -> (0 <= ev_retries ev)%Z ->
  forall s o s' tr, m s = (o, s', tr) <->
  (exists k tr0 last s0 tr1, (Z.of_nat k <= ev_retries ev)%Z /\ failing p c k s tr0 last s0 /\ tr = tr0 ++ tr1 /\
     ((exists q, p c s0 = (Ok q, s', tr1) /\ o = Ok (Some (MkMetric ty (VNum q) (PLlm model (ev_retries ev)))))
      \/ (exists e, p c s0 = (Raised e, s', tr1) /\ o = Raised e)))
  \/ (exists i, failing p c (Z.to_nat (1 + ev_retries ev)) s tr (Some i) s'
       /\ o = Ok (Some (MkMetric ErrorType (VError i) (PLlm model (ev_retries ev))))).
Proof. intros St py ev r ty m p c model. exact (method_result py ev r ty m p c model). Qed.
Print Assumptions C41_retries_partial.
Theorem C41_methods : forall St py (ev : evaluator St) r, List.map fst (guided_methods py ev r) =
  [AnswerCorrectness; AnswerRelevance; Bias; ContextPrecision; ContextRecall; ContextRelevance; Faithfulness; Hallucination; SummaryCoherence; Toxicity]
  /\ forall ty, In ty (List.map fst (guided_methods py ev r)) -> exists p, score_of (St := St) py (ev_system ev) r ty = Some p.
Proof.
  intros St py ev r. split; [reflexivity|]. cbn [guided_methods List.map fst In]. intros ty H.
  repeat (destruct H as [<-|H]; [eexists; reflexivity|]). destruct H.
Qed.
Print Assumptions C41_methods.
(* two invalid responses, then a good one, with two retries; and with one *)
Example C41_example :
  let answers := says ["no idea"; listing "opinion" ["nice"]; listing "opinions" ["nice"]; verdicts ["yes"]] in
  fst (fst (compute_bias demo_py (demo_ev 2) demo_qr answers)) = Ok (Some (MkMetric Bias (VNum 1) (PLlm (lit "model") 2)))
  /\ fst (fst (compute_bias demo_py (demo_ev 1) demo_qr answers)) = Ok (Some (MkMetric ErrorType (VError (MissingKey (lit "opinions"))) (PLlm (lit "model") 1)))
  /\ fst (fst (compute_bias demo_py (demo_ev 1) demo_qr [Raised KeyError])) = Raised KeyError.
Proof. vm_compute. auto. Qed.
Theorem C41_negative_retries_refuted : exists (ev : evaluator unit) r, exists c model, ev_client ev = Some (c, Some model)
  /\ (forall s m, exists t, fst (c s m) = Ok t)
  /\ compute_summary_coherence demo_py ev r tt = (Ok None, tt, []).
Proof.
  exists (MkEv (Some (parrot (Ok (lit "5")), Some (lit "model"))) (-1) []), demo_qr, (parrot (Ok (lit "5"))), (lit "model").
  split; [reflexivity|]. split; [|reflexivity]. intros s m. exists (lit "5"). reflexivity.
Qed.
Print Assumptions C41_negative_retries_refuted.

(* ---------------------------------------------------------------- C42 *)
(* full claim: every guided metric is a number in its range, an Error metric, or an
   exception of the client or of json.loads.  Proved but for four gaps ([gap]): no context
   where one is needed; hallucination without retrieved contexts; a ground truth answered
   with no statements (context recall); an integer that int() refuses (coherence); and
   unhashable verdicts (in [raises_by]).  Each is refuted below or in C44, C45. *)
Theorem C42_scores_partial : forall St py (ev : evaluator St) r ty m c model s, python_ok py ->
  In (ty, m) (guided_methods py ev r) -> ev_client ev = Some (c, Some model) -> (0 <= ev_retries ev)%Z ->
  match m s with
  | (Ok (Some mt), _, _) => m_params mt = PLlm model (ev_retries ev) /\
      ((m_type mt = ty /\ exists q, m_value mt = VNum q /\ in_range ty q) \/ (m_type mt = ErrorType /\ exists i, m_value mt = VError i))
  | (Ok None, _, _) | (Invalid _, _, _) => False
  | (Raised e, _, tr) => Exists (fun x => raises_by py x e) tr \/ gap py r ty e tr
  end.
Proof. intros St py ev r ty m c model s. exact (method_safe py ev r ty m c model s). Qed.
Print Assumptions C42_scores_partial.
(* the recorded exchanges are what was said *)
Theorem C42_exchanges : forall St py (ev : evaluator St) r ty m c model, In (ty, m) (guided_methods py ev r) -> ev_client ev = Some (c, model) ->
  forall s, talk c s (snd (m s)) (snd (fst (m s))).
Proof. intros St py ev r ty m c model. exact (method_built_talk py ev r ty m c model). Qed.
Print Assumptions C42_exchanges.
Example C42_example : python_ok demo_py /\
  fst (fst (compute_context_recall demo_py (demo_ev 0) demo_qr (says [listing "statements" ["France"; "Paris"]; verdicts ["yes"; "no"]])))
  = Ok (Some (MkMetric ContextRecall (VNum (1 # 2)) (PLlm (lit "model") 0))).
Proof. split; [exact demo_py_ok|]. vm_compute. reflexivity. Qed.
(* every response is valid, and still: ZeroDivisionError, with retries to spare *)
Theorem C42_empty_groundtruth_refuted : exists (s : list (outcome text)) r, Forall (fun o => exists t, o = Ok t) s
  /\ compute_context_recall demo_py (demo_ev 3) r s = (Raised ZeroDivisionError, [],
       [((lit "You are a helpful assistant.", AskStatements (lit "France")), Ok (lit (listing "statements" [])));
        ((lit "You are a helpful assistant.", AskRecall [lit "Paris is in France"; lit "Rome is in Italy"] []), Ok (lit (verdicts [])))]).
Proof.
  exists (says [listing "statements" []; verdicts []]), demo_qr. split; [repeat constructor; eexists; reflexivity|]. vm_compute. reflexivity.
Qed.
Print Assumptions C42_empty_groundtruth_refuted.
(* the same response makes faithfulness, relevance, bias and toxicity return a number *)
Example C42_empty_elsewhere :
  fst (fst (calculate_answer_relevance demo_py [] [] [] script (says [listing "statements" []; verdicts []]))) = Ok 0%Q
  /\ fst (fst (calculate_faithfulness demo_py [] [] [[]] script (says [listing "claims" []]))) = Ok 1%Q
  /\ fst (fst (calculate_bias demo_py [] [] script (says [listing "opinions" []]))) = Ok 0%Q
  /\ fst (fst (calculate_toxicity demo_py [] [] script (says [listing "opinions" []]))) = Ok 0%Q.
Proof. vm_compute. auto. Qed.
Theorem C42_no_contexts_refuted : exists (s : list (outcome text)) r, (exists x, qr_context r = Some x)
  /\ fst (fst (compute_hallucination demo_py (demo_ev 3) r s)) = Raised ValueError
  /\ fst (fst (compute_context_relevance demo_py (demo_ev 3) r s)) = Ok (Some (MkMetric ContextRelevance (VNum 0) (PLlm (lit "model") 3))).
Proof. exists [], (MkQR [] [] (Some (MkContext [] []))). split; [eexists; reflexivity|]. vm_compute. auto. Qed.
Print Assumptions C42_no_contexts_refuted.

(* ---------------------------------------------------------------- C43 *)
Theorem C43_context_precision : forall St (c : client St) py sys query predicted gts s q s' tr, python_ok py ->
  returns (calculate_context_precision py sys query predicted gts) c s q s' tr <->
  talk c s tr s' /\ ((predicted = [] /\ gts = [] /\ tr = [] /\ (q == 1)%Q)
    \/ ((predicted = [] <-> gts <> []) /\ tr = [] /\ (q == 0)%Q)
    \/ (predicted <> [] /\ gts <> [] /\ exists vss,
         judged py (fun g => (sys, AskPrecision query predicted g)) yes_no (List.length predicted) gts tr vss
         /\ (q == mean_precision (relevant vss) (List.length predicted))%Q)).
Proof. exact (@precision_ok). Qed.
Print Assumptions C43_context_precision.
(* the example of the documentation, with two ground truths *)
Example C43_example :
  fst (fst (calculate_context_precision demo_py [] [] [[]; []; []; []] [[]; []] script
    (says [verdicts ["no"; "no"; "no"; "yes"]; verdicts ["yes"; "no"; "no"; "no"]]))) = Ok (6 # 8)%Q.
Proof. vm_compute. reflexivity. Qed.

(* ---------------------------------------------------------------- C44 *)
(* lists of statements: accepted iff of the documented shape, else an invalid response *)
Theorem C44_statements : forall d key allowed enforce,
  (validate_statements d key allowed enforce = Ok tt <->
   exists l, statement_list d key l
     /\ (forall a, allowed = Some a -> Forall (fun v => exists t, v = JStr t /\ In t a) l)
     /\ (forall n, enforce = Some n -> Z.of_nat (List.length l) = n))
  /\ forall e, validate_statements d key allowed enforce <> Raised e.
Proof. intros d key allowed enforce. split; [apply validate_statements_ok|]. intro e. apply validate_statements_never_raises. Qed.
Print Assumptions C44_statements.
(* full claim: verdicts are accepted iff they have the documented shape
   list[dict[str, str]], else the response is invalid (and retried).  Proved with the type
   of 'analysis' left open, and with TypeError instead for unhashable verdicts. *)
Theorem C44_verdicts_partial : forall d key allowed n,
  (validate_verdicts d key (Some allowed) (Some n) = Ok tt <-> exists l, verdict_list d key allowed n l)
  /\ (forall v, documented_verdict allowed v -> verdict allowed v)
  /\ (forall e, validate_verdicts d key (Some allowed) (Some n) = Raised e ->
      e = TypeError /\ exists l d' v, dget key d = Some (JArr l) /\ In (JObj d') l /\ dget (lit "verdict") d' = Some v /\ unhashable v).
Proof.
  intros d key allowed n. split; [apply validate_verdicts_ok|]. split; [|intro e; apply validate_verdicts_raise].
  intros v (d' & t & a & -> & K & V & A & _). exists d', t. auto.
Qed.
Print Assumptions C44_verdicts_partial.
(* nothing malformed reaches the scores: the verdicts counted are as many as asked for *)
Theorem C44_counted_verdicts : forall St (c : client St) py m allowed n s l s' tr, python_ok py ->
  generate_verdicts py m allowed (Z.of_nat n) c s = (Ok l, s', tr) ->
  exists t, tr = [(m, Ok t)] /\ reads_verdicts py t allowed n l /\ List.length l = n /\ Forall (verdict allowed) l.
Proof.
  intros St c py m allowed n s l s' tr Hpy H. apply (verdicts_ok c py Hpy) in H. destruct H as (t & _ & E & R). exists t.
  split; [exact E|]. split; [exact R|]. split; [eapply reads_length, R|eapply reads_verdict, R].
Qed.
Print Assumptions C44_counted_verdicts.
Definition one_verdict (v a : json) : dict := [(lit "verdicts", JArr [JObj [(lit "verdict", v); (lit "analysis", a)]])].
Example C44_example :
  validate_verdicts (one_verdict (JStr (lit "yes")) (JStr (lit "because"))) (lit "verdicts") (Some yes_no) (Some 1%Z) = Ok tt
  /\ validate_verdicts (one_verdict (JStr (lit "idk")) (JStr (lit "because"))) (lit "verdicts") (Some yes_no) (Some 1%Z) = Invalid OutsideAllowed
  /\ validate_verdicts (one_verdict (JStr (lit "yes")) (JStr (lit "because"))) (lit "verdicts") (Some yes_no) (Some 2%Z) = Invalid (WrongLength 2)
  /\ validate_verdicts [] (lit "verdicts") (Some yes_no) (Some 1%Z) = Invalid (MissingKey (lit "verdicts"))
  /\ validate_statements [(lit "claims", JArr [JStr []; JInt 1])] (lit "claims") None None = Invalid BadFormat.
Proof. vm_compute. auto. Qed.
Theorem C44_unhashable_verdict_refuted : exists d, (forall l, ~ verdict_list d (lit "verdicts") yes_no 1 l)
  /\ validate_verdicts d (lit "verdicts") (Some yes_no) (Some 1%Z) = Raised TypeError.
Proof.
  exists (one_verdict (JArr []) (JStr [])). split; [|reflexivity]. intros l (E & _ & F). injection E as <-. inversion F as [|v l H _]; subst.
  destruct H as (d & t & Ed & _ & V & _). injection Ed as <-. discriminate.
Qed.
Print Assumptions C44_unhashable_verdict_refuted.
Theorem C44_analysis_refuted : exists d l v, validate_verdicts d (lit "verdicts") (Some yes_no) (Some 1%Z) = Ok tt
  /\ dget (lit "verdicts") d = Some (JArr l) /\ In v l /\ ~ documented_verdict yes_no v.
Proof.
  exists (one_verdict (JStr (lit "yes")) JNull), [JObj [(lit "verdict", JStr (lit "yes")); (lit "analysis", JNull)]], (JObj [(lit "verdict", JStr (lit "yes")); (lit "analysis", JNull)]).
  split; [reflexivity|]. split; [reflexivity|]. split; [left; reflexivity|]. intros (d & t & a & Ed & _ & _ & _ & A). injection Ed as <-. discriminate.
Qed.
Print Assumptions C44_analysis_refuted.

(* ---------------------------------------------------------------- C45 *)
Theorem C45_braces : forall py t,
  (forall d, trim_and_load_json py t = Ok d <-> exists ext, outer_braces t ext /\ py_loads py ext = Loaded d)
  /\ (forall i, trim_and_load_json py t = Invalid i <->
       (i = NoBrackets /\ ~ has_braces t) \/ (i = BadJson /\ exists ext, outer_braces t ext /\ py_loads py ext = DecodeError))
  /\ (forall e, trim_and_load_json py t = Raised e <-> exists ext, outer_braces t ext /\ py_loads py ext = LoadsRaises e)
  /\ (forall e1 e2, outer_braces t e1 -> outer_braces t e2 -> e1 = e2)
  /\ ((exists ext, outer_braces t ext) <-> has_braces t).
Proof.
  intros py t. split; [intro d; apply trim_ok|]. split; [intro i; apply trim_invalid|]. split; [intro e; apply trim_raised|].
  split; [apply outer_unique|apply outer_iff_has].
Qed.
Print Assumptions C45_braces.
(* full claim: the value of the first integer is returned, whatever its length.  Proved up
   to the limit of int(); refuted beyond. *)
Theorem C45_first_integer_partial : forall py t, python_ok py ->
  (forall neg ds, first_integer (py_digit py) t neg ds -> (py_max_digits py <= 0 \/ Z.of_nat (List.length ds) <= py_max_digits py)%Z ->
     find_first_signed_integer py t = Ok (Some (if neg then - digits_value ds else digits_value ds)%Z))
  /\ (find_first_signed_integer py t = Ok None <-> forall c, In c t -> py_digit py c = None)
  /\ ((exists c d, In c t /\ py_digit py c = Some d) -> exists neg ds, first_integer (py_digit py) t neg ds)
  /\ (forall n1 d1 n2 d2, first_integer (py_digit py) t n1 d1 -> first_integer (py_digit py) t n2 d2 -> n1 = n2 /\ d1 = d2).
Proof.
  intros py t Hpy. split; [|split; [apply find_nothing, Hpy|split; [apply some_first_integer, Hpy|intros n1 d1 n2 d2; apply first_integer_unique]]].
  intros neg ds H L. rewrite (find_found py t neg ds Hpy H).
  destruct ((0 <? py_max_digits py)%Z && (py_max_digits py <? Z.of_nat (List.length ds))%Z)%bool eqn:E; [|reflexivity].
  apply Bool.andb_true_iff in E. rewrite !Z.ltb_lt in E. lia.
Qed.
Print Assumptions C45_first_integer_partial.
Example C45_example :
  find_first_signed_integer demo_py (lit "between --12 and 3") = Ok (Some (-12)%Z)
  /\ search_braces (lit "x } {a} b } c {") = Some (lit "{a} b }")
  /\ trim_and_load_json demo_py (lit (verdicts ["yes"])) = Ok (one_verdict (JStr (lit "yes")) (JStr (lit "because"))).
Proof. vm_compute. auto. Qed.
(* with Python's default limit: an invalid score would be retried, this one raises *)
Theorem C45_long_integer_refuted : exists t ds, python_ok demo_py /\ first_integer (py_digit demo_py) t false ds
  /\ find_first_signed_integer demo_py t = Raised ValueError
  /\ fst (fst (compute_summary_coherence demo_py (demo_ev 3) demo_qr [Ok t; Ok (lit "5")])) = Raised ValueError.
Proof.
  exists (List.repeat 49%Z (Z.to_nat 4301)), (List.repeat 1%Z (Z.to_nat 4301)). split; [exact demo_py_ok|]. split.
  - exists [], (List.repeat 49%Z (Z.to_nat 4301)), []. split; [rewrite app_nil_r; reflexivity|]. split.
    + generalize (Z.to_nat 4301). intro n. induction n as [|n IH]; cbn [List.repeat]; constructor; [reflexivity|exact IH].
    + split; [vm_compute; discriminate|]. split; [intros c []|]. split; [intros c r H; discriminate|].
      split; [discriminate|]. intros (b & H). destruct b; discriminate.
  - split; vm_compute; reflexivity.
Qed.
Print Assumptions C45_long_integer_refuted.

(* ---------------------------------------------------------------- C63 *)
Theorem C63_bias : forall St (c : client St) py sys resp s q s' tr, python_ok py ->
  returns (calculate_bias py sys resp) c s q s' tr <->
  talk c s tr s' /\ two_steps py (sys, AskOpinions resp) "opinions" (fun os => (sys, AskBias os)) yes_no 0 q tr.
Proof. intros St c py sys resp s q s' tr Hpy. exact (bias_ok c py Hpy sys resp s q s' tr). Qed.
Print Assumptions C63_bias.
Theorem C63_toxicity : forall St (c : client St) py sys resp s q s' tr, python_ok py ->
  returns (calculate_toxicity py sys resp) c s q s' tr <->
  talk c s tr s' /\ two_steps py (sys, AskOpinions resp) "opinions" (fun os => (sys, AskToxicity os)) yes_no 0 q tr.
Proof. intros St c py sys resp s q s' tr Hpy. exact (toxicity_ok c py Hpy sys resp s q s' tr). Qed.
Print Assumptions C63_toxicity.
Theorem C63_faithfulness : forall St (c : client St) py sys resp contexts s q s' tr, python_ok py ->
  returns (calculate_faithfulness py sys resp contexts) c s q s' tr <->
  talk c s tr s' /\ ((contexts = [] /\ tr = [] /\ (q == 0)%Q) \/
    (contexts <> [] /\ two_steps py (sys, AskClaims resp) "claims" (fun cs => (sys, AskFaithfulness cs contexts)) yes_no 1 q tr)).
Proof. intros St c py sys resp contexts s q s' tr Hpy. exact (faithfulness_ok c py Hpy sys resp contexts s q s' tr). Qed.
Print Assumptions C63_faithfulness.
Theorem C63_answer_relevance : forall St (c : client St) py sys query resp s q s' tr, python_ok py ->
  returns (calculate_answer_relevance py sys query resp) c s q s' tr <->
  talk c s tr s' /\ exists t1 ss t2 vs,
    tr = [((sys, AskStatements resp), Ok t1); ((sys, AskRelevance query ss), Ok t2)]
    /\ reads_statements py t1 "statements" ss
    /\ reads_verdicts py t2 [lit "yes"; lit "no"; lit "idk"] (List.length ss) vs
    /\ (q == if 0 <? List.length ss then share vs else 0)%Q.
Proof. intros St c py sys query resp s q s' tr Hpy. exact (relevance_ok c py Hpy sys query resp s q s' tr). Qed.
Print Assumptions C63_answer_relevance.
Theorem C63_context_relevance : forall St (c : client St) py sys query contexts s q s' tr, python_ok py ->
  returns (calculate_context_relevance py sys query contexts) c s q s' tr <->
  talk c s tr s' /\ ((contexts = [] /\ tr = [] /\ (q == 0)%Q) \/
    (contexts <> [] /\ exists t vs, tr = [((sys, AskContextRelevance query contexts), Ok t)]
       /\ reads_verdicts py t yes_no (List.length contexts) vs /\ (q == share vs)%Q)).
Proof. intros St c py sys query contexts s q s' tr Hpy. exact (context_relevance_ok c py Hpy sys query contexts s q s' tr). Qed.
Print Assumptions C63_context_relevance.
Theorem C63_hallucination : forall St (c : client St) py sys resp contexts s q s' tr, python_ok py ->
  returns (calculate_hallucination py sys resp contexts) c s q s' tr <->
  talk c s tr s' /\ contexts <> [] /\ exists t vs, tr = [((sys, AskHallucination resp contexts), Ok t)]
     /\ reads_verdicts py t yes_no (List.length contexts) vs /\ (q == share vs)%Q.
Proof. intros St c py sys resp contexts s q s' tr Hpy. exact (hallucination_ok c py Hpy sys resp contexts s q s' tr). Qed.
Print Assumptions C63_hallucination.
Theorem C63_context_recall : forall St (c : client St) py sys predicted gts s q s' tr, python_ok py ->
  returns (calculate_context_recall py sys predicted gts) c s q s' tr <->
  talk c s tr s' /\ ((predicted = [] /\ gts = [] /\ tr = [] /\ (q == 1)%Q)
    \/ ((predicted = [] <-> gts <> []) /\ tr = [] /\ (q == 0)%Q)
    \/ (predicted <> [] /\ gts <> [] /\ exists vss, recalled py sys predicted gts tr vss
        /\ Forall (fun vs => vs <> []) vss /\ greatest (List.map share vss) q)).
Proof. intros St c py sys predicted gts s q s' tr Hpy. exact (recall_ok c py Hpy sys predicted gts s q s' tr). Qed.
Print Assumptions C63_context_recall.
Theorem C63_summary_coherence : forall St (c : client St) py sys txt summary s q s' tr, python_ok py ->
  returns (calculate_summary_coherence py sys txt summary) c s q s' tr <->
  talk c s tr s' /\ exists t ds, tr = [((sys, AskCoherence txt summary), Ok t)]
    /\ first_integer (py_digit py) t false ds
    /\ (py_max_digits py <= 0 \/ Z.of_nat (List.length ds) <= py_max_digits py)%Z
    /\ (1 <= digits_value ds <= 5)%Z /\ (q == inject_Z (digits_value ds))%Q.
Proof. intros St c py sys txt summary s q s' tr Hpy. exact (coherence_ok c py Hpy sys txt summary s q s' tr). Qed.
Print Assumptions C63_summary_coherence.
Example C63_example :
  fst (fst (calculate_faithfulness demo_py [] [] [[]] script (says [listing "claims" ["a"; "b"; "c"]; verdicts ["yes"; "no"; "yes"]]))) = Ok (2 # 3)%Q
  /\ fst (fst (calculate_context_recall demo_py [] [[]] [[]; []] script
       (says [listing "statements" ["a"; "b"]; verdicts ["no"; "yes"]; listing "statements" ["c"]; verdicts ["no"]]))) = Ok (1 # 2)%Q
  /\ fst (fst (calculate_summary_coherence demo_py [] [] [] script (says ["Score: 04."]))) = Ok 4%Q.
Proof. vm_compute. auto. Qed.

(* ---------------------------------------------------------------- C64 *)
Theorem C64_answer_correctness : forall St (c : client St) py sys query resp gts s q s' tr, python_ok py ->
  returns (calculate_answer_correctness py sys query resp gts) c s q s' tr <->
  talk c s tr s' /\ exists t ps tr' cs, tr = ((sys, AskStatements resp), Ok t) :: tr'
    /\ reads_statements py t "statements" ps /\ compared py sys query ps gts tr' cs
    /\ greatest (0%Q :: List.map (fun x => f1_score (fst (fst x)) (snd (fst x)) (snd x)) cs) q.
Proof. intros St c py sys query resp gts s q s' tr Hpy. exact (correctness_ok c py Hpy sys query resp gts s q s' tr). Qed.
Print Assumptions C64_answer_correctness.
(* F1 is 1 exactly for a perfect answer *)
Theorem C64_perfect : forall tp fp fn, (0 <= f1_score tp fp fn <= 1)%Q /\ ((f1_score tp fp fn == 1)%Q <-> 0 < tp /\ fp = 0 /\ fn = 0).
Proof. intros tp fp fn. split; [apply f1_range|apply f1_one]. Qed.
Print Assumptions C64_perfect.
Example C64_example :
  fst (fst (calculate_answer_correctness demo_py [] [] [] [[]; []] script
    (says [listing "statements" ["a"; "b"]; listing "statements" ["c"]; counts [] ["a"; "b"] ["c"];
           listing "statements" ["a"; "d"]; counts ["a"] ["b"] ["d"]]))) = Ok (2 # 4)%Q
  /\ fst (fst (calculate_answer_correctness demo_py [] [] [] [[]] script
    (says [listing "statements" ["a"; "b"]; listing "statements" ["c"]; counts [] ["a"] ["c"]]))) = Invalid CountMismatch
  /\ fst (fst (calculate_answer_correctness demo_py [] [] [] [[]] script
    (says [listing "statements" ["a"; "b"]; listing "statements" ["c"]; counts [] ["a"; "b"] ["c"; "d"]]))) = Invalid TooManyNegatives.
Proof. vm_compute. auto. Qed.

(* ---------------------------------------------------------------- C65 *)
(* full claim: compute_all returns all twelve metrics whenever the client answers well.
   Proved: what it returns is exactly the results of the methods run in turn, and of ROUGE
   and BLEU; refuted if the response has no retrieved contexts. *)
Theorem C65_all_metrics_partial : forall St py n (ev : evaluator St) r w types stem s res s' tr,
  compute_all py n ev r w types stem s = (Ok res, s', tr) <->
  exists guided rouges bleu, in_turn (guided_methods py ev r) s guided s' tr
    /\ compute_rouge n r types stem = Ok rouges /\ compute_sentence_bleu n r w = Ok bleu
    /\ res = guided ++ [(ROUGE, List.map Some rouges); (BLEU, [Some bleu])].
Proof. exact (@compute_all_ok). Qed.
Print Assumptions C65_all_metrics_partial.
(* every type once, each guided one with a value of its type or an Error *)
Theorem C65_types : forall St py n (ev : evaluator St) r w types stem s res s' tr c model, python_ok py ->
  ev_client ev = Some (c, Some model) -> (0 <= ev_retries ev)%Z ->
  compute_all py n ev r w types stem s = (Ok res, s', tr) ->
  List.map fst res = [AnswerCorrectness; AnswerRelevance; Bias; ContextPrecision; ContextRecall; ContextRelevance; Faithfulness; Hallucination; SummaryCoherence; Toxicity; ROUGE; BLEU]
  /\ forall ty vs, In (ty, vs) res -> ty <> ROUGE -> ty <> BLEU -> exists mt, vs = [Some mt] /\
       ((m_type mt = ty /\ exists q, m_value mt = VNum q /\ in_range ty q) \/ m_type mt = ErrorType).
Proof.
  intros St py n ev r w types stem s res s' tr c model Hpy Hc Hr H. apply compute_all_ok in H. destruct H as (g & ro & b & T & _ & _ & ->). split.
  - rewrite map_app, (in_turn_types _ _ _ _ _ T). reflexivity.
  - intros ty vs Hin N1 N2. apply in_app_or in Hin. destruct Hin as [Hin|[H|[H|[]]]]; [|injection H as <- <-; congruence|injection H as <- <-; congruence].
    destruct (in_turn_each _ _ _ _ _ _ _ T Hin) as (m & s0 & v & s1 & t0 & Hm & E & ->).
    pose proof (method_safe py ev r ty m c model s0 Hpy Hm Hc Hr) as S. rewrite E in S. destruct v as [mt|]; [|destruct S]. exists mt. split; [reflexivity|].
    destruct S as [_ [S|[S _]]]; auto.
Qed.
Print Assumptions C65_types.
Example C65_example : exists res, compute_all demo_py demo_nlp (demo_ev 0) demo_qr demo_weights demo_types false demo_says = (Ok res, [], snd (compute_all demo_py demo_nlp (demo_ev 0) demo_qr demo_weights demo_types false demo_says))
  /\ List.length res = 12.
Proof. eexists. split; [vm_compute; reflexivity|reflexivity]. Qed.
Theorem C65_empty_context_refuted : forall St py n (ev : evaluator St) r w types stem c model,
  ev_client ev = Some (c, Some model) -> (0 <= ev_retries ev)%Z ->
  (qr_context r = None \/ exists x, qr_context r = Some x /\ prediction x = []) ->
  forall s res s' tr, compute_all py n ev r w types stem s <> (Ok res, s', tr).
Proof. exact (@compute_all_empty). Qed.
Print Assumptions C65_empty_context_refuted.
(* six questions were asked (and paid for) by then *)
Example C65_empty_example :
  let r := MkQR [] [] (Some (MkContext [[]] [])) in
  let run := compute_all demo_py demo_nlp (demo_ev 0) r demo_weights demo_types false
    (says [listing "statements" ["a"]; listing "statements" ["a"]; counts ["a"] [] []; listing "statements" ["a"]; verdicts ["yes"]; listing "opinions" []]) in
  fst (fst run) = Raised ValueError /\ List.length (snd run) = 6.
Proof. vm_compute. auto. Qed.

(* ---------------------------------------------------------------- C66 *)
Theorem C66_calls_of_a_metric : forall St py (ev : evaluator St) r ty m s, In (ty, m) (guided_methods py ev r) ->
  (Z.of_nat (List.length (snd (m s))) <= Z.max 0 (1 + ev_retries ev) * Z.of_nat (calls_of ty (groundtruths r)))%Z.
Proof. intros St py ev r ty m s. exact (method_calls py ev r ty m s). Qed.
Print Assumptions C66_calls_of_a_metric.
Theorem C66_calls_of_compute_all : forall St py n (ev : evaluator St) r w types stem s,
  (Z.of_nat (List.length (snd (compute_all py n ev r w types stem s))) <= Z.max 0 (1 + ev_retries ev) * (12 + 5 * Z.of_nat (groundtruths r)))%Z.
Proof. exact (@compute_all_calls). Qed.
Print Assumptions C66_calls_of_compute_all.
(* all 17 calls but one are made in the demo: with an empty list of opinions there is
   nothing to ask about bias *)
Example C66_example : List.length (snd (compute_all demo_py demo_nlp (demo_ev 0) demo_qr demo_weights demo_types false demo_says)) = 16.
Proof. vm_compute. reflexivity. Qed.

(* ---------------------------------------------------------------- C67 *)
(* BLEU: the library's value, with everything below 1e-9 (and NaN) replaced by 0 *)
Theorem C67_bleu : forall n p refs w f, calculate_sentence_bleu n p refs w = Ok f <->
  w <> [] /\ exists raw, nlp_bleu n p refs w = Ok raw /\
    match raw with
    | Fin q => ((tiny <= q)%Q /\ f = Fin q) \/ (~ (tiny <= q)%Q /\ f = Fin 0)
    | PInf => f = PInf
    | NInf | NaN => f = Fin 0
    end.
Proof. exact bleu_spec. Qed.
Print Assumptions C67_bleu.
Theorem C67_bleu_nonnegative : forall n p refs w f, calculate_sentence_bleu n p refs w = Ok f -> nonnegative f.
Proof. exact bleu_nonnegative. Qed.
Print Assumptions C67_bleu_nonnegative.
(* ROUGE: one metric for each requested type, in the order of the request, with the value
   the library gave for the only prediction, but not below 0 *)
Theorem C67_rouge : forall n r x types stem metrics, qr_context r = Some x -> NoDup types ->
  nlp_rouge n (qr_response r) (groundtruth x) types stem = Ok (Some metrics) ->
  (forall ms, compute_rouge n r types stem = Ok ms ->
     List.map m_params ms = List.map (fun t => PRouge t stem) types
     /\ Forall (fun m => m_type m = ROUGE) ms
     /\ (forall t, In t types -> exists v vs, rget t metrics = Some (v :: vs) /\
          In (MkMetric ROUGE (VFloat (match v with Fin q => if Qlt_le_dec q 0 then Fin 0 else Fin q | NInf => Fin 0 | _ => v end)) (PRouge t stem)) ms))
  /\ ((forall t, In t types -> exists v vs, rget t metrics = Some (v :: vs)) -> exists ms, compute_rouge n r types stem = Ok ms).
Proof.
  intros n r x types stem metrics Hx N E. unfold compute_rouge. rewrite Hx. split.
  - intros ms H. destruct (calculate_rouge_scores n (qr_response r) (groundtruth x) types stem) as [res|i|e] eqn:C; [|discriminate..]. injection H as <-.
    apply (rouge_ok n _ _ _ _ _ E) in C. destruct C as [A ->]. rewrite (firsts_id types [] N) by (intros t _ []). rewrite !map_map. cbn [m_params m_type fst].
    split; [reflexivity|]. split; [apply Forall_forall; intros m Hm; apply in_map_iff in Hm; destruct Hm as (t & <- & _); reflexivity|].
    intros t Ht. destruct (A t Ht) as (v & vs & R). exists v, vs. split; [exact R|]. apply in_map_iff. exists t. split; [|exact Ht]. cbn [fst snd]. do 2 f_equal.
    unfold rouge_value. rewrite R. unfold flt_max, flt_ltb, zero. destruct v as [q'| | |]; try reflexivity.
    destruct (Qlt_le_dec q' 0) as [L|L].
    + destruct (Qle_bool 0 q') eqn:B; [|reflexivity]. apply Qle_bool_iff in B. exfalso. apply (Qlt_not_le _ _ L B).
    + apply Qle_bool_iff in L. rewrite L. reflexivity.
  - intro A. assert (C : calculate_rouge_scores n (qr_response r) (groundtruth x) types stem = Ok (List.map (fun t => (t, rouge_value metrics t)) (firsts [] types))) by (apply (rouge_ok n _ _ _ _ _ E); auto).
    rewrite C. eexists. reflexivity.
Qed.
Print Assumptions C67_rouge.
(* requesting a type twice gives one metric *)
Theorem C67_rouge_distinct : forall n r types stem ms, compute_rouge n r types stem = Ok ms ->
  (forall x, nlp_rouge n (qr_response r) x types stem <> Ok None) ->
  NoDup (List.map m_params ms) /\ forall p, In p (List.map m_params ms) <-> exists t, In t types /\ p = PRouge t stem.
Proof.
  intros n r types stem ms H Hn. unfold compute_rouge in H. destruct (qr_context r) as [x|]; [|discriminate].
  destruct (calculate_rouge_scores n (qr_response r) (groundtruth x) types stem) as [res|i|e] eqn:C; [|discriminate..]. injection H as <-.
  destruct (nlp_rouge n (qr_response r) (groundtruth x) types stem) as [[metrics|]|i|e] eqn:E.
  - apply (rouge_ok n _ _ _ _ _ E) in C. destruct C as [_ ->]. rewrite !map_map. cbn [m_params fst]. split.
    + apply FinFun.Injective_map_NoDup; [intros a b X; injection X as ->; reflexivity|apply firsts_nodup].
    + intro p. rewrite in_map_iff. split.
      * intros (t & <- & Ht). apply firsts_in in Ht. exists t. split; [apply Ht|reflexivity].
      * intros (t & Ht & ->). exists t. split; [reflexivity|]. apply firsts_in. auto.
  - exfalso. apply (Hn _ E).
  - unfold calculate_rouge_scores in C. rewrite E in C. discriminate.
  - unfold calculate_rouge_scores in C. rewrite E in C. discriminate.
Qed.
Print Assumptions C67_rouge_distinct.
Example C67_example :
  compute_rouge demo_nlp demo_qr [lit "rouge1"; lit "rougeL"] true
  = Ok [MkMetric ROUGE (VFloat (Fin (1 # 2))) (PRouge (lit "rouge1") true); MkMetric ROUGE (VFloat (Fin (1 # 2))) (PRouge (lit "rougeL") true)]
  /\ option_map (@List.length metric) (match compute_rouge demo_nlp demo_qr demo_types false with Ok ms => Some ms | _ => None end) = Some 2
  /\ compute_sentence_bleu demo_nlp demo_qr demo_weights = Ok (MkMetric BLEU (VFloat (Fin 0)) (PBleu demo_weights)).
Proof. vm_compute. auto. Qed.

(* ---------------------------------------------------------------- C68 *)
Theorem C68_client_needed : forall St py (ev : evaluator St) r ty m s, In (ty, m) (guided_methods py ev r) ->
  (ev_client ev = None -> m s = (Raised ValueError, s, [])) /\
  (forall c, ev_client ev = Some (c, None) -> m s = (Raised AttributeError, s, [])).
Proof. intros St py ev r ty m s. exact (method_guards py ev r ty m s). Qed.
Print Assumptions C68_client_needed.
Theorem C68_context_needed : forall St py (ev : evaluator St) r c model, qr_context r = None ->
  ev_client ev = Some (c, Some model) -> (0 <= ev_retries ev)%Z ->
  forall ty m, In (ty, m) (guided_methods py ev r) -> uses_context ty = true -> forall s, m s = (Raised ValueError, s, []).
Proof. exact (@no_context_raises). Qed.
Print Assumptions C68_context_needed.
Theorem C68_seed_without_retries : forall St (mk : option Z -> client St * option text) retries seed sys,
  (openai mk retries seed sys = Raised ValueError <-> seed <> None /\ retries <> 0%Z)
  /\ (forall ev, openai mk retries seed sys = Ok ev -> ev_client ev = Some (mk seed) /\ ev_retries ev = retries /\ ev_system ev = sys).
Proof.
  intros St mk retries seed sys. unfold openai. destruct seed as [z|].
  - destruct (retries =? 0)%Z eqn:E; cbn [negb].
    + apply Z.eqb_eq in E. split; [split; [discriminate|tauto]|]. intros ev H. injection H as <-. auto.
    + apply Z.eqb_neq in E. split; [|discriminate]. split; [intros _; split; [discriminate|exact E]|reflexivity].
  - split; [split; [discriminate|tauto]|]. intros ev H. injection H as <-. auto.
Qed.
Print Assumptions C68_seed_without_retries.
Example C68_example :
  openai (fun _ => (script, Some (lit "gpt"))) 1 (Some 7%Z) [] = Raised ValueError
  /\ fst (fst (compute_bias demo_py (MkEv None 0 []) demo_qr (says ["x"]))) = Raised ValueError
  /\ fst (fst (compute_faithfulness demo_py (demo_ev 0) (MkQR [] [] None) (says ["x"]))) = Raised ValueError
  /\ uses_context Faithfulness = true.
Proof. vm_compute. auto. Qed.

(* ---------------------------------------------------------------- C69 *)
(* with a client whose answers do not depend on its state (fixed seed) the first attempt
   decides, whatever the number of retries *)
Theorem C69_stateless_client : forall St py (ev : evaluator St) r ty m p c model s, stateless c ->
  In (ty, m) (guided_methods py ev r) -> score_of py (ev_system ev) r ty = Some p ->
  ev_client ev = Some (c, Some model) -> (0 <= ev_retries ev)%Z ->
  fst (fst (m s)) = match fst (fst (p c s)) with
                    | Ok q => Ok (Some (MkMetric ty (VNum q) (PLlm model (ev_retries ev))))
                    | Invalid i => Ok (Some (MkMetric ErrorType (VError i) (PLlm model (ev_retries ev))))
                    | Raised e => Raised e
                    end.
Proof. intros St py ev r ty m p c model s. exact (stateless_method py ev r ty m p c model s). Qed.
Print Assumptions C69_stateless_client.
(* and compute_all reports what the single methods report *)
Theorem C69_compute_all_agrees : forall St py n (ev : evaluator St) r w types stem s res s' tr c model, stateless c ->
  ev_client ev = Some (c, Some model) -> (0 <= ev_retries ev)%Z ->
  compute_all py n ev r w types stem s = (Ok res, s', tr) ->
  forall ty m, In (ty, m) (guided_methods py ev r) -> forall s0, exists v, fst (fst (m s0)) = Ok v /\ In (ty, [v]) res.
Proof.
  intros St py n ev r w types stem s res s' tr c model Hst Hc Hr H ty m Hin s0. apply compute_all_ok in H. destruct H as (g & ro & b & T & _ & _ & ->).
  destruct (in_turn_all _ _ _ _ _ _ _ T Hin) as (s1 & v & s2 & t & E & Hv). exists v. split; [|apply in_or_app; left; exact Hv].
  destruct (method_wrapped py ev r ty m Hin) as (p & _ & Hp & _ & _).
  rewrite (stateless_method py ev r ty m p c model s0 Hst Hin Hp Hc Hr). pose proof (stateless_method py ev r ty m p c model s1 Hst Hin Hp Hc Hr) as X. rewrite E in X. cbn [fst] in X.
  destruct (built_steady c p Hst (score_built py ev r ty p Hp) s0 s1) as [Y _]. rewrite Y. symmetry. exact X.
Qed.
Print Assumptions C69_compute_all_agrees.
Example C69_example : stateless (parrot (Ok (lit "nothing"))) /\
  compute_bias demo_py (MkEv (Some (parrot (Ok (lit "nothing")), Some (lit "m"))) 2 []) demo_qr tt
  = (Ok (Some (MkMetric ErrorType (VError NoBrackets) (PLlm (lit "m") 2))), tt,
     List.repeat (([], AskOpinions (lit "In France.")), Ok (lit "nothing")) 3).
Proof. split; [intros s s' m; reflexivity|]. vm_compute. reflexivity. Qed.

(* ---------------------------------------------------------------- C70 *)
Theorem C70_messages : forall v, validate_messages v = Ok tt <->
  exists ms, v = JArr ms /\ Forall (fun m => exists d ro co, m = JObj d /\ dget (lit "role") d = Some (JStr ro) /\ dget (lit "content") d = Some (JStr co)) ms.
Proof. exact validate_messages_ok. Qed.
Print Assumptions C70_messages.
Theorem C70_own_messages_pass : forall render m, validate_messages (messages_of render m) = Ok tt.
Proof. exact messages_valid. Qed.
Print Assumptions C70_own_messages_pass.
(* OpenAI: the API is called once per question, and the token totals add up its usage *)
Theorem C70_openai_tokens : forall A (api : A -> json -> outcome api_answer * A) render s tr s', talk (openai_client api render) s tr s' ->
  exists log, api_talk api (oa_api s) log (oa_api s') /\ List.map fst log = List.map (fun x => messages_of render (fst x)) tr
    /\ oa_prompt s' = (oa_prompt s + sumZ (List.map (fun x => fst (billed (snd x))) log))%Z
    /\ oa_completion s' = (oa_completion s + sumZ (List.map (fun x => snd (billed (snd x))) log))%Z.
Proof. intros A api render. exact (openai_totals api render). Qed.
Print Assumptions C70_openai_tokens.
(* ... and a truncated or filtered answer never reaches the scores *)
Theorem C70_openai_answers : forall A (api : A -> json -> outcome api_answer * A) render s m t s',
  openai_client api render s m = (Ok t, s') ->
  exists content finish more usage, api (oa_api s) (messages_of render m) = (Ok (MkAnswer ((content, finish) :: more) usage), oa_api s')
    /\ finish <> lit "length" /\ finish <> lit "content_filter" /\ t = match content with None => [] | Some x => x end.
Proof.
  intros A api render s m t s' H. apply openai_step in H. destruct H as (an & E & _ & _ & H). destruct an as [[[|[content finish] more] usage]|i|e]; try discriminate.
  destruct (list_eq_dec Z.eq_dec finish (lit "length")); [discriminate|]. destruct (list_eq_dec Z.eq_dec finish (lit "content_filter")); [discriminate|].
  injection H as ->. exists content, finish, more, usage. auto.
Qed.
Print Assumptions C70_openai_answers.
(* Mistral: an answer cut off for its length never reaches the scores, unless it is empty *)
Theorem C70_mistral_answers : forall A (api : A -> json -> outcome (option (option (list mistral_choice))) * A) render s m t s',
  mistral_client api render s m = (Ok t, s') -> t <> [] ->
  exists finish more, api s (messages_of render m) = (Ok (Some (Some (MkChoice (Some (Some (JStr t))) finish :: more))), s') /\ finish <> lit "length".
Proof.
  intros A api render s m t s' H Ht. apply mistral_step in H. destruct H as (an & E & H).
  destruct an as [[[[|[[[content|]|] finish] more]|]|]|i|e]; try discriminate; try (injection H as ->; congruence).
  destruct (list_eq_dec Z.eq_dec finish (lit "length")); [discriminate|]. destruct content; try discriminate. injection H as <-. exists finish, more. auto.
Qed.
Print Assumptions C70_mistral_answers.
Definition demo_api : Z -> json -> outcome api_answer * Z :=
  fun n _ => (Ok (MkAnswer [(Some (lit "hi"), if (n <? 2)%Z then lit "stop" else lit "length")] (Some (10 + n, n)%Z)), (n + 1)%Z).
Example C70_example :
  let ask := ([], AskOpinions []) in
  talk (openai_client demo_api (fun _ => [])) (MkOa 0%Z 0 0) [(ask, Ok (lit "hi")); (ask, Ok (lit "hi")); (ask, Raised ValueError)] (MkOa 3%Z 33 3)
  /\ validate_messages (JArr [JObj [(lit "role", JStr [])]]) = Raised ValueError.
Proof. split; [|reflexivity]. repeat (eapply talk_next; [vm_compute; reflexivity|]). constructor. Qed.

(* ---------------------------------------------------------------- C71 *)
(* the score is 1 iff some context is relevant and no irrelevant one comes before a
   relevant one *)
Theorem C71_perfect_ranking : forall St (c : client St) py sys query predicted gts s q s' tr, python_ok py -> predicted <> [] -> gts <> [] ->
  returns (calculate_context_precision py sys query predicted gts) c s q s' tr ->
  exists vss, judged py (fun g => (sys, AskPrecision query predicted g)) yes_no (List.length predicted) gts tr vss
    /\ ((q == 1)%Q <-> (exists k, 1 <= k <= List.length predicted /\ relevant vss k = true)
        /\ (forall j k, 1 <= j -> j <= k -> k <= List.length predicted -> relevant vss k = true -> relevant vss j = true)).
Proof.
  intros St c py sys query predicted gts s q s' tr Hpy Hp Hg H. apply precision_ok in H; [|exact Hpy]. destruct H as [_ [(-> & _)|[(H & _)|(_ & _ & vss & J & E)]]]; [congruence|tauto|].
  exists vss. split; [exact J|]. rewrite E. apply mean_precision_one.
Qed.
Print Assumptions C71_perfect_ranking.
(* moving a relevant context one place up, past an irrelevant one, raises the score *)
Theorem C71_better_order : forall rel n k, 1 <= k -> S k <= n -> rel k = false -> rel (S k) = true ->
  (mean_precision rel n < mean_precision (swapped rel k) n)%Q.
Proof. exact mean_precision_swap. Qed.
Print Assumptions C71_better_order.
(* metric.py:186-191 documents 1 as "all contexts are useful": not so *)
Theorem C71_all_useful_refuted : exists answers, fst (fst (calculate_context_precision demo_py [] [] [[]; []] [[]] script (says [answers]))) = Ok 1%Q
  /\ answers = verdicts ["yes"; "no"].
Proof. exists (verdicts ["yes"; "no"]). split; [vm_compute; reflexivity|reflexivity]. Qed.
Print Assumptions C71_all_useful_refuted.
Example C71_example :
  let rel := fun k => (k =? 2) || (k =? 4) in
  (mean_precision rel 4 == 1 # 2)%Q /\ (mean_precision (swapped rel 1) 4 == 3 # 4)%Q /\ rel 1 = false /\ rel 2 = true.
Proof. repeat split; vm_compute; reflexivity. Qed.
