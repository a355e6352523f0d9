(* Model of the text-generation scores as binary64 numbers, and of the metrics as the
   documents that to_dict returns.  Definitions only.  [TextModel] keeps the scores as exact
   rationals; here each division, product and sum is rounded with [FloatModel.rnd]. *)
From Verif Require Import Prelude FloatModel TextModel.
From Verif Require FReportModel.
From Coq Require Import QArith Qabs String.
From Coq Require List.
Local Open Scope string_scope.
Local Open Scope nat_scope.
Local Open Scope list_scope.

(* ------------------------------------------------------------------ *)
(** * Python's arithmetic *)

(* a / b of two ints, 0 <= a and 0 <= b: Python rounds the exact quotient once, whatever
   the size of a and b *)
Definition fdivide (a b : Z) : outcome Q :=
  if (b =? 0)%Z then Raised ZeroDivisionError else Ok (rnd (inject_Z a / inject_Z b)).
(* an int that meets a float in an operation is converted first *)
Definition of_int (z : Z) : Q := rnd (inject_Z z).

(* the builtin sum on a list of floats, before Python 3.12: 0 + x is x *)
Definition sum_plain (l : list Q) : Q := fold_left (fun a x => rnd (a + x)) l 0%Q.
(* from Python 3.12 on: Neumaier's compensated sum (Python/bltinmodule.c, builtin_sum);
   the state is the sum so far and the compensation *)
Definition sum_step (st : Q * Q) (x : Q) : Q * Q :=
  let '(a, c) := st in
  let t := rnd (a + x) in
  let d := if Qle_bool (Qabs x) (Qabs a) then FReportModel.srnd (FReportModel.srnd (a - t) + x)
           else FReportModel.srnd (FReportModel.srnd (x - t) + a) in
  (t, FReportModel.srnd (c + d)).
Definition sum_compensated (l : list Q) : Q :=
  match l with
  | [] => 0%Q
  | x :: r => let '(a, c) := fold_left sum_step r (x, 0%Q) in if Qeq_bool c 0 then a else rnd (a + c)
  end.
(* [new]: Python 3.12 or newer (src/pyproject.toml:6 asks for 3.10) *)
Definition py_sum (new : bool) (l : list Q) : Q := if new then sum_compensated l else sum_plain l.

(* ------------------------------------------------------------------ *)
(** * The scores *)

(* sum(verdict["verdict"] == "yes" for verdict in verdicts) / len(verdicts) *)
Definition fyes_fraction (vs : list json) : outcome Q :=
  match yes_list vs with
  | Ok bs => fdivide (count_true bs) (len vs)
  | Invalid i => Invalid i
  | Raised e => Raised e
  end.

(* models: computation.py:82: tp / (tp + 0.5 * (fp + fn)) if tp > 0 else 0 *)
Definition ff1_of (tp fp fn : Z) : Q :=
  if (0 <? tp)%Z then rnd (of_int tp / rnd (of_int tp + rnd ((1 # 2) * of_int (fp + fn)))) else 0%Q.
(* models: computation.py:62-82 the loop over the ground truths *)
Fixpoint fcorrectness_loop {St} py (sys query : text) (prediction : list json) (gts : list text) (f1s : list Q) : prog St (list Q) :=
  match gts with
  | [] => ret (Ok f1s)
  | g :: r =>
      bind (generate_statements py sys g) (fun gs =>
      bind (generate_answer_correctness_verdicts py sys query prediction gs) (fun v =>
      match v with (tp, fp, fn) =>
        fcorrectness_loop py sys query prediction r (f1s ++ [ff1_of (len tp) (len fp) (len fn)])
      end))
  end.
(* models: computation.py:19-84 calculate_answer_correctness *)
Definition fcalculate_answer_correctness {St} py (sys query response : text) (groundtruths : list text) : prog St Q :=
  bind (generate_statements py sys response) (fun ps =>
  bind (fcorrectness_loop py sys query ps groundtruths [0%Q]) (fun f1s => ret (max_of f1s))).

(* models: computation.py:87-130 calculate_answer_relevance *)
Definition fcalculate_answer_relevance {St} py (sys query response : text) : prog St Q :=
  bind (generate_statements py sys response) (fun ss =>
  bind (generate_answer_relevance_verdicts py sys query ss) (fun vs =>
  if (len vs =? 0)%Z then ret (Ok 0%Q) else ret (fyes_fraction vs))).

(* models: computation.py:133-172 calculate_bias *)
Definition fcalculate_bias {St} py (sys response : text) : prog St Q :=
  bind (generate_opinions py sys response) (fun os =>
  if (len os =? 0)%Z then ret (Ok 0%Q)
  else bind (generate_bias_verdicts py sys os) (fun vs => ret (fyes_fraction vs))).

(* models: computation.py:246-253, k from [k] on ([seen]: the verdicts before) *)
Fixpoint fprecisions (seen rest : list bool) : list Q :=
  match rest with
  | [] => []
  | b :: r =>
      let seen' := seen ++ [b] in
      if b then rnd (inject_Z (count_true seen') / inject_Z (len seen')) :: fprecisions seen' r
      else fprecisions seen' r
  end.
(* models: computation.py:245-260: the sum is a float, the length an int *)
Definition fprecision_score (new : bool) (agg : list bool) : outcome Q :=
  match fprecisions [] agg with
  | [] => Ok 0%Q
  | ps => Ok (rnd (py_sum new ps / of_int (len ps)))
  end.
(* models: computation.py:175-260 calculate_context_precision *)
Definition fcalculate_context_precision {St} py (new : bool) (sys query : text) (predicted groundtruth : list text) : prog St Q :=
  if (len predicted =? 0)%Z && (len groundtruth =? 0)%Z then ret (Ok 1%Q)
  else if (len predicted =? 0)%Z || (len groundtruth =? 0)%Z then ret (Ok 0%Q)
  else bind (precision_loop py sys query predicted groundtruth (List.map (fun _ => false) predicted)) (fun agg =>
       ret (fprecision_score new agg)).

(* models: computation.py:299-316 the loop over the ground truths *)
Fixpoint frecall_loop {St} py (sys : text) (contexts gts : list text) (scores : list Q) : prog St (list Q) :=
  match gts with
  | [] => ret (Ok scores)
  | g :: r =>
      bind (generate_statements py sys g) (fun ss =>
      bind (generate_context_recall_verdicts py sys contexts ss) (fun vs =>
      bind (ret (fyes_fraction vs)) (fun q => frecall_loop py sys contexts r (scores ++ [q]))))
  end.
(* models: computation.py:263-318 calculate_context_recall *)
Definition fcalculate_context_recall {St} py (sys : text) (predicted groundtruth : list text) : prog St Q :=
  if (len predicted =? 0)%Z && (len groundtruth =? 0)%Z then ret (Ok 1%Q)
  else if (len predicted =? 0)%Z || (len groundtruth =? 0)%Z then ret (Ok 0%Q)
  else bind (frecall_loop py sys predicted groundtruth []) (fun scores => ret (max_of scores)).

(* models: computation.py:321-359 calculate_context_relevance *)
Definition fcalculate_context_relevance {St} py (sys query : text) (contexts : list text) : prog St Q :=
  if (len contexts =? 0)%Z then ret (Ok 0%Q)
  else bind (generate_context_relevance_verdicts py sys query contexts) (fun vs => ret (fyes_fraction vs)).

(* models: computation.py:362-410 calculate_faithfulness *)
Definition fcalculate_faithfulness {St} py (sys response : text) (contexts : list text) : prog St Q :=
  if (len contexts =? 0)%Z then ret (Ok 0%Q)
  else bind (generate_claims py sys response) (fun cs =>
       if (len cs =? 0)%Z then ret (Ok 1%Q)
       else bind (generate_faithfulness_verdicts py sys cs contexts) (fun vs => ret (fyes_fraction vs))).

(* models: computation.py:413-451 calculate_hallucination *)
Definition fcalculate_hallucination {St} py (sys response : text) (contexts : list text) : prog St Q :=
  if (len contexts =? 0)%Z then ret (Raised ValueError)
  else bind (generate_hallucination_verdicts py sys response contexts) (fun vs => ret (fyes_fraction vs)).

(* models: computation.py:489-527 calculate_toxicity *)
Definition fcalculate_toxicity {St} py (sys response : text) : prog St Q :=
  bind (generate_opinions py sys response) (fun os =>
  if (len os =? 0)%Z then ret (Ok 0%Q)
  else bind (generate_toxicity_verdicts py sys os) (fun vs => ret (fyes_fraction vs))).

(* ------------------------------------------------------------------ *)
(** * The evaluator *)

(* models: manager.py:183-551: the guided methods, in the order of compute_all, as
   [TextModel.guided_methods] but with the computed scores *)
Definition fguided_methods {St} py (new : bool) (ev : evaluator St) (r : query_response) : list (mtype * method St (option metric)) :=
  let sys := ev_system ev in
  [ (AnswerCorrectness, guided ev (fun model => needs_context r (fun x =>
       scored ev AnswerCorrectness (fcalculate_answer_correctness py sys (qr_query r) (qr_response r) (groundtruth x)) model)));
    (AnswerRelevance, guided ev (scored ev AnswerRelevance (fcalculate_answer_relevance py sys (qr_query r) (qr_response r))));
    (Bias, guided ev (scored ev Bias (fcalculate_bias py sys (qr_response r))));
    (ContextPrecision, guided ev (fun model => needs_context r (fun x =>
       scored ev ContextPrecision (fcalculate_context_precision py new sys (qr_query r) (prediction x) (groundtruth x)) model)));
    (ContextRecall, guided ev (fun model => needs_context r (fun x =>
       scored ev ContextRecall (fcalculate_context_recall py sys (prediction x) (groundtruth x)) model)));
    (ContextRelevance, guided ev (fun model => needs_context r (fun x =>
       scored ev ContextRelevance (fcalculate_context_relevance py sys (qr_query r) (prediction x)) model)));
    (Faithfulness, guided ev (fun model => needs_context r (fun x =>
       scored ev Faithfulness (fcalculate_faithfulness py sys (qr_response r) (prediction x)) model)));
    (Hallucination, guided ev (fun model => needs_context r (fun x =>
       scored ev Hallucination (fcalculate_hallucination py sys (qr_response r) (prediction x)) model)));
    (SummaryCoherence, guided ev (scored ev SummaryCoherence (calculate_summary_coherence py sys (qr_query r) (qr_response r))));
    (Toxicity, guided ev (scored ev Toxicity (fcalculate_toxicity py sys (qr_response r)))) ].
(* models: manager.py:632-697 compute_all *)
Definition fcompute_all {St} py (new : bool) (n : nlp) (ev : evaluator St) (r : query_response) (weights : list flt) (types : list text) (stemmer : bool)
    : method St (list (mtype * list (option metric))) :=
  mbind (run_methods (fguided_methods py new ev r)) (fun res =>
  mbind (mret (compute_rouge n r types stemmer)) (fun rouges =>
  mbind (mret (compute_sentence_bleu n r weights)) (fun bleu =>
  mret (Ok (res ++ [(ROUGE, List.map Some rouges); (BLEU, [Some bleu])]))))).

(* ------------------------------------------------------------------ *)
(** * Documents *)

(* what to_dict returns *)
Inductive tdoc : Type :=
| TInt (z : Z) | TFloat (f : flt) | TBool (b : bool) | TStr (t : text)
| TList (l : list tdoc) | TDict (d : list (text * tdoc)).

(* models: metric.py:7-19 MetricType, a str; "Error" of metric.py:63 *)
Definition type_name (ty : mtype) : text :=
  match ty with
  | AnswerCorrectness => lit "AnswerCorrectness"
  | AnswerRelevance => lit "AnswerRelevance"
  | Bias => lit "Bias"
  | BLEU => lit "BLEU"
  | ContextPrecision => lit "ContextPrecision"
  | ContextRecall => lit "ContextRecall"
  | ContextRelevance => lit "ContextRelevance"
  | Faithfulness => lit "Faithfulness"
  | Hallucination => lit "Hallucination"
  | ROUGE => lit "ROUGE"
  | SummaryCoherence => lit "SummaryCoherence"
  | Toxicity => lit "Toxicity"
  | ErrorType => lit "Error"
  end.

Section Documents.
  (* the class name and str() of the error that stopped the last attempt: the name is
     InvalidLLMResponseError unless the client raises a subclass *)
  Variable err_name : invalid -> text.
  Variable err_text : invalid -> text.

  (* models: metric.py:55-73 (manager.py:56-62) for errors; the score of a summary is an
     int (metric.py:334-360), the other values are floats *)
  Definition value_doc (m : metric) : tdoc :=
    match m_value m with
    | VNum q => match m_type m with SummaryCoherence => TInt (Qnum (Qred q)) | _ => TFloat (Fin q) end
    | VFloat f => TFloat f
    | VError i => TDict [(lit "type", TStr (err_name i)); (lit "message", TStr (err_text i))]
    end.
  (* models: metric.py:68-72, 91-94 and so on; 143-147 bleu; 322-331 rouge *)
  Definition params_doc (p : mparams) : tdoc :=
    match p with
    | PLlm model retries => TDict [(lit "evaluator", TStr model); (lit "retries", TInt retries)]
    | PRouge ty stemmer => TDict [(lit "rouge_type", TStr ty); (lit "use_stemmer", TBool stemmer)]
    | PBleu weights => TDict [(lit "weights", TList (List.map TFloat weights))]
    end.
  (* models: schemas.py:10-11 to_dict *)
  Definition to_doc (m : metric) : tdoc :=
    TDict [(lit "type", TStr (type_name (m_type m))); (lit "value", value_doc m); (lit "parameters", params_doc (m_params m))].
End Documents.
