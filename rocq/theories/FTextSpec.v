(* Specification for the text-generation scores as binary64 numbers and for the documents
   of the metrics. *)
From Verif Require Import Prelude FloatProofs TextModel TextSpec FTextModel.   (* FloatProofs for [pow2] *)
From Verif Require Import FReportSpec.                                          (* [half_ulp], [within] *)
From Coq Require Import QArith Qabs String.
Local Open Scope Z_scope.

(* v is q, in [0, 1], rounded once: no number of 53 bits is nearer to q *)
Definition best_score (q v : Q) : Prop :=
  (forall k e, Z.abs k <= 2 ^ 53 -> (Qabs (v - q) <= Qabs (inject_Z k * pow2 e - q))%Q) /\
  (0 <= v <= 1)%Q /\ (Qabs (v - q) <= half_ulp * q)%Q /\ ((v == 0)%Q <-> (q == 0)%Q) /\ ((q == 1)%Q -> (v == 1)%Q).
(* v is q up to the roundings of a few operations *)
Definition close_score (ops : Z) (q v : Q) : Prop :=
  (0 <= v <= 1)%Q /\ (Qabs (v - q) <= inject_Z ops * half_ulp * q)%Q /\ ((v == 0)%Q <-> (q == 0)%Q) /\ ((q == 1)%Q -> (v == 1)%Q).
(* v is within [ops] half ulps of q, and 0 or 1 exactly when q is *)
Definition near_score (ops : Z) (q v : Q) : Prop :=
  (0 <= v <= 1)%Q /\ within ops q v /\ ((v == 0)%Q <-> (q == 0)%Q) /\ ((v == 1)%Q <-> (q == 1)%Q).

Definition contexts_of (r : query_response) : Z := match qr_context r with Some x => Z.of_nat (List.length (prediction x)) | None => 0 end.
(* what v says about the exact score q of a metric *)
Definition reported_score (new : bool) (r : query_response) (ty : mtype) (q v : Q) : Prop :=
  match ty with
  | SummaryCoherence => v = q
  | AnswerCorrectness => close_score 5 q v
  | ContextPrecision => contexts_of r <= 65536 -> near_score (if new then 4 else contexts_of r + 1) q v
  | _ => best_score q v
  end.

(* ------------------------------------------------------------------ *)
(** * Runs that agree but for the scores *)

Definition out_rel {A B} (R : A -> B -> Prop) (x : outcome A) (y : outcome B) : Prop :=
  match x, y with
  | Ok a, Ok b => R a b
  | Invalid i, Invalid j => i = j
  | Raised e, Raised e' => e = e'
  | _, _ => False
  end.
Definition run_rel {S A B} (R : A -> B -> Prop) (x : outcome A * S * list exchange) (y : outcome B * S * list exchange) : Prop :=
  out_rel R (fst (fst x)) (fst (fst y)) /\ snd (fst x) = snd (fst y) /\ snd x = snd y.
Definition same_metric (new : bool) (r : query_response) (m m' : metric) : Prop :=
  m_type m = m_type m' /\ m_params m = m_params m' /\
  match m_value m, m_value m' with
  | VNum q, VNum v => reported_score new r (m_type m) q v
  | VNum _, _ | _, VNum _ => False
  | a, b => a = b
  end.
Definition same_option (new : bool) (r : query_response) (x y : option metric) : Prop :=
  match x, y with Some m, Some m' => same_metric new r m m' | None, None => True | _, _ => False end.

Definition same_entry (new : bool) (r : query_response) (x y : mtype * list (option metric)) : Prop :=
  fst x = fst y /\ Forall2 (same_option new r) (snd x) (snd y).

(* ------------------------------------------------------------------ *)
(** * Documents *)

Definition entry_doc (name : string) (value parameters : tdoc) : tdoc :=
  TDict [(lit "type", TStr (lit name)); (lit "value", value); (lit "parameters", parameters)].
(* the ten guided metrics, in the order of compute_all *)
Definition guided_names : list (mtype * string) :=
  [(AnswerCorrectness, "AnswerCorrectness"); (AnswerRelevance, "AnswerRelevance"); (Bias, "Bias"); (ContextPrecision, "ContextPrecision");
   (ContextRecall, "ContextRecall"); (ContextRelevance, "ContextRelevance"); (Faithfulness, "Faithfulness"); (Hallucination, "Hallucination");
   (SummaryCoherence, "SummaryCoherence"); (Toxicity, "Toxicity")]%string.
(* a score between 0 and 1, or an integer from 1 to 5 *)
Definition score_doc (ty : mtype) (d : tdoc) : Prop :=
  match ty with
  | SummaryCoherence => exists z, d = TInt z /\ 1 <= z <= 5
  | _ => exists v, d = TFloat (Fin v) /\ (0 <= v <= 1)%Q
  end.
Section Docs.
  Variables err_name err_text : invalid -> text.
  (* the document of a guided metric: the score, or the error of the last attempt *)
  Definition guided_doc (model : text) (retries : Z) (x : mtype * string) (d : tdoc) : Prop :=
    let ps := TDict [(lit "evaluator", TStr model); (lit "retries", TInt retries)] in
    (exists v, d = entry_doc (snd x) v ps /\ score_doc (fst x) v) \/
    (exists i, d = entry_doc "Error" (TDict [(lit "type", TStr (err_name i)); (lit "message", TStr (err_text i))]) ps).
  Definition rouge_doc (stemmer : bool) (ty : text) (d : tdoc) : Prop :=
    exists f, d = entry_doc "ROUGE" (TFloat f) (TDict [(lit "rouge_type", TStr ty); (lit "use_stemmer", TBool stemmer)]).
  Definition bleu_doc (weights : list flt) (d : tdoc) : Prop :=
    exists f, d = entry_doc "BLEU" (TFloat f) (TDict [(lit "weights", TList (map TFloat weights))]).
  (* the documents of what compute_all returns, in order; nothing is missing *)
  Definition shows_docs (res : list (mtype * list (option metric))) (ds : list tdoc) : Prop :=
    Forall2 (fun o d => exists m, o = Some m /\ d = to_doc err_name err_text m) (flat_map snd res) ds.
End Docs.
(* what tells a document apart: its type and its parameters *)
Definition identity_of (d : tdoc) : option (tdoc * tdoc) :=
  match d with TDict [(_, ty); _; (_, ps)] => Some (ty, ps) | _ => None end.
Definition is_error (d : tdoc) : Prop := exists v ps, d = entry_doc "Error" v ps.
