(* Vocabulary of the text generation properties (C41-C45, C63-C70). Nothing here calls
   the reading, validating or scoring functions of TextModel.v. *)
From Verif Require Import Prelude TextModel.
From Coq Require Import QArith String.
From Coq Require List.
Local Open Scope string_scope.
Local Open Scope nat_scope.
Local Open Scope list_scope.

(* ------------------------------------------------------------------ *)
(** * The runtime *)

(* digits have the values 0 to 9, the sign is not one, and iterating over a set visits
   each of its elements once *)
Record python_ok (py : python) : Prop := {
  digit_range : forall c d, py_digit py c = Some d -> (0 <= d <= 9)%Z;
  minus_no_digit : py_digit py 45 = None;
  set_order : forall l, NoDup l -> Permutation l (py_set_order py l)
}.

(* ------------------------------------------------------------------ *)
(** * Texts *)

(* [ext] is the part of [t] from its first opening brace to its last closing brace *)
Definition outer_braces (t ext : text) : Prop :=
  exists before middle after,
    t = before ++ (123%Z :: middle ++ [125%Z]) ++ after
    /\ ext = 123%Z :: middle ++ [125%Z]
    /\ ~ In 123%Z before /\ ~ In 125%Z after.
(* a closing brace somewhere after an opening one *)
Definition has_braces (t : text) : Prop :=
  exists i j, i < j /\ nth_error t i = Some 123%Z /\ nth_error t j = Some 125%Z.

(* the value of a sequence of decimal digits, most significant first *)
Fixpoint digits_value (ds : list Z) : Z :=
  match ds with
  | [] => 0
  | d :: r => (d * 10 ^ Z.of_nat (List.length r) + digits_value r)%Z
  end.
(* the first digits of [t], all of them, with values [ds]; [neg] tells whether a minus
   sign stands directly in front *)
Definition first_integer (digit : Z -> option Z) (t : text) (neg : bool) (ds : list Z) : Prop :=
  exists before number after,
    t = before ++ number ++ after
    /\ Forall2 (fun c d => digit c = Some d) number ds
    /\ number <> []
    /\ (forall c, In c before -> digit c = None)
    /\ (forall c r, after = c :: r -> digit c = None)
    /\ (neg = true <-> exists b, before = b ++ [45%Z]).

(* ------------------------------------------------------------------ *)
(** * Shapes of responses *)

Definition keys (d : dict) : list text := List.map fst d.
(* a list of strings under [key] *)
Definition statement_list (d : dict) (key : text) (l : list json) : Prop :=
  dget key d = Some (JArr l) /\ Forall (fun v => exists t, v = JStr t) l.
(* a verdict: exactly the two keys, and one of the allowed answers *)
Definition verdict (allowed : list text) (v : json) : Prop :=
  exists d t, v = JObj d
    /\ (forall k, In k (keys d) <-> k = lit "verdict" \/ k = lit "analysis")
    /\ dget (lit "verdict") d = Some (JStr t) /\ In t allowed.
Definition verdict_list (d : dict) (key : text) (allowed : list text) (n : Z) (l : list json) : Prop :=
  dget key d = Some (JArr l) /\ Z.of_nat (List.length l) = n /\ Forall (verdict allowed) l.
(* the documented shape: list[dict[str, str]] *)
Definition documented_verdict (allowed : list text) (v : json) : Prop :=
  exists d t a, v = JObj d
    /\ (forall k, In k (keys d) <-> k = lit "verdict" \/ k = lit "analysis")
    /\ dget (lit "verdict") d = Some (JStr t) /\ In t allowed
    /\ dget (lit "analysis") d = Some (JStr a).
(* Python refuses to look a list or a dict up in a set *)
Definition unhashable (v : json) : Prop := (exists l, v = JArr l) \/ (exists d, v = JObj d).

(* [t] contains, between its outer braces, a JSON object; [d] is it *)
Definition object_in (py : python) (t : text) (d : dict) : Prop :=
  exists ext, outer_braces t ext /\ py_loads py ext = Loaded d.
Definition reads_statements (py : python) (t : text) (key : string) (l : list json) : Prop :=
  exists d, object_in py t d /\ statement_list d (lit key) l.
Definition reads_verdicts (py : python) (t : text) (allowed : list text) (n : nat) (l : list json) : Prop :=
  exists d, object_in py t d /\ verdict_list d (lit "verdicts") allowed (Z.of_nat n) l.

(* ------------------------------------------------------------------ *)
(** * Conversations *)

(* the client, asked these messages one after the other from state [s] on, gave these
   answers and ended in [s'] *)
Inductive talk {St} (c : client St) : St -> list exchange -> St -> Prop :=
| talk_end s : talk c s [] s
| talk_next s m o s1 tr s2 : c s m = (o, s1) -> talk c s1 tr s2 -> talk c s ((m, o) :: tr) s2.

(* ------------------------------------------------------------------ *)
(** * Scores *)

Definition affirmative (v : json) : bool :=
  match v with
  | JObj d => match dget (lit "verdict") d with
              | Some (JStr t) => if list_eq_dec Z.eq_dec t (lit "yes") then true else false
              | _ => false
              end
  | _ => false
  end.
Definition fraction (a b : nat) : Q := (inject_Z (Z.of_nat a) / inject_Z (Z.of_nat b))%Q.
(* the share of the verdicts that say yes *)
Definition share (vs : list json) : Q := fraction (countb affirmative vs) (List.length vs).
(* F1 from its definition: the harmonic mean of precision and recall *)
Definition f1_score (tp fp fn : nat) : Q :=
  let p := fraction tp (tp + fp) in
  let r := fraction tp (tp + fn) in
  if (0 <? tp) then (2 * p * r / (p + r))%Q else 0%Q.
(* [q] is the largest element of [l] *)
Definition greatest (l : list Q) (q : Q) : Prop := (exists x, In x l /\ x == q)%Q /\ forall x, In x l -> (x <= q)%Q.

(* the relevant positions among 1..n *)
Definition precision_at (rel : nat -> bool) (k : nat) : Q := fraction (countb rel (seq 1 k)) k.
Definition sumQ (l : list Q) : Q := fold_right Qplus 0%Q l.
Definition mean_precision (rel : nat -> bool) (n : nat) : Q :=
  let ks := filter rel (seq 1 n) in
  if (0 <? List.length ks) then (sumQ (List.map (precision_at rel) ks) / inject_Z (Z.of_nat (List.length ks)))%Q else 0%Q.
(* position k (from 1) is relevant for some ground truth *)
Definition relevant (verdicts : list (list json)) (k : nat) : bool :=
  existsb (fun vs => match nth_error vs (k - 1) with Some v => affirmative v | None => false end) verdicts.

(* one exchange per ground truth, answered with a verdict for each context *)
Inductive judged (py : python) (ask : text -> message) (allowed : list text) (n : nat)
  : list text -> list exchange -> list (list json) -> Prop :=
| judged_nil : judged py ask allowed n [] [] []
| judged_cons g gs t vs tr vss : reads_verdicts py t allowed n vs -> judged py ask allowed n gs tr vss ->
    judged py ask allowed n (g :: gs) ((ask g, Ok t) :: tr) (vs :: vss).

(* for each ground truth: its statements, then a verdict for each of them *)
Inductive recalled (py : python) (sys : text) (contexts : list text) : list text -> list exchange -> list (list json) -> Prop :=
| recalled_nil : recalled py sys contexts [] [] []
| recalled_cons g gs t1 ss t2 vs tr vss :
    reads_statements py t1 "statements" ss -> reads_verdicts py t2 yes_no (List.length ss) vs ->
    recalled py sys contexts gs tr vss ->
    recalled py sys contexts (g :: gs) (((sys, AskStatements g), Ok t1) :: ((sys, AskRecall contexts ss), Ok t2) :: tr) (vs :: vss).

(* for each ground truth: its statements, then the counts of TP, FP and FN; every
   predicted statement is a TP or an FP, an FN is a statement of the ground truth *)
Inductive compared (py : python) (sys query : text) (ps : list json)
  : list text -> list exchange -> list (nat * nat * nat) -> Prop :=
| compared_nil : compared py sys query ps [] [] []
| compared_cons g gs t1 ss t2 d tp fp fn tr cs :
    reads_statements py t1 "statements" ss -> object_in py t2 d ->
    statement_list d (lit "TP") tp -> statement_list d (lit "FP") fp -> statement_list d (lit "FN") fn ->
    List.length tp + List.length fp = List.length ps -> List.length fn <= List.length ss ->
    compared py sys query ps gs tr cs ->
    compared py sys query ps (g :: gs)
      (((sys, AskStatements g), Ok t1) :: ((sys, AskCorrectness query ps ss), Ok t2) :: tr)
      ((List.length tp, List.length fp, List.length fn) :: cs).

(* ------------------------------------------------------------------ *)
(** * Attempts *)

(* [n] attempts in a row that ended in an invalid response; [last] is the last error *)
Inductive failing {St A} (fn : prog St A) (c : client St) : nat -> St -> list exchange -> option invalid -> St -> Prop :=
| failing_none s : failing fn c 0 s [] None s
| failing_next n s tr last s1 i tr1 s2 :
    failing fn c n s tr last s1 -> fn c s1 = (Invalid i, s2, tr1) ->
    failing fn c (S n) s (tr ++ tr1) (Some i) s2.

(* ------------------------------------------------------------------ *)
(** * Exceptions *)

(* an answer that makes the code raise [e]: the client raised it, json.loads did, or
   (TypeError) one of the verdicts is not hashable *)
Definition raises_by (py : python) (x : exchange) (e : pyerr) : Prop :=
  snd x = Raised e
  \/ (exists t ext, snd x = Ok t /\ outer_braces t ext /\ py_loads py ext = LoadsRaises e)
  \/ (e = TypeError /\ exists t d l d' v, snd x = Ok t /\ object_in py t d /\ dget (lit "verdicts") d = Some (JArr l)
       /\ In (JObj d') l /\ dget (lit "verdict") d' = Some v /\ unhashable v).

(* answers that pass the checks of the code and still make it raise: an empty list of
   statements for a ground truth; an integer that is too long for int() *)
Definition empty_groundtruth (py : python) (gts : list text) (e : pyerr) (tr : list exchange) : Prop :=
  e = ZeroDivisionError /\ exists sys g t, In g gts /\ In ((sys, AskStatements g), Ok t) tr /\ reads_statements py t "statements" [].
Definition long_integer (py : python) (e : pyerr) (tr : list exchange) : Prop :=
  e = ValueError /\ exists m t neg ds, In (m, Ok t) tr /\ first_integer (py_digit py) t neg ds
    /\ (0 < py_max_digits py < Z.of_nat (List.length ds))%Z.

(* ------------------------------------------------------------------ *)
(** * Results *)

(* [p], run on client [c] from state [s], returns the number [q] after the exchanges
   [tr], and leaves the client in state [s'] *)
Definition returns {St} (p : prog St Q) (c : client St) (s : St) (q : Q) (s' : St) (tr : list exchange) : Prop :=
  exists q0, p c s = (Ok q0, s', tr) /\ (q0 == q)%Q.

(* [ask1] is answered with a list of items; if there are any, [ask2] is answered with a
   verdict for each, and [q] is the share that says yes. Without items [q] is [none]. *)
Definition two_steps (py : python) (ask1 : message) (key : string) (ask2 : list json -> message) (allowed : list text) (none : Q)
  (q : Q) (tr : list exchange) : Prop :=
  exists t1 items, reads_statements py t1 key items /\
    ((items = [] /\ tr = [(ask1, Ok t1)] /\ (q == none)%Q) \/
     (items <> [] /\ exists t2 vs, tr = [(ask1, Ok t1); (ask2 items, Ok t2)]
        /\ reads_verdicts py t2 allowed (List.length items) vs /\ (q == share vs)%Q)).

(* the score behind each of the ten LLM-guided metrics *)
Definition with_context {St} (r : query_response) (k : context -> prog St Q) : prog St Q :=
  match qr_context r with None => fun _ s => (Raised ValueError, s, []) | Some x => k x end.
Definition score_of {St} (py : python) (sys : text) (r : query_response) (ty : mtype) : option (prog St Q) :=
  match ty with
  | AnswerCorrectness => Some (with_context r (fun x => calculate_answer_correctness py sys (qr_query r) (qr_response r) (groundtruth x)))
  | AnswerRelevance => Some (calculate_answer_relevance py sys (qr_query r) (qr_response r))
  | Bias => Some (calculate_bias py sys (qr_response r))
  | ContextPrecision => Some (with_context r (fun x => calculate_context_precision py sys (qr_query r) (prediction x) (groundtruth x)))
  | ContextRecall => Some (with_context r (fun x => calculate_context_recall py sys (prediction x) (groundtruth x)))
  | ContextRelevance => Some (with_context r (fun x => calculate_context_relevance py sys (qr_query r) (prediction x)))
  | Faithfulness => Some (with_context r (fun x => calculate_faithfulness py sys (qr_response r) (prediction x)))
  | Hallucination => Some (with_context r (fun x => calculate_hallucination py sys (qr_response r) (prediction x)))
  | SummaryCoherence => Some (calculate_summary_coherence py sys (qr_query r) (qr_response r))
  | Toxicity => Some (calculate_toxicity py sys (qr_response r))
  | BLEU | ROUGE | ErrorType => None
  end.
(* the metrics that look at the context *)
Definition uses_context (ty : mtype) : bool :=
  match ty with
  | AnswerCorrectness | ContextPrecision | ContextRecall | ContextRelevance | Faithfulness | Hallucination => true
  | _ => false
  end.
Definition in_range (ty : mtype) (q : Q) : Prop :=
  match ty with
  | SummaryCoherence => exists z, (q = inject_Z z)%Q /\ (1 <= z <= 5)%Z
  | _ => (0 <= q <= 1)%Q
  end.
(* the exceptions a metric can raise although the client answers and its answers are
   of the right shape *)
Definition gap (py : python) (r : query_response) (ty : mtype) (e : pyerr) (tr : list exchange) : Prop :=
  match qr_context r with
  | None => uses_context ty = true /\ e = ValueError
  | Some x => match ty with
              | Hallucination => e = ValueError /\ prediction x = []
              | ContextRecall => empty_groundtruth py (groundtruth x) e tr
              | _ => False
              end
  end
  \/ (ty = SummaryCoherence /\ long_integer py e tr).

(* the most calls one attempt can take, with [g] ground truths *)
Definition calls_of (ty : mtype) (g : nat) : nat :=
  match ty with
  | AnswerCorrectness => 1 + 2 * g
  | ContextPrecision => g
  | ContextRecall => 2 * g
  | ContextRelevance | Hallucination | SummaryCoherence => 1
  | AnswerRelevance | Bias | Faithfulness | Toxicity => 2
  | BLEU | ROUGE | ErrorType => 0
  end.
Definition groundtruths (r : query_response) : nat :=
  match qr_context r with None => 0 | Some x => List.length (groundtruth x) end.

(* a client whose answers depend on the question alone *)
Definition stateless {St} (c : client St) : Prop := forall s s' m, fst (c s m) = fst (c s' m).

(* the methods run one after the other on the same client; each gives one value *)
Inductive in_turn {St} : list (mtype * method St (option metric)) -> St -> list (mtype * list (option metric)) -> St -> list exchange -> Prop :=
| turn_nil s : in_turn [] s [] s []
| turn_cons ty m ms s v s1 t1 res s2 t2 : m s = (Ok v, s1, t1) -> in_turn ms s1 res s2 t2 ->
    in_turn ((ty, m) :: ms) s ((ty, [v]) :: res) s2 (t1 ++ t2).

(* positions [k] and [k+1] exchanged *)
Definition swapped (rel : nat -> bool) (k : nat) : nat -> bool :=
  fun j => if j =? k then rel (S k) else if j =? S k then rel k else rel j.

(* ------------------------------------------------------------------ *)
(** * BLEU and ROUGE *)

(* a number that is not negative (infinity is possible, NaN is not a number) *)
Definition nonnegative (f : flt) : Prop := match f with Fin q => (0 <= q)%Q | PInf => True | NInf | NaN => False end.

(* ------------------------------------------------------------------ *)
(** * Clients *)

(* the API, sent these messages one after the other, gave these answers *)
Inductive api_talk {A R} (api : A -> json -> outcome R * A) : A -> list (json * outcome R) -> A -> Prop :=
| api_end a : api_talk api a [] a
| api_next a m o a1 log a2 : api a m = (o, a1) -> api_talk api a1 log a2 -> api_talk api a ((m, o) :: log) a2.
(* what a response to the OpenAI wrapper is billed: nothing unless it has a choice *)
Definition billed (o : outcome api_answer) : Z * Z :=
  match o with
  | Ok (MkAnswer (_ :: _) (Some u)) => u
  | _ => (0, 0)%Z
  end.
Definition sumZ (l : list Z) : Z := fold_right Z.add 0%Z l.
