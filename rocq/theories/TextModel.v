(* Model of valor_lite/text_generation: reading LLM responses, validation, the scores,
   retries, the evaluator and the client wrappers. Definitions only. *)
From Verif Require Import Prelude.
From Coq Require Import QArith String Ascii.
From Coq Require List.
Local Open Scope string_scope.
Local Open Scope nat_scope.
Local Open Scope list_scope.

(* ------------------------------------------------------------------ *)
(** * Strings, JSON values, exceptions *)

(* A Python str: its code points. *)
Notation text := (list Z).
(* a literal of the source *)
Definition lit (s : string) : text :=
  List.map (fun a => Z.of_nat (nat_of_ascii a)) (list_ascii_of_string s).
Fixpoint text_eqb (a b : text) : bool :=
  match a, b with
  | [], [] => true
  | x :: a', y :: b' => Z.eqb x y && text_eqb a' b'
  | _, _ => false
  end.

(* What json.loads returns. Floats are opaque ([JFloat] carries a name of the value):
   no code below looks inside one. *)
Inductive json : Type :=
| JNull | JBool (b : bool) | JInt (z : Z) | JFloat (z : Z) | JStr (t : text)
| JArr (l : list json)
| JObj (d : list (text * json)).
Notation dict := (list (text * json)).
(* d[k] / k in d, for a dict with distinct keys *)
Fixpoint dget (k : text) (d : dict) : option json :=
  match d with
  | [] => None
  | (k', v) :: r => if text_eqb k k' then Some v else dget k r
  end.

(* Exceptions other than InvalidLLMResponseError. [Foreign] stands for whatever the
   client, json.loads or a library raises. *)
Inductive pyerr : Type :=
| ValueError | TypeError | AttributeError | KeyError | IndexError | ZeroDivisionError
| Foreign (n : Z).
(* The InvalidLLMResponseErrors of the code, one constructor for each message; the
   response that the messages quote is left out. *)
Inductive invalid : Type :=
| NoBrackets | BadJson | MissingKey (k : text) | BadFormat | BadKeys | OutsideAllowed
| WrongLength (n : Z)
| CountMismatch | TooManyNegatives | NoInteger | ScoreRange (z : Z)
| ClientInvalid (n : Z).
Inductive outcome (A : Type) : Type :=
| Ok (a : A) | Invalid (i : invalid) | Raised (e : pyerr).
Arguments Ok {A} a.
Arguments Invalid {A} i.
Arguments Raised {A} e.

(* What the code uses of the Python runtime.
   - [py_loads]: json.loads on a text that starts with an opening brace; it returns a
     dict, raises JSONDecodeError, or something else (ValueError for an integer of too
     many digits, RecursionError);
   - [py_digit]: the characters that \d matches, with their value (int() reads the same);
   - [py_max_digits]: sys.get_int_max_str_digits(), 4300 by default, 0 for no limit;
   - [py_set_order]: the order in which a set of strings is iterated over. *)
Inductive loaded : Type := Loaded (d : dict) | DecodeError | LoadsRaises (e : pyerr).
Record python : Type := MkPy {
  py_loads : text -> loaded;
  py_digit : Z -> option Z;
  py_max_digits : Z;
  py_set_order : list text -> list text
}.

(* ------------------------------------------------------------------ *)
(** * Reading a response *)

Definition open_brace : Z := 123.
Definition close_brace : Z := 125.
Definition minus : Z := 45.

(* the greedy [\s\S]*\} at the start of t: the longest prefix that ends in a brace *)
Fixpoint upto_last_close (t : text) : option text :=
  match t with
  | [] => None
  | c :: r => match upto_last_close r with
              | Some b => Some (c :: b)
              | None => if Z.eqb c close_brace then Some [c] else None
              end
  end.
(* models: llm/utilities.py:23-24 re.search(r"\{[\s\S]*\}", text): the leftmost match *)
Fixpoint search_braces (t : text) : option text :=
  match t with
  | [] => None
  | c :: r => if Z.eqb c open_brace
              then match upto_last_close r with
                   | Some b => Some (c :: b)
                   | None => search_braces r
                   end
              else search_braces r
  end.
(* models: llm/utilities.py:8-36 trim_and_load_json *)
Definition trim_and_load_json (py : python) (t : text) : outcome dict :=
  match search_braces t with
  | None => Invalid NoBrackets
  | Some ext => match py_loads py ext with
                | Loaded d => Ok d
                | DecodeError => Invalid BadJson
                | LoadsRaises e => Raised e
                end
  end.

(* the greedy \d+ (as \d* after the first one): the values of the leading digits *)
Fixpoint leading_digits (digit : Z -> option Z) (t : text) : list Z :=
  match t with
  | [] => []
  | c :: r => match digit c with Some d => d :: leading_digits digit r | None => [] end
  end.
(* -?\d+ at the start of t: the sign and the digits *)
Definition signed_at (digit : Z -> option Z) (t : text) : option (bool * list Z) :=
  let unsigned := match leading_digits digit t with [] => None | ds => Some (false, ds) end in
  match t with
  | c :: r => if Z.eqb c minus
              then match leading_digits digit r with
                   | [] => unsigned
                   | ds => Some (true, ds)
                   end
              else unsigned
  | [] => None
  end.
(* models: llm/utilities.py:40 re.search(r"-?\d+", text): the leftmost match *)
Fixpoint search_signed (digit : Z -> option Z) (t : text) : option (bool * list Z) :=
  match signed_at digit t with
  | Some m => Some m
  | None => match t with [] => None | _ :: r => search_signed digit r end
  end.
Definition int_of (ds : list Z) : Z := fold_left (fun acc d => (acc * 10 + d)%Z) ds 0%Z.
(* models: llm/utilities.py:39-43 find_first_signed_integer; int() raises ValueError
   for more than [py_max_digits] digits *)
Definition find_first_signed_integer (py : python) (t : text) : outcome (option Z) :=
  match search_signed (py_digit py) t with
  | None => Ok None
  | Some (neg, ds) =>
      if (0 <? py_max_digits py)%Z && (py_max_digits py <? Z.of_nat (List.length ds))%Z
      then Raised ValueError
      else Ok (Some (if neg then (- int_of ds)%Z else int_of ds))
  end.

(* ------------------------------------------------------------------ *)
(** * Validation *)

Definition is_str (v : json) : bool := match v with JStr _ => true | _ => false end.
(* v in {..} for a set of strings; None is the TypeError for an unhashable v *)
Definition in_set (v : json) (allowed : list text) : option bool :=
  match v with
  | JStr t => Some (existsb (text_eqb t) allowed)
  | JArr _ | JObj _ => None
  | _ => Some false
  end.
(* [v in allowed_values for v in l], all(..) of it *)
Fixpoint all_in_set (l : list json) (allowed : list text) : option bool :=
  match l with
  | [] => Some true
  | v :: r => match in_set v allowed, all_in_set r allowed with
              | Some b, Some b' => Some (b && b')
              | _, _ => None
              end
  end.
Definition wrong_length (enforce : option Z) (l : list json) : bool :=
  match enforce with Some n => negb (n =? Z.of_nat (List.length l))%Z | None => false end.
Definition length_of (enforce : option Z) : Z := match enforce with Some n => n | None => 0%Z end.

(* models: llm/validators.py:4-31 validate_statements (keys are always str) *)
Definition validate_statements (d : dict) (key : text) (allowed : option (list text)) (enforce : option Z) : outcome unit :=
  match dget key d with
  | None => Invalid (MissingKey key)
  | Some (JArr l) =>
      if negb (forallb is_str l) then Invalid BadFormat
      else match match allowed with None => Some true | Some a => all_in_set l a end with
           | None => Raised TypeError
           | Some false => Invalid OutsideAllowed
           | Some true => if wrong_length enforce l then Invalid (WrongLength (length_of enforce)) else Ok tt
           end
  | Some _ => Invalid BadFormat
  end.

(* set(value.keys()) != {"verdict", "analysis"} *)
Definition keys_are (d : dict) (ks : list text) : bool :=
  forallb (fun kv => existsb (text_eqb (fst kv)) ks) d
  && forallb (fun k => existsb (fun kv => text_eqb k (fst kv)) d) ks.
(* models: llm/validators.py:54-68, the loop over the verdicts *)
Fixpoint validate_values (l : list json) (allowed : option (list text)) : outcome unit :=
  match l with
  | [] => Ok tt
  | JObj d :: r =>
      if negb (keys_are d [lit "verdict"; lit "analysis"]) then Invalid BadKeys
      else match allowed with
           | None => validate_values r allowed
           | Some a => match dget (lit "verdict") d with
                       | None => Raised KeyError
                       | Some v => match in_set v a with
                                   | None => Raised TypeError
                                   | Some false => Invalid OutsideAllowed
                                   | Some true => validate_values r allowed
                                   end
                       end
           end
  | _ :: _ => Invalid BadFormat
  end.
(* models: llm/validators.py:34-68 validate_verdicts *)
Definition validate_verdicts (d : dict) (key : text) (allowed : option (list text)) (enforce : option Z) : outcome unit :=
  match dget key d with
  | None => Invalid (MissingKey key)
  | Some (JArr l) => if wrong_length enforce l then Invalid (WrongLength (length_of enforce)) else validate_values l allowed
  | Some _ => Invalid BadFormat
  end.

(* ------------------------------------------------------------------ *)
(** * The client and the requests *)

(* models: llm/instructions.py:1-814 and the "messages" of llm/generation.py: which
   instruction is sent, and the values that are formatted into it. The wording of the
   instructions is not modelled. *)
Inductive request : Type :=
| AskClaims (t : text)
| AskOpinions (t : text)
| AskStatements (t : text)
| AskCorrectness (query : text) (prediction groundtruth : list json)
| AskRelevance (query : text) (statements : list json)
| AskBias (opinions : list json)
| AskPrecision (query : text) (contexts : list text) (groundtruth : text)
| AskRecall (contexts : list text) (statements : list json)
| AskContextRelevance (query : text) (contexts : list text)
| AskFaithfulness (claims : list json) (contexts : list text)
| AskHallucination (t : text) (contexts : list text)
| AskCoherence (t summary : text)
| AskToxicity (opinions : list json).
(* the system prompt and the request *)
Notation message := (text * request)%type.

(* llm/integrations.py:36-41 ClientWrapper: any callable, with a state of its own *)
Definition client (St : Type) : Type := St -> message -> outcome text * St.
(* one call of the client *)
Notation exchange := (message * outcome text)%type.

(* A computation that may call the client: what it returns, the state it leaves the
   client in, and the calls it made. *)
Definition prog (St A : Type) : Type := client St -> St -> outcome A * St * list exchange.
Definition ret {St A} (o : outcome A) : prog St A := fun _ s => (o, s, []).
Definition bind {St A B} (m : prog St A) (k : A -> prog St B) : prog St B :=
  fun c s => match m c s with
             | (Ok a, s1, t1) => match k a c s1 with (o, s2, t2) => (o, s2, t1 ++ t2) end
             | (Invalid i, s1, t1) => (Invalid i, s1, t1)
             | (Raised e, s1, t1) => (Raised e, s1, t1)
             end.
Definition call {St} (m : message) : prog St text :=
  fun c s => match c s m with (o, s') => (o, s', [(m, o)]) end.

(* models: llm/generation.py:57-64 the loop over the keys *)
Fixpoint check_keys (validator : dict -> text -> option (list text) -> option Z -> outcome unit)
    (d : dict) (keys : list text) (allowed : option (list text)) (enforce : option Z) : outcome unit :=
  match keys with
  | [] => Ok tt
  | k :: r => match validator d k allowed enforce with
              | Ok _ => check_keys validator d r allowed enforce
              | Invalid i => Invalid i
              | Raised e => Raised e
              end
  end.
(* models: llm/generation.py:30-65 _generate *)
Definition generate {St} (py : python) (m : message) (keys : list text)
    (validator : dict -> text -> option (list text) -> option Z -> outcome unit)
    (allowed : option (list text)) (enforce : option Z) : prog St dict :=
  bind (call m) (fun t =>
  bind (ret (trim_and_load_json py t)) (fun d =>
  bind (ret (check_keys validator d (py_set_order py keys) allowed enforce)) (fun _ => ret (Ok d)))).
(* response[key], then used as a list *)
Definition field (key : text) (d : dict) : outcome (list json) :=
  match dget key d with
  | None => Raised KeyError
  | Some (JArr l) => Ok l
  | Some _ => Raised TypeError
  end.
Definition len {A} (l : list A) : Z := Z.of_nat (List.length l).

(* models: llm/generation.py:68-110 generate_claims *)
Definition generate_claims {St} py (sys t : text) : prog St (list json) :=
  bind (generate py (sys, AskClaims t) [lit "claims"] validate_statements None None) (fun d => ret (field (lit "claims") d)).
(* models: llm/generation.py:113-154 generate_opinions *)
Definition generate_opinions {St} py (sys t : text) : prog St (list json) :=
  bind (generate py (sys, AskOpinions t) [lit "opinions"] validate_statements None None) (fun d => ret (field (lit "opinions") d)).
(* models: llm/generation.py:157-200 generate_statements *)
Definition generate_statements {St} py (sys t : text) : prog St (list json) :=
  bind (generate py (sys, AskStatements t) [lit "statements"] validate_statements None None) (fun d => ret (field (lit "statements") d)).
(* models: llm/generation.py:203-281 generate_answer_correctness_verdicts; the lists
   of TP, FP and FN (callers only take these three) *)
Definition generate_answer_correctness_verdicts {St} py (sys query : text) (prediction groundtruth : list json)
    : prog St (list json * list json * list json) :=
  bind (generate py (sys, AskCorrectness query prediction groundtruth) [lit "TP"; lit "FP"; lit "FN"] validate_statements None None) (fun d =>
  bind (ret (field (lit "TP") d)) (fun tp =>
  bind (ret (field (lit "FP") d)) (fun fp =>
  bind (ret (field (lit "FN") d)) (fun fn =>
  ret (if negb (len tp + len fp =? len prediction)%Z then Invalid CountMismatch
       else if (len groundtruth <? len fn)%Z then Invalid TooManyNegatives
       else Ok (tp, fp, fn)))))).
(* the calls of _generate that ask for verdicts *)
Definition generate_verdicts {St} py (m : message) (allowed : list text) (n : Z) : prog St (list json) :=
  bind (generate py m [lit "verdicts"] validate_verdicts (Some allowed) (Some n)) (fun d => ret (field (lit "verdicts") d)).
Definition yes_no : list text := [lit "yes"; lit "no"].
(* models: llm/generation.py:284-350 generate_answer_relevance_verdicts *)
Definition generate_answer_relevance_verdicts {St} py sys query statements : prog St (list json) :=
  generate_verdicts py (sys, AskRelevance query statements) [lit "yes"; lit "no"; lit "idk"] (len statements).
(* models: llm/generation.py:353-412 generate_bias_verdicts *)
Definition generate_bias_verdicts {St} py sys opinions : prog St (list json) :=
  generate_verdicts py (sys, AskBias opinions) yes_no (len opinions).
(* models: llm/generation.py:415-491 generate_context_precision_verdicts *)
Definition generate_context_precision_verdicts {St} py sys query contexts groundtruth : prog St (list json) :=
  generate_verdicts py (sys, AskPrecision query contexts groundtruth) yes_no (len contexts).
(* models: llm/generation.py:494-581 generate_context_recall_verdicts *)
Definition generate_context_recall_verdicts {St} py sys contexts statements : prog St (list json) :=
  generate_verdicts py (sys, AskRecall contexts statements) yes_no (len statements).
(* models: llm/generation.py:584-644 generate_context_relevance_verdicts *)
Definition generate_context_relevance_verdicts {St} py sys query contexts : prog St (list json) :=
  generate_verdicts py (sys, AskContextRelevance query contexts) yes_no (len contexts).
(* models: llm/generation.py:647-725 generate_faithfulness_verdicts *)
Definition generate_faithfulness_verdicts {St} py sys claims contexts : prog St (list json) :=
  generate_verdicts py (sys, AskFaithfulness claims contexts) yes_no (len claims).
(* models: llm/generation.py:728-795 generate_hallucination_verdicts *)
Definition generate_hallucination_verdicts {St} py sys t contexts : prog St (list json) :=
  generate_verdicts py (sys, AskHallucination t contexts) yes_no (len contexts).
(* models: llm/generation.py:844-903 generate_toxicity_verdicts *)
Definition generate_toxicity_verdicts {St} py sys opinions : prog St (list json) :=
  generate_verdicts py (sys, AskToxicity opinions) yes_no (len opinions).
(* models: llm/generation.py:798-841 generate_summary_coherence *)
Definition generate_summary_coherence {St} py sys (t summary : text) : prog St Z :=
  bind (call (sys, AskCoherence t summary)) (fun r =>
  bind (ret (find_first_signed_integer py r)) (fun found =>
  ret match found with
      | None => Invalid NoInteger
      | Some z => if existsb (Z.eqb z) [1; 2; 3; 4; 5]%Z then Ok z else Invalid (ScoreRange z)
      end)).

(* ------------------------------------------------------------------ *)
(** * The scores *)

(* verdict["verdict"] == "yes" *)
Definition is_yes (v : json) : outcome bool :=
  match v with
  | JObj d => match dget (lit "verdict") d with
              | None => Raised KeyError
              | Some (JStr t) => Ok (text_eqb t (lit "yes"))
              | Some _ => Ok false
              end
  | _ => Raised TypeError
  end.
Fixpoint yes_list (vs : list json) : outcome (list bool) :=
  match vs with
  | [] => Ok []
  | v :: r => match is_yes v with
              | Ok b => match yes_list r with Ok bs => Ok (b :: bs) | Invalid i => Invalid i | Raised e => Raised e end
              | Invalid i => Invalid i
              | Raised e => Raised e
              end
  end.
Definition count_true (bs : list bool) : Z := Z.of_nat (countb (fun b => b) bs).
(* a / b; floats are rationals here *)
Definition divide (a b : Z) : outcome Q :=
  if (b =? 0)%Z then Raised ZeroDivisionError else Ok (inject_Z a / inject_Z b)%Q.
(* sum(verdict["verdict"] == "yes" for verdict in verdicts) / len(verdicts) *)
Definition yes_fraction (vs : list json) : outcome Q :=
  match yes_list vs with
  | Ok bs => divide (count_true bs) (len vs)
  | Invalid i => Invalid i
  | Raised e => Raised e
  end.
Definition Qmax2 (a b : Q) : Q := if Qle_bool b a then a else b.
(* max(l) *)
Definition max_of (l : list Q) : outcome Q :=
  match l with [] => Raised ValueError | q :: r => Ok (fold_left Qmax2 r q) end.

(* models: computation.py:82 *)
Definition f1_of (tp fp fn : Z) : Q :=
  if (0 <? tp)%Z then (inject_Z tp / (inject_Z tp + (1 # 2) * (inject_Z (fp + fn))))%Q else 0%Q.
(* models: computation.py:62-82 the loop over the ground truths *)
Fixpoint correctness_loop {St} py (sys query : text) (prediction : list json) (gts : list text) (f1s : list Q) : prog St (list Q) :=
  match gts with
  | [] => ret (Ok f1s)
  | g :: r =>
      bind (generate_statements py sys g) (fun gs =>
      bind (generate_answer_correctness_verdicts py sys query prediction gs) (fun v =>
      match v with (tp, fp, fn) =>
        correctness_loop py sys query prediction r (f1s ++ [f1_of (len tp) (len fp) (len fn)])
      end))
  end.
(* models: computation.py:19-84 calculate_answer_correctness *)
Definition calculate_answer_correctness {St} py (sys query response : text) (groundtruths : list text) : prog St Q :=
  bind (generate_statements py sys response) (fun ps =>
  bind (correctness_loop py sys query ps groundtruths [0%Q]) (fun f1s => ret (max_of f1s))).

(* models: computation.py:87-130 calculate_answer_relevance *)
Definition calculate_answer_relevance {St} py (sys query response : text) : prog St Q :=
  bind (generate_statements py sys response) (fun ss =>
  bind (generate_answer_relevance_verdicts py sys query ss) (fun vs =>
  if (len vs =? 0)%Z then ret (Ok 0%Q) else ret (yes_fraction vs))).

(* models: computation.py:133-172 calculate_bias *)
Definition calculate_bias {St} py (sys response : text) : prog St Q :=
  bind (generate_opinions py sys response) (fun os =>
  if (len os =? 0)%Z then ret (Ok 0%Q)
  else bind (generate_bias_verdicts py sys os) (fun vs => ret (yes_fraction vs))).

(* aggregate_verdicts[i] = "yes" for the i with a "yes"; IndexError past the end *)
Fixpoint aggregate (agg : list bool) (yes : list bool) : outcome (list bool) :=
  match yes, agg with
  | [], _ => Ok agg
  | b :: yes', a :: agg' => match aggregate agg' yes' with
                            | Ok r => Ok ((a || b) :: r)
                            | Invalid i => Invalid i
                            | Raised e => Raised e
                            end
  | b :: yes', [] => if b then Raised IndexError else aggregate [] yes'
  end.
(* models: computation.py:231-242 the loop over the ground truths *)
Fixpoint precision_loop {St} py (sys query : text) (contexts gts : list text) (agg : list bool) : prog St (list bool) :=
  match gts with
  | [] => ret (Ok agg)
  | g :: r =>
      bind (generate_context_precision_verdicts py sys query contexts g) (fun vs =>
      bind (ret (yes_list vs)) (fun ys =>
      bind (ret (aggregate agg ys)) (fun agg' => precision_loop py sys query contexts r agg')))
  end.
(* models: computation.py:246-253, k from [k] on ([seen]: the verdicts before) *)
Fixpoint precisions (seen rest : list bool) : list Q :=
  match rest with
  | [] => []
  | b :: r =>
      let seen' := seen ++ [b] in
      if b then (inject_Z (count_true seen') / inject_Z (len seen'))%Q :: precisions seen' r
      else precisions seen' r
  end.
Definition Qsum (l : list Q) : Q := fold_left Qplus l 0%Q.
(* models: computation.py:245-260 *)
Definition precision_score (agg : list bool) : outcome Q :=
  match precisions [] agg with
  | [] => Ok 0%Q
  | ps => Ok (Qsum ps / inject_Z (len ps))%Q
  end.
(* models: computation.py:175-260 calculate_context_precision *)
Definition calculate_context_precision {St} py (sys query : text) (predicted groundtruth : list text) : prog St Q :=
  if (len predicted =? 0)%Z && (len groundtruth =? 0)%Z then ret (Ok 1%Q)
  else if (len predicted =? 0)%Z || (len groundtruth =? 0)%Z then ret (Ok 0%Q)
  else bind (precision_loop py sys query predicted groundtruth (List.map (fun _ => false) predicted)) (fun agg =>
       ret (precision_score agg)).

(* models: computation.py:299-316 the loop over the ground truths *)
Fixpoint recall_loop {St} py (sys : text) (contexts gts : list text) (scores : list Q) : prog St (list Q) :=
  match gts with
  | [] => ret (Ok scores)
  | g :: r =>
      bind (generate_statements py sys g) (fun ss =>
      bind (generate_context_recall_verdicts py sys contexts ss) (fun vs =>
      bind (ret (yes_fraction vs)) (fun q => recall_loop py sys contexts r (scores ++ [q]))))
  end.
(* models: computation.py:263-318 calculate_context_recall *)
Definition calculate_context_recall {St} py (sys : text) (predicted groundtruth : list text) : prog St Q :=
  if (len predicted =? 0)%Z && (len groundtruth =? 0)%Z then ret (Ok 1%Q)
  else if (len predicted =? 0)%Z || (len groundtruth =? 0)%Z then ret (Ok 0%Q)
  else bind (recall_loop py sys predicted groundtruth []) (fun scores => ret (max_of scores)).

(* models: computation.py:321-359 calculate_context_relevance *)
Definition calculate_context_relevance {St} py (sys query : text) (contexts : list text) : prog St Q :=
  if (len contexts =? 0)%Z then ret (Ok 0%Q)
  else bind (generate_context_relevance_verdicts py sys query contexts) (fun vs => ret (yes_fraction vs)).

(* models: computation.py:362-410 calculate_faithfulness *)
Definition calculate_faithfulness {St} py (sys response : text) (contexts : list text) : prog St Q :=
  if (len contexts =? 0)%Z then ret (Ok 0%Q)
  else bind (generate_claims py sys response) (fun cs =>
       if (len cs =? 0)%Z then ret (Ok 1%Q)
       else bind (generate_faithfulness_verdicts py sys cs contexts) (fun vs => ret (yes_fraction vs))).

(* models: computation.py:413-451 calculate_hallucination *)
Definition calculate_hallucination {St} py (sys response : text) (contexts : list text) : prog St Q :=
  if (len contexts =? 0)%Z then ret (Raised ValueError)
  else bind (generate_hallucination_verdicts py sys response contexts) (fun vs => ret (yes_fraction vs)).

(* models: computation.py:454-486 calculate_summary_coherence; the int as a rational *)
Definition calculate_summary_coherence {St} py (sys t summary : text) : prog St Q :=
  bind (generate_summary_coherence py sys t summary) (fun z => ret (Ok (inject_Z z))).

(* models: computation.py:489-527 calculate_toxicity *)
Definition calculate_toxicity {St} py (sys response : text) : prog St Q :=
  bind (generate_opinions py sys response) (fun os =>
  if (len os =? 0)%Z then ret (Ok 0%Q)
  else bind (generate_toxicity_verdicts py sys os) (fun vs => ret (yes_fraction vs))).

(* ------------------------------------------------------------------ *)
(** * ROUGE and BLEU *)

(* a float that a library returns *)
Inductive flt : Type := Fin (q : Q) | PInf | NInf | NaN.
(* a < b on floats *)
Definition flt_ltb (a b : flt) : bool :=
  match a, b with
  | Fin x, Fin y => negb (Qle_bool y x)
  | Fin _, PInf | NInf, Fin _ | NInf, PInf => true
  | _, _ => false
  end.
(* evaluate.load("rouge").compute(..) and tokenizing + nltk sentence_bleu *)
Record nlp : Type := MkNlp {
  nlp_rouge : text -> list text -> list text -> bool -> outcome (option (list (text * list flt)));
  nlp_bleu : text -> list text -> list flt -> outcome flt
}.
Fixpoint rget (k : text) (d : list (text * list flt)) : option (list flt) :=
  match d with [] => None | (k', v) :: r => if text_eqb k k' then Some v else rget k r end.
(* results[k] = v: a new key goes last, an old one keeps its place *)
Fixpoint rset (k : text) (v : flt) (d : list (text * flt)) : list (text * flt) :=
  match d with
  | [] => [(k, v)]
  | (k', v') :: r => if text_eqb k k' then (k', v) :: r else (k', v') :: rset k v r
  end.
Definition zero : flt := Fin 0.
(* max(a, b): the first one unless the second is greater *)
Definition flt_max (a b : flt) : flt := if flt_ltb a b then b else a.
Fixpoint rouge_loop (metrics : list (text * list flt)) (types : list text) (results : list (text * flt)) : outcome (list (text * flt)) :=
  match types with
  | [] => Ok results
  | ty :: r => match rget ty metrics with
               | None => Raised KeyError
               | Some [] => Raised IndexError
               | Some (x :: _) => rouge_loop metrics r (rset ty (flt_max x zero) results)
               end
  end.
(* models: computation.py:530-567 calculate_rouge_scores *)
Definition calculate_rouge_scores (n : nlp) (prediction : text) (references : list text) (types : list text) (stemmer : bool) : outcome (list (text * flt)) :=
  match nlp_rouge n prediction references types stemmer with
  | Ok (Some metrics) => rouge_loop metrics types []
  | Ok None => Ok []
  | Invalid i => Invalid i
  | Raised e => Raised e
  end.
Definition tiny : Q := 1 # 1000000000.
(* models: computation.py:570-611 calculate_sentence_bleu *)
Definition calculate_sentence_bleu (n : nlp) (prediction : text) (references : list text) (weights : list flt) : outcome flt :=
  if (len weights =? 0)%Z then Raised ValueError
  else match nlp_bleu n prediction references weights with
       | Ok r => Ok (match r with
                     | Fin q => if Qle_bool tiny q then Fin q else zero
                     | PInf => PInf
                     | NInf | NaN => zero
                     end)
       | Invalid i => Invalid i
       | Raised e => Raised e
       end.

(* ------------------------------------------------------------------ *)
(** * Metrics and the evaluator *)

(* models: metric.py:7-19 MetricType, and "Error" *)
Inductive mtype : Type :=
| AnswerCorrectness | AnswerRelevance | Bias | BLEU | ContextPrecision | ContextRecall
| ContextRelevance | Faithfulness | Hallucination | ROUGE | SummaryCoherence | Toxicity
| ErrorType.
Inductive mvalue : Type :=
| VNum (q : Q) | VFloat (f : flt) | VError (i : invalid).
Inductive mparams : Type :=
| PLlm (model : text) (retries : Z)
| PRouge (ty : text) (stemmer : bool)
| PBleu (weights : list flt).
(* models: metric.py:22-53 Metric; the checks of __post_init__ (37-53) always pass:
   the values are numbers or the dict of an error *)
Record metric : Type := MkMetric { m_type : mtype; m_value : mvalue; m_params : mparams }.

(* models: annotation.py:5-56 Context, QueryResponse *)
Record context : Type := MkContext { groundtruth : list text; prediction : list text }.
Record query_response : Type := MkQR { qr_query : text; qr_response : text; qr_context : option context }.

(* models: manager.py:67-102 Evaluator; a client with its model_name attribute *)
Record evaluator (St : Type) : Type := MkEv {
  ev_client : option (client St * option text);
  ev_retries : Z;
  ev_system : text
}.
Arguments MkEv {St} ev_client ev_retries ev_system.
Arguments ev_client {St} e.
Arguments ev_retries {St} e.
Arguments ev_system {St} e.

(* models: metric.py:55-73 Metric.error *)
Definition error_metric (i : invalid) (model : text) (retries : Z) : metric :=
  MkMetric ErrorType (VError i) (PLlm model retries).
(* a method of the evaluator: what it does to the client's state, what it returns, the
   calls it made *)
Definition method (St A : Type) : Type := St -> outcome A * St * list exchange.

(* models: manager.py:51-62: [n] more attempts, [error] from the last one *)
Fixpoint attempts {St} (fn : prog St metric) (c : client St) (model : text) (retries : Z) (n : nat) (error : option invalid)
    : method St (option metric) :=
  fun s =>
  match n with
  | O => (Ok (option_map (fun i => error_metric i model retries) error), s, [])
  | S n' => match fn c s with
            | (Ok m, s1, t1) => (Ok (Some m), s1, t1)
            | (Raised e, s1, t1) => (Raised e, s1, t1)
            | (Invalid i, s1, t1) =>
                match attempts fn c model retries n' (Some i) s1 with (o, s2, t2) => (o, s2, t1 ++ t2) end
            end
  end.
(* models: manager.py:27-64 llm_guided_metric; [fn] gets the name of the model *)
Definition guided {St} (ev : evaluator St) (fn : text -> prog St metric) : method St (option metric) :=
  fun s =>
  match ev_client ev with
  | None => (Raised ValueError, s, [])
  | Some (_, None) => (Raised AttributeError, s, [])
  | Some (c, Some model) =>
      attempts (fn model) c model (ev_retries ev) (Z.to_nat (1 + ev_retries ev)) None s
  end.

Definition scored {St} (ev : evaluator St) (ty : mtype) (p : prog St Q) (model : text) : prog St metric :=
  bind p (fun q => ret (Ok (MkMetric ty (VNum q) (PLlm model (ev_retries ev))))).
(* if not response.context: raise ValueError (a Context is always true) *)
Definition needs_context {St A} (r : query_response) (k : context -> prog St A) : prog St A :=
  match qr_context r with None => ret (Raised ValueError) | Some x => k x end.

(* models: manager.py:183-226 compute_answer_correctness *)
Definition compute_answer_correctness {St} py (ev : evaluator St) (r : query_response) : method St (option metric) :=
  guided ev (fun model => needs_context r (fun x =>
    scored ev AnswerCorrectness (calculate_answer_correctness py (ev_system ev) (qr_query r) (qr_response r) (groundtruth x)) model)).
(* models: manager.py:228-255 compute_answer_relevance *)
Definition compute_answer_relevance {St} py (ev : evaluator St) (r : query_response) : method St (option metric) :=
  guided ev (scored ev AnswerRelevance (calculate_answer_relevance py (ev_system ev) (qr_query r) (qr_response r))).
(* models: manager.py:257-285 compute_bias *)
Definition compute_bias {St} py (ev : evaluator St) (r : query_response) : method St (option metric) :=
  guided ev (scored ev Bias (calculate_bias py (ev_system ev) (qr_response r))).
(* models: manager.py:287-339 compute_context_precision *)
Definition compute_context_precision {St} py (ev : evaluator St) (r : query_response) : method St (option metric) :=
  guided ev (fun model => needs_context r (fun x =>
    scored ev ContextPrecision (calculate_context_precision py (ev_system ev) (qr_query r) (prediction x) (groundtruth x)) model)).
(* models: manager.py:341-379 compute_context_recall *)
Definition compute_context_recall {St} py (ev : evaluator St) (r : query_response) : method St (option metric) :=
  guided ev (fun model => needs_context r (fun x =>
    scored ev ContextRecall (calculate_context_recall py (ev_system ev) (prediction x) (groundtruth x)) model)).
(* models: manager.py:381-415 compute_context_relevance *)
Definition compute_context_relevance {St} py (ev : evaluator St) (r : query_response) : method St (option metric) :=
  guided ev (fun model => needs_context r (fun x =>
    scored ev ContextRelevance (calculate_context_relevance py (ev_system ev) (qr_query r) (prediction x)) model)).
(* models: manager.py:417-453 compute_faithfulness *)
Definition compute_faithfulness {St} py (ev : evaluator St) (r : query_response) : method St (option metric) :=
  guided ev (fun model => needs_context r (fun x =>
    scored ev Faithfulness (calculate_faithfulness py (ev_system ev) (qr_response r) (prediction x)) model)).
(* models: manager.py:455-489 compute_hallucination *)
Definition compute_hallucination {St} py (ev : evaluator St) (r : query_response) : method St (option metric) :=
  guided ev (fun model => needs_context r (fun x =>
    scored ev Hallucination (calculate_hallucination py (ev_system ev) (qr_response r) (prediction x)) model)).
(* models: manager.py:491-521 compute_summary_coherence *)
Definition compute_summary_coherence {St} py (ev : evaluator St) (r : query_response) : method St (option metric) :=
  guided ev (scored ev SummaryCoherence (calculate_summary_coherence py (ev_system ev) (qr_query r) (qr_response r))).
(* models: manager.py:523-551 compute_toxicity *)
Definition compute_toxicity {St} py (ev : evaluator St) (r : query_response) : method St (option metric) :=
  guided ev (scored ev Toxicity (calculate_toxicity py (ev_system ev) (qr_response r))).

(* models: manager.py:553-598 compute_rouge *)
Definition compute_rouge (n : nlp) (r : query_response) (types : list text) (stemmer : bool) : outcome (list metric) :=
  match qr_context r with
  | None => Raised ValueError
  | Some x => match calculate_rouge_scores n (qr_response r) (groundtruth x) types stemmer with
              | Ok res => Ok (List.map (fun kv => MkMetric ROUGE (VFloat (snd kv)) (PRouge (fst kv) stemmer)) res)
              | Invalid i => Invalid i
              | Raised e => Raised e
              end
  end.
(* models: manager.py:600-630 compute_sentence_bleu *)
Definition compute_sentence_bleu (n : nlp) (r : query_response) (weights : list flt) : outcome metric :=
  match qr_context r with
  | None => Raised ValueError
  | Some x => match calculate_sentence_bleu n (qr_response r) (groundtruth x) weights with
              | Ok v => Ok (MkMetric BLEU (VFloat v) (PBleu weights))
              | Invalid i => Invalid i
              | Raised e => Raised e
              end
  end.

Definition mbind {St A B} (m : method St A) (k : A -> method St B) : method St B :=
  fun s => match m s with
           | (Ok a, s1, t1) => match k a s1 with (o, s2, t2) => (o, s2, t1 ++ t2) end
           | (Invalid i, s1, t1) => (Invalid i, s1, t1)
           | (Raised e, s1, t1) => (Raised e, s1, t1)
           end.
Definition mret {St A} (o : outcome A) : method St A := fun s => (o, s, []).
(* the methods that compute_all runs, in its order *)
Definition guided_methods {St} py (ev : evaluator St) (r : query_response) : list (mtype * method St (option metric)) :=
  [ (AnswerCorrectness, compute_answer_correctness py ev r);
    (AnswerRelevance, compute_answer_relevance py ev r);
    (Bias, compute_bias py ev r);
    (ContextPrecision, compute_context_precision py ev r);
    (ContextRecall, compute_context_recall py ev r);
    (ContextRelevance, compute_context_relevance py ev r);
    (Faithfulness, compute_faithfulness py ev r);
    (Hallucination, compute_hallucination py ev r);
    (SummaryCoherence, compute_summary_coherence py ev r);
    (Toxicity, compute_toxicity py ev r) ].
(* results[type] = [method(response)], one after the other; the values may be None *)
Fixpoint run_methods {St} (ms : list (mtype * method St (option metric))) : method St (list (mtype * list (option metric))) :=
  match ms with
  | [] => mret (Ok [])
  | (ty, m) :: r => mbind m (fun v => mbind (run_methods r) (fun rest => mret (Ok ((ty, [v]) :: rest))))
  end.
(* models: manager.py:632-697 compute_all *)
Definition compute_all {St} py (n : nlp) (ev : evaluator St) (r : query_response) (weights : list flt) (types : list text) (stemmer : bool)
    : method St (list (mtype * list (option metric))) :=
  mbind (run_methods (guided_methods py ev r)) (fun res =>
  mbind (mret (compute_rouge n r types stemmer)) (fun rouges =>
  mbind (mret (compute_sentence_bleu n r weights)) (fun bleu =>
  mret (Ok (res ++ [(ROUGE, List.map Some rouges); (BLEU, [Some bleu])]))))).

(* models: manager.py:105-146 Evaluator.openai, the check of the arguments; the
   client is given *)
Definition openai {St} (mk : option Z -> client St * option text) (retries : Z) (seed : option Z) (sys : text) : outcome (evaluator St) :=
  match seed with
  | Some _ => if negb (retries =? 0)%Z then Raised ValueError else Ok (MkEv (Some (mk seed)) retries sys)
  | None => Ok (MkEv (Some (mk seed)) retries sys)
  end.

(* ------------------------------------------------------------------ *)
(** * Client wrappers *)

(* models: llm/integrations.py:5-33 _validate_messages, in the order of its checks *)
Definition as_dict (v : json) : option dict := match v with JObj d => Some d | _ => None end.
Definition has_key (k : text) (v : json) : bool :=
  match v with JObj d => match dget k d with Some _ => true | None => false end | _ => false end.
Definition str_at (k : text) (v : json) : bool :=
  match v with JObj d => match dget k d with Some (JStr _) => true | _ => false end | _ => false end.
Definition validate_messages (v : json) : outcome unit :=
  match v with
  | JArr ms =>
      if negb (forallb (fun m => match as_dict m with Some _ => true | None => false end) ms) then Raised TypeError
      else if negb (forallb (fun m => has_key (lit "role") m && has_key (lit "content") m) ms) then Raised ValueError
      else if negb (forallb (str_at (lit "role")) ms) then Raised TypeError
      else if negb (forallb (str_at (lit "content")) ms) then Raised TypeError
      else Ok tt
  | _ => Raised TypeError
  end.
(* the messages of llm/generation.py, e.g. 95-101: [render] is llm/instructions.py *)
Definition messages_of (render : request -> text) (m : message) : json :=
  JArr [ JObj [(lit "role", JStr (lit "system")); (lit "content", JStr (fst m))];
         JObj [(lit "role", JStr (lit "user")); (lit "content", JStr (render (snd m)))] ].

(* an answer of OpenAI's API: the choices (content, finish_reason), and the tokens used *)
Record api_answer : Type := MkAnswer { an_choices : list (option text * text); an_usage : option (Z * Z) }.
(* the wrapper's state: the API's own, total_prompt_tokens, total_completion_tokens *)
Record openai_state (A : Type) : Type := MkOa { oa_api : A; oa_prompt : Z; oa_completion : Z }.
Arguments MkOa {A} oa_api oa_prompt oa_completion.
Arguments oa_api {A} o.
Arguments oa_prompt {A} o.
Arguments oa_completion {A} o.
(* models: llm/integrations.py:95-141 OpenAIWrapper.__call__ *)
Definition openai_client {A} (api : A -> json -> outcome api_answer * A) (render : request -> text) : client (openai_state A) :=
  fun s m =>
  match validate_messages (messages_of render m) with
  | Ok _ =>
      match api (oa_api s) (messages_of render m) with
      | (Ok an, a) =>
          match an_choices an with
          | [] => (Raised IndexError, MkOa a (oa_prompt s) (oa_completion s))
          | (content, finish) :: _ =>
              let s' := match an_usage an with
                        | Some (p, q) => MkOa a (oa_prompt s + p)%Z (oa_completion s + q)%Z
                        | None => MkOa a (oa_prompt s) (oa_completion s)
                        end in
              if text_eqb finish (lit "length") then (Raised ValueError, s')
              else if text_eqb finish (lit "content_filter") then (Raised ValueError, s')
              else (Ok (match content with None => [] | Some t => t end), s')
          end
      | (Invalid i, a) => (Invalid i, MkOa a (oa_prompt s) (oa_completion s))
      | (Raised e, a) => (Raised e, MkOa a (oa_prompt s) (oa_completion s))
      end
  | Invalid i => (Invalid i, s)
  | Raised e => (Raised e, s)
  end.

(* an answer of Mistral's API: None, or the choices (message content, finish_reason) *)
Record mistral_choice : Type := MkChoice { mc_message : option (option json); mc_finish : text }.
(* models: llm/integrations.py:181-226 MistralWrapper.__call__ *)
Definition mistral_client {A} (api : A -> json -> outcome (option (option (list mistral_choice))) * A) (render : request -> text) : client A :=
  fun s m =>
  match validate_messages (messages_of render m) with
  | Ok _ =>
      match api s (messages_of render m) with
      | (Ok (Some (Some chs)), a) =>
          match chs with
          | [] => (Raised IndexError, a)
          | ch :: _ => match mc_message ch with
                       | Some (Some content) =>
                           if text_eqb (mc_finish ch) (lit "length") then (Raised ValueError, a)
                           else match content with JStr t => (Ok t, a) | _ => (Raised TypeError, a) end
                       | _ => (Ok [], a)
                       end
          end
      | (Ok _, a) => (Ok [], a)
      | (Invalid i, a) => (Invalid i, a)
      | (Raised e, a) => (Raised e, a)
      end
  | Invalid i => (Invalid i, s)
  | Raised e => (Raised e, s)
  end.
