(* Model of the rendering of requests to the LLM: Python's repr of strings and lists of
   strings, and the f-strings of llm/instructions.py.  Definitions only. *)
From Verif Require Import Prelude TextModel PromptText.
From Coq Require Import String.
Local Open Scope Z_scope.
Local Open Scope list_scope.

(* digits of repr's escapes, lower case *)
Definition hexd (n : Z) : Z := if n <? 10 then 48 + n else 87 + n.
Fixpoint hex (k : nat) (n : Z) : text :=
  match k with O => [] | S k' => hex k' (n / 16) ++ [hexd (n mod 16)] end.

Section Repr.
  (* str.isprintable for code points of 128 and more, a table of the Unicode version *)
  Variable printable : Z -> bool.
  (* repr of a value that is not a string; the lists formatted into the instructions
     only hold strings *)
  Variable other : json -> text.

  (* CPython's unicode_repr: one character inside quotes [q] *)
  Definition esc (q c : Z) : text :=
    if (c =? q) || (c =? 92) then [92; c]
    else if c =? 9 then [92; 116]
    else if c =? 10 then [92; 110]
    else if c =? 13 then [92; 114]
    else if (c <? 32) || (c =? 127) then 92 :: 120 :: hex 2 c
    else if c <? 127 then [c]
    else if printable c then [c]
    else if c <=? 255 then 92 :: 120 :: hex 2 c
    else if c <=? 65535 then 92 :: 117 :: hex 4 c
    else 92 :: 85 :: hex 8 c.
  (* single quotes, unless the text has a single and no double quote *)
  Definition quote (t : text) : Z :=
    if existsb (Z.eqb 39) t && negb (existsb (Z.eqb 34) t) then 34 else 39.
  Definition repr_str (t : text) : text :=
    quote t :: flat_map (esc (quote t)) t ++ [quote t].
  (* repr of a list *)
  Fixpoint joined (l : list text) : text :=
    match l with
    | [] => []
    | [x] => x
    | x :: r => x ++ [44; 32] ++ joined r
    end.
  Definition repr_item (v : json) : text := match v with JStr t => repr_str t | _ => other v end.
  Definition repr_items (l : list json) : text := [91] ++ joined (map repr_item l) ++ [93].
  Definition repr_texts (l : list text) : text := [91] ++ joined (map repr_str l) ++ [93].

  (* models: llm/instructions.py:1-814, the instruction of a request *)
  Definition render (r : request) : text :=
    match r with
    | AskClaims t => t_claims_0 ++ t ++ t_claims_1
    | AskOpinions t => t_opinions_0 ++ t ++ t_opinions_1
    | AskStatements t => t_statements_0 ++ t ++ t_statements_1
    | AskCorrectness q p g => t_answer_correctness_0 ++ q ++ t_answer_correctness_1 ++ repr_items p ++ t_answer_correctness_2 ++ repr_items g ++ t_answer_correctness_3
    | AskRelevance q s => t_answer_relevance_0 ++ q ++ t_answer_relevance_1 ++ repr_items s ++ t_answer_relevance_2
    | AskBias o => t_bias_0 ++ repr_items o ++ t_bias_1
    | AskPrecision q cs g => t_context_precision_0 ++ q ++ t_context_precision_1 ++ repr_texts cs ++ t_context_precision_2 ++ g ++ t_context_precision_3
    | AskRecall cs g => t_context_recall_0 ++ repr_texts cs ++ t_context_recall_1 ++ repr_items g ++ t_context_recall_2
    | AskContextRelevance q cs => t_context_relevance_0 ++ q ++ t_context_relevance_1 ++ repr_texts cs ++ t_context_relevance_2
    | AskFaithfulness c cs => t_faithfulness_0 ++ repr_texts cs ++ t_faithfulness_1 ++ repr_items c ++ t_faithfulness_2
    | AskHallucination t cs => t_hallucination_0 ++ repr_texts cs ++ t_hallucination_1 ++ t ++ t_hallucination_2
    | AskCoherence t s => t_summary_coherence_0 ++ t ++ t_summary_coherence_1 ++ s ++ t_summary_coherence_2
    | AskToxicity o => t_toxicity_0 ++ repr_items o ++ t_toxicity_1
    end.
End Repr.
