(* Specification vocabulary for the instructions sent to the LLM. *)
From Verif Require Import Prelude TextModel.
From Coq Require Import String.
Local Open Scope Z_scope.
Local Open Scope list_scope.

(* a Python str: code points *)
Definition unicode (t : text) : Prop := Forall (fun c => 0 <= c < 1114112) t.
(* a list of strings *)
Definition strings (l : list json) : Prop := Forall (fun v => exists t, v = JStr t /\ unicode t) l.
(* SPEC: the lists in the request hold strings only *)
Definition proper (r : request) : Prop :=
  match r with
  | AskClaims t | AskOpinions t | AskStatements t => unicode t
  | AskCorrectness q p g => unicode q /\ strings p /\ strings g
  | AskRelevance q s => unicode q /\ strings s
  | AskBias o | AskToxicity o => strings o
  | AskPrecision q cs g => unicode q /\ Forall unicode cs /\ unicode g
  | AskRecall cs g => Forall unicode cs /\ strings g
  | AskContextRelevance q cs => unicode q /\ Forall unicode cs
  | AskFaithfulness c cs => strings c /\ Forall unicode cs
  | AskHallucination t cs => unicode t /\ Forall unicode cs
  | AskCoherence t s => unicode t /\ unicode s
  end.
(* SPEC: a text of one line *)
Definition one_line (t : text) : Prop := ~ In 10 t.
(* SPEC: requests with two free texts: the first one is a single line *)
Definition first_on_one_line (r : request) : Prop :=
  match r with
  | AskPrecision q _ _ => one_line q
  | AskCoherence t _ => one_line t
  | _ => True
  end.
(* SPEC: what a request asks for *)
Definition kind (r : request) : nat :=
  match r with
  | AskClaims _ => 0 | AskOpinions _ => 1 | AskStatements _ => 2 | AskCorrectness _ _ _ => 3 | AskRelevance _ _ => 4
  | AskBias _ => 5 | AskPrecision _ _ _ => 6 | AskRecall _ _ => 7 | AskContextRelevance _ _ => 8 | AskFaithfulness _ _ => 9
  | AskHallucination _ _ => 10 | AskCoherence _ _ => 11 | AskToxicity _ => 12
  end.

(* ------------------------------------------------------------------ *)
(** * Python's literals *)
(* SPEC: value of a hexadecimal digit, lower case *)
Inductive digit : Z -> Z -> Prop :=
| dg_dec c : 48 <= c <= 57 -> digit c (c - 48)
| dg_let c : 97 <= c <= 102 -> digit c (c - 87).
(* SPEC: value of a sequence of hexadecimal digits *)
Inductive number : text -> Z -> Prop :=
| nu_nil : number [] 0
| nu_snoc ds n c d : number ds n -> digit c d -> number (ds ++ [c]) (16 * n + d).
(* SPEC: one character of a string literal in quotes [q], as in the Python reference:
   itself, or one of the escapes used here *)
Inductive char_literal (q : Z) : text -> Z -> Prop :=
| cl_plain c : c <> q -> c <> 92 -> c <> 10 -> c <> 13 -> c <> 0 -> char_literal q [c] c
| cl_backslash : char_literal q [92; 92] 92
| cl_single : char_literal q [92; 39] 39
| cl_double : char_literal q [92; 34] 34
| cl_tab : char_literal q [92; 116] 9
| cl_newline : char_literal q [92; 110] 10
| cl_return : char_literal q [92; 114] 13
| cl_x ds n : List.length ds = 2%nat -> number ds n -> char_literal q (92 :: 120 :: ds) n
| cl_u ds n : List.length ds = 4%nat -> number ds n -> char_literal q (92 :: 117 :: ds) n
| cl_U ds n : List.length ds = 8%nat -> number ds n -> n < 1114112 -> char_literal q (92 :: 85 :: ds) n.
Inductive chars_literal (q : Z) : text -> text -> Prop :=
| cs_nil : chars_literal q [] []
| cs_cons s c ss t : char_literal q s c -> chars_literal q ss t -> chars_literal q (s ++ ss) (c :: t).
(* SPEC: a string literal and its value *)
Inductive str_literal : text -> text -> Prop :=
| sl_single ss t : chars_literal 39 ss t -> str_literal (39 :: ss ++ [39]) t
| sl_double ss t : chars_literal 34 ss t -> str_literal (34 :: ss ++ [34]) t.
(* SPEC: a list literal and its value *)
Inductive list_literal : text -> list text -> Prop :=
| ll_nil : list_literal (lit "[]") []
| ll_cons s t ss ts : str_literal s t -> items_literal ss ts -> list_literal (lit "[" ++ s ++ ss ++ lit "]") (t :: ts)
with items_literal : text -> list text -> Prop :=
| il_nil : items_literal [] []
| il_cons s t ss ts : str_literal s t -> items_literal ss ts -> items_literal (lit ", " ++ s ++ ss) (t :: ts).

(* SPEC: what stands below a heading: a text as it is, or a list as a literal *)
Inductive value : Type := Verbatim (t : text) | Literal (l : list text).
Definition shown (v : value) (s : text) : Prop :=
  match v with Verbatim t => s = t | Literal l => list_literal s l end.
Definition str_of (v : json) : text := match v with JStr t => t | _ => [] end.
(* SPEC: the headings of an instruction and the values below them *)
Definition sections (r : request) : list (string * value) :=
  let items l := Literal (map str_of l) in
  match r with
  | AskClaims t | AskOpinions t | AskStatements t => [("Text", Verbatim t)]
  | AskCorrectness q p g => [("Query", Verbatim q); ("Prediction Statements", items p); ("Ground Truth Statements", items g)]
  | AskRelevance q s => [("Query", Verbatim q); ("Statements", items s)]
  | AskBias o | AskToxicity o => [("Opinions", items o)]
  | AskPrecision q cs g => [("Query", Verbatim q); ("Context List", Literal cs); ("Ground Truth", Verbatim g)]
  | AskRecall cs g => [("Context List", Literal cs); ("Ground Truth Statements", items g)]
  | AskContextRelevance q cs => [("Query", Verbatim q); ("Context List", Literal cs)]
  | AskFaithfulness c cs => [("Context List", Literal cs); ("Claims", items c)]
  | AskHallucination t cs => [("Context List", Literal cs); ("Text", Verbatim t)]
  | AskCoherence t s => [("    Text", Verbatim t); ("    Summary", Verbatim s)]
  end%string.
(* SPEC: the indentation of an instruction *)
Definition indent (r : request) : string := (match r with AskCoherence _ _ => "    " | _ => "" end)%string.
(* SPEC: the sections in order, each with its heading on a line of its own, a blank line
   after the value *)
Inductive lists_sections (ind : string) : list (string * value) -> text -> Prop :=
| ls_nil s : lists_sections ind [] s
| ls_cons h v vs s rest : shown v s -> lists_sections ind vs rest ->
    lists_sections ind ((h, v) :: vs) (lit h ++ lit ":
" ++ lit ind ++ s ++ lit "

" ++ rest).

(* ------------------------------------------------------------------ *)
(** * Runs *)
(* the strings of a JSON value *)
Inductive has_string : json -> text -> Prop :=
| hs_str t : has_string (JStr t) t
| hs_arr l v t : In v l -> has_string v t -> has_string (JArr l) t
| hs_obj d k v t : In (k, v) d -> has_string v t -> has_string (JObj d) t.
(* json.loads makes Python strings *)
Definition loads_unicode (py : python) : Prop :=
  forall s d, py_loads py s = Loaded d -> forall k v t, In (k, v) d -> has_string v t -> unicode t.
(* the user's texts are Python strings *)
Definition unicode_response (r : query_response) : Prop :=
  unicode (qr_query r) /\ unicode (qr_response r) /\
  forall x, qr_context r = Some x -> Forall unicode (groundtruth x) /\ Forall unicode (prediction x).
(* SPEC: every request goes out with the system prompt, holds strings only *)
Definition proper_message (sys : text) (m : message) : Prop := fst m = sys /\ proper (snd m).

(* SPEC: the inputs of a metric, as documented *)
Record inputs : Type := MkIn { in_query : bool; in_response : bool; in_retrieved : bool; in_groundtruths : bool }.
Definition documented (ty : mtype) : option inputs :=
  match ty with
  | AnswerCorrectness => Some (MkIn true true false true)
  | AnswerRelevance => Some (MkIn true true false false)
  | Bias => Some (MkIn false true false false)
  | ContextPrecision => Some (MkIn true false true true)
  | ContextRecall => Some (MkIn false false true true)
  | ContextRelevance => Some (MkIn true false true false)
  | Faithfulness => Some (MkIn false true true false)
  | Hallucination => Some (MkIn false true true false)
  | SummaryCoherence => Some (MkIn true true false false)
  | Toxicity => Some (MkIn false true false false)
  | BLEU | ROUGE | ErrorType => None
  end.
(* SPEC: two responses with the same values of these inputs; both have a context or
   none if one of its parts is an input *)
Definition alike (i : inputs) (r r' : query_response) : Prop :=
  (in_query i = true -> qr_query r = qr_query r') /\
  (in_response i = true -> qr_response r = qr_response r') /\
  (in_retrieved i = true -> option_map prediction (qr_context r) = option_map prediction (qr_context r')) /\
  (in_groundtruths i = true -> option_map groundtruth (qr_context r) = option_map groundtruth (qr_context r')).
