(* A small JSON reader and scripted clients, for the examples and the refutations. *)
From Verif Require Import Prelude TextModel TextSpec.
From Coq Require Import QArith String Ascii.
From Coq Require List.
Local Open Scope string_scope.
Local Open Scope nat_scope.
Local Open Scope list_scope.

(* reads JSON with strings without escapes, natural numbers, lists and dicts *)
Fixpoint until_quote (t : text) : option (text * text) :=
  match t with
  | [] => None
  | c :: r => if (c =? 34)%Z then Some ([], r)
              else match until_quote r with Some (a, b) => Some (c :: a, b) | None => None end
  end.
Fixpoint skip_blank (t : text) : text :=
  match t with c :: r => if (c =? 32)%Z then skip_blank r else t | [] => [] end.
Definition ascii_digit (c : Z) : option Z := if (48 <=? c)%Z && (c <=? 57)%Z then Some (c - 48)%Z else None.
Fixpoint read_json (fuel : nat) (t : text) : option (json * text) :=
  match fuel with
  | O => None
  | S f =>
    match skip_blank t with
    | [] => None
    | c :: r =>
      if (c =? 34)%Z then match until_quote r with Some (a, b) => Some (JStr a, b) | None => None end
      else if (c =? 91)%Z then
        (fix items (g : nat) (acc : list json) (t : text) : option (json * text) :=
           match g with
           | O => None
           | S g' => match skip_blank t with
                     | 93%Z :: r' => Some (JArr acc, r')
                     | 44%Z :: r' => match read_json f r' with Some (v, t') => items g' (acc ++ [v]) t' | None => None end
                     | [] => None
                     | r' => match acc with
                             | [] => match read_json f r' with Some (v, t') => items g' [v] t' | None => None end
                             | _ => None
                             end
                     end
           end) f [] r
      else if (c =? 123)%Z then
        (fix pairs (g : nat) (acc : dict) (t : text) : option (json * text) :=
           match g with
           | O => None
           | S g' =>
             let entry r' := match read_json f r' with
                             | Some (JStr k, t') => match skip_blank t' with
                                                    | 58%Z :: t'' => match read_json f t'' with Some (v, t3) => Some (k, v, t3) | None => None end
                                                    | _ => None
                                                    end
                             | _ => None
                             end in
             match skip_blank t with
             | 125%Z :: r' => Some (JObj acc, r')
             | 44%Z :: r' => match entry r' with Some (k, v, t') => pairs g' (acc ++ [(k, v)]) t' | None => None end
             | [] => None
             | r' => match acc with
                     | [] => match entry r' with Some (k, v, t') => pairs g' [(k, v)] t' | None => None end
                     | _ => None
                     end
             end
           end) f [] r
      else match ascii_digit c with Some d => Some (JInt d, r) | None => None end
    end
  end.
Definition demo_loads (t : text) : loaded :=
  match read_json (List.length t) t with
  | Some (JObj d, []) => Loaded d
  | _ => DecodeError
  end.
Definition demo_py : python := MkPy demo_loads ascii_digit 4300 (fun l => l).
Lemma demo_py_ok : python_ok demo_py.
Proof.
  constructor.
  - cbn. unfold ascii_digit. intros c d H. destruct ((48 <=? c)%Z && (c <=? 57)%Z)%bool eqn:E; [|discriminate]. injection H as <-.
    apply Bool.andb_true_iff in E. rewrite !Z.leb_le in E. lia.
  - reflexivity.
  - intros l _. apply Permutation_refl.
Qed.

(* texts of responses; Q is the quotation mark *)
Definition quote : string := String (ascii_of_nat 34) EmptyString.
Definition q (s : string) : string := quote ++ s ++ quote.
Fixpoint commas (l : list string) : string :=
  match l with [] => "" | [x] => x | x :: r => x ++ ", " ++ commas r end.
Definition listing (key : string) (l : list string) : string := ("{" ++ q key ++ ": [" ++ commas (List.map q l) ++ "]}")%string.
Definition verdicts (l : list string) : string :=
  ("Sure! {" ++ q "verdicts" ++ ": [" ++ commas (List.map (fun v => "{" ++ q "verdict" ++ ": " ++ q v ++ ", " ++ q "analysis" ++ ": " ++ q "because" ++ "}") l) ++ "]} Anything else?")%string.
Definition counts (tp fp fn : list string) : string :=
  ("{" ++ q "TP" ++ ": [" ++ commas (List.map q tp) ++ "], " ++ q "FP" ++ ": [" ++ commas (List.map q fp) ++ "], " ++ q "FN" ++ ": [" ++ commas (List.map q fn) ++ "]}")%string.

(* a client that says these things one after the other *)
Definition script : client (list (outcome text)) :=
  fun s _ => match s with o :: r => (o, r) | [] => (Raised (Foreign 0), []) end.
Definition says (l : list string) : list (outcome text) := List.map (fun x => Ok (lit x)) l.
(* a client that always says the same *)
Definition parrot (o : outcome text) : client unit := fun s _ => (o, s).

Definition demo_ev (retries : Z) : evaluator (list (outcome text)) := MkEv (Some (script, Some (lit "model"))) retries (lit "You are a helpful assistant.").
Definition demo_qr : query_response :=
  MkQR (lit "Where is Paris?") (lit "In France.") (Some (MkContext [lit "France"] [lit "Paris is in France"; lit "Rome is in Italy"])).
Definition demo_nlp : nlp := MkNlp
  (fun _ _ types _ => Ok (Some (List.map (fun t => (t, [Fin (1 # 2)])) types)))
  (fun _ _ _ => Ok (Fin (1 # 10000000000))).
(* responses to all of compute_all's questions about [demo_qr] *)
Definition demo_says : list (outcome text) := says
  [ listing "statements" ["in France"]; listing "statements" ["France"]; counts ["in France"] [] [];
    listing "statements" ["in France"]; verdicts ["yes"];
    listing "opinions" [];
    verdicts ["yes"; "no"];
    listing "statements" ["France"; "Paris"]; verdicts ["yes"; "no"];
    verdicts ["yes"; "no"];
    listing "claims" ["in France"]; verdicts ["yes"];
    verdicts ["no"; "no"];
    "I would give it a 4 out of 5";
    listing "opinions" ["nice"]; verdicts ["no"] ].
Definition demo_types : list text := [lit "rouge1"; lit "rougeL"; lit "rouge1"].
Definition demo_weights : list flt := [Fin (1 # 2); Fin (1 # 2)].
