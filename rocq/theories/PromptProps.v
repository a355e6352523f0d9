(* C97-C100: the instructions sent to the LLM.
   Vocabulary: PromptSpec.v.  [render printable other r]: the instruction of a request, for
   any table of printable characters and any repr of values that are not strings.
   Model: PromptModel.v, PromptText.v, TextModel.v. *)
From Verif Require Import Prelude Counting TextModel TextSpec TextDemo PromptText PromptModel PromptSpec PromptProofs PromptRunProofs PromptDemo.
From Coq Require Import QArith String.
From Coq Require List.
Local Open Scope string_scope.
Local Open Scope nat_scope.
Local Open Scope list_scope.

(* ---------------------------------------------------------------- C97 *)
(* full claim: different requests are different messages.  Proved for all requests but
   context precision with a query, and summary coherence with a text, of several lines;
   refuted for those. *)
Theorem C97_distinct_messages_partial : forall pr ot m m', proper (snd m) -> proper (snd m') -> first_on_one_line (snd m) -> first_on_one_line (snd m') ->
  messages_of (render pr ot) m = messages_of (render pr ot) m' -> m = m'.
Proof.
  intros pr ot [s r] [s' r'] P P' O O' E. injection E as -> E. f_equal. exact (render_inj pr ot r r' P P' O O' E).
Qed.
Print Assumptions C97_distinct_messages_partial.
(* what is asked for never depends on the texts *)
Theorem C97_kinds : forall pr ot r r', render pr ot r = render pr ot r' -> kind r = kind r'.
Proof. exact render_kind. Qed.
Print Assumptions C97_kinds.
(* the parts of these demonstrations are what the template puts between the texts *)
Definition empty_list := t_context_precision_1 ++ lit "[]" ++ t_context_precision_2.
Theorem C97_precision_refuted : forall pr ot, exists q g q' g', proper (AskPrecision q [] g) /\ proper (AskPrecision q' [] g') /\ q <> q' /\ g <> g' /\
  render pr ot (AskPrecision q [] g) = render pr ot (AskPrecision q' [] g').
Proof.
  intros pr ot. exists (lit "Who?"), (lit "Ann" ++ empty_list ++ lit "Bob"), (lit "Who?" ++ empty_list ++ lit "Ann"), (lit "Bob").
  repeat split; try (apply unicodeb_spec; vm_compute; reflexivity); try constructor; vm_compute; try discriminate; reflexivity.
Qed.
Print Assumptions C97_precision_refuted.
Theorem C97_coherence_refuted : forall pr ot, exists t s t' s', proper (AskCoherence t s) /\ proper (AskCoherence t' s') /\ t <> t' /\ s <> s' /\
  render pr ot (AskCoherence t s) = render pr ot (AskCoherence t' s').
Proof.
  intros pr ot. exists (lit "A"), (lit "B" ++ t_summary_coherence_1 ++ lit "C"), (lit "A" ++ t_summary_coherence_1 ++ lit "B"), (lit "C").
  repeat split; try (apply unicodeb_spec; vm_compute; reflexivity); vm_compute; try discriminate; reflexivity.
Qed.
Print Assumptions C97_coherence_refuted.
(* lists that only differ in where the quotes are *)
Example C97_example :
  let r := AskRecall [lit "a', 'b"] [JStr (lit "c")] in
  let r' := AskRecall [lit "a"; lit "b"] [JStr (lit "c")] in
  proper r /\ proper r' /\ first_on_one_line r /\ first_on_one_line r' /\
  render (fun _ => false) (fun _ => []) r <> render (fun _ => false) (fun _ => []) r'.
Proof.
  cbn zeta. repeat split; try (repeat constructor; vm_compute; intuition discriminate);
    try (repeat constructor; exists (lit "c"); split; [reflexivity|apply unicodeb_spec; reflexivity]).
Qed.

(* ---------------------------------------------------------------- C98 *)
(* the instruction ends with the sections of its request, in order *)
Theorem C98_sections : forall pr ot r, proper r ->
  exists x y, render pr ot r = x ++ y /\ lists_sections (indent r) (sections r) y.
Proof. exact render_sections. Qed.
Print Assumptions C98_sections.
(* and a list can be read back *)
Theorem C98_lists_readable : forall s l l', list_literal s l -> list_literal s l' -> l = l'.
Proof. exact list_literal_inj. Qed.
Print Assumptions C98_lists_readable.
Definition backslash : string := String (Ascii.ascii_of_nat 92) EmptyString.
Example C98_example :
  repr_texts (fun c => (c =? 233)%Z) [lit "it's"; lit "a ""b"" 'c'"; [233; 8203; 127; 10]%Z; []] =
  lit ("[""it's"", 'a ""b"" " ++ backslash ++ "'c" ++ backslash ++ "'', '")%string ++ [233%Z] ++
  lit (backslash ++ "u200b" ++ backslash ++ "x7f" ++ backslash ++ "n', '']")%string
  /\ proper (AskHallucination (lit "x") [lit "it's"; [233; 8203; 127; 10]%Z]).
Proof. split; [vm_compute; reflexivity|]. cbn. split; [|repeat constructor]; try (apply unicodeb_spec; reflexivity); vm_compute; intuition discriminate. Qed.

(* ---------------------------------------------------------------- C99 *)
(* every message of a metric has the evaluator's system prompt and a proper request:
   whatever the client answers, nothing but strings reaches an instruction *)
Theorem C99_messages : forall St py (ev : evaluator St) r ty m s o s' tr, python_ok py -> loads_unicode py -> unicode_response r ->
  In (ty, m) (guided_methods py ev r) -> m s = (o, s', tr) -> Forall (fun e => proper_message (ev_system ev) (fst e)) tr.
Proof. intros St py ev r ty m s o s' tr Hpy Hld Hr I E. exact (methods_quiet py ev r Hpy Hld Hr ty m I s o s' tr E). Qed.
Print Assumptions C99_messages.
Theorem C99_all_messages : forall St py n (ev : evaluator St) r w types stem s o s' tr, python_ok py -> loads_unicode py -> unicode_response r ->
  compute_all py n ev r w types stem s = (o, s', tr) -> Forall (fun e => proper_message (ev_system ev) (fst e)) tr.
Proof. intros St py n ev r w types stem s o s' tr Hpy Hld Hr E. exact (compute_all_quiet py ev r Hpy Hld Hr n w types stem s o s' tr E). Qed.
Print Assumptions C99_all_messages.
Example C99_example :
  python_ok unicode_py /\ loads_unicode unicode_py /\ unicode_response demo_qr /\
  List.length (snd (compute_all unicode_py demo_nlp (demo_ev 0) demo_qr demo_weights demo_types false demo_says)) = 16.
Proof.
  split; [exact unicode_py_ok|]. split; [exact unicode_py_loads|]. split; [|vm_compute; reflexivity].
  split; [apply unicodeb_spec; reflexivity|]. split; [apply unicodeb_spec; reflexivity|]. intros x E. injection E as <-. cbn.
  split; repeat (apply Forall_cons; [apply unicodeb_spec; reflexivity|]); constructor.
Qed.

(* ---------------------------------------------------------------- C100 *)
(* a metric looks at its documented inputs only: outcome, messages, client *)
Theorem C100_inputs : forall St py (ev : evaluator St) ty i r r' m m' s, documented ty = Some i -> alike i r r' ->
  In (ty, m) (guided_methods py ev r) -> In (ty, m') (guided_methods py ev r') -> m s = m' s.
Proof. intros St. exact only_inputs. Qed.
Print Assumptions C100_inputs.
(* and it does look at each of them: the messages are others if one of them changes *)
Definition other_qr (i : nat) : query_response :=
  match i with
  | 0 => MkQR (lit "Who?") (qr_response demo_qr) (qr_context demo_qr)
  | 1 => MkQR (qr_query demo_qr) (lit "In Italy.") (qr_context demo_qr)
  | 2 => MkQR (qr_query demo_qr) (qr_response demo_qr) (Some (MkContext [lit "France"] [lit "Rome is in Italy"]))
  | _ => MkQR (qr_query demo_qr) (qr_response demo_qr) (Some (MkContext [lit "Italy"] [lit "Paris is in France"; lit "Rome is in Italy"]))
  end.
Definition judge : client unit := fun s m =>
  let yes (l : list text) := verdicts (List.map (fun _ => "yes") l) in
  (Ok (lit match snd m with
  | AskClaims _ => listing "claims" ["a"] | AskOpinions _ => listing "opinions" ["a"] | AskStatements _ => listing "statements" ["a"]
  | AskCorrectness _ _ _ => counts ["a"] [] [] | AskPrecision _ cs _ => yes cs | AskContextRelevance _ cs => yes cs | AskHallucination _ cs => yes cs
  | AskCoherence _ _ => "4" | _ => verdicts ["yes"]
  end), s).
Definition judge_ev : evaluator unit := MkEv (Some (judge, Some (lit "model"))) 0 [].
Definition uses (ty : mtype) (k : nat) : bool :=
  match documented ty with Some i => nth k [in_query i; in_response i; in_retrieved i; in_groundtruths i] false | None => false end.
Example C100_example : forall k, k < 4 -> forall ty m m', In (ty, m) (guided_methods unicode_py judge_ev demo_qr) ->
  In (ty, m') (guided_methods unicode_py judge_ev (other_qr k)) -> (List.map fst (snd (m tt)) <> List.map fst (snd (m' tt)) <-> uses ty k = true).
Proof.
  intros k Hk ty m m' I I'. cbn in I, I'.
  repeat (destruct I as [I|I]; [injection I as <- <-|]); [| | | | | | | | | |destruct I];
  repeat (destruct I' as [I'|I']; [first [discriminate I' | injection I' as <-]|]); try destruct I';
  do 4 (destruct k as [|k]; [vm_compute; split; intros H; first [reflexivity | discriminate | exfalso; apply H; reflexivity]|]); lia.
Qed.
