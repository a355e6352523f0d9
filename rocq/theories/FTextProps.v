(* Property theorems C115, C116: the scores of the text-generation metrics as binary64
   numbers, and the documents of the metrics. *)
From Verif Require Import Prelude Counting FloatModel FReportSpec TextModel TextSpec TextDemo FTextModel FTextSpec FTextMain FTextOrder FTextDoc.
From Coq Require Import String QArith.
Local Open Scope Z_scope.
Local Open Scope list_scope.

(* ---------------------------------------------------------------- C115 *)
(* each of the ten guided methods talks to the client, fails and returns as over the exact
   numbers; only the scores are rounded *)
Theorem C115_scores : forall St py new (ev : evaluator St) r,
  Forall2 (fun x y => fst x = fst y /\ forall s, run_rel (same_option new r) (snd x s) (snd y s)) (guided_methods py ev r) (fguided_methods py new ev r).
Proof. exact (@methods_rel). Qed.
Print Assumptions C115_scores.
Theorem C115_compute_all : forall St py new n (ev : evaluator St) r w types stem s,
  run_rel (Forall2 (same_entry new r)) (compute_all py n ev r w types stem s) (fcompute_all py new n ev r w types stem s).
Proof. exact (@all_rel). Qed.
Print Assumptions C115_compute_all.
(* the rounded scores stay in range *)
Theorem C115_ranges : forall St py new (ev : evaluator St) r ty m c model s mt s' tr, python_ok py -> In (ty, m) (fguided_methods py new ev r) ->
  ev_client ev = Some (c, Some model) -> 0 <= ev_retries ev -> contexts_of r <= 65536 -> m s = (Ok mt, s', tr) ->
  exists mt', mt = Some mt' /\ m_params mt' = PLlm model (ev_retries ev) /\
    ((m_type mt' = ty /\ exists v, m_value mt' = VNum v /\ in_range ty v) \/ (m_type mt' = ErrorType /\ exists i, m_value mt' = VError i)).
Proof.
  intros St py new ev r ty m c model s mt s' tr Hpy Hin Hc Hr HN E. pose proof (float_safe py new ev r ty m c model s Hpy Hin Hc Hr HN) as H. rewrite E in H.
  destruct mt as [mt'|]; [|contradiction]. exists mt'. split; [reflexivity|exact H].
Qed.
Print Assumptions C115_ranges.
(* moving a useful context one place forward raises the float, not only the exact score *)
Theorem C115_order : forall St St' (c : client St) (c' : client St') py new sys query predicted predicted' gts s s' v v' s1 s1' tr tr' vss vss' k,
  python_ok py -> gts <> [] -> List.length predicted' = List.length predicted -> Z.of_nat (List.length predicted) <= 4096 ->
  fcalculate_context_precision py new sys query predicted gts c s = (Ok v, s1, tr) ->
  fcalculate_context_precision py new sys query predicted' gts c' s' = (Ok v', s1', tr') ->
  judged py (fun g => (sys, AskPrecision query predicted g)) yes_no (List.length predicted) gts tr vss ->
  judged py (fun g => (sys, AskPrecision query predicted' g)) yes_no (List.length predicted') gts tr' vss' ->
  (1 <= k < List.length predicted)%nat -> relevant vss k = false -> relevant vss (S k) = true ->
  (forall j, (1 <= j <= List.length predicted)%nat -> relevant vss' j = swapped (relevant vss) k j) -> (v < v')%Q.
Proof. exact (@precision_order). Qed.
Print Assumptions C115_order.

(* 2/3 is rounded; the sums of the two Pythons may differ in the last place *)
Definition three (vs : list string) : outcome Q :=
  fst (fst (fcalculate_context_precision demo_py false [] [] (List.map (fun _ => []) vs) [[]] script (says [verdicts vs]))).
Definition three_new (vs : list string) : outcome Q :=
  fst (fst (fcalculate_context_precision demo_py true [] [] (List.map (fun _ => []) vs) [[]] script (says [verdicts vs]))).
Local Open Scope string_scope.
Local Open Scope list_scope.
Example C115_example :
  fst (fst (fcalculate_faithfulness demo_py [] [] [[]] script (says [listing "claims" ["a"; "b"; "c"]; verdicts ["yes"; "no"; "yes"]]))) = Ok (6004799503160661 # 9007199254740992)%Q
  /\ (exists v v', three ["yes"; "no"; "yes"; "no"] = Ok v /\ three ["yes"; "yes"; "no"; "no"] = Ok v' /\ (v' == 1)%Q /\ (v < v')%Q)
  /\ (exists res, fcompute_all demo_py true demo_nlp (demo_ev 0) demo_qr demo_weights demo_types false demo_says
        = (Ok res, [], snd (compute_all demo_py demo_nlp (demo_ev 0) demo_qr demo_weights demo_types false demo_says)) /\ List.length res = 12%nat).
Proof.
  split; [vm_compute; reflexivity|]. split.
  - do 2 eexists. split; [vm_compute; reflexivity|]. split; [vm_compute; reflexivity|]. split; reflexivity.
  - eexists. split; [vm_compute; reflexivity|reflexivity].
Qed.
(* the same responses, two scores: sum() of Python 3.12 compensates, earlier ones do not *)
Theorem C115_versions : exists vs v v', three vs = Ok v /\ three_new vs = Ok v' /\ ~ (v == v')%Q.
Proof.
  exists ["no"; "no"; "yes"; "yes"; "yes"]. do 2 eexists. split; [vm_compute; reflexivity|]. split; [vm_compute; reflexivity|]. vm_compute. discriminate.
Qed.
Print Assumptions C115_versions.

(* ---------------------------------------------------------------- C116 *)
(* the document of every guided metric: type, value, parameters, and nothing else *)
Theorem C116_guided : forall (err_name err_text : invalid -> text) St py new (ev : evaluator St) r ty m c model s mt s' tr, python_ok py ->
  In (ty, m) (fguided_methods py new ev r) -> ev_client ev = Some (c, Some model) -> 0 <= ev_retries ev -> contexts_of r <= 65536 -> m s = (Ok mt, s', tr) ->
  exists name mt', In (ty, name) guided_names /\ mt = Some mt' /\ guided_doc err_name err_text model (ev_retries ev) (ty, name) (to_doc err_name err_text mt').
Proof. exact (@guided_is). Qed.
Print Assumptions C116_guided.
(* compute_all: the documents of the ten guided metrics, of ROUGE (one for each type asked
   for) and of BLEU, in this order *)
Theorem C116_compute_all : forall (err_name err_text : invalid -> text) St py new n (ev : evaluator St) r w types stem c model s res s' tr, python_ok py ->
  ev_client ev = Some (c, Some model) -> 0 <= ev_retries ev -> contexts_of r <= 65536 -> fcompute_all py new n ev r w types stem s = (Ok res, s', tr) ->
  exists gs rs b, shows_docs err_name err_text res (gs ++ rs ++ [b]) /\ Forall2 (guided_doc err_name err_text model (ev_retries ev)) guided_names gs
    /\ (exists ts, NoDup ts /\ (forall t, In t ts -> In t types) /\ (NoDup types -> (forall x, nlp_rouge n (qr_response r) x types stem <> Ok None) -> ts = types) /\ Forall2 (rouge_doc stem) ts rs)
    /\ bleu_doc w b.
Proof. exact (@all_docs). Qed.
Print Assumptions C116_compute_all.
(* full claim: type and parameters tell the documents of one call apart.  Proved unless
   both are errors; refuted for errors *)
Theorem C116_told_apart_partial : forall (err_name err_text : invalid -> text) St py new n (ev : evaluator St) r w types stem c model s res s' tr, python_ok py ->
  ev_client ev = Some (c, Some model) -> 0 <= ev_retries ev -> contexts_of r <= 65536 -> fcompute_all py new n ev r w types stem s = (Ok res, s', tr) ->
  exists ds, shows_docs err_name err_text res ds /\
    forall i j d d', i <> j -> nth_error ds i = Some d -> nth_error ds j = Some d' -> ~ is_error d -> identity_of d <> identity_of d'.
Proof.
  intros err_name err_text St py new n ev r w types stem c model s res s' tr Hpy Hc Hr HN E.
  destruct (all_docs err_name err_text py new n ev r w types stem c model s res s' tr Hpy Hc Hr HN E) as (gs & rs & b & Hs & Hg & (ts & N & _ & _ & Hrs) & Hb).
  exists (gs ++ rs ++ [b]). split; [exact Hs|]. exact (told_apart err_name err_text model (ev_retries ev) stem ts w gs rs b N Hg Hrs Hb).
Qed.
Print Assumptions C116_told_apart_partial.
(* two failed metrics give the same document: the metric that failed is not in it *)
Theorem C116_told_apart_refuted : forall err_name err_text, exists (ev : evaluator unit) r m1 m2 d,
  fst (fst (snd (nth 2%nat (fguided_methods demo_py true ev r) (Bias, mret (Ok None))) tt)) = Ok (Some m1)
  /\ fst (fst (snd (nth 9%nat (fguided_methods demo_py true ev r) (Bias, mret (Ok None))) tt)) = Ok (Some m2)
  /\ to_doc err_name err_text m1 = d /\ to_doc err_name err_text m2 = d /\ is_error d.
Proof.
  intros. exists (MkEv (Some (parrot (Ok (lit "nothing")), Some (lit "m"))) 2 []), demo_qr. do 3 eexists.
  split; [vm_compute; reflexivity|]. split; [vm_compute; reflexivity|]. split; [reflexivity|]. split; [reflexivity|]. do 2 eexists. reflexivity.
Qed.
Print Assumptions C116_told_apart_refuted.
Example C116_example : exists res ds, fst (fst (fcompute_all demo_py true demo_nlp (demo_ev 0) demo_qr demo_weights demo_types false demo_says)) = Ok res
  /\ shows_docs (fun _ => []) (fun _ => []) res ds /\ List.length ds = 13%nat
  /\ nth_error ds 8 = Some (TDict [(lit "type", TStr (lit "SummaryCoherence")); (lit "value", TInt 4);
       (lit "parameters", TDict [(lit "evaluator", TStr (lit "model")); (lit "retries", TInt 0)])])
  /\ nth_error ds 11 = Some (TDict [(lit "type", TStr (lit "ROUGE")); (lit "value", TFloat (Fin (1 # 2)));
       (lit "parameters", TDict [(lit "rouge_type", TStr (lit "rougeL")); (lit "use_stemmer", TBool false)])]).
Proof.
  eexists. eexists. split; [vm_compute; reflexivity|]. split.
  - unfold shows_docs. cbn [flat_map snd app]. repeat (constructor; [eexists; split; reflexivity|]). constructor.
  - split; [reflexivity|]. split; reflexivity.
Qed.
