(* The float evaluator of text generation against the exact one (C115). *)
From Verif Require Import Prelude Counting FloatModel FloatProofs RndProofs FReportSpec FReportProofs FReportMain TextModel TextSpec FTextModel FTextSpec FTextProofs.
From Coq Require Import Lia String QArith Qabs Lqa.
Local Notation length := List.length (only parsing).
Local Open Scope Z_scope.

(* ------------------------------------------------------------------ related runs *)
Definition prog_rel {St A B} (R : A -> B -> Prop) (p : prog St A) (p' : prog St B) : Prop := forall c s, run_rel R (p c s) (p' c s).

Lemma rel_refl {St A} (p : prog St A) : prog_rel eq p p.
Proof. intros c s. split; [|split; reflexivity]. destruct (fst (fst (p c s))); reflexivity. Qed.
Lemma rel_ret {St A B} (R : A -> B -> Prop) x y : out_rel R x y -> prog_rel R (@ret St A x) (ret y).
Proof. intros H c s. split; [exact H|split; reflexivity]. Qed.
Lemma rel_bind {St A B A' B'} (R : A -> A' -> Prop) (T : B -> B' -> Prop) (p : prog St A) p' k k' :
  prog_rel R p p' -> (forall a a', R a a' -> prog_rel T (k a) (k' a')) -> prog_rel T (bind p k) (bind p' k').
Proof.
  intros H K c s. unfold bind. specialize (H c s). destruct (p c s) as [[o s1] t1], (p' c s) as [[o' s1'] t1'].
  destruct H as (H & H1 & H2). cbn [fst snd] in H, H1, H2. subst s1' t1'. destruct o, o'; cbn in H; try contradiction.
  - specialize (K _ _ H c s1). destruct (k a c s1) as [[o s2] t2], (k' a0 c s1) as [[o' s2'] t2']. destruct K as (K & K1 & K2). cbn [fst snd] in *. subst.
    split; [exact K|split; reflexivity].
  - subst. split; [reflexivity|split; reflexivity].
  - subst. split; [reflexivity|split; reflexivity].
Qed.
Lemma rel_bind_eq {St A B B'} (T : B -> B' -> Prop) (p : prog St A) k k' :
  (forall a, prog_rel T (k a) (k' a)) -> prog_rel T (bind p k) (bind p k').
Proof. intros K. eapply rel_bind; [apply rel_refl|]. intros a a' <-. apply K. Qed.
Lemma rel_weaken {St A B} (R T : A -> B -> Prop) (p : prog St A) p' : (forall a b, R a b -> T a b) -> prog_rel R p p' -> prog_rel T p p'.
Proof.
  intros W H c s. destruct (H c s) as (H1 & H2 & H3). split; [|split; assumption]. destruct (fst (fst (p c s))), (fst (fst (p' c s))); cbn in *; auto.
Qed.

(* ------------------------------------------------------------------ the scores *)
Lemma yes_list_length vs bs : yes_list vs = Ok bs -> length bs = length vs.
Proof.
  revert bs. induction vs as [|v r IH]; intros bs; cbn [yes_list]; [intros [= <-]; reflexivity|].
  destruct (is_yes v); try discriminate. destruct (yes_list r) as [l| |]; try discriminate. intros [= <-]. cbn [List.length]. rewrite (IH l eq_refl). reflexivity.
Qed.
Lemma yes_rel vs : out_rel is_rnd (yes_fraction vs) (fyes_fraction vs).
Proof.
  unfold yes_fraction, fyes_fraction. destruct (yes_list vs) as [bs| |] eqn:E; try reflexivity.
  unfold divide, fdivide. destruct (Z.eqb_spec (len vs) 0) as [Z|Z]; [reflexivity|]. cbn [out_rel].
  pose proof (count_true_len bs) as C. unfold len in C at 1. rewrite (yes_list_length vs bs E) in C. change (Z.of_nat (length vs)) with (len vs) in C.
  assert (P : (0 < inject_Z (len vs))%Q) by (apply inject_pos; lia). split; [|reflexivity]. split.
  - apply div_nonneg; lia.
  - apply Qle_shift_div_r; [exact P|]. rewrite Qmult_1_l, <- Zle_Qle. lia.
Qed.
Lemma is_rnd_0 : is_rnd 0 0.
Proof. split; [split; lra|]. reflexivity. Qed.
Lemma is_rnd_1 : is_rnd 1 1.
Proof. split; [split; lra|]. symmetry. exact rnd_1. Qed.

Lemma relevance_rel {St} py sys query resp : prog_rel (St := St) is_rnd (calculate_answer_relevance py sys query resp) (fcalculate_answer_relevance py sys query resp).
Proof.
  apply rel_bind_eq. intros ss. apply rel_bind_eq. intros vs. destruct (len vs =? 0); apply rel_ret; [exact is_rnd_0|apply yes_rel].
Qed.
Lemma bias_rel {St} py sys resp : prog_rel (St := St) is_rnd (calculate_bias py sys resp) (fcalculate_bias py sys resp).
Proof. apply rel_bind_eq. intros os. destruct (len os =? 0); [apply rel_ret, is_rnd_0|]. apply rel_bind_eq. intros vs. apply rel_ret, yes_rel. Qed.
Lemma toxicity_rel {St} py sys resp : prog_rel (St := St) is_rnd (calculate_toxicity py sys resp) (fcalculate_toxicity py sys resp).
Proof. apply rel_bind_eq. intros os. destruct (len os =? 0); [apply rel_ret, is_rnd_0|]. apply rel_bind_eq. intros vs. apply rel_ret, yes_rel. Qed.
Lemma context_relevance_rel {St} py sys query ctx : prog_rel (St := St) is_rnd (calculate_context_relevance py sys query ctx) (fcalculate_context_relevance py sys query ctx).
Proof. unfold calculate_context_relevance, fcalculate_context_relevance. destruct (len ctx =? 0); [apply rel_ret, is_rnd_0|]. apply rel_bind_eq. intros vs. apply rel_ret, yes_rel. Qed.
Lemma faithfulness_rel {St} py sys resp ctx : prog_rel (St := St) is_rnd (calculate_faithfulness py sys resp ctx) (fcalculate_faithfulness py sys resp ctx).
Proof.
  unfold calculate_faithfulness, fcalculate_faithfulness. destruct (len ctx =? 0); [apply rel_ret, is_rnd_0|]. apply rel_bind_eq. intros cs.
  destruct (len cs =? 0); [apply rel_ret, is_rnd_1|]. apply rel_bind_eq. intros vs. apply rel_ret, yes_rel.
Qed.
Lemma hallucination_rel {St} py sys resp ctx : prog_rel (St := St) is_rnd (calculate_hallucination py sys resp ctx) (fcalculate_hallucination py sys resp ctx).
Proof. unfold calculate_hallucination, fcalculate_hallucination. destruct (len ctx =? 0); [apply rel_ret; reflexivity|]. apply rel_bind_eq. intros vs. apply rel_ret, yes_rel. Qed.

(* the greatest of related scores *)
Lemma fold_max_rel (R : Q -> Q -> Prop) : (forall a a' b b', R a a' -> R b b' -> R (Qmax2 a b) (Qmax2 a' b')) ->
  forall l l', Forall2 R l l' -> forall x x', R x x' -> R (fold_left Qmax2 l x) (fold_left Qmax2 l' x').
Proof. intros M. induction 1 as [|y y' l l' H _ IH]; intros x x' Hx; [exact Hx|]. cbn [fold_left]. apply IH, M; assumption. Qed.
Lemma max_rel (R : Q -> Q -> Prop) l l' : (forall a a' b b', R a a' -> R b b' -> R (Qmax2 a b) (Qmax2 a' b')) -> Forall2 R l l' -> out_rel R (max_of l) (max_of l').
Proof. intros M H. inversion H; subst; [reflexivity|]. cbn [max_of out_rel]. apply fold_max_rel; assumption. Qed.
Lemma Forall2_snoc {A B} (R : A -> B -> Prop) l l' x x' : Forall2 R l l' -> R x x' -> Forall2 R (l ++ [x]) (l' ++ [x']).
Proof. intros H Hx. apply Forall2_app; [exact H|constructor; [exact Hx|constructor]]. Qed.

Lemma recall_loop_rel {St} py sys ctx gts : forall l l', Forall2 is_rnd l l' ->
  prog_rel (St := St) (Forall2 is_rnd) (recall_loop py sys ctx gts l) (frecall_loop py sys ctx gts l').
Proof.
  induction gts as [|g r IH]; intros l l' H; cbn [recall_loop frecall_loop]; [apply rel_ret; exact H|].
  apply rel_bind_eq. intros ss. apply rel_bind_eq. intros vs. eapply rel_bind; [apply rel_ret, yes_rel|]. intros q v Hq. apply IH. apply Forall2_snoc; assumption.
Qed.
Lemma recall_rel {St} py sys predicted gts : prog_rel (St := St) is_rnd (calculate_context_recall py sys predicted gts) (fcalculate_context_recall py sys predicted gts).
Proof.
  unfold calculate_context_recall, fcalculate_context_recall.
  destruct ((len predicted =? 0) && (len gts =? 0))%bool; [apply rel_ret, is_rnd_1|]. destruct ((len predicted =? 0) || (len gts =? 0))%bool; [apply rel_ret, is_rnd_0|].
  eapply rel_bind; [apply recall_loop_rel; constructor|]. intros l l' H. apply rel_ret. apply max_rel; [exact max_is_rnd|exact H].
Qed.

(* answer correctness *)
Definition f1_rel (q v : Q) : Prop := (0 <= q <= 1)%Q /\ close_score 5 q v.
Lemma f1_unit tp fp fn : 0 <= tp -> 0 <= fp -> 0 <= fn -> (0 <= f1_of tp fp fn <= 1)%Q.
Proof.
  intros H1 H2 H3. unfold f1_of. destruct (Z.ltb_spec 0 tp) as [T|T]; [|split; lra].
  pose proof (inject_pos tp T). pose proof (inject_nonneg (fp + fn) ltac:(lia)). split; [apply Qle_shift_div_l; lra|apply Qle_shift_div_r; lra].
Qed.
Lemma f1_rel_of tp fp fn : 0 <= tp -> 0 <= fp -> 0 <= fn -> f1_rel (f1_of tp fp fn) (ff1_of tp fp fn).
Proof. intros. split; [apply f1_unit; assumption|apply f1_close; assumption]. Qed.
Lemma f1_rel_max a a' b b' : f1_rel a a' -> f1_rel b b' -> f1_rel (Qmax2 a b) (Qmax2 a' b').
Proof.
  intros [UA CA] [UB CB]. split; [destruct (Qmax2_cases a b) as [[_ ->]|[_ ->]]; assumption|]. apply max_close; try assumption; try lia; tauto.
Qed.
Lemma f1_rel_0 : f1_rel 0 0.
Proof. exact (f1_rel_of 0 0 0 ltac:(lia) ltac:(lia) ltac:(lia)). Qed.
Lemma len_nonneg {A} (l : list A) : 0 <= len l.
Proof. unfold len. lia. Qed.
Lemma correctness_loop_rel {St} py sys query ps gts : forall l l', Forall2 f1_rel l l' ->
  prog_rel (St := St) (Forall2 f1_rel) (correctness_loop py sys query ps gts l) (fcorrectness_loop py sys query ps gts l').
Proof.
  induction gts as [|g r IH]; intros l l' H; cbn [correctness_loop fcorrectness_loop]; [apply rel_ret; exact H|].
  apply rel_bind_eq. intros ss. apply rel_bind_eq. intros [[tp fp] fn]. apply IH. apply Forall2_snoc; [exact H|]. apply f1_rel_of; apply len_nonneg.
Qed.
Lemma correctness_rel {St} py sys query resp gts :
  prog_rel (St := St) f1_rel (calculate_answer_correctness py sys query resp gts) (fcalculate_answer_correctness py sys query resp gts).
Proof.
  apply rel_bind_eq. intros ps. eapply rel_bind; [apply correctness_loop_rel; constructor; [exact f1_rel_0|constructor]|].
  intros l l' H. apply rel_ret. apply max_rel; [exact f1_rel_max|exact H].
Qed.

(* context precision *)
Lemma aggregate_length agg yes r : aggregate agg yes = Ok r -> length r = length agg.
Proof.
  revert yes r. induction agg as [|a agg IH]; intros yes r; destruct yes as [|b yes]; cbn [aggregate]; intros H; try (injection H as <-; reflexivity).
  - destruct b; [discriminate|]. revert r H. induction yes as [|b yes IHy]; cbn [aggregate]; intros r H; [injection H as <-; reflexivity|]. destruct b; [discriminate|]. apply IHy, H.
  - destruct (aggregate agg yes) as [l| |] eqn:E; try discriminate. injection H as <-. cbn [List.length]. rewrite (IH _ _ E). reflexivity.
Qed.
Lemma precision_loop_rel {St} py sys query ctx gts : forall agg,
  prog_rel (St := St) (fun a b => a = b /\ length a = length agg) (precision_loop py sys query ctx gts agg) (precision_loop py sys query ctx gts agg).
Proof.
  induction gts as [|g r IH]; intros agg; cbn [precision_loop]; [apply rel_ret; split; reflexivity|].
  apply rel_bind_eq. intros vs. apply rel_bind_eq. intros ys.
  apply (rel_bind (fun a b => a = b /\ length a = length agg)).
  - apply rel_ret. destruct (aggregate agg ys) as [l| |] eqn:E; cbn; try reflexivity. split; [reflexivity|]. apply (aggregate_length _ _ _ E).
  - intros a b [<- L]. rewrite <- L. apply IH.
Qed.
Lemma precision_rel {St} py (new : bool) sys query predicted gts :
  prog_rel (St := St) (fun q v => len predicted <= 65536 -> near_score (if new then 4 else len predicted + 1) q v)
    (calculate_context_precision py sys query predicted gts) (fcalculate_context_precision py new sys query predicted gts).
Proof.
  unfold calculate_context_precision, fcalculate_context_precision.
  assert (Z : forall q : Q, (q = 0 \/ q = 1)%Q -> forall ops, 0 <= ops -> near_score ops q q).
  { intros q Hq ops Ho. split; [destruct Hq as [-> | ->]; split; lra|]. split; [|tauto]. unfold within. rewrite (Qabs_wd _ 0) by ring. change (Qabs 0) with 0%Q. pose proof (inject_nonneg ops Ho). lra. }
  pose proof (len_nonneg predicted) as L0.
  destruct ((len predicted =? 0) && (len gts =? 0))%bool; [apply rel_ret; intros _; apply Z; [tauto|destruct new; lia]|].
  destruct ((len predicted =? 0) || (len gts =? 0))%bool; [apply rel_ret; intros _; apply Z; [tauto|destruct new; lia]|].
  eapply rel_bind; [apply precision_loop_rel|]. intros agg agg' [<- L]. rewrite map_length in L. apply rel_ret.
  destruct (precision_near new agg) as (q & v & -> & -> & H). cbn [out_rel]. unfold len in *. rewrite <- L. exact H.
Qed.

(* ------------------------------------------------------------------ the evaluator *)
Lemma attempts_rel {St} new r (fn fn' : prog St metric) c model retries n : prog_rel (same_metric new r) fn fn' ->
  forall error s, run_rel (same_option new r) (attempts fn c model retries n error s) (attempts fn' c model retries n error s).
Proof.
  intros H. induction n as [|n IH]; intros error s; cbn [attempts].
  - split; [|split; reflexivity]. destruct error as [i|]; cbn; [|exact I]. split; [reflexivity|split; reflexivity].
  - specialize (H c s). destruct (fn c s) as [[o s1] t1], (fn' c s) as [[o' s1'] t1']. destruct H as (H & H1 & H2). cbn [fst snd] in H, H1, H2. subst s1' t1'.
    destruct o, o'; cbn in H; try contradiction.
    + split; [exact H|split; reflexivity].
    + subst i0. specialize (IH (Some i) s1). destruct (attempts fn c model retries n (Some i) s1) as [[o s2] t2], (attempts fn' c model retries n (Some i) s1) as [[o' s2'] t2'].
      destruct IH as (K & K1 & K2). cbn [fst snd] in *. subst. split; [exact K|split; reflexivity].
    + subst. split; [reflexivity|split; reflexivity].
Qed.
Lemma guided_rel {St} new r (ev : evaluator St) fn fn' : (forall model, prog_rel (same_metric new r) (fn model) (fn' model)) ->
  forall s, run_rel (same_option new r) (guided ev fn s) (guided ev fn' s).
Proof.
  intros H s. unfold guided. destruct (ev_client ev) as [[c [model|]]|].
  - apply attempts_rel, H.
  - split; [reflexivity|split; reflexivity].
  - split; [reflexivity|split; reflexivity].
Qed.
Lemma scored_rel {St} new r (ev : evaluator St) ty p p' model : prog_rel (reported_score new r ty) p p' ->
  prog_rel (same_metric new r) (scored ev ty p model) (scored ev ty p' model).
Proof. intros H. eapply rel_bind; [exact H|]. intros q v Hq. apply rel_ret. split; [reflexivity|]. split; [reflexivity|]. exact Hq. Qed.
Lemma context_rel {St A B} (R : A -> B -> Prop) r (k : context -> prog St A) k' : (forall x, qr_context r = Some x -> prog_rel R (k x) (k' x)) ->
  prog_rel R (needs_context r k) (needs_context r k').
Proof. intros H. unfold needs_context. destruct (qr_context r); [apply H; reflexivity|apply rel_ret; reflexivity]. Qed.
Lemma best_rel {St} (p p' : prog St Q) : prog_rel is_rnd p p' -> prog_rel best_score p p'.
Proof. apply rel_weaken. exact is_rnd_best. Qed.

Theorem methods_rel {St} py new (ev : evaluator St) r :
  Forall2 (fun x y => fst x = fst y /\ forall s, run_rel (same_option new r) (snd x s) (snd y s)) (guided_methods py ev r) (fguided_methods py new ev r).
Proof.
  unfold guided_methods, fguided_methods, compute_answer_correctness, compute_answer_relevance, compute_bias, compute_context_precision, compute_context_recall,
    compute_context_relevance, compute_faithfulness, compute_hallucination, compute_summary_coherence, compute_toxicity. cbv zeta.
  repeat (apply Forall2_cons; [split; [reflexivity|]; cbn [snd]; apply guided_rel; intros model|]); [..|constructor].
  - apply context_rel. intros x _. apply scored_rel. eapply rel_weaken; [|apply correctness_rel]. intros q v [_ H]. exact H.
  - apply scored_rel, best_rel, relevance_rel.
  - apply scored_rel, best_rel, bias_rel.
  - apply context_rel. intros x Hx. apply scored_rel. eapply rel_weaken; [|apply precision_rel]. intros q v H. unfold reported_score, contexts_of. rewrite Hx. exact H.
  - apply context_rel. intros x _. apply scored_rel, best_rel, recall_rel.
  - apply context_rel. intros x _. apply scored_rel, best_rel, context_relevance_rel.
  - apply context_rel. intros x _. apply scored_rel, best_rel, faithfulness_rel.
  - apply context_rel. intros x _. apply scored_rel, best_rel, hallucination_rel.
  - apply scored_rel. eapply rel_weaken; [|apply rel_refl]. intros q v <-. reflexivity.
  - apply scored_rel, best_rel, toxicity_rel.
Qed.

(* ------------------------------------------------------------------ compute_all *)
Lemma mbind_rel {St A B A' B'} (R : A -> A' -> Prop) (T : B -> B' -> Prop) (m : method St A) m' k k' :
  (forall s, run_rel R (m s) (m' s)) -> (forall a a', R a a' -> forall s, run_rel T (k a s) (k' a' s)) -> forall s, run_rel T (mbind m k s) (mbind m' k' s).
Proof.
  intros H K s. unfold mbind. specialize (H s). destruct (m s) as [[o s1] t1], (m' s) as [[o' s1'] t1'].
  destruct H as (H & H1 & H2). cbn [fst snd] in H, H1, H2. subst s1' t1'. destruct o, o'; cbn in H; try contradiction.
  - specialize (K _ _ H s1). destruct (k a s1) as [[o s2] t2], (k' a0 s1) as [[o' s2'] t2']. destruct K as (K & K1 & K2). cbn [fst snd] in *. subst.
    split; [exact K|split; reflexivity].
  - subst. split; [reflexivity|split; reflexivity].
  - subst. split; [reflexivity|split; reflexivity].
Qed.
Lemma mret_rel {St A B} (R : A -> B -> Prop) x y : out_rel R x y -> forall s : St, run_rel R (mret x s) (mret y s).
Proof. intros H s. split; [exact H|split; reflexivity]. Qed.
Lemma run_methods_rel {St} new r (ms ms' : list (mtype * method St (option metric))) :
  Forall2 (fun x y => fst x = fst y /\ forall s, run_rel (same_option new r) (snd x s) (snd y s)) ms ms' ->
  forall s, run_rel (Forall2 (same_entry new r)) (run_methods ms s) (run_methods ms' s).
Proof.
  induction 1 as [|[ty m] [ty' m'] ms ms' [E H] _ IH]; intros s; cbn [run_methods]; [apply mret_rel; constructor|]. cbn [fst snd] in *. subst ty'.
  revert s. apply (mbind_rel (same_option new r)); [exact H|]. intros v v' Hv. apply (mbind_rel (Forall2 (same_entry new r))); [exact IH|].
  intros l l' Hl. apply mret_rel. constructor; [|exact Hl]. split; [reflexivity|]. constructor; [exact Hv|constructor].
Qed.
Lemma same_option_refl new r m : (forall q, m_value m <> VNum q) -> same_option new r (Some m) (Some m).
Proof. intros H. split; [reflexivity|]. split; [reflexivity|]. destruct (m_value m) eqn:E; [exfalso; exact (H q eq_refl)|reflexivity|reflexivity]. Qed.
Lemma all_rel {St} py new n (ev : evaluator St) r w types stem s :
  run_rel (Forall2 (same_entry new r)) (compute_all py n ev r w types stem s) (fcompute_all py new n ev r w types stem s).
Proof.
  unfold compute_all, fcompute_all. revert s. apply (mbind_rel (Forall2 (same_entry new r))); [apply run_methods_rel, methods_rel|].
  intros l l' Hl. apply (mbind_rel (fun x y => x = y /\ compute_rouge n r types stem = Ok x)).
  - apply mret_rel. destruct (compute_rouge n r types stem); cbn; [split; reflexivity|reflexivity|reflexivity].
  - intros rs rs' [<- Hr]. apply (mbind_rel (fun x y => x = y /\ compute_sentence_bleu n r w = Ok x)).
    + apply mret_rel. destruct (compute_sentence_bleu n r w); cbn; [split; reflexivity|reflexivity|reflexivity].
    + intros b b' [<- Hb]. apply mret_rel. cbn [out_rel]. apply Forall2_app; [exact Hl|]. constructor; [|constructor; [|constructor]].
      * split; [reflexivity|]. cbn [snd]. unfold compute_rouge in Hr. destruct (qr_context r); [|discriminate].
        destruct (calculate_rouge_scores n (qr_response r) (groundtruth c) types stem) as [res| |]; try discriminate. injection Hr as <-.
        induction res as [|kv res IH]; [constructor|]. cbn [map List.map]. constructor; [|exact IH]. apply same_option_refl. intros q. discriminate.
      * split; [reflexivity|]. cbn [snd]. constructor; [|constructor]. apply same_option_refl. unfold compute_sentence_bleu in Hb. destruct (qr_context r); [|discriminate].
        destruct (calculate_sentence_bleu n (qr_response r) (groundtruth c) w); try discriminate. injection Hb as <-. intros q. discriminate.
Qed.
